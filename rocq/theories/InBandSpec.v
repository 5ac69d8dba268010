(** Specification: counting the in-band stop commands. *)
From Verif Require Import Base Uci MacAddress AppConfig Session Device Pica Sys SysSpec DialogueSpec.

Definition total (l : list N) : N := fold_right N.add 0 l.
(** The commands asked for by an effect. *)
Definition stops_in (m : mac_address) (id : N) (o : out) : N :=
  match o with OEff _ (SpawnStop a i n) => if bool_decide (a = m) && (i =? id) then n else 0 | _ => 0 end.
(** The commands that a task has yet to send. *)
Definition stops_left (m : mac_address) (id : N) (k : stopper) : N :=
  if bool_decide (k_mac k = m) && (k_session k =? id) then k_left k else 0.
Definition stop_of (m : mac_address) (id : N) (o : op) : N :=
  match o with StopRanging a i => if bool_decide (a = m) && (i =? id) then 1 else 0 | _ => 0 end.

(** Asked for, in all, by the handlers of the commands processed. *)
Definition stops_asked (m : mac_address) (id : N) (ls : list label) : N :=
  total (map (stops_in m id) (concat (outputs pica_new (processed ls sys_new)))).
(** Processed. *)
Definition stops_processed (m : mac_address) (id : N) (ls : list label) : N :=
  total (map (fun x => stop_of m id x.2) (processed ls sys_new)).
(** To come: those in the queue, those that the tasks have yet to send, and those of the tasks yet to be spawned. *)
Definition stops_to_come (m : mac_address) (id : N) (y : sys) : N :=
  total (map (stop_of m id) (y_queue y)) + total (map (stops_left m id) (y_stoppers y)) + total (map (stops_in m id) (y_todo y)).
