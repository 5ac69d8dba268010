(** Vocabulary of the properties of the responses to GET /events. *)
From Verif Require Import Base Uci MacAddress Pica Http HttpSpec Stream.

Section Spec.
Context {P : Type} (default_position : P) (compute : P -> P -> N * Z * Z).

Definition wf_server_label (l : server_label P) : Prop := match l with VWeb l => wf_web_label l | _ => True end.
(** [ran ls v]: the server, from its start, has performed the actions [ls] and is in the state [v]. *)
Definition ran (ls : list (server_label P)) (v : server P) : Prop :=
  Forall wf_server_label ls /\ server_run default_position compute ls server_new = Some v.
(** A condition on the states of an execution, from [v] on, its last state included. *)
Fixpoint always (Q : server P -> Prop) (ls : list (server_label P)) (v : server P) : Prop :=
  Q v /\ match ls with
         | [] => True
         | l :: ls => match server_step default_position compute l v with Some v => always Q ls v | None => True end
         end.
(** A condition on the actions of the server, in the state in which each is performed. *)
Fixpoint all_along (Q : web P -> web_label P -> Prop) (ls : list (server_label P)) (v : server P) : Prop :=
  match ls with
  | [] => True
  | l :: ls => match l with VWeb l => Q (v_web v) l | _ => True end
      /\ match server_step default_position compute l v with Some v => all_along Q ls v | None => True end
  end.
(** Response [k] goes on. *)
Definition goes_on (k : N) (v : server P) : Prop := exists m, v_streams v !! k = Some m /\ m_open m = true.
(** At most 1024 of the events after the first [before] have not been sent to response [k]. *)
Definition keeps_up (before : nat) (k : N) (v : server P) : Prop :=
  forall m, v_streams v !! k = Some m -> N.of_nat (length (w_events (v_web v))) <= N.of_nat (before + length (m_sent m)) + 1024.
(** The number of responses which go on. *)
Definition listeners (v : server P) : nat := length (List.filter (fun x => m_open (x.2 : stream P)) (map_to_list (v_streams v))).
End Spec.
