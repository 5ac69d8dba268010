(** Histories with the outputs of each command, handles and events. *)
From Verif Require Import Base Uci MacAddress AppConfig Codec Session Device Pica CodecSpec ContextSpec.

(** [executes p tr]: the context, from its creation, has processed the commands of [tr] in order, each
    with the outputs given, and is now in state [p]. *)
Inductive executes : pica -> list (op * list out) -> Prop :=
  | ExNew : executes pica_new []
  | ExStep p tr e o p' outs : executes p tr -> wf_env e -> wf_op o -> step e p o = Ret (p', outs) ->
      executes p' (tr ++ [(o, outs)]).

(** The handles given by a command: to the connected device, or to the created anchor. *)
Definition handles_of (x : op * list out) : list N :=
  concat (map (fun o => match o with
    | OConnected h _ => [h]
    | OReply (ReplyOk h) => match x.1 with CreateAnchor _ => [h] | _ => [] end
    | _ => [] end) x.2).
Definition handles (tr : list (op * list out)) : list N := concat (map handles_of tr).

(** The events about the device [h]: true for Connected, false for Disconnected. *)
Definition events_of (h : N) (x : op * list out) : list (bool * mac_address) :=
  concat (map (fun o => match o with
    | OConnected h' m => if h' =? h then [(true, m)] else []
    | ODisconnected h' m => if h' =? h then [(false, m)] else []
    | _ => [] end) x.2).
Definition events (h : N) (tr : list (op * list out)) : list (bool * mac_address) := concat (map (events_of h) tr).

(** The address is in use, by an anchor or a connected device. *)
Definition in_use (p : pica) (m : mac_address) : Prop :=
  (exists a, p_anchors p !! m = Some a) \/ (exists h d, p_devices p !! h = Some d /\ d_mac d = m).
