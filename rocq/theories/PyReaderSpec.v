(** Specification of the queues of the Python library. *)
From Verif Require Import Base Uci Codec CodecSpec TransportSpec.

(** The data packets of a list, and the others. *)
Definition data_packets (l : list bytes) : list bytes := List.filter is_data l.
Definition control_packets (l : list bytes) : list bytes := List.filter (fun p => negb (is_data p)) l.
(** The data messages of a list, and the others. *)
Definition data_message_received (m : msg) : bool := match m with DataMessageRcv _ _ _ _ _ => true | _ => false end.
Definition data_messages (l : list msg) : list msg := List.filter data_message_received l.
Definition control_messages (l : list msg) : list msg := List.filter (fun m => negb (data_message_received m)) l.
(** The packet [p] carries the message [m]: its type, group, opcode and payload. *)
Definition carries (m : msg) (p : bytes) : Prop := exists b, wire m = Some b /\ received_as b p.
(** The queue holds the messages, in order. *)
Definition queued_as (ms : list msg) (q : list bytes) : Prop := Forall2 carries ms q.
