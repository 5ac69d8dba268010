(** Vocabulary of C98: what concerns one host in a history, and what this host is told. *)
From Verif Require Import Base Uci MacAddress AppConfig Codec Session Device Pica CodecSpec ContextSpec HistorySpec.

(** The part of one command which concerns the host of [h]: its connection, its packets, the ranging
    rounds of its own sessions, its disconnection, and the in-band stops of which it is notified. *)
Definition view_of (h : N) (x : op * list out) : list op :=
  match x.1 with
  | Connect => if existsb (fun o => match o with OConnected h' _ => h' =? h | _ => false end) x.2 then [x.1] else []
  | Disconnect h' | Ranging h' _ | UciPacket h' _ => if h' =? h then [x.1] else []
  | StopRanging _ _ => match messages h x.2 with [] => [] | _ => [x.1] end
  | _ => []
  end.
Definition view (h : N) (tr : list (op * list out)) : list op := concat (map (view_of h) tr).

(** A message without the measurements, which depend on where the other devices and the anchors are. *)
Definition blank (m : msg) : msg :=
  match m with SessionInfoNtf seq tok status kind _ rest => SessionInfoNtf seq tok status kind [] rest | _ => m end.
(** What the host of [h] is told by each of the commands which concern it: at once, and later. *)
Definition told_of (h : N) (x : op * list out) : list (list msg * list msg) :=
  match view_of h x with [] => [] | _ => [(map blank (sent h x.2), scheduled h x.2)] end.
Definition told (h : N) (tr : list (op * list out)) : list (list msg * list msg) := concat (map (told_of h) tr).
(** The delayed messages are sent by independent tasks: their order is not significant. *)
Definition same_told (a b : list msg * list msg) : Prop := a.1 = b.1 /\ a.2 ≡ₚ b.2.
Definition is_data (m : msg) : Prop := exists tok status src seq data, m = DataMessageRcv tok status src seq data.
