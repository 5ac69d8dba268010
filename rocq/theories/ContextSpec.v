(** Vocabulary of the properties of the context: histories, reachable states, what a host
    observes. *)
From Verif Require Import Base Uci MacAddress AppConfig Codec Session Device Pica CodecSpec.

(** The arguments have the ranges of their Rust types: bytes are below 256, addresses have
    2 or 8 bytes, a range is a u16. *)
Definition wf_env (e : env) : Prop :=
  forall a b r, env_estimate e a b = Some r -> rm_range r < 65536.
Definition wf_op (o : op) : Prop :=
  match o with
  | UciPacket _ packet => wf_bytes packet
  | StopRanging m _ | CreateAnchor m | DestroyAnchor m => wf_mac m
  | _ => True
  end.

(** A history: the commands processed by the context since it was created, in order. *)
Definition wf_history (l : list (env * op)) : Prop := Forall (fun x => wf_env x.1 /\ wf_op x.2) l.
(** [reaches l p outs]: processing the history [l] leads, without panic, to the state [p],
    having produced [outs]. *)
Definition reaches (l : list (env * op)) (p : pica) (outs : list out) : Prop :=
  wf_history l /\ run pica_new l = Ret (p, outs).
Definition reachable (p : pica) : Prop := exists l outs, reaches l p outs.

(** ** What is observed of the state *)
Definition session_at (p : pica) (h id : N) : option session :=
  d ← p_devices p !! h; d_sessions d !! id.
(** The state of a session; a session which does not exist is in state DEINIT. *)
Definition state_at (p : pica) (h id : N) : session_state :=
  match session_at p h id with Some s => s_state s | None => SsDeinit end.
Definition device_state_at (p : pica) (h : N) : option device_state :=
  d_state <$> p_devices p !! h.

(** ** What the host of device [h] receives *)
(** Immediately. *)
Definition sent_to (h : N) (o : out) : list msg :=
  match o with OEff h' (Send m) => if h' =? h then [m] else [] | _ => [] end.
Definition sent (h : N) (outs : list out) : list msg := concat (map (sent_to h) outs).
(** After a delay. *)
Definition scheduled_to (h : N) (o : out) : list msg :=
  match o with OEff h' (After _ m) => if h' =? h then [m] else [] | _ => [] end.
Definition scheduled (h : N) (outs : list out) : list msg := concat (map (scheduled_to h) outs).
(** At any time. *)
Definition messages_to (h : N) (o : out) : list msg := sent_to h o ++ scheduled_to h o.
Definition messages (h : N) (outs : list out) : list msg := concat (map (messages_to h) outs).

(** The state changes of session [id] notified to the host of [h]: new state and reason. *)
Definition status_of (id : N) (m : msg) : list (session_state * N) :=
  match m with SessionStatusNtf tok s r => if tok =? id then [(s, r)] else [] | _ => [] end.
Definition status_ntfs (h id : N) (outs : list out) : list (session_state * N) :=
  concat (map (status_of id) (messages h outs)).
(** The device states notified to the host of [h]. The answer to a command received before
    the first reset is sent immediately and is not the notification of a change. *)
Definition device_status_of (m : msg) : list device_state :=
  match m with CoreDeviceStatusNtf s => [s] | _ => [] end.
Definition device_ntfs (h : N) (outs : list out) : list device_state :=
  concat (map device_status_of (scheduled h outs)).

(** ** Ranging timers: how many were started and cancelled for a session *)
Definition starts_timer (h id : N) (o : out) : nat :=
  match o with OEff h' (SpawnRanging id' _) => if (h' =? h) && (id' =? id) then 1 else 0 | _ => 0 end.
Definition stops_timer (h id : N) (o : out) : nat :=
  match o with OEff h' (AbortRanging id') => if (h' =? h) && (id' =? id) then 1 else 0 | _ => 0 end.
Definition timers_started (h id : N) (outs : list out) : nat := list_sum (map (starts_timer h id) outs).
Definition timers_stopped (h id : N) (outs : list out) : nat := list_sum (map (stops_timer h id) outs).

(** ** The transitions of the session state machine, with the reason notified *)
Inductive transition : session_state -> session_state -> N -> Prop :=
  | TrInit : transition SsDeinit SsInit 0x00
  | TrConfigured : transition SsInit SsIdle 0x00
  | TrStart : transition SsIdle SsActive 0x00
  | TrStop : transition SsActive SsIdle 0x00
  | TrInBandStop : transition SsActive SsIdle 0x05
  | TrNoControlee : transition SsActive SsIdle 0x33
  | TrDeinit s : transition s SsDeinit 0x00.

(** ** Commands processed by a device *)
(** The device [h] is connected, and has received a reset command since. *)
Definition connected (p : pica) (h : N) : Prop := exists d, p_devices p !! h = Some d.
Definition has_been_reset (l : list (env * op)) (h : N) : Prop :=
  exists l1 e packet l2 p1 outs1, l = l1 ++ (e, UciPacket h packet) :: l2
    /\ encodes (CmdDeviceReset 0) packet /\ run pica_new l1 = Ret (p1, outs1) /\ connected p1 h.
(** The same, in terms of the state (C16 shows that it is the same). *)
Definition serving (p : pica) (h : N) : Prop :=
  exists d, p_devices p !! h = Some d /\ d_is_reset d = true.
(** [commanded p h c p' outs]: in the reachable state [p], the device [h], which has been
    reset, processes a packet carrying the command [c], giving [p'] and [outs]. *)
Definition commanded (p : pica) (h : N) (c : command) (p' : pica) (outs : list out) : Prop :=
  reachable p /\ serving p h /\ wf_cmd c
  /\ exists e packet, wf_bytes packet /\ encodes c packet /\ step e p (UciPacket h packet) = Ret (p', outs).

(** Everything in the state but the session [id] of [h] is the same. *)
Definition same_but_session (h id : N) (p p' : pica) : Prop :=
  (forall h' id', (h', id') <> (h, id) -> session_at p' h' id' = session_at p h' id')
  /\ (forall h', h' <> h -> p_devices p' !! h' = p_devices p !! h')
  /\ p_anchors p' = p_anchors p /\ p_counter p' = p_counter p /\ p_closed p' = p_closed p
  /\ (d_low_power <$> p_devices p' !! h) = (d_low_power <$> p_devices p !! h)
  /\ (d_country <$> p_devices p' !! h) = (d_country <$> p_devices p !! h)
  /\ (d_mac <$> p_devices p' !! h) = (d_mac <$> p_devices p !! h).

(** ** Answers *)
(** Message type, group and opcode of a packet. *)
Definition header_of (b : bytes) : option (N * N * N) :=
  match b with h :: o :: _ => Some (h / 32, h mod 16, o mod 64) | _ => None end.
(** [m] is a response (message type 2) with the group and opcode of [packet]. *)
Definition answers (packet : bytes) (m : msg) : Prop :=
  exists b mt gid oid, wire m = Some b /\ header_of b = Some (2, gid, oid) /\ header_of packet = Some (mt, gid, oid).
