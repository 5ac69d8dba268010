(** Small specification of the ranging rounds. *)
From Verif Require Import Base Uci MacAddress AppConfig Codec Session Device Pica CodecSpec ContextSpec.

(** ** Measurements *)
(** [x] reports the address [m], the estimations [local] (from here) and [remote] (from there). Angles are
    16 bit two's complement. *)
Definition measures (m : mac_address) (local remote : ranging_measurement) (x : measurement) : Prop :=
  exists a, m = MShort a /\ m_mac_address x = le_nat a /\ m_status x = 0x00 /\ m_nlos x = 0
  /\ m_distance x = rm_range local
  /\ Z.of_N (m_aoa_azimuth x) = (rm_azimuth local mod 65536)%Z /\ Z.of_N (m_aoa_elevation x) = (rm_elevation local mod 65536)%Z
  /\ Z.of_N (m_aoa_destination_azimuth x) = (rm_azimuth remote mod 65536)%Z
  /\ Z.of_N (m_aoa_destination_elevation x) = (rm_elevation remote mod 65536)%Z
  /\ m_aoa_azimuth_fom x = 100 /\ m_aoa_elevation_fom x = 100
  /\ m_aoa_destination_azimuth_fom x = 100 /\ m_aoa_destination_elevation_fom x = 100
  /\ m_slot_index x = 0 /\ m_rssi x = 255.

(** Different role and type, and each lists the address of the other. *)
Definition compatible (s ps : session) : Prop :=
  app_config_get (s_cfg s) T_DEVICE_ROLE <> app_config_get (s_cfg ps) T_DEVICE_ROLE
  /\ app_config_get (s_cfg s) T_DEVICE_TYPE <> app_config_get (s_cfg ps) T_DEVICE_TYPE
  /\ exists m mp, device_mac_address (s_cfg s) = Some m /\ device_mac_address (s_cfg ps) = Some mp
     /\ m ∈ dst_mac_address (s_cfg ps) /\ mp ∈ dst_mac_address (s_cfg s).

(** The device [k] is measured in a round of session [id] of [h] ([s]): its address and the two estimations. *)
Definition measured (e : env) (p : pica) (h id : N) (s : session) (k : N) (t : mac_address * ranging_measurement * ranging_measurement) : Prop :=
  k <> h /\ exists ps, session_at p k id = Some ps /\ s_state ps = SsActive /\ compatible s ps
  /\ device_mac_address (s_cfg ps) = Some t.1.1
  /\ env_estimate e h k = Some t.1.2 /\ env_estimate e k h = Some t.2.

(** The anchors measured, in the order of the destination list. *)
Definition anchors_measured (e : env) (p : pica) (h : N) (dst : list mac_address)
    : list (mac_address * ranging_measurement * ranging_measurement) :=
  omap (fun m => a ← p_anchors p !! m; local ← env_estimate e h a; remote ← env_estimate e a h; Some (m, local, remote)) dst.

(** ** Notifications and data *)
Definition notifies (s : session) : Prop := app_config_get (s_cfg s) T_SESSION_INFO_NTF_CONFIG <> Some [0x00 (* DISABLE *)].

(** The session information notifications for session [id] received by the host of [h]: sequence numbers. *)
Definition info_seq (id : N) (m : msg) : list N :=
  match m with SessionInfoNtf seq tok _ _ _ _ => if tok =? id then [seq] else [] | _ => [] end.
Definition info_seqs (h id : N) (outs : list out) : list N := concat (map (info_seq id) (messages h outs)).

(** The session is active, of type RANGING_AND_IN_BAND_DATA, and an initiator (sends) or a responder. *)
Definition data_session (role : N) (s : session) : Prop :=
  s_state s = SsActive /\ s_type s = 0x01 /\ app_config_get (s_cfg s) T_DEVICE_ROLE = Some [role].
(** The device [k] is a compatible peer that could not be measured. *)
Definition not_estimated (e : env) (p : pica) (h id : N) (s : session) (k : N) : Prop :=
  (exists ps, session_at p k id = Some ps /\ s_state ps = SsActive /\ compatible s ps)
  /\ (env_estimate e h k = None \/ env_estimate e k h = None).
(** The device [k] is sent data in a round of session [id] of [h] ([s]). *)
Definition receives (e : env) (p : pica) (h id : N) (s : session) (k : N) : Prop :=
  k <> h /\ data_session 1 s /\ (exists ps, session_at p k id = Some ps /\ data_session 0 ps) /\ ~ not_estimated e p h id s k.
(** Data messages received by the host of [k]: session, status, source, sequence number, data. *)
Definition data_of (m : msg) : list (N * N * N * N * bytes) :=
  match m with DataMessageRcv handle status src seq data => [(handle, status, src, seq, data)] | _ => [] end.
Definition data_received (k : N) (outs : list out) : list (N * N * N * N * bytes) := concat (map data_of (messages k outs)).

(** ** The life of a session *)
(** [initialises h id o outs]: the command [o] initialises session [id] of [h] (anew, if it existed). *)
Definition initialises (h id : N) (o : op) (outs : list out) : Prop :=
  exists packet ty, o = UciPacket h packet /\ wf_cmd (CmdSessionInit id ty) /\ encodes (CmdSessionInit id ty) packet
    /\ (In (SessionInitRsp 0x00) (sent h outs) \/ In (SessionInitRsp 0x12 (* ERROR_SESSION_DUPLICATE *)) (sent h outs)).
(** [since_init h id p outs]: session [id] of [h] exists in [p]; [outs] was produced since it was initialised. *)
Inductive since_init (h id : N) : pica -> list out -> Prop :=
  | SinceInit p e o p' outs : reachable p -> wf_env e -> wf_op o -> step e p o = Ret (p', outs) ->
      initialises h id o outs -> since_init h id p' []
  | SinceStep p outs e o p' outs' : since_init h id p outs -> wf_env e -> wf_op o -> step e p o = Ret (p', outs') ->
      ~ initialises h id o outs' -> session_at p' h id <> None -> since_init h id p' (outs ++ outs').

(** The packet is a data message for session [id]. *)
Definition data_message (id dst seq : N) (data packet : bytes) : Prop :=
  word32 id /\ word64 dst /\ word16 seq /\ N.of_nat (length data) <= 65535 /\ wf_bytes data
  /\ encodes_data_snd id dst seq data packet.
(** [accepts h id o outs data]: the command [o] is a data message for session [id] of [h], and is accepted
    (SESSION_DATA_CREDIT_NTF, 1: credit available). *)
Definition accepts (h id : N) (o : op) (outs : list out) (data : bytes) : Prop :=
  exists packet dst seq, o = UciPacket h packet /\ data_message id dst seq data packet
    /\ sent h outs = [SessionDataCreditNtf id 1].
(** [pending h id p l]: [l] are the data accepted for session [id] of [h], in order, since its last ranging round,
    or since it was initialised. *)
Inductive pending (h id : N) : pica -> list bytes -> Prop :=
  | PendInit p e o p' outs : reachable p -> wf_env e -> wf_op o -> step e p o = Ret (p', outs) ->
      initialises h id o outs -> pending h id p' []
  | PendRound p l e p' outs : pending h id p l -> wf_env e -> step e p (Ranging h id) = Ret (p', outs) ->
      pending h id p' []
  | PendAccept p l e o p' outs data : pending h id p l -> wf_env e -> wf_op o -> step e p o = Ret (p', outs) ->
      accepts h id o outs data -> pending h id p' (l ++ [data])
  | PendOther p l e o p' outs : pending h id p l -> wf_env e -> wf_op o -> step e p o = Ret (p', outs) ->
      ~ initialises h id o outs -> o <> Ranging h id -> (forall data, ~ accepts h id o outs data) ->
      session_at p' h id <> None -> pending h id p' l.
