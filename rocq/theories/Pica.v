(** Model of the context in src/lib.rs: [struct Pica] and the commands processed by
    its event loop, one at a time. *)
From Verif Require Import Base Uci MacAddress AppConfig Codec Session Device.

(** lib.rs:52-56 [struct RangingMeasurement]: u16, i16, i8. *)
Record ranging_measurement : Set := RangingMeasurement {
  rm_range : N; rm_azimuth : Z; rm_elevation : Z }.

(** What the environment of the context decides during one command:
    - [env_estimate]: the answers of the ranging estimator (lib.rs:61-69). The scene
      is assumed not to change during one ranging round, so it is a function.
    - [env_order]: the iteration order of a [HashMap], an arbitrary permutation. *)
Record env : Type := Env {
  env_estimate : N -> N -> option ranging_measurement;
  env_order : list N -> list N;
  env_order_perm : forall l, env_order l ≡ₚ l }.

(** lib.rs:74-83 [struct Pica]. An [Anchor] is its handle: its mac address is the key.
    [p_closed] is the set of handles whose connection task has ended, so that sending
    to their host fails; it is not a field of [Pica] but the state of the receiving ends
    of [Device::tx]. The channels are represented by the arguments and results of [step]. *)
Record pica : Type := Pica {
  p_counter : N;
  p_devices : gmap N device;
  p_anchors : gmap mac_address N;
  p_closed : gset N }.

Definition p_set_devices (v : gmap N device) (p : pica) : pica :=
  Pica (p_counter p) v (p_anchors p) (p_closed p).
Definition p_set_device (h : N) (d : device) (p : pica) : pica :=
  p_set_devices (<[h := d]> (p_devices p)) p.

(** lib.rs:187-200 [Pica::new]. *)
Definition pica_new : pica := Pica 0 ∅ ∅ ∅.

(** lib.rs:93-114 [enum PicaCommand], plus the end of a connection task
    (lib.rs:371-389), which drops the receiving end of the host channel. *)
Inductive op : Set :=
  | Connect
  | Disconnect (h : N)
  | Ranging (h id : N)
  | StopRanging (m : mac_address) (id : N)
  | UciPacket (h : N) (packet : bytes)
  | CreateAnchor (m : mac_address)
  | DestroyAnchor (m : mac_address)
  | HostGone (h : N).

(** lib.rs:85-91 [PicaCommandError] and the [Result] sent back to the caller. *)
Inductive reply : Set :=
  | ReplyOk (h : N)
  | ReplyAlreadyExists (m : mac_address)
  | ReplyNotFound (m : mac_address).

(** Observable outputs of one command. *)
Inductive out : Set :=
  (** Effect of the device [h]: messages go to the host of [h]. *)
  | OEff (h : N) (e : eff)
  (** lib.rs:133-144 [PicaEvent]. *)
  | OConnected (h : N) (m : mac_address)
  | ODisconnected (h : N) (m : mac_address)
  (** Answer to CreateAnchor, DestroyAnchor. *)
  | OReply (r : reply).

(** [i16 as u16], [i8 as u16]. *)
Definition as_u16 (z : Z) : N := Z.to_N (z mod 65536).

(** lib.rs:159-184 [make_measurement]. *)
Definition make_measurement (m : mac_address) (local remote : ranging_measurement)
    : outcome measurement :=
  match m with
  | MShort address =>
      Ret {| m_mac_address := le_nat address;
             m_status := STATUS_OK;
             m_nlos := 0;
             m_distance := rm_range local;
             m_aoa_azimuth := as_u16 (rm_azimuth local);
             m_aoa_azimuth_fom := 100;
             m_aoa_elevation := as_u16 (rm_elevation local);
             m_aoa_elevation_fom := 100;
             m_aoa_destination_azimuth := as_u16 (rm_azimuth remote);
             m_aoa_destination_azimuth_fom := 100;
             m_aoa_destination_elevation := as_u16 (rm_elevation remote);
             m_aoa_destination_elevation_fom := 100;
             m_slot_index := 0;
             m_rssi := 255 |}
  | MExtended _ => Crash RangingExtended
  end.

(** lib.rs:218-230 [get_category]. *)
Inductive category : Set := CategoryUci | CategoryAnchor.
Definition get_category (p : pica) (m : mac_address) : option category :=
  match p_anchors p !! m with
  | Some _ => Some CategoryAnchor
  | None =>
      if existsb (fun kd => bool_decide (d_mac kd.2 = m)) (map_to_list (p_devices p))
      then Some CategoryUci else None
  end.

(** lib.rs:357 [MacAddress::Short((handle as u16).to_be_bytes())]. *)
Definition mac_of_handle (h : N) : mac_address := MShort [(h mod 65536) / 256; h mod 256].

(** lib.rs:346-392 [add_device]; the spawned connection task is in Transport.v and Sys.v.
    The overflow of the [usize] counter is not modelled. *)
Definition add_device (p : pica) : pica * list out :=
  let handle := p_counter p in
  let '(d, e) := device_init (device_new handle (mac_of_handle handle)) in
  (Pica (handle + 1) (<[handle := d]> (p_devices p)) (p_anchors p) (p_closed p),
   map (OEff handle) e ++ [OConnected handle (d_mac d)]).

(** lib.rs:394-404 [disconnect]. *)
Definition disconnect (p : pica) (h : N) : pica * list out :=
  match p_devices p !! h with
  | Some d =>
      (p_set_devices (delete h (p_devices p)) p,
       ODisconnected h (d_mac d) :: map (OEff h) (device_drop d))
  | None => (p, [])
  end.

(** lib.rs:417-433: anchors of the destination list. *)
Fixpoint anchor_measurements (estimate : N -> N -> option ranging_measurement)
    (anchors : gmap mac_address N) (handle : N) (dst : list mac_address)
    : outcome (list measurement) :=
  match dst with
  | [] => Ret []
  | m :: dst =>
      match anchors !! m with
      | None => anchor_measurements estimate anchors handle dst
      | Some other =>
          match estimate handle other, estimate other handle with
          | Some local, Some remote =>
              let! x := make_measurement m local remote in
              let! l := anchor_measurements estimate anchors handle dst in
              Ret (x :: l)
          | _, _ => anchor_measurements estimate anchors handle dst
          end
      end
  end.

(** lib.rs:441-461: the measurement of one peer. [inl false] is the [continue] of a
    failed estimation, [inl true] a device which is not a compatible peer. *)
Definition peer_measurement (estimate : N -> N -> option ranging_measurement)
    (d : device) (s : session) (id : N) (peer : device) : outcome (bool + measurement) :=
  let! compatible := can_start_ranging peer s id in
  if compatible : bool then
    match d_sessions peer !! id with
    | None => Crash RangingMacUnset (* lib.rs:444 unwrap, never reached: can_start_ranging *)
    | Some ps =>
        match device_mac_address (s_cfg ps) with
        | None => Crash RangingMacUnset
        | Some m =>
            match estimate (d_handle d) (d_handle peer), estimate (d_handle peer) (d_handle d) with
            | Some local, Some remote =>
                let! x := make_measurement m local remote in Ret (inr x)
            | _, _ => Ret (inl false)
            end
        end
    end
  else Ret (inl true).

(** lib.rs:435-468: the loop over the other devices, giving the measurements and the
    handles of the devices to which data is sent. *)
Fixpoint peer_loop (estimate : N -> N -> option ranging_measurement) (devices : gmap N device)
    (h : N) (d : device) (s : session) (id : N) (order : list N)
    : outcome (list measurement * list N) :=
  match order with
  | [] => Ret ([], [])
  | k :: order =>
      match devices !! k with
      | None => peer_loop estimate devices h d s id order (* not a key of the map *)
      | Some peer =>
          if d_handle peer =? h then peer_loop estimate devices h d s id order
          else
            let! r := peer_measurement estimate d s id peer in
            let! (ms, ps) := peer_loop estimate devices h d s id order in
            match r with
            | inl false => Ret (ms, ps)
            | _ =>
                Ret (match r with inr x => x :: ms | _ => ms end,
                     if can_start_data_transfer d id && can_receive_data_transfer peer id
                     then k :: ps else ps)
            end
      end
  end.

(** lib.rs:472-488: send the data of the session to the selected peers. *)
Fixpoint send_data (closed : gset N) (s : session) (id : N) (peers : list N)
    : outcome (list out) :=
  match peers with
  | [] => Ret []
  | k :: peers =>
      match device_mac_address (s_cfg s) with
      | None => Crash RangingMacUnset
      | Some m =>
          let x := DataMessageRcv id STATUS_OK (mac_to_u64 m) 1 (s_data s) in
          match wire x with
          | None => Crash RangingDataEncode
          | Some _ =>
              if bool_decide (k ∈ closed) then Crash RangingHostGone
              else let! l := send_data closed s id peers in Ret (OEff k (Send x) :: l)
          end
      end
  end.

(** lib.rs:489-511: the ranging notification and the sequence number (u32, checked). *)
Definition send_info_ntf (closed : gset N) (h id : N) (s : session) (ms : list measurement)
    : outcome (session * list out) :=
  if is_session_info_ntf_enabled s then
    let x := SessionInfoNtf (s_seq s) id 0 0 ms [] in
    match wire x with
    | None => Crash RangingEncode
    | Some _ =>
        if bool_decide (h ∈ closed) then Crash RangingHostGone
        else if s_seq s =? 4294967295 then Crash RangingSeqOverflow
        else Ret (s_set_seq (s_seq s + 1) s, [OEff h (Send x)])
    end
  else Ret (s, []).

(** lib.rs:406-518 [ranging]. *)
Definition ranging (e : env) (p : pica) (h id : N) : outcome (pica * list out) :=
  match p_devices p !! h with
  | None => Crash RangingNoDevice
  | Some d =>
      match d_sessions d !! id with
      | None => Crash RangingNoSession
      | Some s =>
          let! ms1 := anchor_measurements (env_estimate e) (p_anchors p) (d_handle d)
                        (dst_mac_address (s_cfg s)) in
          let! (ms2, peers) := peer_loop (env_estimate e) (p_devices p) h d s id
                                 (env_order e (map_to_list (p_devices p)).*1) in
          let! o1 := send_data (p_closed p) s id peers in
          let! (s', o2) := send_info_ntf (p_closed p) h id s (ms1 ++ ms2) in
          let s' := clear_data s' in
          Ret (p_set_device h (d_set_sessions (<[id := s']> (d_sessions d)) d) p, o1 ++ o2)
      end
  end.

(** lib.rs:520-525 [uci_packet]. *)
Definition uci_packet (p : pica) (h : N) (packet : bytes) : outcome (pica * list out) :=
  match p_devices p !! h with
  | Some d =>
      let! (d, e) := receive_packet d packet in
      Ret (p_set_device h d p, map (OEff h) e)
  | None => Ret (p, [])
  end.

(** lib.rs:564-585: the body of the loop of [stop_controlee_ranging]. *)
Definition stop_controlee (m : mac_address) (id : N) (d : device) : device * list eff :=
  match d_sessions d !! id with
  | None => (d, [])
  | Some s =>
      if negb (bool_decide (device_mac_address (s_cfg s) = Some m)) then (d, [])
      else if bool_decide (s_state s = SsActive) then
        let '(s, e1) := stop_ranging_task s in
        let '(s, e2) := session_set_state SsIdle REASON_SESSION_STOPPED_DUE_TO_INBAND_SIGNAL s in
        let d := d_set_sessions (<[id := s]> (d_sessions d)) d in
        let d := d_set_active (d_active d - 1) d in (* saturating_sub, as [N.sub] *)
        let '(d, e3) := if d_active d =? 0 then device_set_state DsReady d else (d, []) in
        (d, e1 ++ e2 ++ e3)
      else (d, [])
  end.

(** lib.rs:562-586 [stop_controlee_ranging]. The devices are visited in an arbitrary order. *)
Definition stop_controlee_ranging (e : env) (p : pica) (m : mac_address) (id : N)
    : pica * list out :=
  (p_set_devices ((fun d => (stop_controlee m id d).1) <$> p_devices p) p,
   concat (map (fun h => match p_devices p !! h with
                         | Some d => map (OEff h) (stop_controlee m id d).2
                         | None => []
                         end)
               (env_order e (map_to_list (p_devices p)).*1))).

(** lib.rs:588-620 [create_anchor]. *)
Definition create_anchor (p : pica) (m : mac_address) : outcome (pica * list out) :=
  match get_category p m with
  | Some _ => Ret (p, [OReply (ReplyAlreadyExists m)])
  | None =>
      let handle := p_counter p in
      match p_anchors p !! m with
      | Some _ => Crash AssertAnchorFree
      | None =>
          Ret (Pica (handle + 1) (p_devices p) (<[m := handle]> (p_anchors p)) (p_closed p),
               [OReply (ReplyOk handle)])
      end
  end.

(** lib.rs:622-638 [destroy_anchor]. *)
Definition destroy_anchor (p : pica) (m : mac_address) : pica * list out :=
  match p_anchors p !! m with
  | None => (p, [OReply (ReplyNotFound m)])
  | Some handle =>
      (Pica (p_counter p) (p_devices p) (delete m (p_anchors p)) (p_closed p),
       [OReply (ReplyOk handle)])
  end.

(** lib.rs:527-546 [pica_command]. [HostGone] is the end of a connection task. *)
Definition step (e : env) (p : pica) (o : op) : outcome (pica * list out) :=
  match o with
  | Connect => Ret (add_device p)
  | Disconnect h => Ret (disconnect p h)
  | Ranging h id => ranging e p h id
  | StopRanging m id => Ret (stop_controlee_ranging e p m id)
  | UciPacket h packet => uci_packet p h packet
  | CreateAnchor m => create_anchor p m
  | DestroyAnchor m => Ret (destroy_anchor p m)
  | HostGone h =>
      Ret (Pica (p_counter p) (p_devices p) (p_anchors p) ({[h]} ∪ p_closed p), [])
  end.

(** lib.rs:549-558, 644-656 [run]: the event loop on a list of commands. *)
Fixpoint run (p : pica) (l : list (env * op)) : outcome (pica * list out) :=
  match l with
  | [] => Ret (p, [])
  | (e, o) :: l =>
      let! (p, o1) := step e p o in
      let! (p, o2) := run p l in
      Ret (p, o1 ++ o2)
  end.
