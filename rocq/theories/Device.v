(** Model of src/device.rs. *)
From Verif Require Import Base Uci MacAddress AppConfig Codec Session.

(** device.rs:30-31, 39 *)
Definition MAX_DEVICE : nat := 4.
Definition MAX_SESSION : nat := 255.
Definition MAX_NUMBER_OF_CONTROLEES : nat := 8.

(** device.rs:33-36 *)
Definition UCI_VERSION : N := 0x0002.
Definition MAC_VERSION : N := 0x3001.
Definition PHY_VERSION : N := 0x3001.
Definition TEST_VERSION : N := 0x1001.

(** device.rs:45-78 DEFAULT_CAPS_INFO; the identifiers are the values of
    CapTlvType (uci_packets.pdl:453-503). *)
Definition DEFAULT_CAPS_INFO : list (N * bytes) := [
  (0x00, [1; 1; 1; 3]); (0x01, [1; 1; 1; 3]); (0x02, [0x3]); (0x03, [0x1f]);
  (0x04, [0x1f]); (0x05, [0xff]); (0x06, [0x01]); (0x07, [0x01]); (0x08, [0x00]);
  (0x09, [0x1]); (0x0A, [0x01]); (0x0B, [0xff]); (0x0C, [0xff]); (0x0D, [0xff]);
  (0x0E, [0xff]); (0x0F, [0xff]); (0x10, [0xff]); (0xE3, [0x1]); (0x11, [0x1]);
  (0xA4, [1; 0]); (0xA5, [0]); (0xA6, [0]); (0xA7, [0; 0; 0; 0]); (0xA0, [0xff]);
  (0xA1, [0xff; 0xff; 0xff; 0xff]); (0xA3, [0xff]); (0xA2, [0xff]) ].

(** device.rs:81-120 [struct DeviceConfig], [struct Device].
    [tx] and [pica_tx] are channel ends, represented by the effects.
    [config.device_state] is never written after construction but is kept. *)
Record device : Type := Device {
  d_is_reset : bool;
  d_handle : N;
  d_mac : mac_address;
  d_cfg_state : device_state;   (* config.device_state *)
  d_low_power : bool;           (* config.low_power_mode *)
  d_state : device_state;
  d_sessions : gmap N session;
  d_country : bytes;            (* country_code *)
  d_active : N }.               (* n_active_sessions *)

Definition d_set_reset (v : bool) (d : device) : device :=
  Device v (d_handle d) (d_mac d) (d_cfg_state d) (d_low_power d) (d_state d) (d_sessions d) (d_country d) (d_active d).
Definition d_set_low_power (v : bool) (d : device) : device :=
  Device (d_is_reset d) (d_handle d) (d_mac d) (d_cfg_state d) v (d_state d) (d_sessions d) (d_country d) (d_active d).
Definition d_set_state (v : device_state) (d : device) : device :=
  Device (d_is_reset d) (d_handle d) (d_mac d) (d_cfg_state d) (d_low_power d) v (d_sessions d) (d_country d) (d_active d).
Definition d_set_sessions (v : gmap N session) (d : device) : device :=
  Device (d_is_reset d) (d_handle d) (d_mac d) (d_cfg_state d) (d_low_power d) (d_state d) v (d_country d) (d_active d).
Definition d_set_country (v : bytes) (d : device) : device :=
  Device (d_is_reset d) (d_handle d) (d_mac d) (d_cfg_state d) (d_low_power d) (d_state d) (d_sessions d) v (d_active d).
Definition d_set_active (v : N) (d : device) : device :=
  Device (d_is_reset d) (d_handle d) (d_mac d) (d_cfg_state d) (d_low_power d) (d_state d) (d_sessions d) (d_country d) v.

(** device.rs:123-138 [Device::new] and 91-98 [Default for DeviceConfig]. *)
Definition device_new (handle : N) (mac : mac_address) : device := {|
  d_is_reset := false;
  d_handle := handle;
  d_mac := mac;
  d_cfg_state := DsError;
  d_low_power := true;
  d_state := DsError;
  d_sessions := ∅;
  d_country := [0; 0];
  d_active := 0 |}.

(** device.rs:140-158 [Device::set_state]. *)
Definition device_set_state (st : device_state) (d : device) : device * list eff :=
  if bool_decide (st = d_state d) then (d, [])
  else (d_set_state st d, [After 5 (CoreDeviceStatusNtf st)]).

(** device.rs:160-162 [Device::init]. *)
Definition device_init (d : device) : device * list eff := device_set_state DsReady d.

(** Dropping a [Device] drops its sessions. The order in which a [HashMap] drops
    its values is unspecified; the effects of one drop are an abort and a detached
    delayed notification, whose relative order with those of other sessions is not
    preserved by the scheduler either (Sys.v), so the order of [map_to_list] is used. *)
Definition device_drop (d : device) : list eff :=
  concat (map (fun p => session_drop p.2) (map_to_list (d_sessions d))).

(** device.rs:172-182 [can_start_ranging]. *)
Definition can_start_ranging (d : device) (peer_session : session) (id : N) : outcome bool :=
  match d_sessions d !! id with
  | Some s =>
      if bool_decide (s_state s = SsActive)
      then is_compatible_for_ranging (s_cfg s) (s_cfg peer_session)
      else Ret false
  | None => Ret false
  end.

(** device.rs:184-193 [can_start_data_transfer]. *)
Definition can_start_data_transfer (d : device) (id : N) : bool :=
  match d_sessions d !! id with
  | Some s =>
      bool_decide (s_state s = SsActive)
      && (s_type s =? FIRA_RANGING_AND_IN_BAND_DATA_SESSION)
      && cfg_can_start_data_transfer (s_cfg s)
  | None => false
  end.

(** device.rs:195-204 [can_receive_data_transfer]. *)
Definition can_receive_data_transfer (d : device) (id : N) : bool :=
  match d_sessions d !! id with
  | Some s =>
      bool_decide (s_state s = SsActive)
      && (s_type s =? FIRA_RANGING_AND_IN_BAND_DATA_SESSION)
      && cfg_can_receive_data_transfer (s_cfg s)
  | None => false
  end.

(** device.rs:218-235 [core_device_reset]. The old value of [*self] is dropped. *)
Definition core_device_reset (d : device) : device * list eff * msg :=
  let e1 := device_drop d in
  let d' := d_set_reset true (device_new (d_handle d) (d_mac d)) in
  let '(d', e2) := device_init d' in
  (d', e1 ++ e2, CoreDeviceResetRsp STATUS_OK).

(** device.rs:237-249 [core_get_device_info]. *)
Definition core_get_device_info (d : device) : outcome msg :=
  if bool_decide (d_state d = DsReady)
  then Ret (CoreGetDeviceInfoRsp STATUS_OK UCI_VERSION MAC_VERSION PHY_VERSION TEST_VERSION [])
  else Crash AssertInfoReady.

(** device.rs:251-266 [core_get_caps_info]. *)
Definition core_get_caps_info : msg := CoreGetCapsInfoRsp STATUS_OK DEFAULT_CAPS_INFO.

(** device.rs:280-299: the loop of [core_set_config]. *)
Fixpoint set_config_loop (l : list (N * bytes)) (low_power : bool) (invalid : list (N * N))
    : bool * list (N * N) :=
  match l with
  | [] => (low_power, invalid)
  | (id, v) :: l =>
      if id =? CONFIG_DEVICE_STATE then
        set_config_loop l low_power (invalid ++ [(id, STATUS_READ_ONLY)])
      else if id =? CONFIG_LOW_POWER_MODE then
        (* value.first().copied().unwrap_or(1) != 0 *)
        let b := match v with [] => 1 | b :: _ => b end in
        set_config_loop l (negb (b =? 0)) invalid
      else
        set_config_loop l low_power (invalid ++ [(id, STATUS_INVALID_PARAM)])
  end.

(** device.rs:268-308 [core_set_config]. *)
Definition core_set_config (d : device) (parameters : list (N * bytes)) : outcome (device * msg) :=
  if negb (bool_decide (d_state d = DsReady)) then Crash AssertSetConfigReady
  else
    let '(low_power, invalid) := set_config_loop parameters (d_low_power d) [] in
    Ret (d_set_low_power low_power d,
         CoreSetConfigRsp (match invalid with [] => STATUS_OK | _ => STATUS_INVALID_PARAM end) invalid).

(** device.rs:321-336: the loop of [core_get_config]. *)
Fixpoint get_config_loop (d : device) (ids : list N) (valid invalid : list (N * bytes))
    : list (N * bytes) * list (N * bytes) :=
  match ids with
  | [] => (valid, invalid)
  | id :: ids =>
      if id =? CONFIG_DEVICE_STATE then
        get_config_loop d ids (valid ++ [(id, [ds_code (d_cfg_state d)])]) invalid
      else if id =? CONFIG_LOW_POWER_MODE then
        get_config_loop d ids (valid ++ [(id, [if d_low_power d then 1 else 0])]) invalid
      else get_config_loop d ids valid (invalid ++ [(id, [])])
  end.

(** device.rs:310-349 [core_get_config]. *)
Definition core_get_config (d : device) (ids : list N) : msg :=
  let '(valid, invalid) := get_config_loop d ids [] [] in
  match invalid with
  | [] => CoreGetConfigRsp STATUS_OK valid
  | _ => CoreGetConfigRsp STATUS_INVALID_PARAM invalid
  end.

(** device.rs:351-376 [session_init]. [HashMap::insert] replaces an existing
    session, which is dropped. *)
Definition session_init (d : device) (id ty : N) : device * list eff * msg :=
  if Nat.leb MAX_SESSION (size (d_sessions d)) then
    (d, [], SessionInitRsp STATUS_ERROR_MAX_SESSIONS_EXCEEDED)
  else
    let s := session_new id ty in
    match d_sessions d !! id with
    | Some old =>
        (d_set_sessions (<[id := s]> (d_sessions d)) d, session_drop old,
         SessionInitRsp STATUS_ERROR_SESSION_DUPLICATE)
    | None =>
        let '(s, e) := session_init_state s in
        (d_set_sessions (<[id := s]> (d_sessions d)) d, e, SessionInitRsp STATUS_OK)
    end.

(** [n_active_sessions -= 1; if n_active_sessions == 0 { set_state(Ready) }]
    (device.rs:386-389 and 868-871); the subtraction of a [usize] is checked. *)
Definition device_dec_active (d : device) : outcome (device * list eff) :=
  if d_active d =? 0 then Crash ActiveUnderflow
  else
    let d := d_set_active (d_active d - 1) d in
    if d_active d =? 0 then Ret (device_set_state DsReady d) else Ret (d, []).

(** device.rs:378-397 [session_deinit]. *)
Definition session_deinit (d : device) (id : N) : outcome (device * list eff * msg) :=
  match d_sessions d !! id with
  | Some s =>
      let! (d, e1) :=
        (if bool_decide (s_state s = SsActive) then device_dec_active d else Ret (d, [])) in
      Ret (d_set_sessions (delete id (d_sessions d)) d, e1 ++ session_drop s,
           SessionDeinitRsp STATUS_OK)
  | None => Ret (d, [], SessionDeinitRsp STATUS_ERROR_SESSION_NOT_EXIST)
  end.

(** device.rs:399-406 [session_get_count]: [len() as u8]. *)
Definition session_get_count (d : device) : msg :=
  SessionGetCountRsp STATUS_OK (N.of_nat (size (d_sessions d)) mod 256).

(** device.rs:448-458: the loop of [session_set_app_config] over the parameters. *)
Fixpoint set_tlvs (c : app_config) (tlvs : list (tlv_id * bytes)) (invalid : list (tlv_id * N))
    : outcome (app_config * list (tlv_id * N)) :=
  match tlvs with
  | [] => Ret (c, invalid)
  | (id, v) :: tlvs =>
      let! (c, ok) := app_config_set c id v in
      set_tlvs c tlvs (if ok : bool then invalid else invalid ++ [(id, STATUS_INVALID_PARAM)])
  end.

Definition opt_is_some {A} (o : option A) : bool := match o with Some _ => true | None => false end.

(** device.rs:472-476: mandatory parameters. *)
Definition missing_mandatory (c : app_config) : bool :=
  negb (opt_is_some (device_role c)) || negb (opt_is_some (multi_node_mode c))
  || negb (opt_is_some (ranging_round_usage c)) || negb (opt_is_some (device_mac_address c))
  || negb (opt_is_some (schedule_mode c)).

(** device.rs:408-507 [session_set_app_config]. *)
Definition session_set_app_config (d : device) (id : N) (tlvs : list (tlv_id * bytes))
    : outcome (device * list eff * msg) :=
  match d_sessions d !! id with
  | None => Ret (d, [], SessionSetAppConfigRsp STATUS_ERROR_SESSION_NOT_EXIST [])
  | Some s =>
      if negb ((s_type s =? FIRA_RANGING_SESSION) || (s_type s =? FIRA_RANGING_AND_IN_BAND_DATA_SESSION))
      then Crash AssertSessionType
      else if bool_decide (s_state s = SsActive)
              && existsb (fun p => bool_decide (p.1 = T_AOA_RESULT_REQ)) tlvs
      then Ret (d, [], SessionSetAppConfigRsp STATUS_ERROR_SESSION_ACTIVE [])
      else if negb (bool_decide (s_state s = SsInit)) && negb (bool_decide (s_state s = SsActive))
      then Ret (d, [], SessionSetAppConfigRsp STATUS_REJECTED [])
      else
        let! (c, invalid) := set_tlvs (s_cfg s) tlvs [] in
        if missing_mandatory c then Ret (d, [], SessionSetAppConfigRsp STATUS_REJECTED [])
        else
          match invalid with
          | [] =>
              let s := s_set_cfg c s in
              let '(s, e) :=
                if bool_decide (s_state s = SsInit)
                then session_set_state SsIdle REASON_STATE_CHANGE_WITH_SESSION_MANAGEMENT_COMMANDS s
                else (s, []) in
              Ret (d_set_sessions (<[id := s]> (d_sessions d)) d, e,
                   SessionSetAppConfigRsp STATUS_OK [])
          | _ => Ret (d, [], SessionSetAppConfigRsp STATUS_INVALID_PARAM invalid)
          end
  end.

(** device.rs:526-539: the loop of [session_get_app_config]. *)
Fixpoint get_tlvs (c : app_config) (ids : list tlv_id) (valid invalid : list (tlv_id * bytes))
    : list (tlv_id * bytes) * list (tlv_id * bytes) :=
  match ids with
  | [] => (valid, invalid)
  | id :: ids =>
      match app_config_get c id with
      | Some v => get_tlvs c ids (valid ++ [(id, v)]) invalid
      | None => get_tlvs c ids valid (invalid ++ [(id, [])])
      end
  end.

(** device.rs:509-552 [session_get_app_config]. *)
Definition session_get_app_config (d : device) (id : N) (ids : list tlv_id) : msg :=
  match d_sessions d !! id with
  | None => SessionGetAppConfigRsp STATUS_ERROR_SESSION_NOT_EXIST []
  | Some s =>
      let '(valid, invalid) := get_tlvs (s_cfg s) ids [] [] in
      match invalid with
      | [] => SessionGetAppConfigRsp STATUS_OK valid
      | _ => SessionGetAppConfigRsp STATUS_FAILED []
      end
  end.

(** device.rs:554-570 [session_get_state]. *)
Definition session_get_state (d : device) (id : N) : msg :=
  match d_sessions d !! id with
  | None => SessionGetStateRsp STATUS_ERROR_SESSION_NOT_EXIST SsInit
  | Some s => SessionGetStateRsp STATUS_OK (s_state s)
  end.

Definition DEVICE_TYPE_CONTROLLER : N := 0x01.   (* pdl:274 *)
Definition MULTI_NODE_ONE_TO_MANY : N := 0x01.   (* pdl:298 *)
Definition STS_PROVISIONED_FOR_RESPONDER_SUB_SESSION_KEY : N := 0x04. (* pdl:293 *)

(** device.rs:603-657: decoding of the controlees according to the action.
    [Controlee::short_address] is always [MacAddress::Short] (device.rs:1138-1166). *)
Definition multicast_controlees (a : multicast_action) (payload : bytes) : option (list mac_address) :=
  map (fun c => MShort c.1) <$>
  decode_controlees (match a with
                     | AddControlee | RemoveControlee => 0%nat
                     | AddControleeWithShortSubSessionKey => 16%nat
                     | AddControleeWithExtendedSubSessionKey => 32%nat
                     end) payload.

(** The four [match address { Short(a) => a, Extended(_) => panic!() }]. *)
Definition short_bytes (m : mac_address) : outcome bytes :=
  match m with MShort l => Ret l | MExtended _ => Crash MulticastExtended end.

(** device.rs:663-712: adding controlees. State of the loop: list of addresses,
    overall status, per controlee statuses of the response. The statuses collected
    for the notification are never sent by this branch (device.rs:680-688 fills
    [controlee_status_ntf], which only the removal branch sends); they are not kept. *)
Fixpoint add_controlees (key_rejected : bool) (l : list mac_address)
    (dst : list mac_address) (status : N) (rsp : list (bytes * N))
    : outcome (list mac_address * N * list (bytes * N)) :=
  match l with
  | [] => Ret (dst, status, rsp)
  | a :: l =>
      let! b := short_bytes a in
      if key_rejected then add_controlees key_rejected l dst STATUS_FAILED rsp
      else if negb (bool_decide (a ∈ dst)) then
        if Nat.eqb (length dst) MAX_NUMBER_OF_CONTROLEES then
          add_controlees key_rejected l dst STATUS_ERROR_MULTICAST_LIST_FULL
            (rsp ++ [(b, ERROR_MULTICAST_LIST_FULL)])
        else
          add_controlees key_rejected l (dst ++ [a]) status (rsp ++ [(b, OK_MULTICAST_LIST_UPDATE)])
      else
        add_controlees key_rejected l dst STATUS_FAILED (rsp ++ [(b, ERROR_ADDRESS_ALREADY_PRESENT)])
  end.

(** device.rs:713-755: removing controlees. *)
Fixpoint remove_controlees (id attempts : N) (l : list mac_address)
    (dst : list mac_address) (status : N) (rsp ntf : list (bytes * N)) (e : list eff)
    : outcome (list mac_address * N * list (bytes * N) * list (bytes * N) * list eff) :=
  match l with
  | [] => Ret (dst, status, rsp, ntf, e)
  | a :: l =>
      let! b := short_bytes a in
      if negb (bool_decide (a ∈ dst)) then
        remove_controlees id attempts l dst STATUS_FAILED
          (rsp ++ [(b, ERROR_ADDRESS_NOT_FOUND)]) ntf e
      else
        remove_controlees id attempts l (filter (fun x => x <> a) dst) status
          (rsp ++ [(b, OK_MULTICAST_LIST_UPDATE)]) (ntf ++ [(b, OK_MULTICAST_LIST_UPDATE)])
          (if attempts =? 0 then e else e ++ [SpawnStop a id attempts])
  end.

(** device.rs:782-792: update of the list, [dst_addresses.len() as u8]; when it is
    empty the session moves to IDLE (the ranging task is not stopped and
    [n_active_sessions] is not updated). *)
Definition multicast_finish (d : device) (id : N) (s : session) (dst : list mac_address)
    : device * list eff :=
  let c := set_number_of_controlees (N.of_nat (length dst) mod 256) (s_cfg s) in
  let s := s_set_cfg (set_dst_mac_address dst c) s in
  let '(s, e) := match dst with
                 | [] => session_set_state SsIdle REASON_ERROR_INVALID_NUM_OF_CONTROLEES s
                 | _ => (s, [])
                 end in
  (d_set_sessions (<[id := s]> (d_sessions d)) d, e).

(** device.rs:572-797 [session_update_controller_multicast_list]. *)
Definition session_update_controller_multicast_list
    (d : device) (id : N) (a : multicast_action) (payload : bytes)
    : outcome (device * list eff * msg) :=
  match d_sessions d !! id with
  | None => Ret (d, [], SessionUpdateControllerMulticastListRsp STATUS_ERROR_SESSION_NOT_EXIST [])
  | Some s =>
      if (negb (bool_decide (s_state s = SsActive)) && negb (bool_decide (s_state s = SsIdle)))
         || negb (bool_decide (device_type (s_cfg s) = Some DEVICE_TYPE_CONTROLLER))
         || negb (bool_decide (multi_node_mode (s_cfg s) = Some MULTI_NODE_ONE_TO_MANY))
      then Ret (d, [], SessionUpdateControllerMulticastListRsp STATUS_REJECTED [])
      else
        match multicast_controlees a payload with
        | None => Ret (d, [], SessionUpdateControllerMulticastListRsp STATUS_SYNTAX_ERROR [])
        | Some controlees =>
            let dst := dst_mac_address (s_cfg s) in
            match a with
            | RemoveControlee =>
                let attempts := in_band_termination_attempt_count (s_cfg s) in
                let! (dst, status, rsp, ntf, e1) :=
                  remove_controlees id attempts controlees dst STATUS_OK [] [] [] in
                let e2 :=
                  if bool_decide (s_state s = SsActive)
                  then [After 5 (SessionUpdateControllerMulticastListNtf id ntf)] else [] in
                let '(d, e3) := multicast_finish d id s dst in
                Ret (d, e1 ++ e2 ++ e3, SessionUpdateControllerMulticastListRsp status rsp)
            | _ =>
                let key_rejected :=
                  bool_decide (a <> AddControlee)
                  && negb (sts_config (s_cfg s) =? STS_PROVISIONED_FOR_RESPONDER_SUB_SESSION_KEY) in
                let! (dst, status, rsp) :=
                  add_controlees key_rejected controlees dst STATUS_OK [] in
                let '(d, e3) := multicast_finish d id s dst in
                Ret (d, e3, SessionUpdateControllerMulticastListRsp status rsp)
            end
        end
  end.

(** device.rs:799-843 [session_start]. *)
Definition session_start (d : device) (id : N) : outcome (device * list eff * msg) :=
  match d_sessions d !! id with
  | None => Ret (d, [], SessionStartRsp STATUS_ERROR_SESSION_NOT_EXIST)
  | Some s =>
      if negb (bool_decide (s_state s = SsIdle)) then
        Ret (d, [], SessionStartRsp STATUS_ERROR_SESSION_NOT_CONFIGURED)
      else if s_task s then Crash AssertTaskNone
      else
        let e1 := [SpawnRanging id (ranging_duration (s_cfg s))] in
        let '(s, e2) :=
          session_set_state SsActive REASON_STATE_CHANGE_WITH_SESSION_MANAGEMENT_COMMANDS
            (s_set_task true s) in
        let d := d_set_sessions (<[id := s]> (d_sessions d)) d in
        let d := d_set_active (d_active d + 1) d in
        let '(d, e3) := device_set_state DsActive d in
        Ret (d, e1 ++ e2 ++ e3, SessionStartRsp STATUS_OK)
  end.

(** device.rs:845-876 [session_stop]. *)
Definition session_stop (d : device) (id : N) : outcome (device * list eff * msg) :=
  match d_sessions d !! id with
  | None => Ret (d, [], SessionStopRsp STATUS_ERROR_SESSION_NOT_EXIST)
  | Some s =>
      if negb (bool_decide (s_state s = SsActive)) then
        Ret (d, [], SessionStopRsp STATUS_ERROR_SESSION_ACTIVE)
      else
        let '(s, e1) := stop_ranging_task s in
        let '(s, e2) :=
          session_set_state SsIdle REASON_STATE_CHANGE_WITH_SESSION_MANAGEMENT_COMMANDS s in
        let d := d_set_sessions (<[id := s]> (d_sessions d)) d in
        let! (d, e3) := device_dec_active d in
        Ret (d, e1 ++ e2 ++ e3, SessionStopRsp STATUS_OK)
  end.

(** device.rs:878-901 [session_get_ranging_count]. *)
Definition session_get_ranging_count (d : device) (id : N) : msg :=
  match d_sessions d !! id with
  | None => SessionGetRangingCountRsp STATUS_ERROR_SESSION_NOT_EXIST 0
  | Some s => SessionGetRangingCountRsp STATUS_OK (s_seq s)
  end.

(** device.rs:903-916 [android_set_country_code]. *)
Definition android_set_country_code (d : device) (code : bytes) : device * msg :=
  (d_set_country code d, AndroidSetCountryCodeRsp STATUS_OK).

(** device.rs:918-934 [android_get_power_stats]. *)
Definition android_get_power_stats : msg := AndroidGetPowerStatsRsp STATUS_OK 0 0 0 0.

(** device.rs:936-973 [Device::data_message_snd]. *)
Definition device_data_message_snd (d : device) (p : data_packet) : outcome (device * msg) :=
  match p with
  | DataMessageSnd handle _ seq data =>
      match d_sessions d !! handle with
      | Some s =>
          let! (s, m) := session_data_message_snd handle seq data s in
          Ret (d_set_sessions (<[handle := s]> (d_sessions d)) d, m)
      | None =>
          Ret (d, SessionDataTransferStatusNtf handle 0 DATA_TRANSFER_STATUS_ERROR_REJECTED 1)
      end
  | DataMessageRcvPkt handle _ _ _ _ =>
      Ret (d, SessionDataTransferStatusNtf handle 0 DATA_TRANSFER_STATUS_INVALID_FORMAT 1)
  end.

(** Dispatch of device.rs:993-1043 on the parsed command. *)
Definition handle_command (d : device) (c : command) : outcome (device * list eff * msg) :=
  match c with
  | CmdDeviceReset _ => Ret (core_device_reset d)
  | CmdGetDeviceInfo => let! m := core_get_device_info d in Ret (d, [], m)
  | CmdGetCapsInfo => Ret (d, [], core_get_caps_info)
  | CmdSetConfig l => let! (d, m) := core_set_config d l in Ret (d, [], m)
  | CmdGetConfig ids => Ret (d, [], core_get_config d ids)
  | CmdSessionInit id ty => Ret (session_init d id ty)
  | CmdSessionDeinit id => session_deinit d id
  | CmdSetAppConfig id l => session_set_app_config d id l
  | CmdGetAppConfig id l => Ret (d, [], session_get_app_config d id l)
  | CmdGetCount => Ret (d, [], session_get_count d)
  | CmdGetState id => Ret (d, [], session_get_state d id)
  | CmdMulticast id a payload => session_update_controller_multicast_list d id a payload
  | CmdStart id => session_start d id
  | CmdStop id => session_stop d id
  | CmdGetRangingCount id => Ret (d, [], session_get_ranging_count d id)
  | CmdGetPowerStats => Ret (d, [], android_get_power_stats)
  | CmdSetCountryCode code => let '(d, m) := android_set_country_code d code in Ret (d, [], m)
  end.

(** device.rs:975-1072 [receive_command]. *)
Definition receive_command (d : device) (cmd : control_packet) : outcome (device * list eff * msg) :=
  if negb (d_is_reset d) && negb (is_core_device_reset_cmd cmd) then
    Ret (d, [], CoreDeviceStatusNtf DsError)
  else
    match cp_mt cmd with
    | MtCommand | MtData =>
        match specialize_command (cp_gid cmd) (cp_payload cmd) with
        | SpParseError => Crash CmdParse
        | SpUnimplemented => Crash CmdUnimplemented
        | SpCommand c => handle_command d c
        | SpNone =>
            match cp_payload cmd with
            | b1 :: b2 :: _ => Ret (d, [], UnknownGroupRsp (cp_gid cmd) b1 b2)
            | _ => Crash CmdPayloadIndex
            end
        end
    (* Never called with another message type (receive_packet); every case panics. *)
    | _ => Crash CmdUnreachable
    end.

(** [send_control] (device.rs:213-215): encode, then send; the error of [send] is ignored
    (device.rs:208-210). *)
Definition send_control (m : msg) : outcome (list eff) :=
  match wire m with
  | Some _ => Ret [Send m]
  | None => Crash CmdEncode
  end.

(** device.rs:1074-1127 [receive_packet]. *)
Definition receive_packet (d : device) (packet : bytes) : outcome (device * list eff) :=
  match packet with
  | [] => Crash RecvEmptyPacket
  | h :: rest =>
      match parse_message_type h with
      | MtData =>
          match decode_data_packet packet with
          | DdError => Ret (d, [])
          | DdChildError => Crash DataParse
          | DdPacket p =>
              let! (d, m) := device_data_message_snd d p in
              let! e := send_control m in
              Ret (d, e)
          end
      | MtCommand =>
          match decode_control_packet packet with
          | None =>
              match rest with
              | [] => Crash RecvShortPacket
              | o :: _ =>
                  let group_id := N.land h 0xf in
                  let opcode_id := N.land o 0x3f in
                  let status := if valid_gid group_id then STATUS_UNKNOWN_OID else STATUS_UNKNOWN_GID in
                  Ret (d, [Send (UnknownCmdRsp group_id opcode_id status)])
              end
          | Some cmd =>
              let! (d, e1, m) := receive_command d cmd in
              let! e2 := send_control m in
              Ret (d, e1 ++ e2)
          end
      | _ => Ret (d, [])
      end
  end.
