(** Model of the packet grammar src/uci_packets.pdl, as compiled by pdl-compiler 0.3.2:
    - [_reserved_] bits are ignored by the decoder and written as zero;
    - a value out of a closed enum, a truncated field, or bytes left over after
      the last field of a packet without payload are decoding errors;
    - an array longer than its count field can express is an encoding error. *)
From Verif Require Import Base Uci MacAddress.

(** ** Elementary decoders *)

(** Read a [k] byte little-endian scalar (Buf::get_uN_le after the length check). *)
Definition p_uint (k : nat) (b : bytes) : option (N * bytes) :=
  if Nat.ltb (length b) k then None else Some (le_nat (take k b), drop k b).

(** Read a fixed size byte array. *)
Definition p_bytes (k : nat) (b : bytes) : option (bytes * bytes) :=
  if Nat.ltb (length b) k then None else Some (take k b, drop k b).

(** Read exactly [n] elements. *)
Fixpoint p_many {A} (n : nat) (p : bytes -> option (A * bytes)) (b : bytes)
    : option (list A * bytes) :=
  match n with
  | O => Some ([], b)
  | S n =>
      '(x, b) ← p b;
      '(l, b) ← p_many n p b;
      Some (x :: l, b)
  end.

(** [_count_(x) : 8, x : T[]] *)
Definition p_counted {A} (p : bytes -> option (A * bytes)) (b : bytes)
    : option (list A * bytes) :=
  '(n, b) ← p_uint 1 b;
  p_many (N.to_nat n) p b.

(** [_count_(v) : 8, v : 8[]] and [_size_(v) : 8, v : 8[]] *)
Definition p_vec8 (b : bytes) : option (bytes * bytes) :=
  '(n, b) ← p_uint 1 b;
  p_bytes (N.to_nat n) b.

(** [_size_(v) : 16, v : 8[]] *)
Definition p_vec16 (b : bytes) : option (bytes * bytes) :=
  '(n, b) ← p_uint 2 b;
  p_bytes (N.to_nat n) b.

(** End of packet: no trailing byte. *)
Definition p_end {A} (x : A) (b : bytes) : option A :=
  match b with [] => Some x | _ :: _ => None end.

(** Read a closed 8 bit enum given by its conversion from [u8]. *)
Definition p_enum {A} (of_code : N -> option A) (b : bytes) : option (A * bytes) :=
  '(n, b) ← p_uint 1 b;
  x ← of_code n;
  Some (x, b).

Definition member (l : list N) (n : N) : option N :=
  if existsb (N.eqb n) l then Some n else None.

(** ** Header bytes *)

(** First header byte, from the least significant bit: 4 bits gid (or dpf),
    1 bit boundary flag, 3 bits message type (uci_packets.pdl:613-654). *)
Definition hdr_low (b : N) : N := N.land b 0xf.
Definition hdr_pbf (b : N) : N := N.land (N.shiftr b 4) 1.
Definition hdr_mt (b : N) : N := N.land (N.shiftr b 5) 7.
Definition mk_hdr (mt low : N) : N := N.lor (N.shiftl mt 5) low.

(** packets.rs:47-49 [parse_message_type]. *)
Definition parse_message_type (b : N) : message_type :=
  match mt_of_code (N.land (N.shiftr b 5) 0x7) with
  | Some mt => mt
  | None => MtCommand
  end.

(** ** Control packets received from the host *)

(** uci_packets.pdl:640-645 [ControlPacket]; [ControlPacket::decode_full]. *)
Record control_packet : Set := ControlPacket { cp_mt : message_type; cp_gid : N; cp_payload : bytes }.

Definition decode_control_packet (b : bytes) : option control_packet :=
  match b with
  | [] => None
  | h :: payload =>
      if negb (valid_gid (hdr_low h)) then None
      else
        mt ← mt_of_code (hdr_mt h);
        Some (ControlPacket mt (hdr_low h) payload)
  end.

(** uci_packets.pdl:673-699 [CorePacket] and the other groups: 6 bits of opcode,
    2 reserved bits, 16 reserved bits, payload. *)
Definition decode_group (oids : list N) (payload : bytes) : option (N * bytes) :=
  '(o, b) ← p_uint 1 payload;
  oid ← member oids (N.land o 0x3f);
  '(_, b) ← p_uint 2 b;
  Some (oid, b).

(** The commands which the device implements (device.rs:997-1048). *)
Inductive command : Set :=
  | CmdDeviceReset (reset_config : N)                      (* pdl:703 *)
  | CmdGetDeviceInfo                                       (* pdl:727 *)
  | CmdGetCapsInfo                                         (* pdl:748 *)
  | CmdSetConfig (parameters : list (N * bytes))           (* pdl:785 *)
  | CmdGetConfig (ids : list N)                            (* pdl:810 *)
  | CmdSessionInit (id session_type : N)                   (* pdl:856 *)
  | CmdSessionDeinit (id : N)                              (* pdl:884 *)
  | CmdSetAppConfig (id : N) (tlvs : list (tlv_id * bytes)) (* pdl:919 *)
  | CmdGetAppConfig (id : N) (ids : list tlv_id)           (* pdl:944 *)
  | CmdGetCount                                            (* pdl:964 *)
  | CmdGetState (id : N)                                   (* pdl:980 *)
  | CmdMulticast (id : N) (action : multicast_action) (payload : bytes) (* pdl:1050 *)
  | CmdStart (id : N)                                      (* pdl:1135 *)
  | CmdStop (id : N)                                       (* pdl:1348 *)
  | CmdGetRangingCount (id : N)                            (* pdl:1364 *)
  | CmdGetPowerStats                                       (* pdl:1383 *)
  | CmdSetCountryCode (code : bytes).                      (* pdl:1406 *)

(** Result of the two [specialize] calls of device.rs:995-1048. *)
Inductive specialized : Set :=
  | SpCommand (c : command)   (* an implemented command *)
  | SpUnimplemented           (* parsed, but matched by [_ => unimplemented!] *)
  | SpParseError              (* an [expect] fails *)
  | SpNone.                   (* the group has no packet definition *)

Definition sp (o : option command) : specialized :=
  match o with Some c => SpCommand c | None => SpParseError end.
Definition sp_unimplemented {A} (o : option A) : specialized :=
  match o with Some _ => SpUnimplemented | None => SpParseError end.

(** uci_packets.pdl:779-783 [ConfigParameter] (open enum id). *)
Definition p_config_parameter (b : bytes) : option ((N * bytes) * bytes) :=
  '(id, b) ← p_uint 1 b;
  '(v, b) ← p_vec8 b;
  Some ((id, v), b).

(** uci_packets.pdl:913-917 [AppConfigTlv]. *)
Definition p_app_config_tlv (b : bytes) : option ((tlv_id * bytes) * bytes) :=
  '(id, b) ← p_enum tlv_of_byte b;
  '(v, b) ← p_vec8 b;
  Some ((id, v), b).

(** Children of [CorePacket] with mt = COMMAND (pdl:703-845). *)
Definition specialize_core (oid : N) (b : bytes) : specialized :=
  if oid =? OID_DEVICE_RESET then
    sp ('(c, b) ← p_enum (member [UWBS_RESET]) b; p_end (CmdDeviceReset c) b)
  else if oid =? OID_GET_DEVICE_INFO then sp (p_end CmdGetDeviceInfo b)
  else if oid =? OID_GET_CAPS_INFO then sp (p_end CmdGetCapsInfo b)
  else if oid =? OID_SET_CONFIG then
    sp ('(l, b) ← p_counted p_config_parameter b; p_end (CmdSetConfig l) b)
  else if oid =? OID_GET_CONFIG then
    sp ('(l, b) ← p_counted (p_uint 1) b; p_end (CmdGetConfig l) b)
  else if oid =? OID_QUERY_UWBS_TIMESTAMP then sp_unimplemented (p_end tt b)
  else SpUnimplemented. (* DEVICE_STATUS, GENERIC_ERROR: no command child *)

(** Children of [SessionConfigPacket] with mt = COMMAND (pdl:856-1126). *)
Definition specialize_session_config (oid : N) (b : bytes) : specialized :=
  if oid =? OID_INIT then
    sp ('(id, b) ← p_uint 4 b;
        '(ty, b) ← p_enum (member VALUES_SessionType) b;
        p_end (CmdSessionInit id ty) b)
  else if oid =? OID_DEINIT then
    sp ('(id, b) ← p_uint 4 b; p_end (CmdSessionDeinit id) b)
  else if oid =? OID_SET_APP_CONFIG then
    sp ('(id, b) ← p_uint 4 b;
        '(l, b) ← p_counted p_app_config_tlv b;
        p_end (CmdSetAppConfig id l) b)
  else if oid =? OID_GET_APP_CONFIG then
    sp ('(id, b) ← p_uint 4 b;
        '(l, b) ← p_counted (p_enum tlv_of_byte) b;
        p_end (CmdGetAppConfig id l) b)
  else if oid =? OID_GET_COUNT then sp (p_end CmdGetCount b)
  else if oid =? OID_GET_STATE then
    sp ('(id, b) ← p_uint 4 b; p_end (CmdGetState id) b)
  else if oid =? OID_UPDATE_CONTROLLER_MULTICAST_LIST then
    sp ('(id, b) ← p_uint 4 b;
        '(a, b) ← p_enum action_of_code b;
        Some (CmdMulticast id a b))
  else if oid =? OID_UPDATE_DT_ANCHOR_RANGING_ROUNDS then sp_unimplemented (p_end tt b)
  else if oid =? OID_UPDATE_DT_TAG_RANGING_ROUNDS then
    sp_unimplemented ('(_, b) ← p_uint 4 b; '(_, b) ← p_vec8 b; p_end tt b)
  else if oid =? OID_QUERY_DATA_SIZE_IN_RANGING then
    sp_unimplemented ('(_, b) ← p_uint 4 b; p_end tt b)
  else SpUnimplemented. (* STATUS: no command child *)

(** Children of [SessionControlPacket] with mt = COMMAND (pdl:1098-1364). *)
Definition specialize_session_control (oid : N) (b : bytes) : specialized :=
  if oid =? OID_START then sp ('(id, b) ← p_uint 4 b; p_end (CmdStart id) b)
  else if oid =? OID_STOP then sp ('(id, b) ← p_uint 4 b; p_end (CmdStop id) b)
  else if oid =? OID_GET_RANGING_COUNT then
    sp ('(id, b) ← p_uint 4 b; p_end (CmdGetRangingCount id) b)
  else SpUnimplemented. (* DATA_CREDIT, DATA_TRANSFER_STATUS: no command child *)

(** Children of [AndroidPacket] with mt = COMMAND (pdl:1383-1406). *)
Definition specialize_android (oid : N) (b : bytes) : specialized :=
  if oid =? OID_GET_POWER_STATS then sp (p_end CmdGetPowerStats b)
  else if oid =? OID_SET_COUNTRY_CODE then
    sp ('(c, b) ← p_bytes 2 b; p_end (CmdSetCountryCode c) b)
  else SpUnimplemented. (* FIRA_RANGE_DIAGNOSTICS: no command child *)

(** [ControlPacket::specialize] then [specialize] of the group, for mt = COMMAND. *)
Definition specialize_command (gid : N) (payload : bytes) : specialized :=
  if gid =? GID_CORE then
    match decode_group VALUES_CoreOpcodeId payload with
    | None => SpParseError | Some (oid, b) => specialize_core oid b end
  else if gid =? GID_SESSION_CONFIG then
    match decode_group VALUES_SessionConfigOpcodeId payload with
    | None => SpParseError | Some (oid, b) => specialize_session_config oid b end
  else if gid =? GID_SESSION_CONTROL then
    match decode_group VALUES_SessionControlOpcodeId payload with
    | None => SpParseError | Some (oid, b) => specialize_session_control oid b end
  else if gid =? GID_VENDOR_ANDROID then
    match decode_group VALUES_AndroidOpcodeId payload with
    | None => SpParseError | Some (oid, b) => specialize_android oid b end
  else SpNone.

(** packets.rs:29-34 [is_core_device_reset_cmd]. *)
Definition is_core_device_reset_cmd (c : control_packet) : bool :=
  (cp_gid c =? GID_CORE) &&
  match decode_group VALUES_CoreOpcodeId (cp_payload c) with
  | Some (oid, _) => oid =? OID_DEVICE_RESET
  | None => false
  end.

(** *** Payload of SESSION_UPDATE_CONTROLLER_MULTICAST_LIST_CMD (pdl:1025-1069).
    The key of a controlee is read and dropped: device.rs:1130-1166 keeps it in a
    field that is never used. *)
Definition p_controlee (key_size : nat) (b : bytes) : option ((bytes * N) * bytes) :=
  '(a, b) ← p_bytes 2 b;
  '(id, b) ← p_uint 4 b;
  '(_, b) ← p_bytes key_size b;
  Some ((a, id), b).

Definition decode_controlees (key_size : nat) (b : bytes) : option (list (bytes * N)) :=
  '(l, b) ← p_counted (p_controlee key_size) b;
  p_end l b.

(** ** Data packets received from the host *)

(** uci_packets.pdl:647-670 [DataPacket], [DataMessageSnd], [DataMessageRcv]. *)
Inductive data_packet : Set :=
  | DataMessageSnd (session_handle destination_address data_sequence_number : N) (application_data : bytes)
  | DataMessageRcvPkt (session_handle status source_address data_sequence_number : N) (application_data : bytes).

Inductive data_decoded : Set :=
  | DdError                  (* DataPacket::decode_full fails (device.rs:1082) *)
  | DdChildError             (* specialize fails: expect (device.rs:940) *)
  | DdPacket (d : data_packet).

(** [DataPacket::decode_full] and [DataPacket::specialize], for a packet whose
    message type bits are DATA. *)
Definition decode_data_packet (b : bytes) : data_decoded :=
  match b with
  | h :: b =>
      if (hdr_low h =? DPF_DATA_SND) || (hdr_low h =? DPF_DATA_RCV) then
        match p_uint 3 b with
        | None => DdError
        | Some (_, payload) =>
            let child :=
              if hdr_low h =? DPF_DATA_SND then
                '(handle, b) ← p_uint 4 payload;
                '(dst, b) ← p_uint 8 b;
                '(seq, b) ← p_uint 2 b;
                '(data, b) ← p_vec16 b;
                p_end (DataMessageSnd handle dst seq data) b
              else
                '(handle, b) ← p_uint 4 payload;
                '(status, b) ← p_uint 1 b;
                '(src, b) ← p_uint 8 b;
                '(seq, b) ← p_uint 2 b;
                '(data, b) ← p_vec16 b;
                p_end (DataMessageRcvPkt handle status src seq data) b in
            match child with
            | Some d => DdPacket d
            | None => DdChildError
            end
        end
      else DdError
  | [] => DdError
  end.

(** ** Messages sent to the host *)

(** uci_packets.pdl:1151-1171 [ShortAddressTwoWayRangingMeasurement]. *)
Record measurement : Set := Measurement {
  m_mac_address : N; m_status : N; m_nlos : N; m_distance : N;
  m_aoa_azimuth : N; m_aoa_azimuth_fom : N;
  m_aoa_elevation : N; m_aoa_elevation_fom : N;
  m_aoa_destination_azimuth : N; m_aoa_destination_azimuth_fom : N;
  m_aoa_destination_elevation : N; m_aoa_destination_elevation_fom : N;
  m_slot_index : N; m_rssi : N }.

Inductive msg : Set :=
  | CoreDeviceResetRsp (status : N)                                       (* pdl:711 *)
  | CoreDeviceStatusNtf (s : device_state)                                (* pdl:719 *)
  | CoreGetDeviceInfoRsp (status uci mac phy test : N) (vendor : bytes)   (* pdl:734 *)
  | CoreGetCapsInfoRsp (status : N) (tlvs : list (N * bytes))             (* pdl:762 *)
  | CoreSetConfigRsp (status : N) (parameters : list (N * N))             (* pdl:799 *)
  | CoreGetConfigRsp (status : N) (parameters : list (N * bytes))         (* pdl:819 *)
  | SessionInitRsp (status : N)                                           (* pdl:876 *)
  | SessionDeinitRsp (status : N)                                         (* pdl:892 *)
  | SessionStatusNtf (token : N) (s : session_state) (reason : N)         (* pdl:900 *)
  | SessionSetAppConfigRsp (status : N) (cfg : list (tlv_id * N))         (* pdl:934 *)
  | SessionGetAppConfigRsp (status : N) (tlvs : list (tlv_id * bytes))    (* pdl:954 *)
  | SessionGetCountRsp (status count : N)                                 (* pdl:971 *)
  | SessionGetStateRsp (status : N) (s : session_state)                   (* pdl:988 *)
  | SessionUpdateControllerMulticastListRsp (status : N) (l : list (bytes * N)) (* pdl:1071 *)
  | SessionUpdateControllerMulticastListNtf (token : N) (l : list (bytes * N))  (* pdl:1086 *)
  | SessionDataCreditNtf (token credit : N)                               (* pdl:1098 *)
  | SessionDataTransferStatusNtf (token seq status tx_count : N)          (* pdl:1107 *)
  | SessionStartRsp (status : N)                                          (* pdl:1143 *)
  | SessionInfoNtf (seq token rcr interval : N) (l : list measurement) (vendor : bytes) (* pdl:1276,1288 *)
  | SessionStopRsp (status : N)                                           (* pdl:1356 *)
  | SessionGetRangingCountRsp (status count : N)                          (* pdl:1372 *)
  | AndroidGetPowerStatsRsp (status idle tx rx wake : N)                  (* pdl:1390,1398 *)
  | AndroidSetCountryCodeRsp (status : N)                                 (* pdl:1415 *)
  | UnknownGroupRsp (gid b1 b2 : N)           (* device.rs:1060-1069: ControlPacket with 4 payload bytes *)
  | UnknownCmdRsp (gid oid status : N)        (* device.rs:1105-1111: raw response *)
  | DataMessageRcv (handle status source seq : N) (data : bytes).         (* pdl:664 *)

(** Message type, group and opcode of a control message. *)
Definition msg_header (m : msg) : option (message_type * N * N) :=
  match m with
  | CoreDeviceResetRsp _ => Some (MtResponse, GID_CORE, OID_DEVICE_RESET)
  | CoreDeviceStatusNtf _ => Some (MtNotification, GID_CORE, OID_DEVICE_STATUS)
  | CoreGetDeviceInfoRsp _ _ _ _ _ _ => Some (MtResponse, GID_CORE, OID_GET_DEVICE_INFO)
  | CoreGetCapsInfoRsp _ _ => Some (MtResponse, GID_CORE, OID_GET_CAPS_INFO)
  | CoreSetConfigRsp _ _ => Some (MtResponse, GID_CORE, OID_SET_CONFIG)
  | CoreGetConfigRsp _ _ => Some (MtResponse, GID_CORE, OID_GET_CONFIG)
  | SessionInitRsp _ => Some (MtResponse, GID_SESSION_CONFIG, OID_INIT)
  | SessionDeinitRsp _ => Some (MtResponse, GID_SESSION_CONFIG, OID_DEINIT)
  | SessionStatusNtf _ _ _ => Some (MtNotification, GID_SESSION_CONFIG, OID_STATUS)
  | SessionSetAppConfigRsp _ _ => Some (MtResponse, GID_SESSION_CONFIG, OID_SET_APP_CONFIG)
  | SessionGetAppConfigRsp _ _ => Some (MtResponse, GID_SESSION_CONFIG, OID_GET_APP_CONFIG)
  | SessionGetCountRsp _ _ => Some (MtResponse, GID_SESSION_CONFIG, OID_GET_COUNT)
  | SessionGetStateRsp _ _ => Some (MtResponse, GID_SESSION_CONFIG, OID_GET_STATE)
  | SessionUpdateControllerMulticastListRsp _ _ =>
      Some (MtResponse, GID_SESSION_CONFIG, OID_UPDATE_CONTROLLER_MULTICAST_LIST)
  | SessionUpdateControllerMulticastListNtf _ _ =>
      Some (MtNotification, GID_SESSION_CONFIG, OID_UPDATE_CONTROLLER_MULTICAST_LIST)
  | SessionDataCreditNtf _ _ => Some (MtNotification, GID_SESSION_CONTROL, OID_DATA_CREDIT)
  | SessionDataTransferStatusNtf _ _ _ _ =>
      Some (MtNotification, GID_SESSION_CONTROL, OID_DATA_TRANSFER_STATUS)
  | SessionStartRsp _ => Some (MtResponse, GID_SESSION_CONTROL, OID_START)
  | SessionInfoNtf _ _ _ _ _ _ => Some (MtNotification, GID_SESSION_CONTROL, OID_START)
  | SessionStopRsp _ => Some (MtResponse, GID_SESSION_CONTROL, OID_STOP)
  | SessionGetRangingCountRsp _ _ => Some (MtResponse, GID_SESSION_CONTROL, OID_GET_RANGING_COUNT)
  | AndroidGetPowerStatsRsp _ _ _ _ _ => Some (MtResponse, GID_VENDOR_ANDROID, OID_GET_POWER_STATS)
  | AndroidSetCountryCodeRsp _ => Some (MtResponse, GID_VENDOR_ANDROID, OID_SET_COUNTRY_CODE)
  | UnknownGroupRsp gid b1 _ => Some (MtResponse, gid, N.land b1 0x3f)
  | UnknownCmdRsp gid oid _ => Some (MtResponse, gid, oid)
  | DataMessageRcv _ _ _ _ _ => None
  end.

(** Encoders of the array fields: [None] when the count field overflows. *)
Definition enc_counted {A} (enc : A -> option bytes) (l : list A) : option bytes :=
  if Nat.leb (length l) 255 then
    ls ← mapM enc l;
    Some (N.of_nat (length l) :: concat ls)
  else None.
Definition enc_vec8 (l : bytes) : option bytes :=
  if Nat.leb (length l) 255 then Some (N.of_nat (length l) :: l) else None.
Definition enc_vec16 (l : bytes) : option bytes :=
  if N.of_nat (length l) <=? 65535 then Some (le_bytes 2 (N.of_nat (length l)) ++ l) else None.

Definition enc_measurement (m : measurement) : bytes :=
  le_bytes 2 (m_mac_address m) ++ [m_status m; m_nlos m] ++ le_bytes 2 (m_distance m)
  ++ le_bytes 2 (m_aoa_azimuth m) ++ [m_aoa_azimuth_fom m]
  ++ le_bytes 2 (m_aoa_elevation m) ++ [m_aoa_elevation_fom m]
  ++ le_bytes 2 (m_aoa_destination_azimuth m) ++ [m_aoa_destination_azimuth_fom m]
  ++ le_bytes 2 (m_aoa_destination_elevation m) ++ [m_aoa_destination_elevation_fom m]
  ++ [m_slot_index m; m_rssi m]
  ++ le_bytes 8 0 ++ le_bytes 3 0.

Definition RANGING_MEASUREMENT_TWO_WAY : N := 1. (* pdl:1269 *)
Definition MAC_SHORT_ADDRESS : N := 0.           (* pdl:596 *)

(** Bytes after the 4 byte header. *)
Definition msg_payload (m : msg) : option bytes :=
  match m with
  | CoreDeviceResetRsp st => Some [st]
  | CoreDeviceStatusNtf s => Some [ds_code s]
  | CoreGetDeviceInfoRsp st u m p t v =>
      v ← enc_vec8 v;
      Some ([st] ++ le_bytes 2 u ++ le_bytes 2 m ++ le_bytes 2 p ++ le_bytes 2 t ++ v)
  | CoreGetCapsInfoRsp st l =>
      l ← enc_counted (fun tv => v ← enc_vec8 tv.2; Some (tv.1 :: v)) l; Some (st :: l)
  | CoreSetConfigRsp st l => l ← enc_counted (fun p => Some [p.1; p.2]) l; Some (st :: l)
  | CoreGetConfigRsp st l =>
      l ← enc_counted (fun tv => v ← enc_vec8 tv.2; Some (tv.1 :: v)) l; Some (st :: l)
  | SessionInitRsp st => Some [st]
  | SessionDeinitRsp st => Some [st]
  | SessionStatusNtf tok s r => Some (le_bytes 4 tok ++ [ss_code s; r])
  | SessionSetAppConfigRsp st l =>
      l ← enc_counted (fun p => Some [tlv_byte p.1; p.2]) l; Some (st :: l)
  | SessionGetAppConfigRsp st l =>
      l ← enc_counted (fun tv => v ← enc_vec8 tv.2; Some (tlv_byte tv.1 :: v)) l; Some (st :: l)
  | SessionGetCountRsp st n => Some [st; n]
  | SessionGetStateRsp st s => Some [st; ss_code s]
  | SessionUpdateControllerMulticastListRsp st l =>
      l ← enc_counted (fun p => Some (p.1 ++ [p.2])) l; Some (st :: l)
  | SessionUpdateControllerMulticastListNtf tok l =>
      l ← enc_counted (fun p => Some (p.1 ++ [p.2])) l; Some (le_bytes 4 tok ++ l)
  | SessionDataCreditNtf tok c => Some (le_bytes 4 tok ++ [c])
  | SessionDataTransferStatusNtf tok seq st tx => Some (le_bytes 4 tok ++ [seq; st; tx])
  | SessionStartRsp st => Some [st]
  | SessionInfoNtf seq tok rcr interval l v =>
      l ← enc_counted (fun m => Some (enc_measurement m)) l;
      Some (le_bytes 4 seq ++ le_bytes 4 tok ++ [rcr] ++ le_bytes 4 interval
            ++ [RANGING_MEASUREMENT_TWO_WAY; 0; MAC_SHORT_ADDRESS] ++ le_bytes 8 0 ++ l ++ v)
  | SessionStopRsp st => Some [st]
  | SessionGetRangingCountRsp st n => Some (st :: le_bytes 4 n)
  | AndroidGetPowerStatsRsp st i t r w =>
      Some (st :: le_bytes 4 i ++ le_bytes 4 t ++ le_bytes 4 r ++ le_bytes 4 w)
  | AndroidSetCountryCodeRsp st => Some [st]
  | UnknownGroupRsp _ _ _ => Some [STATUS_UNKNOWN_GID]
  | UnknownCmdRsp _ _ st => Some [st]
  | DataMessageRcv handle st src seq data =>
      v ← enc_vec16 data;
      Some (le_bytes 4 handle ++ [st] ++ le_bytes 8 src ++ le_bytes 2 seq ++ v)
  end.

(** [encode_to_vec]: the complete (unsegmented) message handed to the writer.
    [None] is an encoding error. *)
Definition wire (m : msg) : option bytes :=
  p ← msg_payload m;
  Some (match m with
        | UnknownGroupRsp gid b1 b2 => [mk_hdr (mt_code MtResponse) gid; b1; b2; 0x1] ++ p
        | UnknownCmdRsp gid oid _ => [mk_hdr (mt_code MtResponse) gid; oid; 0; 1] ++ p
        | DataMessageRcv _ _ _ _ _ => [mk_hdr (mt_code MtData) DPF_DATA_RCV; 0; 0; 0] ++ p
        | _ =>
            match msg_header m with
            | Some (mt, gid, oid) => [mk_hdr (mt_code mt) gid; oid; 0; 0] ++ p
            | None => p
            end
        end).
