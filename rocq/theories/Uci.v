(** Model of the enums of src/uci_packets.pdl.
    Enums which only travel through the code are represented by their numeric
    value; the values used by pica have a name here. *)
From Verif Require Import Base.

(** uci_packets.pdl:17-20 [PacketBoundaryFlag]. *)
Definition PBF_COMPLETE : N := 0.
Definition PBF_NOT_COMPLETE : N := 1.

(** uci_packets.pdl:22-27 [MessageType]. *)
Inductive message_type : Set := MtData | MtCommand | MtResponse | MtNotification.
Global Instance message_type_eq_dec : EqDecision message_type.
Proof. solve_decision. Defined.
Definition mt_code (mt : message_type) : N :=
  match mt with MtData => 0 | MtCommand => 1 | MtResponse => 2 | MtNotification => 3 end.
(** [MessageType::try_from(u8)]. *)
Definition mt_of_code (n : N) : option message_type :=
  if n =? 0 then Some MtData else if n =? 1 then Some MtCommand
  else if n =? 2 then Some MtResponse else if n =? 3 then Some MtNotification else None.

(** uci_packets.pdl:29-41 [GroupId]. *)
Definition GID_CORE : N := 0x0.
Definition GID_SESSION_CONFIG : N := 0x1.
Definition GID_SESSION_CONTROL : N := 0x2.
Definition GID_VENDOR_ANDROID : N := 0xc.
Definition VALUES_GroupId : list N := [0x0; 0x1; 0x2; 0x3; 0x9; 0xa; 0xb; 0xc; 0xd; 0xe; 0xf].
(** [GroupId::try_from(u8).is_ok()] *)
Definition valid_gid (n : N) : bool := existsb (N.eqb n) VALUES_GroupId.

(** uci_packets.pdl:43-46 [DataPacketFormat]. *)
Definition DPF_DATA_SND : N := 1.
Definition DPF_DATA_RCV : N := 2.

(** uci_packets.pdl:48-57 [CoreOpcodeId]. *)
Definition OID_DEVICE_RESET : N := 0x00.
Definition OID_DEVICE_STATUS : N := 0x01.
Definition OID_GET_DEVICE_INFO : N := 0x02.
Definition OID_GET_CAPS_INFO : N := 0x03.
Definition OID_SET_CONFIG : N := 0x04.
Definition OID_GET_CONFIG : N := 0x05.
Definition OID_GENERIC_ERROR : N := 0x07.
Definition OID_QUERY_UWBS_TIMESTAMP : N := 0x08.
Definition VALUES_CoreOpcodeId : list N := [0x0; 0x1; 0x2; 0x3; 0x4; 0x5; 0x7; 0x8].

(** uci_packets.pdl:59-71 [SessionConfigOpcodeId]. *)
Definition OID_INIT : N := 0x00.
Definition OID_DEINIT : N := 0x01.
Definition OID_STATUS : N := 0x02.
Definition OID_SET_APP_CONFIG : N := 0x03.
Definition OID_GET_APP_CONFIG : N := 0x04.
Definition OID_GET_COUNT : N := 0x05.
Definition OID_GET_STATE : N := 0x06.
Definition OID_UPDATE_CONTROLLER_MULTICAST_LIST : N := 0x07.
Definition OID_UPDATE_DT_ANCHOR_RANGING_ROUNDS : N := 0x08.
Definition OID_UPDATE_DT_TAG_RANGING_ROUNDS : N := 0x09.
Definition OID_QUERY_DATA_SIZE_IN_RANGING : N := 0x0b.
Definition VALUES_SessionConfigOpcodeId : list N :=
  [0x0; 0x1; 0x2; 0x3; 0x4; 0x5; 0x6; 0x7; 0x8; 0x9; 0xb].

(** uci_packets.pdl:73-79 [SessionControlOpcodeId]. *)
Definition OID_START : N := 0x00.
Definition OID_STOP : N := 0x01.
Definition OID_GET_RANGING_COUNT : N := 0x03.
Definition OID_DATA_CREDIT : N := 0x04.
Definition OID_DATA_TRANSFER_STATUS : N := 0x05.
Definition VALUES_SessionControlOpcodeId : list N := [0x0; 0x1; 0x3; 0x4; 0x5].

(** uci_packets.pdl:81-85 [AndroidOpcodeId]. *)
Definition OID_GET_POWER_STATS : N := 0x00.
Definition OID_SET_COUNTRY_CODE : N := 0x01.
Definition VALUES_AndroidOpcodeId : list N := [0x0; 0x1; 0x2].

(** uci_packets.pdl:88-138 [Status] (open enum: every byte is a value). *)
Definition STATUS_OK : N := 0x00.
Definition STATUS_REJECTED : N := 0x01.
Definition STATUS_FAILED : N := 0x02.
Definition STATUS_SYNTAX_ERROR : N := 0x03.
Definition STATUS_INVALID_PARAM : N := 0x04.
Definition STATUS_UNKNOWN_GID : N := 0x07.
Definition STATUS_UNKNOWN_OID : N := 0x08.
Definition STATUS_READ_ONLY : N := 0x09.
Definition STATUS_ERROR_SESSION_NOT_EXIST : N := 0x11.
Definition STATUS_ERROR_SESSION_DUPLICATE : N := 0x12.
Definition STATUS_ERROR_SESSION_ACTIVE : N := 0x13.
Definition STATUS_ERROR_MAX_SESSIONS_EXCEEDED : N := 0x14.
Definition STATUS_ERROR_SESSION_NOT_CONFIGURED : N := 0x15.
Definition STATUS_ERROR_MULTICAST_LIST_FULL : N := 0x17.

(** uci_packets.pdl:148-151 [CreditAvailability]. *)
Definition CREDIT_AVAILABLE : N := 1.

(** uci_packets.pdl:154-163 [DataTransferNtfStatusCode]. *)
Definition DATA_TRANSFER_STATUS_ERROR_REJECTED : N := 0x04.
Definition DATA_TRANSFER_STATUS_SESSION_TYPE_NOT_SUPPORTED : N := 0x05.
Definition DATA_TRANSFER_STATUS_INVALID_FORMAT : N := 0x07.

(** uci_packets.pdl:165-167 [ResetConfig]. *)
Definition UWBS_RESET : N := 0x00.

(** uci_packets.pdl:515-519 [DeviceState]. *)
Inductive device_state : Set := DsReady | DsActive | DsError.
Global Instance device_state_eq_dec : EqDecision device_state.
Proof. solve_decision. Defined.
Definition ds_code (s : device_state) : N :=
  match s with DsReady => 0x01 | DsActive => 0x02 | DsError => 0xff end.
Definition ds_of_code (n : N) : option device_state :=
  if n =? 0x01 then Some DsReady else if n =? 0x02 then Some DsActive
  else if n =? 0xff then Some DsError else None.

(** uci_packets.pdl:521-526 [SessionState]. *)
Inductive session_state : Set := SsInit | SsDeinit | SsActive | SsIdle.
Global Instance session_state_eq_dec : EqDecision session_state.
Proof. solve_decision. Defined.
Definition ss_code (s : session_state) : N :=
  match s with SsInit => 0x00 | SsDeinit => 0x01 | SsActive => 0x02 | SsIdle => 0x03 end.
Definition ss_of_code (n : N) : option session_state :=
  if n =? 0x00 then Some SsInit else if n =? 0x01 then Some SsDeinit
  else if n =? 0x02 then Some SsActive else if n =? 0x03 then Some SsIdle else None.

(** uci_packets.pdl:528-581 [ReasonCode]. *)
Definition REASON_STATE_CHANGE_WITH_SESSION_MANAGEMENT_COMMANDS : N := 0x00.
Definition REASON_SESSION_STOPPED_DUE_TO_INBAND_SIGNAL : N := 0x05.
Definition REASON_ERROR_INVALID_NUM_OF_CONTROLEES : N := 0x33.

(** uci_packets.pdl:584-594 [MulticastUpdateStatus]. *)
Definition OK_MULTICAST_LIST_UPDATE : N := 0x00.
Definition ERROR_MULTICAST_LIST_FULL : N := 0x01.
Definition ERROR_SUB_SESSION_KEY_NOT_APPLICABLE : N := 0x05.
Definition ERROR_ADDRESS_NOT_FOUND : N := 0x07.
Definition ERROR_ADDRESS_ALREADY_PRESENT : N := 0x08.
Definition VALUES_MulticastUpdateStatus : list N := [0; 1; 2; 3; 4; 5; 6; 7; 8].

(** uci_packets.pdl:601-610 [SessionType]. *)
Definition FIRA_RANGING_SESSION : N := 0x00.
Definition FIRA_RANGING_AND_IN_BAND_DATA_SESSION : N := 0x01.
Definition VALUES_SessionType : list N := [0x00; 0x01; 0x02; 0x03; 0x04; 0x05; 0xA0; 0xD0].

(** uci_packets.pdl:1043-1048 [UpdateMulticastListAction]. *)
Inductive multicast_action : Set :=
  | AddControlee | RemoveControlee
  | AddControleeWithShortSubSessionKey | AddControleeWithExtendedSubSessionKey.
Global Instance multicast_action_eq_dec : EqDecision multicast_action.
Proof. solve_decision. Defined.
Definition action_code (a : multicast_action) : N :=
  match a with
  | AddControlee => 0 | RemoveControlee => 1
  | AddControleeWithShortSubSessionKey => 2
  | AddControleeWithExtendedSubSessionKey => 3
  end.
Definition action_of_code (n : N) : option multicast_action :=
  if n =? 0 then Some AddControlee else if n =? 1 then Some RemoveControlee
  else if n =? 2 then Some AddControleeWithShortSubSessionKey
  else if n =? 3 then Some AddControleeWithExtendedSubSessionKey else None.

(** uci_packets.pdl:773-777 [ConfigParameterId] (open enum). *)
Definition CONFIG_DEVICE_STATE : N := 0x00.
Definition CONFIG_LOW_POWER_MODE : N := 0x01.

(** * APP configuration parameter identifiers (uci_packets.pdl:170-266, enum AppConfigTlvType).
    The identifiers handled by app_config.rs have a constructor; every other
    identifier which the enum declares (including the RFU, vendor specific and
    extension ranges) is [T_OTHER] with its byte. *)
Inductive tlv_id : Set :=
  | T_DEVICE_TYPE
  | T_RANGING_ROUND_USAGE
  | T_STS_CONFIG
  | T_MULTI_NODE_MODE
  | T_CHANNEL_NUMBER
  | T_NUMBER_OF_CONTROLEES
  | T_DEVICE_MAC_ADDRESS
  | T_DST_MAC_ADDRESS
  | T_SLOT_DURATION
  | T_RANGING_DURATION
  | T_STS_INDEX
  | T_MAC_FCS_TYPE
  | T_RANGING_ROUND_CONTROL
  | T_AOA_RESULT_REQ
  | T_SESSION_INFO_NTF_CONFIG
  | T_NEAR_PROXIMITY_CONFIG
  | T_FAR_PROXIMITY_CONFIG
  | T_DEVICE_ROLE
  | T_RFRAME_CONFIG
  | T_RSSI_REPORTING
  | T_PREAMBLE_CODE_INDEX
  | T_SFD_ID
  | T_PSDU_DATA_RATE
  | T_PREAMBLE_DURATION
  | T_LINK_LAYER_MODE
  | T_DATA_REPETITION_COUNT
  | T_RANGING_TIME_STRUCT
  | T_SLOTS_PER_RR
  | T_AOA_BOUND_CONFIG
  | T_PRF_MODE
  | T_CAP_SIZE_RANGE
  | T_TX_JITTER_WINDOW_SIZE
  | T_SCHEDULE_MODE
  | T_KEY_ROTATION
  | T_KEY_ROTATION_RATE
  | T_SESSION_PRIORITY
  | T_MAC_ADDRESS_MODE
  | T_VENDOR_ID
  | T_STATIC_STS_IV
  | T_NUMBER_OF_STS_SEGMENTS
  | T_MAX_RR_RETRY
  | T_UWB_INITIATION_TIME
  | T_HOPPING_MODE
  | T_BLOCK_STRIDE_LENGTH
  | T_RESULT_REPORT_CONFIG
  | T_IN_BAND_TERMINATION_ATTEMPT_COUNT
  | T_SUB_SESSION_ID
  | T_BPRF_PHR_DATA_RATE
  | T_MAX_NUMBER_OF_MEASUREMENTS
  | T_STS_LENGTH
  | T_MIN_FRAMES_PER_RR
  | T_MTU_SIZE
  | T_INTER_FRAME_INTERVAL
  | T_SESSION_KEY
  | T_SUB_SESSION_KEY
  | T_SESSION_DATA_TRANSFER_STATUS_NTF_CONFIG
  | T_SESSION_TIME_BASE
  | T_APPLICATION_DATA_ENDPOINT
  | T_OTHER (b : N).

Global Instance tlv_id_eq_dec : EqDecision tlv_id.
Proof. solve_decision. Defined.

(** [u8::from(AppConfigTlvType)] *)
Definition tlv_byte (id : tlv_id) : N :=
  match id with
  | T_DEVICE_TYPE => 0x00
  | T_RANGING_ROUND_USAGE => 0x01
  | T_STS_CONFIG => 0x02
  | T_MULTI_NODE_MODE => 0x03
  | T_CHANNEL_NUMBER => 0x04
  | T_NUMBER_OF_CONTROLEES => 0x05
  | T_DEVICE_MAC_ADDRESS => 0x06
  | T_DST_MAC_ADDRESS => 0x07
  | T_SLOT_DURATION => 0x08
  | T_RANGING_DURATION => 0x09
  | T_STS_INDEX => 0x0A
  | T_MAC_FCS_TYPE => 0x0B
  | T_RANGING_ROUND_CONTROL => 0x0C
  | T_AOA_RESULT_REQ => 0x0D
  | T_SESSION_INFO_NTF_CONFIG => 0x0E
  | T_NEAR_PROXIMITY_CONFIG => 0x0F
  | T_FAR_PROXIMITY_CONFIG => 0x10
  | T_DEVICE_ROLE => 0x11
  | T_RFRAME_CONFIG => 0x12
  | T_RSSI_REPORTING => 0x13
  | T_PREAMBLE_CODE_INDEX => 0x14
  | T_SFD_ID => 0x15
  | T_PSDU_DATA_RATE => 0x16
  | T_PREAMBLE_DURATION => 0x17
  | T_LINK_LAYER_MODE => 0x18
  | T_DATA_REPETITION_COUNT => 0x19
  | T_RANGING_TIME_STRUCT => 0x1A
  | T_SLOTS_PER_RR => 0x1B
  | T_AOA_BOUND_CONFIG => 0x1D
  | T_PRF_MODE => 0x1F
  | T_CAP_SIZE_RANGE => 0x20
  | T_TX_JITTER_WINDOW_SIZE => 0x21
  | T_SCHEDULE_MODE => 0x22
  | T_KEY_ROTATION => 0x23
  | T_KEY_ROTATION_RATE => 0x24
  | T_SESSION_PRIORITY => 0x25
  | T_MAC_ADDRESS_MODE => 0x26
  | T_VENDOR_ID => 0x27
  | T_STATIC_STS_IV => 0x28
  | T_NUMBER_OF_STS_SEGMENTS => 0x29
  | T_MAX_RR_RETRY => 0x2A
  | T_UWB_INITIATION_TIME => 0x2B
  | T_HOPPING_MODE => 0x2C
  | T_BLOCK_STRIDE_LENGTH => 0x2D
  | T_RESULT_REPORT_CONFIG => 0x2E
  | T_IN_BAND_TERMINATION_ATTEMPT_COUNT => 0x2F
  | T_SUB_SESSION_ID => 0x30
  | T_BPRF_PHR_DATA_RATE => 0x31
  | T_MAX_NUMBER_OF_MEASUREMENTS => 0x32
  | T_STS_LENGTH => 0x35
  | T_MIN_FRAMES_PER_RR => 0x3A
  | T_MTU_SIZE => 0x3B
  | T_INTER_FRAME_INTERVAL => 0x3C
  | T_SESSION_KEY => 0x45
  | T_SUB_SESSION_KEY => 0x46
  | T_SESSION_DATA_TRANSFER_STATUS_NTF_CONFIG => 0x47
  | T_SESSION_TIME_BASE => 0x48
  | T_APPLICATION_DATA_ENDPOINT => 0x4C
  | T_OTHER b => b
  end.

(** The identifiers handled by [AppConfig::set] and [AppConfig::get]. *)
Definition known_tlvs : list tlv_id :=
  [ T_DEVICE_TYPE; T_RANGING_ROUND_USAGE; T_STS_CONFIG; T_MULTI_NODE_MODE; T_CHANNEL_NUMBER; T_NUMBER_OF_CONTROLEES; T_DEVICE_MAC_ADDRESS; T_DST_MAC_ADDRESS; T_SLOT_DURATION; T_RANGING_DURATION; T_STS_INDEX; T_MAC_FCS_TYPE; T_RANGING_ROUND_CONTROL; T_AOA_RESULT_REQ; T_SESSION_INFO_NTF_CONFIG; T_NEAR_PROXIMITY_CONFIG; T_FAR_PROXIMITY_CONFIG; T_DEVICE_ROLE; T_RFRAME_CONFIG; T_RSSI_REPORTING; T_PREAMBLE_CODE_INDEX; T_SFD_ID; T_PSDU_DATA_RATE; T_PREAMBLE_DURATION; T_LINK_LAYER_MODE; T_DATA_REPETITION_COUNT; T_RANGING_TIME_STRUCT; T_SLOTS_PER_RR; T_AOA_BOUND_CONFIG; T_PRF_MODE; T_CAP_SIZE_RANGE; T_TX_JITTER_WINDOW_SIZE; T_SCHEDULE_MODE; T_KEY_ROTATION; T_KEY_ROTATION_RATE; T_SESSION_PRIORITY; T_MAC_ADDRESS_MODE; T_VENDOR_ID; T_STATIC_STS_IV; T_NUMBER_OF_STS_SEGMENTS; T_MAX_RR_RETRY; T_UWB_INITIATION_TIME; T_HOPPING_MODE; T_BLOCK_STRIDE_LENGTH; T_RESULT_REPORT_CONFIG; T_IN_BAND_TERMINATION_ATTEMPT_COUNT; T_SUB_SESSION_ID; T_BPRF_PHR_DATA_RATE; T_MAX_NUMBER_OF_MEASUREMENTS; T_STS_LENGTH; T_MIN_FRAMES_PER_RR; T_MTU_SIZE; T_INTER_FRAME_INTERVAL; T_SESSION_KEY; T_SUB_SESSION_KEY; T_SESSION_DATA_TRANSFER_STATUS_NTF_CONFIG; T_SESSION_TIME_BASE; T_APPLICATION_DATA_ENDPOINT ].

(** uci_packets.pdl:170-266: the bytes which are not an [AppConfigTlvType]. *)
Definition tlv_invalid : list N := [0x1C; 0x1E; 0x33; 0x34; 0x36; 0x37; 0x38; 0x39].

(** [AppConfigTlvType::try_from(u8)] *)
Definition tlv_of_byte (b : N) : option tlv_id :=
  match List.find (fun id => tlv_byte id =? b) known_tlvs with
  | Some id => Some id
  | None => if (b <? 256) && negb (existsb (N.eqb b) tlv_invalid)
            then Some (T_OTHER b) else None
  end.
