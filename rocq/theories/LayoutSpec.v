(** Small specification of the bytes of every message and every command, from the tables of the UCI specification. Nothing
    is shared with the encoders and decoders of the model: the numbers are written out. *)
From Verif Require Import Base Uci MacAddress Codec.

(** Little-endian integers. *)
Definition le16 (n : N) : bytes := [n mod 256; n / 256 mod 256].
Definition le32 (n : N) : bytes := [n mod 256; n / 256 mod 256; n / 65536 mod 256; n / 16777216 mod 256].
Definition le64 (n : N) : bytes := le32 n ++ le32 (n / 4294967296).
(** A list preceded by its number of elements, an octet. *)
Definition count_then {A} (f : A -> bytes) (l : list A) : bytes := N.of_nat (length l) :: concat (map f l).
Definition length_then (v : bytes) : bytes := N.of_nat (length v) :: v.

Definition device_state_byte (s : device_state) : N := match s with DsReady => 0x01 | DsActive => 0x02 | DsError => 0xFF end.
Definition session_state_byte (s : session_state) : N := match s with SsInit => 0 | SsDeinit => 1 | SsActive => 2 | SsIdle => 3 end.
Definition action_byte (a : multicast_action) : N :=
  match a with
  | AddControlee => 0 | RemoveControlee => 1 | AddControleeWithShortSubSessionKey => 2 | AddControleeWithExtendedSubSessionKey => 3
  end.
Definition config_id_byte (id : tlv_id) : N :=
  match id with
  | T_DEVICE_TYPE => 0x00
  | T_RANGING_ROUND_USAGE => 0x01
  | T_STS_CONFIG => 0x02
  | T_MULTI_NODE_MODE => 0x03
  | T_CHANNEL_NUMBER => 0x04
  | T_NUMBER_OF_CONTROLEES => 0x05
  | T_DEVICE_MAC_ADDRESS => 0x06
  | T_DST_MAC_ADDRESS => 0x07
  | T_SLOT_DURATION => 0x08
  | T_RANGING_DURATION => 0x09
  | T_STS_INDEX => 0x0A
  | T_MAC_FCS_TYPE => 0x0B
  | T_RANGING_ROUND_CONTROL => 0x0C
  | T_AOA_RESULT_REQ => 0x0D
  | T_SESSION_INFO_NTF_CONFIG => 0x0E
  | T_NEAR_PROXIMITY_CONFIG => 0x0F
  | T_FAR_PROXIMITY_CONFIG => 0x10
  | T_DEVICE_ROLE => 0x11
  | T_RFRAME_CONFIG => 0x12
  | T_RSSI_REPORTING => 0x13
  | T_PREAMBLE_CODE_INDEX => 0x14
  | T_SFD_ID => 0x15
  | T_PSDU_DATA_RATE => 0x16
  | T_PREAMBLE_DURATION => 0x17
  | T_LINK_LAYER_MODE => 0x18
  | T_DATA_REPETITION_COUNT => 0x19
  | T_RANGING_TIME_STRUCT => 0x1A
  | T_SLOTS_PER_RR => 0x1B
  | T_AOA_BOUND_CONFIG => 0x1D
  | T_PRF_MODE => 0x1F
  | T_CAP_SIZE_RANGE => 0x20
  | T_TX_JITTER_WINDOW_SIZE => 0x21
  | T_SCHEDULE_MODE => 0x22
  | T_KEY_ROTATION => 0x23
  | T_KEY_ROTATION_RATE => 0x24
  | T_SESSION_PRIORITY => 0x25
  | T_MAC_ADDRESS_MODE => 0x26
  | T_VENDOR_ID => 0x27
  | T_STATIC_STS_IV => 0x28
  | T_NUMBER_OF_STS_SEGMENTS => 0x29
  | T_MAX_RR_RETRY => 0x2A
  | T_UWB_INITIATION_TIME => 0x2B
  | T_HOPPING_MODE => 0x2C
  | T_BLOCK_STRIDE_LENGTH => 0x2D
  | T_RESULT_REPORT_CONFIG => 0x2E
  | T_IN_BAND_TERMINATION_ATTEMPT_COUNT => 0x2F
  | T_SUB_SESSION_ID => 0x30
  | T_BPRF_PHR_DATA_RATE => 0x31
  | T_MAX_NUMBER_OF_MEASUREMENTS => 0x32
  | T_STS_LENGTH => 0x35
  | T_MIN_FRAMES_PER_RR => 0x3A
  | T_MTU_SIZE => 0x3B
  | T_INTER_FRAME_INTERVAL => 0x3C
  | T_SESSION_KEY => 0x45
  | T_SUB_SESSION_KEY => 0x46
  | T_SESSION_DATA_TRANSFER_STATUS_NTF_CONFIG => 0x47
  | T_SESSION_TIME_BASE => 0x48
  | T_APPLICATION_DATA_ENDPOINT => 0x4C
  | T_OTHER b => b
  end.

Definition measurement_layout (m : measurement) : bytes :=
  le16 (m_mac_address m) ++ [m_status m; m_nlos m] ++ le16 (m_distance m) ++ le16 (m_aoa_azimuth m) ++ [m_aoa_azimuth_fom m]
  ++ le16 (m_aoa_elevation m) ++ [m_aoa_elevation_fom m] ++ le16 (m_aoa_destination_azimuth m) ++ [m_aoa_destination_azimuth_fom m]
  ++ le16 (m_aoa_destination_elevation m) ++ [m_aoa_destination_elevation_fom m] ++ [m_slot_index m; m_rssi m]
  ++ [0; 0; 0; 0; 0; 0; 0; 0; 0; 0; 0].

(** The message types are 0x40 (response), 0x60 (notification) and 0x00 (data) in the first octet, with the group, or the
    format of the data packet, in the low bits; the opcode is in the second octet. *)
Definition layout (m : msg) : bytes :=
  match m with
  | CoreDeviceResetRsp st => [0x40; 0x00; 0; 0; st]
  | CoreDeviceStatusNtf s => [0x60; 0x01; 0; 0; device_state_byte s]
  | CoreGetDeviceInfoRsp st uci mac phy test vendor =>
      [0x40; 0x02; 0; 0; st] ++ le16 uci ++ le16 mac ++ le16 phy ++ le16 test ++ length_then vendor
  | CoreGetCapsInfoRsp st l => [0x40; 0x03; 0; 0; st] ++ count_then (fun tv => tv.1 :: length_then tv.2) l
  | CoreSetConfigRsp st l => [0x40; 0x04; 0; 0; st] ++ count_then (fun p => [p.1; p.2]) l
  | CoreGetConfigRsp st l => [0x40; 0x05; 0; 0; st] ++ count_then (fun tv => tv.1 :: length_then tv.2) l
  | SessionInitRsp st => [0x41; 0x00; 0; 0; st]
  | SessionDeinitRsp st => [0x41; 0x01; 0; 0; st]
  | SessionStatusNtf token s reason => [0x61; 0x02; 0; 0] ++ le32 token ++ [session_state_byte s; reason]
  | SessionSetAppConfigRsp st l => [0x41; 0x03; 0; 0; st] ++ count_then (fun p => [config_id_byte p.1; p.2]) l
  | SessionGetAppConfigRsp st l => [0x41; 0x04; 0; 0; st] ++ count_then (fun tv => config_id_byte tv.1 :: length_then tv.2) l
  | SessionGetCountRsp st count => [0x41; 0x05; 0; 0; st; count]
  | SessionGetStateRsp st s => [0x41; 0x06; 0; 0; st; session_state_byte s]
  | SessionUpdateControllerMulticastListRsp st l => [0x41; 0x07; 0; 0; st] ++ count_then (fun p => p.1 ++ [p.2]) l
  | SessionUpdateControllerMulticastListNtf token l => [0x61; 0x07; 0; 0] ++ le32 token ++ count_then (fun p => p.1 ++ [p.2]) l
  | SessionDataCreditNtf token credit => [0x62; 0x04; 0; 0] ++ le32 token ++ [credit]
  | SessionDataTransferStatusNtf token seq st tx => [0x62; 0x05; 0; 0] ++ le32 token ++ [seq; st; tx]
  | SessionStartRsp st => [0x42; 0x00; 0; 0; st]
  | SessionInfoNtf seq token rcr interval l vendor =>
      [0x62; 0x00; 0; 0] ++ le32 seq ++ le32 token ++ [rcr] ++ le32 interval
      ++ [1 (* two-way ranging *); 0; 0 (* short addresses *); 0; 0; 0; 0; 0; 0; 0; 0] ++ count_then measurement_layout l ++ vendor
  | SessionStopRsp st => [0x42; 0x01; 0; 0; st]
  | SessionGetRangingCountRsp st count => [0x42; 0x03; 0; 0; st] ++ le32 count
  | AndroidGetPowerStatsRsp st idle tx rx wake => [0x4C; 0x00; 0; 0; st] ++ le32 idle ++ le32 tx ++ le32 rx ++ le32 wake
  | AndroidSetCountryCodeRsp st => [0x4C; 0x01; 0; 0; st]
  | UnknownGroupRsp gid b1 b2 => [0x40 + gid; b1; b2; 1; 0x07 (* UNKNOWN_GID *)]
  | UnknownCmdRsp gid oid st => [0x40 + gid; oid; 0; 1; st]
  | DataMessageRcv handle st source seq data =>
      [0x02; 0; 0; 0] ++ le32 handle ++ [st] ++ le64 source ++ le16 seq ++ le16 (N.of_nat (length data)) ++ data
  end.

(** Of the commands: the group, the opcode and the arguments. *)
Definition command_layout (c : command) : N * N * bytes :=
  match c with
  | CmdDeviceReset r => (0x0, 0x00, [r])
  | CmdGetDeviceInfo => (0x0, 0x02, [])
  | CmdGetCapsInfo => (0x0, 0x03, [])
  | CmdSetConfig l => (0x0, 0x04, count_then (fun p => p.1 :: length_then p.2) l)
  | CmdGetConfig l => (0x0, 0x05, count_then (fun id => [id]) l)
  | CmdSessionInit id ty => (0x1, 0x00, le32 id ++ [ty])
  | CmdSessionDeinit id => (0x1, 0x01, le32 id)
  | CmdSetAppConfig id l => (0x1, 0x03, le32 id ++ count_then (fun p => config_id_byte p.1 :: length_then p.2) l)
  | CmdGetAppConfig id l => (0x1, 0x04, le32 id ++ count_then (fun i => [config_id_byte i]) l)
  | CmdGetCount => (0x1, 0x05, [])
  | CmdGetState id => (0x1, 0x06, le32 id)
  | CmdMulticast id a payload => (0x1, 0x07, le32 id ++ [action_byte a] ++ payload)
  | CmdStart id => (0x2, 0x00, le32 id)
  | CmdStop id => (0x2, 0x01, le32 id)
  | CmdGetRangingCount id => (0x2, 0x03, le32 id)
  | CmdGetPowerStats => (0xC, 0x00, [])
  | CmdSetCountryCode code => (0xC, 0x01, code)
  end.
