(** Model of the interactive console py/pica/console.py: what each of its commands sends to the
    UCI port, and which HTTP request it makes.
    The line typed by the user is given as a command with typed arguments: ConsoleLine.v models
    the splitting of the line and the conversion of the texts. Simplified: the completion is left
    out; the printing of what is received (console.py:360-388) is that of the library (PyHost.v). *)
From Coq Require Import Strings.String.
From Verif Require Import Base Uci MacAddress Codec Transport PyHost Pica Http Json.

(** ** Names of the library
    The names defined by the module py/pica/pica/packets/uci.py: its imports (uci.py:4-8) and its
    classes. *)
Definition uci_names : list string :=
  [
    "dataclass"; "field"; "fields"; "Optional"; "List"; "Tuple"; "Union"; "enum"; "inspect"; "math"; "Packet";
    "PacketBoundaryFlag"; "MessageType"; "GroupId"; "DataPacketFormat"; "CoreOpcodeId";
    "SessionConfigOpcodeId"; "SessionControlOpcodeId"; "AndroidOpcodeId"; "Status"; "DataRcvStatusCode";
    "CreditAvailability"; "DataTransferNtfStatusCode"; "ResetConfig"; "AppConfigTlvType"; "DeviceType";
    "RangingRoundUsage"; "StsConfig"; "MultiNodeMode"; "ChannelNumber"; "MacFcsType"; "RangingRoundControl";
    "AoaResultReq"; "SessionInfoNtfConfig"; "DeviceRole"; "RframeConfig"; "RssiReporting"; "PsduDataRate";
    "PreambleDuration"; "LinkLayerMode"; "RangingTimeStruct"; "PrfMode"; "ScheduleMode"; "KeyRotation";
    "MacAddressMode"; "HoppingMode"; "ResultReportConfig"; "BprfPhrDataRate"; "StsLength";
    "DlTdoaRangingMethod"; "DlTdoaAnchorCfo"; "SessionDataTransferStatusNtfConfig"; "CapTlvType";
    "AoaResultReqType"; "DeviceState"; "SessionState"; "ReasonCode"; "MulticastUpdateStatus";
    "MacAddressIndicator"; "SessionType"; "CommonPacketHeader"; "ControlPacketHeader"; "DataPacketHeader";
    "ControlPacket"; "DataPacket"; "DataMessageSnd"; "DataMessageRcv"; "CorePacket"; "SessionConfigPacket";
    "SessionControlPacket"; "AndroidPacket"; "CoreDeviceResetCmd"; "CoreDeviceResetRsp";
    "CoreDeviceStatusNtf"; "CoreGetDeviceInfoCmd"; "CoreGetDeviceInfoRsp"; "CoreGetCapsInfoCmd"; "CapTlv";
    "CoreGetCapsInfoRsp"; "ConfigParameterId"; "ConfigParameter"; "CoreSetConfigCmd"; "ConfigParameterStatus";
    "CoreSetConfigRsp"; "CoreGetConfigCmd"; "CoreGetConfigRsp"; "CoreGenericErrorNtf";
    "CoreQueryTimeStampCmd"; "CoreQueryTimeStampRsp"; "SessionInitCmd"; "SessionInitRsp_V2"; "SessionInitRsp";
    "SessionDeinitCmd"; "SessionDeinitRsp"; "SessionStatusNtf"; "AppConfigTlv"; "SessionSetAppConfigCmd";
    "AppConfigStatus"; "SessionSetAppConfigRsp"; "SessionGetAppConfigCmd"; "SessionGetAppConfigRsp";
    "SessionGetCountCmd"; "SessionGetCountRsp"; "SessionGetStateCmd"; "SessionGetStateRsp";
    "SessionUpdateDtAnchorRangingRoundsCmd"; "SessionUpdateDtAnchorRangingRoundsRsp";
    "SessionUpdateDtTagRangingRoundsCmd"; "SessionUpdateDtTagRangingRoundsRsp"; "Controlee";
    "Controlee_V2_0_16_Byte_Version"; "Controlee_V2_0_32_Byte_Version"; "UpdateMulticastListAction";
    "SessionUpdateControllerMulticastListCmd"; "SessionUpdateControllerMulticastListCmdPayload";
    "SessionUpdateControllerMulticastListCmd_2_0_16_Byte_Payload";
    "SessionUpdateControllerMulticastListCmd_2_0_32_Byte_Payload"; "SessionUpdateControllerMulticastListRsp";
    "ControleeStatus"; "SessionUpdateControllerMulticastListNtf"; "SessionDataCreditNtf";
    "SessionDataTransferStatusNtf"; "SessionQueryMaxDataSizeInRangingCmd";
    "SessionQueryMaxDataSizeInRangingRsp"; "SessionStartCmd"; "SessionStartRsp";
    "ShortAddressTwoWayRangingMeasurement"; "ExtendedAddressTwoWayRangingMeasurement";
    "ShortAddressOwrAoaRangingMeasurement"; "ExtendedAddressOwrAoaRangingMeasurement"; "Wgs84Location";
    "RelativeLocation"; "DlTdoaRangingMeasurement"; "ShortAddressDlTdoaRangingMeasurement";
    "ExtendedAddressDlTdoaRangingMeasurement"; "RangingMeasurementType"; "SessionInfoNtf";
    "ShortMacTwoWaySessionInfoNtf"; "ExtendedMacTwoWaySessionInfoNtf"; "ShortMacDlTDoASessionInfoNtf";
    "ExtendedMacDlTDoASessionInfoNtf"; "ShortMacOwrAoaSessionInfoNtf"; "ExtendedMacOwrAoaSessionInfoNtf";
    "SessionStopCmd"; "SessionStopRsp"; "SessionGetRangingCountCmd"; "SessionGetRangingCountRsp";
    "AndroidGetPowerStatsCmd"; "PowerStats"; "AndroidGetPowerStatsRsp"; "AndroidSetCountryCodeCmd";
    "AndroidSetCountryCodeRsp"; "FrameReportTlvType"; "FrameReportTlv"; "FrameReportTlvPacket"; "Rssi";
    "AoaMeasurement"; "Aoa"; "CirValue"; "Cir"; "FrameReport"; "AndroidRangeDiagnosticsNtf"
  ]%string.
(** The members of the enum [AppConfigTlvType] (uci.py:308-379). *)
Definition app_config_names : list string :=
  [
    "DEVICE_TYPE"; "RANGING_ROUND_USAGE"; "STS_CONFIG"; "MULTI_NODE_MODE"; "CHANNEL_NUMBER";
    "NUMBER_OF_CONTROLEES"; "DEVICE_MAC_ADDRESS"; "DST_MAC_ADDRESS"; "SLOT_DURATION"; "RANGING_DURATION";
    "STS_INDEX"; "MAC_FCS_TYPE"; "RANGING_ROUND_CONTROL"; "AOA_RESULT_REQ"; "SESSION_INFO_NTF_CONFIG";
    "NEAR_PROXIMITY_CONFIG"; "FAR_PROXIMITY_CONFIG"; "DEVICE_ROLE"; "RFRAME_CONFIG"; "RSSI_REPORTING";
    "PREAMBLE_CODE_INDEX"; "SFD_ID"; "PSDU_DATA_RATE"; "PREAMBLE_DURATION"; "LINK_LAYER_MODE";
    "DATA_REPETITION_COUNT"; "RANGING_TIME_STRUCT"; "SLOTS_PER_RR"; "AOA_BOUND_CONFIG"; "PRF_MODE";
    "CAP_SIZE_RANGE"; "TX_JITTER_WINDOW_SIZE"; "SCHEDULE_MODE"; "KEY_ROTATION"; "KEY_ROTATION_RATE";
    "SESSION_PRIORITY"; "MAC_ADDRESS_MODE"; "VENDOR_ID"; "STATIC_STS_IV"; "NUMBER_OF_STS_SEGMENTS";
    "MAX_RR_RETRY"; "UWB_INITIATION_TIME"; "HOPPING_MODE"; "BLOCK_STRIDE_LENGTH"; "RESULT_REPORT_CONFIG";
    "IN_BAND_TERMINATION_ATTEMPT_COUNT"; "SUB_SESSION_ID"; "BPRF_PHR_DATA_RATE"; "MAX_NUMBER_OF_MEASUREMENTS";
    "STS_LENGTH"; "MIN_FRAMES_PER_RR"; "MTU_SIZE"; "INTER_FRAME_INTERVAL"; "DL_TDOA_RANGING_METHOD";
    "DL_TDOA_TX_TIMESTAMP_CONF"; "DL_TDOA_HOP_COUNT"; "DL_TDOA_ANCHOR_CFO"; "DL_TDOA_ANCHOR_LOCATION";
    "DL_TDOA_TX_ACTIVE_RANGING_ROUNDS"; "DL_TDOA_BLOCK_SKIPPING"; "DL_TDOA_TIME_REFERENCE_ANCHOR";
    "SESSION_KEY"; "SUB_SESSION_KEY"; "SESSION_DATA_TRANSFER_STATUS_NTF_CONFIG"; "SESSION_TIME_BASE";
    "DL_TDOA_RESPONDER_TOF"; "SECURE_RANGING_NEFA_LEVEL"; "SECURE_RANGING_CSW_LENGTH";
    "APPLICATION_DATA_ENDPOINT"; "OWR_AOA_MEASUREMENT_NTF_PERIOD"
  ]%string.
(** [uci.X]: raises [AttributeError] if the module does not define it. *)
Definition attribute (defined : list string) (name : string) : option unit :=
  if bool_decide (name ∈ defined) then Some tt else None.

(** ** Commands *)
Inductive console_command : Set :=
  | KDeviceReset                                                     (* console.py:146 *)
  | KGetDeviceInfo                                                   (* console.py:152 *)
  | KGetCapsInfo                                                     (* console.py:156 *)
  | KSetConfig (low_power_mode : Z)                                  (* console.py:160 *)
  | KGetConfig                                                       (* console.py:173 *)
  | KSessionInit (session_id : Z)                                    (* console.py:184 *)
  | KSessionDeinit (session_id : Z)                                  (* console.py:193 *)
  | KSetAppConfig (session_id ranging_interval : Z) (dst : list bytes) (* console.py:197 *)
  | KGetAppConfig (session_id : Z)                                   (* console.py:244 *)
  | KGetCount                                                        (* console.py:250 *)
  | KGetState (session_id : Z)                                       (* console.py:254 *)
  | KMulticast (session_id : Z) (add_or_remove : option bool) (mac_address subsession_id : Z) (* console.py:258 *)
  | KStart (session_id : Z)                                          (* console.py:291 *)
  | KStop (session_id : Z)                                           (* console.py:295 *)
  | KGetRangingCount (session_id : Z)                                (* console.py:299 *)
  | KDataTransfer (dst : bytes) (file : option bytes) (session_id : Z). (* console.py:305; no file: it cannot be read *)

(** [int.to_bytes] of a negative number raises [OverflowError] (in [serialize]). *)
Definition py_unsigned (z : Z) : option N := if (z <? 0)%Z then None else Some (Z.to_N z).
(** [int(..).to_bytes(k, byteorder="little")] *)
Definition py_to_bytes (k : nat) (z : Z) : option bytes :=
  n ← py_unsigned z; if n <? 256 ^ N.of_nat k then Some (le_bytes k n) else None.
(** [bytes([z])] *)
Definition py_byte (z : Z) : option bytes := py_to_bytes 1 z.
(** [self.host.send_control(c)] *)
Definition send (c : command) : option (list bytes) := p ← py_send_command c; Some [p].
(** [int.from_bytes(b)]: big endian. *)
Definition py_from_bytes (b : bytes) : N := fold_left (fun n x => 256 * n + x) b 0.

(** console.py:197-242 [session_set_app_config]: the address mode and the destination addresses. *)
Definition console_address_len (dst : list bytes) : nat := if existsb (fun a => Nat.ltb 2 (length a)) dst then 8 else 2.
Definition console_address_mode (dst : list bytes) : N := if existsb (fun a => Nat.ltb 2 (length a)) dst then 0x2 else 0x0.
Definition console_addresses (dst : list bytes) : bytes :=
  concat (map (fun a => a ++ repeat 0 (console_address_len dst - length a)) dst).

(** What a command writes to the connection. [None]: an exception, which [command_line]
    (console.py:471-491) does not catch: the console ends. The attributes are looked up in the
    order of evaluation; no byte is written before the last one. *)
Definition console (k : console_command) : option (list bytes) :=
  let uci := attribute uci_names in
  match k with
  | KDeviceReset => _ ← uci "DeviceResetCmd"%string; _ ← uci "ResetConfig"%string; send (CmdDeviceReset 0)
  | KGetDeviceInfo => _ ← uci "GetDeviceInfoCmd"%string; send CmdGetDeviceInfo
  | KGetCapsInfo => _ ← uci "GetCapsInfoCmd"%string; send CmdGetCapsInfo
  | KSetConfig mode =>
      _ ← uci "SetConfigCmd"%string; _ ← uci "DeviceConfigTlv"%string; _ ← uci "DeviceConfigId"%string;
      v ← py_byte mode; send (CmdSetConfig [(1, v)])
  | KGetConfig => _ ← uci "GetConfigCmd"%string; _ ← uci "DeviceConfigId"%string; send (CmdGetConfig [1; 0])
  | KSessionInit id =>
      _ ← uci "SessionInitCmd"%string; _ ← uci "SessionType"%string;
      id ← py_unsigned id; send (CmdSessionInit id 1)
  | KSessionDeinit id => _ ← uci "SessionDeinitCmd"%string; id ← py_unsigned id; send (CmdSessionDeinit id)
  | KSetAppConfig id interval dst =>
      _ ← uci "SessionSetAppConfigCmd"%string; _ ← uci "AppConfigTlv"%string; _ ← uci "AppConfigTlvType"%string;
      _ ← attribute app_config_names "MAC_ADDRESS_MODE"%string;
      _ ← attribute app_config_names "RANGING_DURATION"%string; duration ← py_to_bytes 4 interval;
      _ ← attribute app_config_names "NO_OF_CONTROLEE"%string; n ← py_byte (Z.of_nat (length dst));
      _ ← attribute app_config_names "DST_MAC_ADDRESS"%string;
      id ← py_unsigned id;
      send (CmdSetAppConfig id [(T_MAC_ADDRESS_MODE, [console_address_mode dst]); (T_RANGING_DURATION, duration);
                                (T_NUMBER_OF_CONTROLEES, n); (T_DST_MAC_ADDRESS, console_addresses dst)])
  | KGetAppConfig id =>
      _ ← uci "SessionGetAppConfigCmd"%string; id ← py_unsigned id; send (CmdGetAppConfig id [T_RANGING_DURATION])
  | KGetCount => _ ← uci "SessionGetCountCmd"%string; send CmdGetCount
  | KGetState id => _ ← uci "SessionGetStateCmd"%string; id ← py_unsigned id; send (CmdGetState id)
  | KMulticast id None _ _ => Some []
  | KMulticast id (Some add) mac sub =>
      _ ← uci "UpdateMulticastListAction"%string; _ ← uci "SessionUpdateControllerMulticastListCmd"%string;
      _ ← uci "SessionUpdateControllerMulticastListCmdPayload"%string; _ ← uci "Controlee"%string;
      mac ← py_to_bytes 2 mac; sub ← py_unsigned sub; id ← py_unsigned id;
      send (CmdMulticast id (if add then AddControlee else RemoveControlee) (py_ser_controlees [(mac, sub, [])]))
  | KStart id => _ ← uci "SessionStartCmd"%string; id ← py_unsigned id; send (CmdStart id)
  | KStop id => _ ← uci "SessionStopCmd"%string; id ← py_unsigned id; send (CmdStop id)
  | KGetRangingCount id => _ ← uci "SessionGetRangingCountCmd"%string; id ← py_unsigned id; send (CmdGetRangingCount id)
  | KDataTransfer dst file id =>
      (* console.py:357: any exception is printed; the first packet is where one can occur *)
      Some (default [] (
        file ← file; _ ← uci "DataMessageSnd"%string; _ ← uci "PacketBoundaryFlag"%string;
        id ← py_unsigned id; py_data_transfer id (py_from_bytes dst) file))
  end.
(** console.py:471-491: the packets written by a list of commands, until one raises; whether one did. *)
Fixpoint console_session (ks : list console_command) : list bytes * bool :=
  match ks with
  | [] => ([], false)
  | k :: ks =>
      match console k with
      | None => ([], true)
      | Some ps => let '(qs, failed) := console_session ks in (ps ++ qs, failed)
      end
  end.

(** ** HTTP requests *)
Inductive web_command : Type :=
  | WGetState                                                        (* console.py:54 *)
  | WInitUciDevice (mac : bytes) (x y z yaw pitch roll : Z)          (* console.py:60 *)
  | WCreateAnchor (mac : bytes) (x y z yaw pitch roll : Z)           (* console.py:87 *)
  | WDestroyAnchor (mac : bytes)                                     (* console.py:114 *)
  | WSetPosition (mac : bytes) (x y z yaw pitch roll : Z).           (* console.py:119 *)
(** [json.dumps] of a dictionary of integers: the separators are ", " and ": ". *)
Fixpoint dumps_members (l : list (bytes * bytes)) : bytes :=
  match l with
  | [] => []
  | [(k, v)] => quote k ++ str ": " ++ v
  | (k, v) :: l => quote k ++ str ": " ++ v ++ str ", " ++ dumps_members l
  end.
Definition dumps (x y z yaw pitch roll : Z) : bytes :=
  str "{" ++ dumps_members [(str "x", integer x); (str "y", integer y); (str "z", integer z);
          (str "yaw", integer yaw); (str "pitch", integer pitch); (str "roll", integer roll)] ++ str "}".
(** The path and the body of the request. The address is inserted as it is typed; simplified: it
    has none of the characters which [requests] treats specially in an address (such as # and ?). *)
Definition console_request (k : web_command) : bytes * bytes :=
  match k with
  | WGetState => (str "/get-state", [])
  | WInitUciDevice mac x y z yaw pitch roll => (str "/init-uci-device/" ++ mac, dumps x y z yaw pitch roll)
  | WCreateAnchor mac x y z yaw pitch roll => (str "/create-anchor/" ++ mac, dumps x y z yaw pitch roll)
  | WDestroyAnchor mac => (str "/destroy-anchor/" ++ mac, [])
  | WSetPosition mac x y z yaw pitch roll => (str "/set-position/" ++ mac, dumps x y z yaw pitch roll)
  end.
