(** Model of the packet classes of the reference Python host, py/pica/pica/packets/uci.py
    (generated by the Python backend of pdl-compiler and committed to the repository): the
    parser of what a controller sends, the serialiser of the commands, and the file transfer of
    py/pica/console.py. A raised exception is [None]. *)
From Verif Require Import Base Uci Codec Transport.

(** ** Parsed objects
    [PyMsg m] is an instance of the class named like the constructor of [m], whose fields have
    the values of the arguments. [PyMsg (SessionInfoNtf _ ..)] is [ShortMacTwoWaySessionInfoNtf].
    The integers of the enums which accept unknown values ([Status], [CapTlvType],
    [ConfigParameterId], [AppConfigTlvType]) are compared as integers, as IntEnum does. *)
Inductive py_packet : Set :=
  | PyMsg (m : msg)
  | PyCoreGenericErrorNtf (status : N)                                   (* uci.py:2327 *)
  | PyCoreQueryTimeStampRsp (status timestamp : N)                       (* uci.py:2378 *)
  | PySessionInitRsp_V2 (status handle : N)                              (* uci.py:2448 *)
  | PySessionUpdateDtAnchorRangingRoundsRsp                              (* uci.py:2995 *)
  | PySessionUpdateDtTagRangingRoundsRsp (status : N) (indexes : bytes)  (* uci.py:3061 *)
  | PySessionUpdateControllerMulticastListRsp (status : N)               (* uci.py:3381 *)
  | PySessionQueryMaxDataSizeInRangingRsp (token size : N)               (* uci.py:3601 *)
  | PySessionInfoNtf (seq token rcr interval type indicator : N) (payload : bytes)  (* uci.py:4451 *)
  | PyCorePacket (mt : message_type) (oid : N) (payload : bytes)         (* uci.py:1333 *)
  | PySessionConfigPacket (mt : message_type) (oid : N) (payload : bytes)  (* uci.py:1463 *)
  | PySessionControlPacket (mt : message_type) (oid : N) (payload : bytes) (* uci.py:1656 *)
  | PyAndroidPacket (mt : message_type) (oid : N) (payload : bytes)      (* uci.py:1751 *)
  | PyControlPacket (mt : message_type) (gid : N) (payload : bytes)      (* uci.py:1104 *)
  | PyDataMessageSnd (handle dst seq : N) (data : bytes)                 (* uci.py:1222 *)
  | PyDataPacket (dpf : N) (payload : bytes).                            (* uci.py:1167 *)

(** ** Fields *)

(** [if len(span) < k: raise]. *)
Definition py_need (k : nat) (span : bytes) : option unit :=
  if Nat.ltb (length span) k then None else Some tt.
(** [int.from_bytes(span[i:j], byteorder='little')]. *)
Definition py_int (i j : nat) (span : bytes) : N := le_nat (take (j - i) (drop i span)).
(** [span[i]], after the length check. *)
Definition py_at (i : nat) (span : bytes) : N := nth i span 0.

(** An array of elements of [k] bytes, after its count (uci.py:2742-2747):
    [parse_all(span[n * k:(n + 1) * k])] for each [n]. *)
Fixpoint py_elements {A} (n k : nat) (parse : bytes -> option (A * bytes)) (span : bytes)
    : option (list A) :=
  match n with
  | O => Some []
  | S n =>
      '(x, rest) ← parse (take k span);
      match rest with
      | _ :: _ => None (* parse_all: uci.py:18 *)
      | [] => l ← py_elements n k parse (drop k span); Some (x :: l)
      end
  end.
Definition py_array {A} (count : N) (k : nat) (parse : bytes -> option (A * bytes)) (span : bytes)
    : option (list A * bytes) :=
  let size := (N.to_nat count * k)%nat in
  _ ← py_need size span;
  l ← py_elements (N.to_nat count) k parse span;
  Some (l, drop size span).
(** An array of elements of variable size (uci.py:2830-2835). *)
Fixpoint py_sequence {A} (n : nat) (parse : bytes -> option (A * bytes)) (span : bytes)
    : option (list A * bytes) :=
  match n with
  | O => Some ([], span)
  | S n => '(x, span) ← parse span; '(l, span) ← py_sequence n parse span; Some (x :: l, span)
  end.
(** [list(span[:n])] after the length check (uci.py:1958-1961). *)
Definition py_slice (n : N) (span : bytes) : option (bytes * bytes) :=
  _ ← py_need (N.to_nat n) span; Some (take (N.to_nat n) span, drop (N.to_nat n) span).

(** [from_int] of an enum without unknown values: [ValueError] (e.g. uci.py:290). *)
Definition py_enum (values : list N) (v : N) : option N := member values v.
Definition py_AppConfigTlvType (v : N) : tlv_id := (* uci.py:381-385: never raises *)
  match tlv_of_byte v with Some id => id | None => T_OTHER v end.
Definition py_CreditAvailability : list N := [0; 1].                        (* uci.py:267 *)
Definition py_DataTransferNtfStatusCode : list N := [0; 1; 2; 3; 4; 5; 6; 7]. (* uci.py:279 *)
Definition py_MulticastUpdateStatus : list N := [0; 1; 2; 3; 4; 5; 6; 7; 8]. (* uci.py:945 *)
Definition py_RangingMeasurementType : list N := [0; 1; 2; 3].              (* uci.py:4436 *)
Definition py_MacAddressIndicator : list N := [0; 1].                       (* uci.py:964 *)
Definition py_GroupId : list N := [0; 1; 2; 3; 9; 0xa; 0xb; 0xc; 0xd; 0xe; 0xf]. (* uci.py:111 *)
Definition py_CoreOpcodeId : list N := [0; 1; 2; 3; 4; 5; 7; 8].            (* uci.py:144 *)
Definition py_SessionConfigOpcodeId : list N := [0; 1; 2; 3; 4; 5; 6; 7; 8; 9; 0xb]. (* uci.py:162 *)
Definition py_SessionControlOpcodeId : list N := [0; 1; 3; 4; 5].           (* uci.py:183 *)
Definition py_AndroidOpcodeId : list N := [0; 1; 2].                        (* uci.py:198 *)
Definition py_DataPacketFormat : list N := [1; 2].                          (* uci.py:132 *)

(** ** Structures *)
(** uci.py:2023 [CapTlv], 2112 [ConfigParameter], 2620 [AppConfigTlv]: identifier, size, value. *)
Definition py_tlv {A} (id : N -> A) (span : bytes) : option ((A * bytes) * bytes) :=
  _ ← py_need 2 span;
  '(v, rest) ← py_slice (py_at 1 span) (drop 2 span);
  Some ((id (py_at 0 span), v), rest).
(** uci.py:2183 [ConfigParameterStatus], 2701 [AppConfigStatus]. *)
Definition py_id_status {A} (id : N -> A) (span : bytes) : option ((A * N) * bytes) :=
  _ ← py_need 2 span; Some ((id (py_at 0 span), py_at 1 span), drop 2 span).
(** uci.py:3417 [ControleeStatus]. *)
Definition py_controlee_status (span : bytes) : option ((bytes * N) * bytes) :=
  _ ← py_need 2 span;
  let address := take 2 span in
  let span := drop 2 span in
  _ ← py_need 1 span;
  st ← py_enum py_MulticastUpdateStatus (py_at 0 span);
  Some ((address, st), drop 1 span).
(** uci.py:3720 [ShortAddressTwoWayRangingMeasurement]. *)
Definition py_measurement (span : bytes) : option (measurement * bytes) :=
  _ ← py_need 31 span;
  Some (Measurement (py_int 0 2 span) (py_at 2 span) (py_at 3 span) (py_int 4 6 span)
          (py_int 6 8 span) (py_at 8 span) (py_int 9 11 span) (py_at 11 span)
          (py_int 12 14 span) (py_at 14 span) (py_int 15 17 span) (py_at 17 span)
          (py_at 18 span) (py_at 19 span), drop 31 span).

(** ** Children classes
    A class with the constraints of its [parse] on the message type and the opcode, and the
    rest of its [parse]. The classes of commands are omitted: they refuse (uci.py:1837 etc.)
    every packet whose message type is not COMMAND, and a controller sends none. So is
    [AndroidRangeDiagnosticsNtf] (uci.py:5511), never sent by pica. *)
Record py_class : Set := PyClass {
  c_mt : message_type; c_oid : N; c_parse : bytes -> option (py_packet * bytes) }.

(** One byte of status. *)
Definition py_status (f : N -> py_packet) (span : bytes) : option (py_packet * bytes) :=
  _ ← py_need 1 span; Some (f (py_at 0 span), drop 1 span).

Definition py_core_classes : list py_class :=
  [ (* uci.py:1855 *) PyClass MtResponse 0 (py_status (fun st => PyMsg (CoreDeviceResetRsp st)));
    (* uci.py:1883 *) PyClass MtNotification 1 (fun span =>
      _ ← py_need 1 span; s ← ds_of_code (py_at 0 span); Some (PyMsg (CoreDeviceStatusNtf s), drop 1 span));
    (* uci.py:1939 *) PyClass MtResponse 2 (fun span =>
      _ ← py_need 10 span;
      '(v, rest) ← py_slice (py_at 9 span) (drop 10 span);
      Some (PyMsg (CoreGetDeviceInfoRsp (py_at 0 span) (py_int 1 3 span) (py_int 3 5 span)
                     (py_int 5 7 span) (py_int 7 9 span) v), rest));
    (* uci.py:2061 *) PyClass MtResponse 3 (fun span =>
      _ ← py_need 2 span;
      '(l, rest) ← py_sequence (N.to_nat (py_at 1 span)) (py_tlv (fun t => t)) (drop 2 span);
      Some (PyMsg (CoreGetCapsInfoRsp (py_at 0 span) l), rest));
    (* uci.py:2213 *) PyClass MtResponse 4 (fun span =>
      _ ← py_need 2 span;
      '(l, rest) ← py_array (py_at 1 span) 2 (py_id_status (fun t => t)) (drop 2 span);
      Some (PyMsg (CoreSetConfigRsp (py_at 0 span) l), rest));
    (* uci.py:2296 *) PyClass MtResponse 5 (fun span =>
      _ ← py_need 2 span;
      '(l, rest) ← py_sequence (N.to_nat (py_at 1 span)) (py_tlv (fun t => t)) (drop 2 span);
      Some (PyMsg (CoreGetConfigRsp (py_at 0 span) l), rest));
    (* uci.py:2336 *) PyClass MtNotification 7 (py_status PyCoreGenericErrorNtf);
    (* uci.py:2388 *) PyClass MtResponse 8 (fun span =>
      _ ← py_need 9 span; Some (PyCoreQueryTimeStampRsp (py_at 0 span) (py_int 1 9 span), drop 9 span)) ].

Definition py_session_config_classes : list py_class :=
  [ (* uci.py:2458 *) PyClass MtResponse 0 (fun span =>
      _ ← py_need 5 span; Some (PySessionInitRsp_V2 (py_at 0 span) (py_int 1 5 span), drop 5 span));
    (* uci.py:2492 *) PyClass MtResponse 0 (py_status (fun st => PyMsg (SessionInitRsp st)));
    (* uci.py:2552 *) PyClass MtResponse 1 (py_status (fun st => PyMsg (SessionDeinitRsp st)));
    (* uci.py:2582 *) PyClass MtNotification 2 (fun span =>
      _ ← py_need 6 span;
      s ← ss_of_code (py_at 4 span);
      Some (PyMsg (SessionStatusNtf (py_int 0 4 span) s (py_at 5 span)), drop 6 span));
    (* uci.py:2731 *) PyClass MtResponse 3 (fun span =>
      _ ← py_need 2 span;
      '(l, rest) ← py_array (py_at 1 span) 2 (py_id_status py_AppConfigTlvType) (drop 2 span);
      Some (PyMsg (SessionSetAppConfigRsp (py_at 0 span) l), rest));
    (* uci.py:2821 *) PyClass MtResponse 4 (fun span =>
      _ ← py_need 2 span;
      '(l, rest) ← py_sequence (N.to_nat (py_at 1 span)) (py_tlv py_AppConfigTlvType) (drop 2 span);
      Some (PyMsg (SessionGetAppConfigRsp (py_at 0 span) l), rest));
    (* uci.py:2885 *) PyClass MtResponse 5 (fun span =>
      _ ← py_need 2 span; Some (PyMsg (SessionGetCountRsp (py_at 0 span) (py_at 1 span)), drop 2 span));
    (* uci.py:2951 *) PyClass MtResponse 6 (fun span =>
      _ ← py_need 2 span;
      s ← ss_of_code (py_at 1 span);
      Some (PyMsg (SessionGetStateRsp (py_at 0 span) s), drop 2 span));
    (* uci.py:3004 *) PyClass MtResponse 8 (fun span => Some (PySessionUpdateDtAnchorRangingRoundsRsp, span));
    (* uci.py:3071 *) PyClass MtResponse 9 (fun span =>
      _ ← py_need 2 span;
      '(l, rest) ← py_slice (py_at 1 span) (drop 2 span);
      Some (PySessionUpdateDtTagRangingRoundsRsp (py_at 0 span) l, rest));
    (* uci.py:3390 *) PyClass MtResponse 7 (py_status PySessionUpdateControllerMulticastListRsp);
    (* uci.py:3450 *) PyClass MtNotification 7 (fun span =>
      _ ← py_need 5 span;
      '(l, rest) ← py_array (py_at 4 span) 3 py_controlee_status (drop 5 span);
      Some (PyMsg (SessionUpdateControllerMulticastListNtf (py_int 0 4 span) l), rest));
    (* uci.py:3611 *) PyClass MtResponse 0xb (fun span =>
      _ ← py_need 6 span;
      Some (PySessionQueryMaxDataSizeInRangingRsp (py_int 0 4 span) (py_int 4 6 span), drop 6 span)) ].

(** uci.py:4465 [SessionInfoNtf] with its child [ShortMacTwoWaySessionInfoNtf] (uci.py:4570).
    The five other children (extended addresses, DL-TDoA, OWR AoA) are omitted: their packets
    appear as the parent class. *)
Definition py_session_info (span : bytes) : option (py_packet * bytes) :=
  _ ← py_need 24 span;
  ty ← py_enum py_RangingMeasurementType (py_at 13 span);
  indicator ← py_enum py_MacAddressIndicator (py_at 15 span);
  let payload := drop 24 span in
  let child :=
    if (ty =? 1) && (indicator =? 0) then
      _ ← py_need 1 payload;
      '(l, rest) ← py_array (py_at 0 payload) 31 py_measurement (drop 1 payload);
      Some (PyMsg (SessionInfoNtf (py_int 0 4 span) (py_int 4 8 span) (py_at 8 span)
                     (py_int 9 13 span) l rest))
    else None in
  Some (match child with
        | Some c => c
        | None => PySessionInfoNtf (py_int 0 4 span) (py_int 4 8 span) (py_at 8 span)
                    (py_int 9 13 span) ty indicator payload
        end, []).

Definition py_session_control_classes : list py_class :=
  [ (* uci.py:3497 *) PyClass MtNotification 4 (fun span =>
      _ ← py_need 5 span;
      c ← py_enum py_CreditAvailability (py_at 4 span);
      Some (PyMsg (SessionDataCreditNtf (py_int 0 4 span) c), drop 5 span));
    (* uci.py:3534 *) PyClass MtNotification 5 (fun span =>
      _ ← py_need 7 span;
      st ← py_enum py_DataTransferNtfStatusCode (py_at 5 span);
      Some (PyMsg (SessionDataTransferStatusNtf (py_int 0 4 span) (py_at 4 span) st (py_at 6 span)), drop 7 span));
    (* uci.py:3681 *) PyClass MtResponse 0 (py_status (fun st => PyMsg (SessionStartRsp st)));
    (* uci.py:4465 *) PyClass MtNotification 0 py_session_info;
    (* uci.py:4875 *) PyClass MtResponse 1 (py_status (fun st => PyMsg (SessionStopRsp st)));
    (* uci.py:4936 *) PyClass MtResponse 3 (fun span =>
      _ ← py_need 5 span;
      Some (PyMsg (SessionGetRangingCountRsp (py_at 0 span) (py_int 1 5 span)), drop 5 span)) ].

Definition py_android_classes : list py_class :=
  [ (* uci.py:5046, 4995 *) PyClass MtResponse 0 (fun span =>
      _ ← py_need 17 span;
      Some (PyMsg (AndroidGetPowerStatsRsp (py_at 0 span) (py_int 1 5 span) (py_int 5 9 span)
                     (py_int 9 13 span) (py_int 13 17 span)), drop 17 span));
    (* uci.py:5102 *) PyClass MtResponse 1 (py_status (fun st => PyMsg (AndroidSetCountryCodeRsp st))) ].

(** The sequence of [try: child, remainder = C.parse(..); if remainder: raise; return child]
    (e.g. uci.py:1481-1641): the first class that accepts the whole payload. *)
Fixpoint py_children (l : list py_class) (mt : message_type) (oid : N) (payload : bytes) : option py_packet :=
  match l with
  | [] => None
  | c :: l =>
      if bool_decide (c_mt c = mt) && (c_oid c =? oid) then
        match c_parse c payload with
        | Some (x, []) => Some x
        | _ => py_children l mt oid payload
        end
      else py_children l mt oid payload
  end.

(** [CorePacket.parse] (uci.py:1340), [SessionConfigPacket.parse] (:1470),
    [SessionControlPacket.parse] (:1663), [AndroidPacket.parse] (:1758). *)
Definition py_group (oids : list N) (classes : list py_class)
    (generic : message_type -> N -> bytes -> py_packet) (mt : message_type) (span : bytes) : option py_packet :=
  _ ← py_need 3 span;
  oid ← py_enum oids (N.land (py_at 0 span) 0x3f);
  let payload := drop 3 span in
  Some (match py_children classes mt oid payload with
        | Some x => x
        | None => generic mt oid payload
        end).

(** uci.py:1112 [ControlPacket.parse], called by [parse_all] (uci.py:16). *)
Definition py_parse_control (span : bytes) : option py_packet :=
  match span with
  | [] => None
  | h :: payload =>
      gid ← py_enum py_GroupId (N.land h 0xf);
      mt ← mt_of_code (N.land (N.shiftr h 5) 0x7);
      let child :=
        if gid =? 0x0 then py_group py_CoreOpcodeId py_core_classes PyCorePacket mt payload
        else if gid =? 0x1 then
          py_group py_SessionConfigOpcodeId py_session_config_classes PySessionConfigPacket mt payload
        else if gid =? 0x2 then
          py_group py_SessionControlOpcodeId py_session_control_classes PySessionControlPacket mt payload
        else if gid =? 0xc then py_group py_AndroidOpcodeId py_android_classes PyAndroidPacket mt payload
        else None in
      Some (match child with Some x => x | None => PyControlPacket mt gid payload end)
  end.

(** uci.py:1176 [DataPacket.parse], with its children [DataMessageSnd] (uci.py:1233) and
    [DataMessageRcv] (uci.py:1288). *)
Definition py_parse_data (span : bytes) : option py_packet :=
  _ ← py_need 4 span;
  let h := py_at 0 span in
  dpf ← py_enum py_DataPacketFormat (N.land h 0xf);
  mt ← mt_of_code (N.land (N.shiftr h 5) 0x7);
  let payload := drop 4 span in
  let snd :=
    if (dpf =? 1) && bool_decide (mt = MtData) then
      _ ← py_need 16 payload;
      '(data, rest) ← py_slice (py_int 14 16 payload) (drop 16 payload);
      match rest with
      | [] => Some (PyDataMessageSnd (py_int 0 4 payload) (py_int 4 12 payload) (py_int 12 14 payload) data)
      | _ => None
      end
    else None in
  let rcv :=
    if (dpf =? 2) && bool_decide (mt = MtData) then
      _ ← py_need 17 payload;
      '(data, rest) ← py_slice (py_int 15 17 payload) (drop 17 payload);
      match rest with
      | [] => Some (PyMsg (DataMessageRcv (py_int 0 4 payload) (py_at 4 payload)
                             (py_int 5 13 payload) (py_int 13 15 payload) data))
      | _ => None
      end
    else None in
  Some (match snd, rcv with
        | Some x, _ => x
        | None, Some x => x
        | None, None => PyDataPacket dpf payload
        end).

(** [expect_data] (__init__.py:167) parses the packets of message type DATA, [expect_control]
    (__init__.py:129) the others. *)
Definition py_parse (packet : bytes) : option py_packet :=
  if N.land (N.shiftr (py_at 0 packet) 5) 0x7 =? 0 then py_parse_data packet else py_parse_control packet.

(** ** Commands
    [serialize] of the classes of commands, for objects built from their fields (the inherited
    field [payload] is empty, except for the multicast update whose controlees it holds). *)

(** [len(..) > 255: del ..[255:]] then count and elements (uci.py:2682-2687). *)
Definition py_ser_list {A} (f : A -> bytes) (l : list A) : bytes :=
  let l := take 255 l in N.of_nat (length l) :: concat (map f l).
(** [if v > max: v &= max] then [int.to_bytes(v, length=k)] (uci.py:2437-2440). *)
Definition py_ser_int (k : nat) (v : N) : bytes :=
  le_bytes k (N.land v (N.ones (8 * N.of_nat k))).
(** uci.py:2633 [AppConfigTlv.serialize], 2125 [ConfigParameter.serialize]: the latter raises for
    a value of more than 255 bytes; here it is cut like the former, and [send_control] raises. *)
Definition py_ser_tlv (id : N) (v : bytes) : bytes := let v := take 255 v in id :: N.of_nat (length v) :: v.

Definition py_ser_args (c : command) : bytes :=
  match c with
  | CmdDeviceReset r => [r]                                              (* uci.py:1836 *)
  | CmdGetDeviceInfo | CmdGetCapsInfo => []                              (* uci.py:1916, 2006 *)
  | CmdSetConfig l => py_ser_list (fun p => py_ser_tlv p.1 p.2) l        (* uci.py:2160 *)
  | CmdGetConfig l => py_ser_list (fun id => [id]) l                     (* uci.py:2271 *)
  | CmdSessionInit id ty => py_ser_int 4 id ++ [ty]                      (* uci.py:2434 *)
  | CmdSessionDeinit id => py_ser_int 4 id                               (* uci.py:2530 *)
  | CmdSetAppConfig id l => py_ser_int 4 id ++ py_ser_list (fun p => py_ser_tlv (tlv_byte p.1) p.2) l (* uci.py:2674 *)
  | CmdGetAppConfig id l => py_ser_int 4 id ++ py_ser_list (fun i => [tlv_byte i]) l (* uci.py:2792 *)
  | CmdGetCount => []                                                    (* uci.py:2866 *)
  | CmdGetState id => py_ser_int 4 id                                    (* uci.py:2928 *)
  | CmdMulticast id a p => py_ser_int 4 id ++ [action_code a] ++ p       (* uci.py:3255 *)
  | CmdStart id => py_ser_int 4 id                                       (* uci.py:3659 *)
  | CmdStop id => py_ser_int 4 id                                        (* uci.py:4853 *)
  | CmdGetRangingCount id => py_ser_int 4 id                             (* uci.py:4913 *)
  | CmdGetPowerStats => []                                               (* uci.py:4975 *)
  | CmdSetCountryCode code => code                                       (* uci.py:5083 *)
  end.
(** The [__post_init__] of the class: group and opcode (uci.py:1823 etc.). *)
Definition py_ser_kind (c : command) : N * N :=
  match c with
  | CmdDeviceReset _ => (0x0, 0x0) | CmdGetDeviceInfo => (0x0, 0x2) | CmdGetCapsInfo => (0x0, 0x3)
  | CmdSetConfig _ => (0x0, 0x4) | CmdGetConfig _ => (0x0, 0x5)
  | CmdSessionInit _ _ => (0x1, 0x0) | CmdSessionDeinit _ => (0x1, 0x1) | CmdSetAppConfig _ _ => (0x1, 0x3)
  | CmdGetAppConfig _ _ => (0x1, 0x4) | CmdGetCount => (0x1, 0x5) | CmdGetState _ => (0x1, 0x6)
  | CmdMulticast _ _ _ => (0x1, 0x7)
  | CmdStart _ => (0x2, 0x0) | CmdStop _ => (0x2, 0x1) | CmdGetRangingCount _ => (0x2, 0x3)
  | CmdGetPowerStats => (0xc, 0x0) | CmdSetCountryCode _ => (0xc, 0x1)
  end.
(** [SessionConfigPacket.serialize] (uci.py:1644) and the like, then [ControlPacket.serialize] (uci.py:1152). *)
Definition py_serialize (c : command) : bytes :=
  let '(gid, oid) := py_ser_kind c in
  N.lor gid (N.shiftl 1 5) :: oid :: [0; 0] ++ py_ser_args c.
(** [Host.send_control(c)]: the bytes written to the connection. *)
Definition py_send_command (c : command) : option bytes := py_send_control (py_serialize c).

(** uci.py:3121 [Controlee.serialize] and the two versions with a key (uci.py:3161, 3202), in
    [SessionUpdateControllerMulticastListCmdPayload.serialize] (uci.py:3292) and the like. *)
Definition py_ser_controlee (c : bytes * N * bytes) : bytes := c.1.1 ++ py_ser_int 4 c.1.2 ++ c.2.
Definition py_ser_controlees (l : list (bytes * N * bytes)) : bytes := py_ser_list py_ser_controlee l.

(** ** Data *)
(** uci.py:1253 [DataMessageSnd.serialize] and 1204 [DataPacket.serialize]. *)
Definition py_serialize_data (pbf handle dst seq : N) (data : bytes) : option bytes :=
  if N.of_nat (length data) <? 65536 then
    Some (N.lor 1 (N.lor (N.shiftl pbf 4) (N.shiftl 0 5)) :: 0 :: [0; 0]
          ++ py_ser_int 4 handle ++ py_ser_int 8 dst ++ py_ser_int 2 seq
          ++ le_bytes 2 (N.of_nat (length data)) ++ data)
  else None.
(** [Host.send_data(DataMessageSnd(..))]. *)
Definition py_send_data_message (pbf handle dst seq : N) (data : bytes) : option bytes :=
  p ← py_serialize_data pbf handle dst seq data; py_send_data p.

(** console.py:305-358 [data_transfer]: the bytes written for the content [file] of the file;
    console.py:33. [None]: an exception, after which nothing more is sent. *)
Definition CONSOLE_MAX : nat := N.to_nat 1024.
(** The loop [for i in range(0, len(b), MAX)], [rest] being [b[i:]]. *)
Fixpoint py_transfer_loop (fuel : nat) (handle dst seq : N) (rest : bytes) : option (list bytes) :=
  match fuel with
  | O => Some []
  | S fuel =>
      match rest with
      | [] => Some []
      | _ =>
          let section := take CONSOLE_MAX rest in
          let pbf := if Nat.leb (length rest) CONSOLE_MAX then PBF_COMPLETE else PBF_NOT_COMPLETE in
          p ← py_send_data_message pbf handle dst seq section;
          let seq := seq + 1 in
          let seq := if 65535 <=? seq then 0 else seq in
          l ← py_transfer_loop fuel handle dst seq (drop CONSOLE_MAX rest);
          Some (p :: l)
      end
  end.
Definition py_data_transfer (handle dst : N) (file : bytes) : option (list bytes) :=
  if Nat.ltb CONSOLE_MAX (length file)
  then py_transfer_loop (length file) handle dst 0 file
  else p ← py_send_data_message PBF_COMPLETE handle dst 0 file; Some [p].
