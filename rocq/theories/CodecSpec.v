(** Specification of the packet grammar, seen from the host: how a host decodes what the
    controller sends, and how it encodes its commands (src/uci_packets.pdl). The decoder is
    written from the grammar, without reference to the encoder of the model ([wire]). *)
From Verif Require Import Base Uci MacAddress Codec.

(** ** Messages, as decoded by a host *)

Definition field {A} (p : bytes -> option (A * bytes)) : bytes -> option (A * bytes) := p.
Definition u8 := field (p_uint 1).
Definition u16 := field (p_uint 2).
Definition u32 := field (p_uint 4).
Definition u64 := field (p_uint 8).
(** A list preceded by its number of elements. *)
Definition array {A} (p : bytes -> option (A * bytes)) := field (p_counted p).
Definition pair_of {A B} (p : bytes -> option (A * bytes)) (q : bytes -> option (B * bytes))
    : bytes -> option ((A * B) * bytes) := fun b =>
  '(x, b) ← p b; '(y, b) ← q b; Some ((x, y), b).
Definition id_of := p_enum tlv_of_byte.
Definition session_state_of := p_enum ss_of_code.
Definition device_state_of := p_enum ds_of_code.

(** pdl:1151-1171, 11 reserved bytes at the end. *)
Definition measurement_of (b : bytes) : option (measurement * bytes) :=
  '(mac, b) ← u16 b; '(st, b) ← u8 b; '(nlos, b) ← u8 b; '(dist, b) ← u16 b;
  '(az, b) ← u16 b; '(azf, b) ← u8 b; '(el, b) ← u16 b; '(elf, b) ← u8 b;
  '(daz, b) ← u16 b; '(dazf, b) ← u8 b; '(del, b) ← u16 b; '(delf, b) ← u8 b;
  '(slot, b) ← u8 b; '(rssi, b) ← u8 b; '(_, b) ← p_bytes 11 b;
  Some (Measurement mac st nlos dist az azf el elf daz dazf del delf slot rssi, b).

(** A packet made of a single status. *)
Definition status_only (f : N -> msg) (b : bytes) : option msg :=
  '(st, b) ← u8 b; p_end (f st) b.

Definition decode_core_response (oid : N) (b : bytes) : option msg :=
  if oid =? 0x00 then status_only CoreDeviceResetRsp b
  else if oid =? 0x02 then
    '(st, b) ← u8 b; '(uci, b) ← u16 b; '(mac, b) ← u16 b; '(phy, b) ← u16 b;
    '(test, b) ← u16 b; '(v, b) ← p_vec8 b; p_end (CoreGetDeviceInfoRsp st uci mac phy test v) b
  else if oid =? 0x03 then
    '(st, b) ← u8 b; '(l, b) ← array (pair_of u8 p_vec8) b; p_end (CoreGetCapsInfoRsp st l) b
  else if oid =? 0x04 then
    '(st, b) ← u8 b; '(l, b) ← array (pair_of u8 u8) b; p_end (CoreSetConfigRsp st l) b
  else if oid =? 0x05 then
    '(st, b) ← u8 b; '(l, b) ← array (pair_of u8 p_vec8) b; p_end (CoreGetConfigRsp st l) b
  else None.

Definition decode_session_config_response (oid : N) (b : bytes) : option msg :=
  if oid =? 0x00 then status_only SessionInitRsp b
  else if oid =? 0x01 then status_only SessionDeinitRsp b
  else if oid =? 0x03 then
    '(st, b) ← u8 b; '(l, b) ← array (pair_of id_of u8) b; p_end (SessionSetAppConfigRsp st l) b
  else if oid =? 0x04 then
    '(st, b) ← u8 b; '(l, b) ← array (pair_of id_of p_vec8) b; p_end (SessionGetAppConfigRsp st l) b
  else if oid =? 0x05 then
    '(st, b) ← u8 b; '(n, b) ← u8 b; p_end (SessionGetCountRsp st n) b
  else if oid =? 0x06 then
    '(st, b) ← u8 b; '(s, b) ← session_state_of b; p_end (SessionGetStateRsp st s) b
  else if oid =? 0x07 then
    '(st, b) ← u8 b; '(l, b) ← array (pair_of (p_bytes 2) u8) b;
    p_end (SessionUpdateControllerMulticastListRsp st l) b
  else None.

Definition decode_session_control_response (oid : N) (b : bytes) : option msg :=
  if oid =? 0x00 then status_only SessionStartRsp b
  else if oid =? 0x01 then status_only SessionStopRsp b
  else if oid =? 0x03 then
    '(st, b) ← u8 b; '(n, b) ← u32 b; p_end (SessionGetRangingCountRsp st n) b
  else None.

Definition decode_android_response (oid : N) (b : bytes) : option msg :=
  if oid =? 0x00 then
    '(st, b) ← u8 b; '(i, b) ← u32 b; '(t, b) ← u32 b; '(r, b) ← u32 b; '(w, b) ← u32 b;
    p_end (AndroidGetPowerStatsRsp st i t r w) b
  else if oid =? 0x01 then status_only AndroidSetCountryCodeRsp b
  else None.

Definition decode_notification (gid oid : N) (b : bytes) : option msg :=
  if (gid =? 0x0) && (oid =? 0x01) then
    '(s, b) ← device_state_of b; p_end (CoreDeviceStatusNtf s) b
  else if (gid =? 0x1) && (oid =? 0x02) then
    '(tok, b) ← u32 b; '(s, b) ← session_state_of b; '(r, b) ← u8 b; p_end (SessionStatusNtf tok s r) b
  else if (gid =? 0x1) && (oid =? 0x07) then
    '(tok, b) ← u32 b; '(l, b) ← array (pair_of (p_bytes 2) u8) b;
    p_end (SessionUpdateControllerMulticastListNtf tok l) b
  else if (gid =? 0x2) && (oid =? 0x04) then
    '(tok, b) ← u32 b; '(c, b) ← u8 b; p_end (SessionDataCreditNtf tok c) b
  else if (gid =? 0x2) && (oid =? 0x05) then
    '(tok, b) ← u32 b; '(seq, b) ← u8 b; '(st, b) ← u8 b; '(tx, b) ← u8 b;
    p_end (SessionDataTransferStatusNtf tok seq st tx) b
  else if (gid =? 0x2) && (oid =? 0x00) then
    (* pdl:1276,1288: two-way ranging, short addresses; vendor data is what remains *)
    '(seq, b) ← u32 b; '(tok, b) ← u32 b; '(rcr, b) ← u8 b; '(interval, b) ← u32 b;
    '(ty, b) ← u8 b; '(_, b) ← u8 b; '(indicator, b) ← u8 b; '(_, b) ← p_bytes 8 b;
    if (ty =? 1) && (indicator =? 0) then
      '(l, b) ← array measurement_of b; Some (SessionInfoNtf seq tok rcr interval l b)
    else None
  else None.

(** Responses of the groups without opcodes in the grammar: the host sees the group, the
    rejected opcode byte, the following byte, and a status. *)
Definition defined_group (gid : N) : bool := existsb (N.eqb gid) [0x0; 0x1; 0x2; 0xc].
Definition reserved_group (gid : N) : bool := existsb (N.eqb gid) [4; 5; 6; 7; 8].

(** [h o r x] is the header; [x] is the length byte, not interpreted here. *)
Definition decode_msg (b : bytes) : option msg :=
  match b with
  | h :: o :: r :: _ :: b =>
      let mt := h / 32 in let gid := h mod 16 in
      if mt =? 0 then
        if gid =? 2 then
          '(handle, b) ← u32 b; '(st, b) ← u8 b; '(src, b) ← u64 b; '(seq, b) ← u16 b;
          '(data, b) ← p_vec16 b; p_end (DataMessageRcv handle st src seq data) b
        else None
      else if mt =? 2 then
        if gid =? 0x0 then decode_core_response o b
        else if gid =? 0x1 then decode_session_config_response o b
        else if gid =? 0x2 then decode_session_control_response o b
        else if gid =? 0xc then decode_android_response o b
        else if reserved_group gid then status_only (UnknownCmdRsp gid o) b
        else match b with [st] => if st =? STATUS_UNKNOWN_GID then Some (UnknownGroupRsp gid o r) else None | _ => None end
      else if mt =? 3 then decode_notification gid o b
      else None
  | _ => None
  end.

(** The fields of a message fit their declared widths, and the closed enums their values
    (pdl:148, 154, 584). *)
Definition byte (n : N) : Prop := n < 256.
Definition word16 (n : N) : Prop := n < 65536.
Definition word32 (n : N) : Prop := n < 4294967296.
Definition word64 (n : N) : Prop := n < 18446744073709551616.
Definition known_id (id : tlv_id) : Prop := tlv_of_byte (tlv_byte id) = Some id.
Definition short_list {A} (l : list A) : Prop := (length l <= 255)%nat.

Definition wf_measurement (m : measurement) : Prop :=
  word16 (m_mac_address m) /\ byte (m_status m) /\ byte (m_nlos m) /\ word16 (m_distance m)
  /\ word16 (m_aoa_azimuth m) /\ byte (m_aoa_azimuth_fom m)
  /\ word16 (m_aoa_elevation m) /\ byte (m_aoa_elevation_fom m)
  /\ word16 (m_aoa_destination_azimuth m) /\ byte (m_aoa_destination_azimuth_fom m)
  /\ word16 (m_aoa_destination_elevation m) /\ byte (m_aoa_destination_elevation_fom m)
  /\ byte (m_slot_index m) /\ byte (m_rssi m).

Definition wf_msg (m : msg) : Prop :=
  match m with
  | CoreDeviceResetRsp st | SessionInitRsp st | SessionDeinitRsp st | SessionStartRsp st
  | SessionStopRsp st | AndroidSetCountryCodeRsp st => byte st
  | CoreDeviceStatusNtf _ => True
  | CoreGetDeviceInfoRsp st u m p t v =>
      byte st /\ word16 u /\ word16 m /\ word16 p /\ word16 t /\ short_list v /\ wf_bytes v
  | CoreGetCapsInfoRsp st l | CoreGetConfigRsp st l =>
      byte st /\ short_list l /\ Forall (fun tv => byte tv.1 /\ short_list tv.2 /\ wf_bytes tv.2) l
  | CoreSetConfigRsp st l => byte st /\ short_list l /\ Forall (fun p => byte p.1 /\ byte p.2) l
  | SessionStatusNtf tok _ r => word32 tok /\ byte r
  | SessionSetAppConfigRsp st l =>
      byte st /\ short_list l /\ Forall (fun p => known_id p.1 /\ byte p.2) l
  | SessionGetAppConfigRsp st l =>
      byte st /\ short_list l /\ Forall (fun tv => known_id tv.1 /\ short_list tv.2 /\ wf_bytes tv.2) l
  | SessionGetCountRsp st n => byte st /\ byte n
  | SessionGetStateRsp st _ => byte st
  | SessionUpdateControllerMulticastListRsp st l =>
      byte st /\ short_list l /\ Forall (fun p => length p.1 = 2%nat /\ wf_bytes p.1 /\ p.2 <= 8) l
  | SessionUpdateControllerMulticastListNtf tok l =>
      word32 tok /\ short_list l /\ Forall (fun p => length p.1 = 2%nat /\ wf_bytes p.1 /\ p.2 <= 8) l
  | SessionDataCreditNtf tok c => word32 tok /\ c <= 1
  | SessionDataTransferStatusNtf tok seq st tx => word32 tok /\ byte seq /\ st <= 7 /\ byte tx
  | SessionInfoNtf seq tok rcr interval l v =>
      word32 seq /\ word32 tok /\ byte rcr /\ word32 interval /\ short_list l
      /\ Forall wf_measurement l /\ wf_bytes v
  | SessionGetRangingCountRsp st n => byte st /\ word32 n
  | AndroidGetPowerStatsRsp st i t r w => byte st /\ word32 i /\ word32 t /\ word32 r /\ word32 w
  | UnknownGroupRsp gid b1 b2 =>
      gid < 16 /\ defined_group gid = false /\ reserved_group gid = false /\ byte b1 /\ byte b2
  | UnknownCmdRsp gid oid st => reserved_group gid = true /\ byte oid /\ byte st
  | DataMessageRcv handle st src seq data =>
      word32 handle /\ byte st /\ word64 src /\ word16 seq
      /\ N.of_nat (length data) <= 65535 /\ wf_bytes data
  end.

(** ** Commands, as encoded by a host *)

(** Group, opcode and arguments of a command. *)
Definition cmd_gid (c : command) : N :=
  match c with
  | CmdDeviceReset _ | CmdGetDeviceInfo | CmdGetCapsInfo | CmdSetConfig _ | CmdGetConfig _ => 0x0
  | CmdSessionInit _ _ | CmdSessionDeinit _ | CmdSetAppConfig _ _ | CmdGetAppConfig _ _
  | CmdGetCount | CmdGetState _ | CmdMulticast _ _ _ => 0x1
  | CmdStart _ | CmdStop _ | CmdGetRangingCount _ => 0x2
  | CmdGetPowerStats | CmdSetCountryCode _ => 0xc
  end.
Definition cmd_oid (c : command) : N :=
  match c with
  | CmdDeviceReset _ => 0x00 | CmdGetDeviceInfo => 0x02 | CmdGetCapsInfo => 0x03
  | CmdSetConfig _ => 0x04 | CmdGetConfig _ => 0x05
  | CmdSessionInit _ _ => 0x00 | CmdSessionDeinit _ => 0x01 | CmdSetAppConfig _ _ => 0x03
  | CmdGetAppConfig _ _ => 0x04 | CmdGetCount => 0x05 | CmdGetState _ => 0x06
  | CmdMulticast _ _ _ => 0x07
  | CmdStart _ => 0x00 | CmdStop _ => 0x01 | CmdGetRangingCount _ => 0x03
  | CmdGetPowerStats => 0x00 | CmdSetCountryCode _ => 0x01
  end.

Definition with_count {A} (enc : A -> bytes) (l : list A) : bytes :=
  N.of_nat (length l) :: concat (map enc l).
Definition with_length (v : bytes) : bytes := N.of_nat (length v) :: v.

Definition cmd_args (c : command) : bytes :=
  match c with
  | CmdDeviceReset r => [r]
  | CmdGetDeviceInfo | CmdGetCapsInfo | CmdGetCount | CmdGetPowerStats => []
  | CmdSetConfig l => with_count (fun p => p.1 :: with_length p.2) l
  | CmdGetConfig l => with_count (fun id => [id]) l
  | CmdSessionInit id ty => le_bytes 4 id ++ [ty]
  | CmdSessionDeinit id | CmdGetState id | CmdStart id | CmdStop id | CmdGetRangingCount id =>
      le_bytes 4 id
  | CmdSetAppConfig id l => le_bytes 4 id ++ with_count (fun p => tlv_byte p.1 :: with_length p.2) l
  | CmdGetAppConfig id l => le_bytes 4 id ++ with_count (fun i => [tlv_byte i]) l
  | CmdMulticast id a p => le_bytes 4 id ++ [action_code a] ++ p
  | CmdSetCountryCode code => code
  end.

Definition wf_cmd (c : command) : Prop :=
  match c with
  | CmdDeviceReset r => r = 0
  | CmdGetDeviceInfo | CmdGetCapsInfo | CmdGetCount | CmdGetPowerStats => True
  | CmdSetConfig l =>
      short_list l /\ Forall (fun p => byte p.1 /\ short_list p.2 /\ wf_bytes p.2) l
  | CmdGetConfig l => short_list l /\ Forall byte l
  | CmdSessionInit id ty => word32 id /\ In ty [0; 1; 2; 3; 4; 5; 0xA0; 0xD0]
  | CmdSessionDeinit id | CmdGetState id | CmdStart id | CmdStop id | CmdGetRangingCount id => word32 id
  | CmdSetAppConfig id l =>
      word32 id /\ short_list l /\ Forall (fun p => known_id p.1 /\ short_list p.2 /\ wf_bytes p.2) l
  | CmdGetAppConfig id l => word32 id /\ short_list l /\ Forall known_id l
  | CmdMulticast id _ p => word32 id /\ wf_bytes p
  | CmdSetCountryCode code => length code = 2%nat /\ wf_bytes code
  end.

(** A packet is an encoding of a command: message type 1, group, opcode, arguments, with
    anything in the boundary flag, the two high bits of the opcode byte and the two bytes
    of length, which the decoder of the device ignores. *)
Definition encodes (c : command) (packet : bytes) : Prop :=
  exists h o r1 r2, packet = h :: o :: r1 :: r2 :: cmd_args c
    /\ h / 32 = 1 /\ h mod 16 = cmd_gid c /\ o mod 64 = cmd_oid c.

(** The controlees of a multicast update: 2 address bytes, a sub-session id, a key. *)
Definition controlee_bytes (c : bytes * N * bytes) : bytes := c.1.1 ++ le_bytes 4 c.1.2 ++ c.2.
Definition wf_controlee (key_size : nat) (c : bytes * N * bytes) : Prop :=
  length c.1.1 = 2%nat /\ wf_bytes c.1.1 /\ word32 c.1.2 /\ length c.2 = key_size /\ wf_bytes c.2.

(** A data message of the host (pdl:647-662): message type 0, format 1. *)
Definition encodes_data_snd (handle dst seq : N) (data packet : bytes) : Prop :=
  exists h r1 r2 r3, packet = h :: r1 :: r2 :: r3 ::
      (le_bytes 4 handle ++ le_bytes 8 dst ++ le_bytes 2 seq
       ++ le_bytes 2 (N.of_nat (length data)) ++ data)
    /\ h / 32 = 0 /\ h mod 16 = 1.

(** What a host can tell of a message after the transport: the byte after the opcode is
    reserved, and only an answer to an unknown group carries something in it. *)
Definition host_view (m : msg) : msg :=
  match m with UnknownGroupRsp gid o _ => UnknownGroupRsp gid o 0 | m => m end.
