(** Which packets of a host stop the simulator: specification for C46 and C57. *)
From Verif Require Import Base Uci MacAddress AppConfig Codec Session Device Pica.
From Verif Require Import CodecSpec ContextSpec RangingSpec.

(** The packet is a command, with valid arguments and nothing after them. *)
Definition is_command (packet : bytes) : Prop := exists c, wf_cmd c /\ encodes c packet.

(** A data message received from a peer (pdl:664-680), which no host has reason to send:
    message type 0, format 2. *)
Definition encodes_data_rcv (handle status src seq : N) (data packet : bytes) : Prop :=
  exists h r1 r2 r3, packet = h :: r1 :: r2 :: r3 ::
      (le_bytes 4 handle ++ [status] ++ le_bytes 8 src ++ le_bytes 2 seq
       ++ le_bytes 2 (N.of_nat (length data)) ++ data)
    /\ h / 32 = 0 /\ h mod 16 = 2.

(** The packet is a well formed data message. *)
Definition is_data (packet : bytes) : Prop :=
  (exists handle dst seq data, word32 handle /\ word64 dst /\ word16 seq
     /\ N.of_nat (length data) <= 65535 /\ encodes_data_snd handle dst seq data packet)
  \/ (exists handle status src seq data, word32 handle /\ byte status /\ word64 src /\ word16 seq
     /\ N.of_nat (length data) <= 65535 /\ encodes_data_rcv handle status src seq data packet).

(** MAC_ADDRESS_MODE after some parameters have been set in order. *)
Fixpoint mode_after (mode : N) (l : list (tlv_id * bytes)) : N :=
  match l with
  | [] => mode
  | (T_MAC_ADDRESS_MODE, [m]) :: l => mode_after (if m <? 3 then m else mode) l
  | _ :: l => mode_after mode l
  end.

(** An address is set while the mode is 1 (8 bytes in the measurements, 2 in the MAC). *)
Definition address_in_mode_1 (mode : N) (l : list (tlv_id * bytes)) : Prop :=
  exists l1 id v l2, l = l1 ++ (id, v) :: l2 /\ mode_after mode l1 = 1
    /\ (id = T_DEVICE_MAC_ADDRESS \/ id = T_DST_MAC_ADDRESS).

(** The commands that stop the simulator when they are received in state [p] from the host
    of device [h]. *)
Inductive fatal_command (p : pica) (h : N) : command -> Prop :=
  (* a session of the device is ranging *)
  | FatalInfo : device_state_at p h = Some DsActive -> fatal_command p h CmdGetDeviceInfo
  | FatalSetConfig l : device_state_at p h = Some DsActive -> fatal_command p h (CmdSetConfig l)
  (* the session is not a FiRa ranging session (with or without in-band data) *)
  | FatalType id l s : session_at p h id = Some s -> s_type s <> 0 -> s_type s <> 1 ->
      fatal_command p h (CmdSetAppConfig id l)
  (* the configuration is modifiable and the unsupported address mode is used *)
  | FatalMode id l s : session_at p h id = Some s ->
      s_state s = SsInit \/ s_state s = SsActive /\ ~ In T_AOA_RESULT_REQ (map fst l) ->
      address_in_mode_1 (mac_address_mode (s_cfg s)) l ->
      fatal_command p h (CmdSetAppConfig id l)
  (* every parameter asked is available, and the peer addresses do not fit in 255 bytes *)
  | FatalLong id ids s : session_at p h id = Some s ->
      (forall i, In i ids -> exists v, app_config_get (s_cfg s) i = Some v) ->
      In T_DST_MAC_ADDRESS ids ->
      (255 < length (concat (map mac_to_vec (dst_mac_address (s_cfg s)))))%nat ->
      fatal_command p h (CmdGetAppConfig id ids)
  (* the session is idle and its ranging timer still runs *)
  | FatalStart id s : session_at p h id = Some s -> s_state s = SsIdle -> s_task s = true ->
      fatal_command p h (CmdStart id).

(** The packets that stop the simulator. *)
Inductive fatal_packet (p : pica) (h : N) : bytes -> Prop :=
  | FatalEmpty : fatal_packet p h []
  (* one byte: unassigned group, or reserved message type *)
  | FatalLone b : b / 32 = 1 /\ In (b mod 16) [4; 5; 6; 7; 8] \/ 4 <= b / 32 ->
      fatal_packet p h [b]
  (* a complete data header of a known format, and a malformed data message *)
  | FatalData b rest : b / 32 = 0 -> In (b mod 16) [1; 2] -> (3 <= length rest)%nat ->
      ~ is_data (b :: rest) -> fatal_packet p h (b :: rest)
  (* a group with commands, but no such command: unknown opcode, missing or excess argument,
     value out of range, command unsupported by pica *)
  | FatalMalformed b rest : serving p h -> b / 32 = 1 -> In (b mod 16) [0; 1; 2; 0xc] ->
      ~ is_command (b :: rest) -> fatal_packet p h (b :: rest)
  (* a group without commands, and less than three bytes *)
  | FatalGroup b rest : serving p h -> b / 32 = 1 -> In (b mod 16) [3; 9; 0xa; 0xb; 0xd; 0xe; 0xf] ->
      (length rest < 2)%nat -> fatal_packet p h (b :: rest)
  (* before the reset: a reset command with malformed arguments *)
  | FatalReset b o r1 r2 args : ~ serving p h -> b / 32 = 1 -> b mod 16 = 0 -> o mod 64 = 0 ->
      args <> [0] -> fatal_packet p h (b :: o :: r1 :: r2 :: args)
  (* a well formed command in the wrong state *)
  | FatalCommand c packet : serving p h -> wf_cmd c -> encodes c packet -> fatal_command p h c ->
      fatal_packet p h packet.

(** The ranging rounds, of session [id] of device [h], that stop the simulator. *)
Inductive fatal_round (e : env) (p : pica) (h id : N) : Prop :=
  (* the session, or the device, does not exist any more *)
  | RoundSession : session_at p h id = None -> fatal_round e p h id
  (* an anchor or a peer with an extended address is measured *)
  | RoundAnchor s a local remote : session_at p h id = Some s ->
      In (MExtended a, local, remote) (anchors_measured e p h (dst_mac_address (s_cfg s))) -> fatal_round e p h id
  | RoundPeer s k a local remote : session_at p h id = Some s ->
      measured e p h id s k (MExtended a, local, remote) -> fatal_round e p h id
  (* data is sent: more than 65535 bytes, or to a host that has left *)
  | RoundData s k : session_at p h id = Some s -> receives e p h id s k ->
      65535 < N.of_nat (length (s_data s)) \/ k ∈ p_closed p -> fatal_round e p h id
  (* the round is notified: to a host that has left, with the largest sequence number, or with more than 255
     measurements *)
  | RoundHost s : session_at p h id = Some s -> notifies s ->
      h ∈ p_closed p \/ s_seq s = 4294967295 -> fatal_round e p h id
  | RoundMany s ks : session_at p h id = Some s -> notifies s ->
      NoDup ks -> (forall k, k ∈ ks -> exists t, measured e p h id s k t) ->
      (255 < length (anchors_measured e p h (dst_mac_address (s_cfg s))) + length ks)%nat -> fatal_round e p h id.

(** The commands that stop the simulator in state [p]. *)
Inductive fatal_op (e : env) (p : pica) : op -> Prop :=
  | FatalPacket h packet : connected p h -> fatal_packet p h packet -> fatal_op e p (UciPacket h packet)
  | FatalRound h id : fatal_round e p h id -> fatal_op e p (Ranging h id).
