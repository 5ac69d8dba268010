(** Small specification of the capabilities: which application parameter a declared bit is about. *)
From Verif Require Import Base Uci MacAddress AppConfig Codec Session Device Pica CodecSpec ContextSpec.

(** [meaning]: the bit of the capability stands for the value of the parameter (FiRa UCI, capability parameters; the
    comments of device.rs:45-66; the values are those of uci_packets.pdl). *)
Definition meaning : list (N * N * tlv_id * N) := [
  (* device roles *) (0x02, 0, T_DEVICE_ROLE, 0); (0x02, 1, T_DEVICE_ROLE, 1);
  (* ranging methods *) (0x03, 0, T_RANGING_ROUND_USAGE, 5); (0x03, 0, T_RANGING_ROUND_USAGE, 6); (0x03, 1, T_RANGING_ROUND_USAGE, 1);
  (0x03, 2, T_RANGING_ROUND_USAGE, 2); (0x03, 3, T_RANGING_ROUND_USAGE, 3); (0x03, 4, T_RANGING_ROUND_USAGE, 4);
  (* STS configurations *) (0x04, 0, T_STS_CONFIG, 0); (0x04, 1, T_STS_CONFIG, 1); (0x04, 2, T_STS_CONFIG, 2); (0x04, 3, T_STS_CONFIG, 3);
  (0x04, 4, T_STS_CONFIG, 4);
  (* multi node modes *) (0x05, 0, T_MULTI_NODE_MODE, 0); (0x05, 1, T_MULTI_NODE_MODE, 1);
  (* block based scheduling *) (0x06, 0, T_RANGING_TIME_STRUCT, 1);
  (* time scheduled ranging *) (0x07, 0, T_SCHEDULE_MODE, 1);
  (* hopping *) (0x08, 0, T_HOPPING_MODE, 1);
  (* block striding *) (0x09, 0, T_BLOCK_STRIDE_LENGTH, 1);
  (* channels *) (0x0B, 0, T_CHANNEL_NUMBER, 5); (0x0B, 1, T_CHANNEL_NUMBER, 6); (0x0B, 2, T_CHANNEL_NUMBER, 8); (0x0B, 3, T_CHANNEL_NUMBER, 9);
  (0x0B, 4, T_CHANNEL_NUMBER, 10); (0x0B, 5, T_CHANNEL_NUMBER, 12); (0x0B, 6, T_CHANNEL_NUMBER, 13); (0x0B, 7, T_CHANNEL_NUMBER, 14);
  (* RFRAME configurations *) (0x0C, 0, T_RFRAME_CONFIG, 0); (0x0C, 1, T_RFRAME_CONFIG, 1); (0x0C, 3, T_RFRAME_CONFIG, 3);
  (* extended addresses *) (0x11, 0, T_MAC_ADDRESS_MODE, 2) ].

(** The host of [h] asks for the capabilities, in the state [p], and is told that [cap] has the [bit]. *)
Definition declares (p : pica) (h cap bit : N) (b : bool) : Prop :=
  exists p' outs caps v, commanded p h CmdGetCapsInfo p' outs /\ sent h outs = [CoreGetCapsInfoRsp 0x00 caps] /\ (cap, [v]) ∈ caps /\ N.testbit v bit = b.
