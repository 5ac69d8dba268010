(** Specification of what a program using the Python library sees and sends. *)
From Verif Require Import Base Uci MacAddress Codec Session Device Pica CodecSpec ContextSpec RangingSpec Sys SysSpec PyHost.

(** The object the library must give for a packet carrying the message [m]: an instance of the
    class of [m] with the fields of [m]; except
    - the answer to a group without opcodes, seen as a generic packet with the group, the
      rejected opcode (first byte) and the status (last byte);
    - the answer to a group which the library does not know either: an exception. *)
Definition py_shows (m : msg) (packet : bytes) : Prop :=
  match m with
  | UnknownCmdRsp _ _ _ => py_parse packet = None
  | UnknownGroupRsp gid opcode _ =>
      exists x y, py_parse packet = Some (PyControlPacket MtResponse gid [opcode; x; y; STATUS_UNKNOWN_GID])
  | m => py_parse packet = Some (PyMsg m)
  end.
(** The response to a multicast list update. *)
Definition multicast_response (m : msg) : bool :=
  match m with SessionUpdateControllerMulticastListRsp _ _ => true | _ => false end.

(** The packets read from the hosts are of a known message type (the last four are reserved). *)
Definition known_type (l : label) : Prop := match l with LRead _ packet => hd 0 packet / 32 < 4 | _ => True end.

(** The device decodes [p] as the command [c]. *)
Definition decoded_as (c : command) (p : bytes) : Prop :=
  exists cp, decode_control_packet p = Some cp /\ cp_mt cp = MtCommand
    /\ specialize_command (cp_gid cp) (cp_payload cp) = SpCommand c.

(** The packets [frames] carry the [parts] of a file, in order, as data messages for session [handle], to [dst],
    numbered from [i]; the numbers go from 0 to 65534. *)
Definition numbered (handle dst : N) (i : nat) (parts frames : list bytes) : Prop :=
  length frames = length parts /\
  forall k part, parts !! k = Some part -> exists p, frames !! k = Some p /\ data_message handle dst (N.of_nat (i + k) mod 65535) part p.
(** [frames] carry the whole [file], in parts of at most 1024 bytes. *)
Definition carries_file (handle dst : N) (file : bytes) (frames : list bytes) : Prop :=
  exists parts, concat parts = file /\ Forall (fun part => N.of_nat (length part) <= 1024) parts /\ numbered handle dst 0 parts frames.
