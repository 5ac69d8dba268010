(** Shared vocabulary: bytes, little-endian integers, panics.
    Nothing in this file models a particular function of pica, except the
    little-endian conversions of the Rust standard library
    ([uN::to_le_bytes], [uN::from_le_bytes]). *)
From stdpp Require Export prelude list gmap.
From Coq Require Export NArith ZArith Lia.
From Coq Require Export ZifyBool ZifyN ZifyNat.
Global Open Scope N_scope.

(** A byte is an [N] below 256 ([wf_bytes]); Rust's [u8] guarantees the bound
    by typing, here it is an explicit predicate. *)
Notation bytes := (list N).
Definition is_byte (b : N) : Prop := b < 256.
Definition wf_bytes (l : bytes) : Prop := Forall is_byte l.

(** [u16::to_le_bytes] and friends: [le_bytes k n] is the [k] byte encoding. *)
Fixpoint le_bytes (k : nat) (n : N) : bytes :=
  match k with
  | O => []
  | S k => (n mod 256) :: le_bytes k (n / 256)
  end.

(** [u16::from_le_bytes] and friends. *)
Fixpoint le_nat (l : bytes) : N :=
  match l with
  | [] => 0
  | b :: l => b + 256 * le_nat l
  end.

(** [l.chunks(k)] of Rust: consecutive blocks of [k] elements, the last one
    may be shorter. [fuel] bounds the number of blocks. *)
Fixpoint chunks_fuel {A} (fuel k : nat) (l : list A) : list (list A) :=
  match fuel with
  | O => []
  | S fuel =>
      match l with
      | [] => []
      | _ => take k l :: chunks_fuel fuel k (drop k l)
      end
  end.
Definition chunks {A} (k : nat) (l : list A) : list (list A) :=
  chunks_fuel (length l) k l.

(** The places of the Rust code which can panic. *)
Inductive site : Set :=
  | RecvEmptyPacket        (* device.rs:1075  packet[0] *)
  | RecvShortPacket        (* device.rs:1096  packet[1] *)
  | CmdParse               (* device.rs:995,997,1008,1024,1035  expect *)
  | CmdUnimplemented       (* device.rs:1003,1019,1030,1042  unimplemented! *)
  | CmdUnreachable         (* device.rs:1050  unreachable! *)
  | CmdPayloadIndex        (* device.rs:1064-1065  cmd.payload[0], cmd.payload[1] *)
  | CmdEncode              (* try_into().unwrap() / encode_to_vec().unwrap() of a response *)
  | DataParse              (* device.rs:940  expect *)
  | DataUnimplemented      (* device.rs:970  unimplemented! *)
  | AssertInfoReady        (* device.rs:240  assert_eq! *)
  | AssertSetConfigReady   (* device.rs:270  assert_eq! *)
  | AssertSessionType      (* device.rs:424  assert! *)
  | AssertTaskNone         (* device.rs:816  assert! *)
  | MacAddressMode1        (* app_config.rs:205,212,229  unimplemented! *)
  | ActiveUnderflow        (* device.rs:386,868  usize subtraction *)
  | AssertSessionId        (* session.rs:150  assert_eq! *)
  | MulticastExtended      (* device.rs:684,705,742,751  panic! *)
  | RangingNoDevice        (* lib.rs:410  unwrap *)
  | RangingNoSession       (* lib.rs:411  unwrap *)
  | RangingExtended        (* lib.rs:182  panic! *)
  | RangingMacUnset        (* app_config.rs:504,507; lib.rs:447,481  unwrap *)
  | RangingDataEncode      (* lib.rs:485  unwrap of encode_to_vec *)
  | RangingEncode          (* lib.rs:503  unwrap of encode_to_vec *)
  | RangingHostGone        (* lib.rs:487,505  unwrap of send *)
  | RangingSeqOverflow     (* lib.rs:510  u32 addition *)
  | AssertAnchorFree.      (* lib.rs:603  assert! *)

Inductive outcome (A : Type) : Type :=
  | Ret (a : A)
  | Crash (s : site).
Arguments Ret {A} a.
Arguments Crash {A} s.

Definition obind {A B} (x : outcome A) (f : A -> outcome B) : outcome B :=
  match x with
  | Ret a => f a
  | Crash s => Crash s
  end.
Notation "'let!' x ':=' e 'in' f" := (obind e (fun x => f))
  (at level 200, x pattern, e at level 100, f at level 200, right associativity).

Definition crashed {A} (x : outcome A) : bool :=
  match x with Ret _ => false | Crash _ => true end.
