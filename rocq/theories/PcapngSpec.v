(** A reader of pcapng files, written from the pcapng specification (draft-ietf-opsawg-pcapng), for little-endian
    sections: the specification of C11. Nothing here refers to the model of pcapng.rs. *)
From Verif Require Import Base.

(** *** Blocks: type, total length, body, total length again. Lengths are multiples of 4. *)
Definition u16_at (k : nat) (b : bytes) : N := le_nat (take 2 (drop k b)).
Definition u32_at (k : nat) (b : bytes) : N := le_nat (take 4 (drop k b)).

(** The first block of the bytes, and what follows it. *)
Definition read_block (b : bytes) : option ((N * bytes) * bytes) :=
  let n := N.of_nat (length b) in
  let total := u32_at 4 b in
  if (n <? 12) || (total <? 12) || negb (total mod 4 =? 0) || (n <? total) then None
  else
    let t := N.to_nat total in
    if u32_at (t - 4) b =? total then Some ((u32_at 0 b, take (t - 12) (drop 8 b)), drop t b) else None.
(** All the complete blocks at the start of the bytes, and what follows them. *)
Fixpoint read_blocks_fuel (fuel : nat) (b : bytes) : list (N * bytes) * bytes :=
  match fuel with
  | O => ([], b)
  | S fuel =>
      match read_block b with
      | None => ([], b)
      | Some (block, b) => let '(l, b) := read_blocks_fuel fuel b in (block :: l, b)
      end
  end.
Definition read_blocks (b : bytes) : list (N * bytes) * bytes := read_blocks_fuel (length b) b.

(** *** Options: code, length, value padded to 4 bytes; code 0 ends the list, which may also just end. *)
Definition padded (n : N) : N := 4 * ((n + 3) / 4).
Fixpoint options_fuel (fuel : nat) (b : bytes) : bool :=
  match fuel with
  | O => false
  | S fuel =>
      if bool_decide (b = []) then true
      else if N.of_nat (length b) <? 4 then false
      else if u16_at 0 b =? 0 then (u16_at 2 b =? 0) && (N.of_nat (length b) =? 4)
      else let n := 4 + padded (u16_at 2 b) in
        if N.of_nat (length b) <? n then false else options_fuel fuel (drop (N.to_nat n) b)
  end.
Definition valid_options (b : bytes) : bool := options_fuel (S (length b)) b.

(** *** Section Header Block (type 0x0A0D0D0A): magic number, version 1.0, section length (unspecified), options. *)
Definition is_section_header (block : N * bytes) : bool :=
  let '(t, b) := block in
  (t =? 0x0A0D0D0A) && (16 <=? N.of_nat (length b)) && (u32_at 0 b =? 0x1A2B3C4D)
  && (u16_at 4 b =? 1) && (u16_at 6 b =? 0) && (le_nat (take 8 (drop 8 b)) =? 0xFFFFFFFFFFFFFFFF)
  && valid_options (drop 16 b).

(** *** Interface Description Block (type 1): link type, reserved, maximal captured length (0: no limit), options. *)
Record interface : Set := Interface { if_linktype : N; if_snaplen : N }.
Definition read_interface (block : N * bytes) : option interface :=
  let '(t, b) := block in
  if (t =? 1) && (8 <=? N.of_nat (length b)) && (u16_at 2 b =? 0) && valid_options (drop 8 b)
  then Some (Interface (u16_at 0 b) (u32_at 4 b)) else None.

(** *** Enhanced Packet Block (type 6): interface, timestamp, captured length, original length, data padded to 4 bytes,
    options. *)
Record packet_record : Set := PacketRecord {
  pr_linktype : N;
  pr_timestamp : N;           (* in microseconds, the default resolution *)
  pr_original : N;            (* length of the packet on the wire *)
  pr_data : bytes }.
Definition read_packet (ifs : list interface) (block : N * bytes) : option packet_record :=
  let '(t, b) := block in
  if negb (t =? 6) || (N.of_nat (length b) <? 20) then None else
  match ifs !! N.to_nat (u32_at 0 b) with
  | None => None
  | Some i =>
      let cap := u32_at 12 b in
      let orig := u32_at 16 b in
      if (N.of_nat (length b) <? 20 + padded cap) || (orig <? cap)
         || (negb (if_snaplen i =? 0) && (if_snaplen i <? cap)) || negb (valid_options (drop (N.to_nat (20 + padded cap)) b))
      then None
      else Some (PacketRecord (if_linktype i) (2 ^ 32 * u32_at 4 b + u32_at 8 b) orig (take (N.to_nat cap) (drop 20 b)))
  end.

(** *** A section: the header, then interfaces and packets. Any other block is refused. *)
Fixpoint read_section (ifs : list interface) (blocks : list (N * bytes)) : option (list packet_record) :=
  match blocks with
  | [] => Some []
  | block :: blocks =>
      match read_interface block with
      | Some i => read_section (ifs ++ [i]) blocks
      | None => r ← read_packet ifs block; l ← read_section ifs blocks; Some (r :: l)
      end
  end.
(** The packets of a file of which the last block may be missing or truncated; and of a whole file. *)
Definition read_truncated_capture (file : bytes) : option (list packet_record) :=
  match fst (read_blocks file) with
  | [] => Some []
  | header :: blocks => if is_section_header header then read_section [] blocks else None
  end.
Definition read_capture (file : bytes) : option (list packet_record) :=
  match read_blocks file with
  | (header :: blocks, []) => if is_section_header header then read_section [] blocks else None
  | _ => None
  end.

(** [l] is an interleaving of [l1] and [l2]. *)
Inductive interleaving {A} : list A -> list A -> list A -> Prop :=
  | il_nil : interleaving [] [] []
  | il_left x l1 l2 l : interleaving l1 l2 l -> interleaving (x :: l1) l2 (x :: l)
  | il_right x l1 l2 l : interleaving l1 l2 l -> interleaving l1 (x :: l2) (x :: l).
