(** Vocabulary of the transport properties, independent of the implementation:
    plain arithmetic on the bytes of a packet ([UCI] packet format). *)
From Verif Require Import Base.

(** First byte: bits 7-5 message type (0 is DATA), bit 4 boundary flag, bits 3-0
    group identifier (or data packet format). *)
Definition pkt_mt (p : bytes) : N := hd 0 p / 32.
Definition pkt_more (p : bytes) : N := (hd 0 p / 16) mod 2.   (* 1: NOT_COMPLETE *)
Definition pkt_low (p : bytes) : N := hd 0 p mod 16.
(** Second byte: opcode. *)
Definition pkt_byte1 (p : bytes) : N := nth 1 p 0.
(** What follows the 4 bytes of header. *)
Definition payload (p : bytes) : bytes := skipn 4 p.
Definition is_data (p : bytes) : bool := pkt_mt p =? 0.
(** Value of the length field: byte 3 of a control packet, bytes 2-3 (little-endian)
    of a data packet. *)
Definition length_field (p : bytes) : N :=
  if is_data p then nth 2 p 0 + 256 * nth 3 p 0 else nth 3 p 0.

(** Same message type, group and opcode. *)
Definition same_kind (p q : bytes) : Prop :=
  pkt_mt p = pkt_mt q /\ pkt_low p = pkt_low q /\ pkt_byte1 p = pkt_byte1 q.

(** A complete packet on the wire: valid message type (0 to 3), full header, and the
    announced number of payload bytes. *)
Definition frame (p : bytes) : Prop :=
  (4 <= length p)%nat /\ pkt_mt p < 4 /\ N.of_nat (length (payload p)) = length_field p.

(** Last element has flag 0 (COMPLETE) and all the others 1 (NOT_COMPLETE). *)
Fixpoint boundary_flags (l : list bytes) : Prop :=
  match l with
  | [] => True
  | [p] => pkt_more p = 0
  | p :: l => pkt_more p = 1 /\ boundary_flags l
  end.

(** A control message of a host, cut into fragments. *)
Definition control_fragments (l : list bytes) : Prop :=
  l <> [] /\ boundary_flags l /\ Forall (fun p => (4 <= length p)%nat /\ 0 < pkt_mt p < 4) l.

(** What the device must receive: the first fragment completed by the payloads of the others. *)
Definition joined (l : list bytes) : bytes :=
  match l with
  | [] => []
  | p :: l => p ++ concat (map payload l)
  end.

(** The traffic of a host: control messages, each cut in fragments, and data packets. *)
Inductive item : Set :=
  | IControl (fragments : list bytes)
  | IData (p : bytes).
Definition item_ok (i : item) : Prop :=
  match i with
  | IControl l => control_fragments l
  | IData p => (4 <= length p)%nat /\ is_data p = true
  end.
Definition item_packets (i : item) : list bytes :=
  match i with IControl l => l | IData p => [p] end.
Definition item_message (i : item) : bytes :=
  match i with IControl l => joined l | IData p => p end.

(** Why a stream does not start with a complete packet: incomplete header, invalid
    message type, or missing payload bytes. *)
Definition no_packet (s : bytes) : Prop :=
  (length s < 4)%nat \/ 4 <= pkt_mt s \/ N.of_nat (length (payload s)) < length_field s.

(** The receiver gets the same type, group, opcode and payload. *)
Definition received_as (m p : bytes) : Prop :=
  same_kind m p /\ payload p = payload m /\ (4 <= length p)%nat.

(** What a host program sends with the two functions of the Python library. *)
Inductive host_send : Set :=
  | HControl (p : bytes)
  | HData (p : bytes).
Definition host_bytes (h : host_send) : bytes := match h with HControl p | HData p => p end.
Definition host_send_ok (h : host_send) : Prop :=
  match h with
  | HControl p => wf_bytes p /\ 0 < pkt_mt p < 4 /\ pkt_more p = 0
  | HData p => wf_bytes p /\ is_data p = true
  end.
