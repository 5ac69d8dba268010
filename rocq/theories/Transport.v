(** Model of the byte transport: packets.rs (TCP framing), the connection tasks of
    lib.rs (reassembly and segmentation), and the reference Python host
    py/pica/pica/__init__.py. *)
From Verif Require Import Base Uci Codec.

(** packets.rs:40-44 *)
Definition HEADER_SIZE : nat := 4.
Definition MAX_CTRL_PACKET_PAYLOAD_SIZE : nat := 255.
Definition MAX_DATA_PACKET_PAYLOAD_SIZE : nat := N.to_nat 1024.

(** ** packets.rs:53-84 [read]
    [stream] is everything which is received on the connection until it is closed.
    [None] ends the packet stream: short read, or invalid message type. *)
Definition read_payload (header : bytes) (rest : bytes) (n : N) : option (bytes * bytes) :=
  if N.of_nat (length rest) <? n then None
  else Some (header ++ take (N.to_nat n) rest, drop (N.to_nat n) rest).

Definition read (stream : bytes) : option (bytes * bytes) :=
  match stream with
  | h0 :: h1 :: h2 :: h3 :: rest =>
      match mt_of_code (hdr_mt h0) with
      | None => None
      | Some MtData => read_payload [h0; h1; h2; h3] rest (le_nat [h2; h3])
      | Some _ => read_payload [h0; h1; h2; h3] rest h3
      end
  | _ => None
  end.

(** [futures::stream::unfold(read_half, read)] (bin/http-server/main.rs:508,
    bin/main.rs:37): packets until the first [None]. Each packet has at least 4
    bytes, [length stream] iterations are enough. *)
Fixpoint read_fuel (fuel : nat) (stream : bytes) : list bytes :=
  match fuel with
  | O => []
  | S fuel =>
      match read stream with
      | None => []
      | Some (p, stream) => p :: read_fuel fuel stream
      end
  end.
Definition read_stream (stream : bytes) : list bytes := read_fuel (length stream) stream.

(** ** lib.rs:240-281 [read_routine] *)
Inductive reader_result : Set :=
  | RMore (complete_packet : bytes)   (* fragment stored, keep reading *)
  | RDeliver (packet : bytes)         (* PicaCommand::UciPacket sent *)
  | RError                            (* [?]: the routine returns an error *)
  | RPanic.                           (* slice out of range: the task panics *)

(** One iteration of the inner loop. *)
Definition read_routine_packet (complete_packet : option bytes) (packet : bytes) : reader_result :=
  match packet with
  | [] => RPanic (* &packet[0..COMMON_HEADER_SIZE] *)
  | h :: _ =>
      match mt_of_code (hdr_mt h) with
      | None => RError
      | Some mt =>
          let next :=
            match complete_packet with
            | Some c =>
                if Nat.ltb (length packet) HEADER_SIZE then None (* &packet[HEADER_SIZE..] *)
                else Some (c ++ drop HEADER_SIZE packet)
            | None => Some packet
            end in
          match next with
          | None => RPanic
          | Some c =>
              if (hdr_pbf h =? PBF_COMPLETE) || bool_decide (mt = MtData)
              then RDeliver c else RMore c
          end
      end
  end.

(** How the routine stops on a list of packets. *)
Inductive reader_end : Set :=
  | EndOfStream   (* "input packet stream closed" *)
  | EndError      (* header decoding error *)
  | EndPanic.

(** The whole routine: delivered packets, and how it ends. *)
Fixpoint read_routine (complete_packet : option bytes) (packets : list bytes)
    : list bytes * reader_end :=
  match packets with
  | [] => ([], EndOfStream)
  | packet :: packets =>
      match read_routine_packet complete_packet packet with
      | RMore c => read_routine (Some c) packets
      | RDeliver c => let '(l, e) := read_routine None packets in (c :: l, e)
      | RError => ([], EndError)
      | RPanic => ([], EndPanic)
      end
  end.

(** ** lib.rs:284-344 [write_routine]: segmentation of one message.
    [rest] is [complete_packet[offset..]]. *)
Definition patch_header (mt : message_type) (pbf : N) (fragment_length : nat) (header : bytes) : bytes :=
  match header with
  | h0 :: h1 :: h2 :: h3 :: _ =>
      let h0 := N.lor (N.land h0 0xEF) (N.shiftl pbf 4) in
      let n := N.of_nat fragment_length in
      match mt with
      | MtData => h0 :: h1 :: le_bytes 2 n
      | _ => [h0; h1; h2; n mod 256]
      end
  | _ => header
  end.

Fixpoint segment_loop (fuel : nat) (mt : message_type) (header rest : bytes) : list bytes :=
  match fuel with
  | O => []
  | S fuel =>
      match rest with
      | [] => []
      | _ =>
          let remaining_length := length rest in
          let fragment_length :=
            Nat.min remaining_length
              (match mt with
               | MtData => MAX_DATA_PACKET_PAYLOAD_SIZE
               | _ => MAX_CTRL_PACKET_PAYLOAD_SIZE
               end) in
          let pbf := if Nat.eqb fragment_length remaining_length then PBF_COMPLETE else PBF_NOT_COMPLETE in
          (patch_header mt pbf fragment_length header ++ take fragment_length rest)
            :: segment_loop fuel mt header (drop fragment_length rest)
      end
  end.

(** [None] is the panic of [complete_packet[0]]. *)
Definition segment (complete_packet : bytes) : option (list bytes) :=
  match complete_packet with
  | [] => None
  | h0 :: _ =>
      let mt := parse_message_type h0 in
      Some (segment_loop (length complete_packet) mt
              (take HEADER_SIZE complete_packet) (drop HEADER_SIZE complete_packet))
  end.

(** lib.rs:292-343 on a list of messages, followed by packets.rs:88-97 [write] of
    each packet: the bytes written to the connection. *)
Definition write_stream (messages : list bytes) : option bytes :=
  (fun l => concat (concat l)) <$> mapM segment messages.

(** ** py/pica/pica/__init__.py, the reference host *)

(** [_read_packet] (:40-77), state [complete_packet_bytes]; [None]: the reader blocks
    (or raises) and delivers nothing more. *)
Fixpoint py_read_packet (fuel : nat) (complete : bytes) (stream : bytes) : option (bytes * bytes) :=
  match fuel with
  | O => None
  | S fuel =>
      match stream with
      | h0 :: h1 :: h2 :: h3 :: rest =>
          match mt_of_code (hdr_mt h0) with
          | None => None
          | Some mt =>
              let n := match mt with MtData => le_nat [h2; h3] | _ => h3 end in
              if N.of_nat (length rest) <? n then None
              else
                let complete := complete ++ take (N.to_nat n) rest in
                let rest := drop (N.to_nat n) rest in
                if hdr_pbf h0 =? PBF_COMPLETE
                then Some ([h0; h1; h2; h3] ++ complete, rest)
                else py_read_packet fuel complete rest
          end
      | _ => None
      end
  end.

(** [_read_packets] (:79-91): the packets received, in order (the two queues
    partition them by message type). *)
Fixpoint py_read_fuel (fuel : nat) (stream : bytes) : list bytes :=
  match fuel with
  | O => []
  | S fuel =>
      match py_read_packet (length stream) [] stream with
      | None => []
      | Some (p, rest) => p :: py_read_fuel fuel rest
      end
  end.
Definition py_read_stream (stream : bytes) : list bytes := py_read_fuel (length stream) stream.

(** [send_control] (:99-103), [send_data] (:105-111). [None]: exception (the length
    does not fit the header, or the packet is shorter than a header). *)
Definition py_send_control (packet : bytes) : option bytes :=
  match packet with
  | h0 :: h1 :: h2 :: _ :: rest =>
      if Nat.leb (length rest) 255 then Some (h0 :: h1 :: h2 :: N.of_nat (length rest) :: rest) else None
  | _ => None
  end.
Definition py_send_data (packet : bytes) : option bytes :=
  match packet with
  | h0 :: h1 :: _ :: _ :: rest =>
      if N.of_nat (length rest) <? 65536
      then Some (h0 :: h1 :: le_bytes 2 (N.of_nat (length rest)) ++ rest) else None
  | _ => None
  end.
