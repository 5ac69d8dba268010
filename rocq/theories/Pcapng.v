(** Model of pcapng.rs (capture files), and of its use by the connection tasks, lib.rs:240-344 and 368-392. *)
From Verif Require Import Base Uci Codec Transport.

(** ** pcapng.rs:32-57 [File::create]: the buffers given to [file.write], in order. *)
Definition create_writes : list bytes := [
  le_bytes 4 0x0A0D0D0A; (* :36 Block Type *)
  le_bytes 4 28;         (* :37 Block Total Length *)
  le_bytes 4 0x1A2B3C4D; (* :38 Byte-Order Magic *)
  le_bytes 2 1;          (* :39 Major Version *)
  le_bytes 2 0;          (* :40 Minor Version *)
  le_bytes 8 0xFFFFFFFFFFFFFFFF; (* :41 Section Length (not specified) *)
  le_bytes 4 28;         (* :42 Block Total Length *)
  le_bytes 4 1;          (* :46 Block Type *)
  le_bytes 4 20;         (* :47 Block Total Length *)
  le_bytes 2 293;        (* :48 LinkType *)
  le_bytes 2 0;          (* :49 Reserved *)
  le_bytes 4 0;          (* :50 SnapLen (no limit) *)
  le_bytes 4 20].        (* :51 Block Total Length *)

(** [x as u32] *)
Definition as_u32 (n : N) : N := n mod 2 ^ 32.

(** ** pcapng.rs:59-77 [File::write]: the buffers given to [file.write]. [timestamp] is the result of
    [self.start_time.elapsed().as_micros()], an [u128]. [None] is the panic of the [u32] addition of line 61 in
    the dev profile. *)
Definition packet_writes (timestamp : N) (packet : bytes) : option (list bytes) :=
  let len := N.of_nat (length packet) in
  let packet_data_padding := 4 - len mod 4 in
  let block_total_length := as_u32 len + as_u32 packet_data_padding + 32 in
  if 2 ^ 32 <=? block_total_length then None else
  Some [
    le_bytes 4 6;                                        (* :66 Block Type *)
    le_bytes 4 block_total_length;                       (* :67 *)
    le_bytes 4 0;                                        (* :68 Interface ID *)
    le_bytes 4 (as_u32 (N.shiftr timestamp 32));         (* :69 Timestamp (High) *)
    le_bytes 4 (as_u32 timestamp);                       (* :70 Timestamp (Low) *)
    le_bytes 4 (as_u32 len);                             (* :71 Captured Packet Length *)
    le_bytes 4 (as_u32 len);                             (* :72 Original Packet Length *)
    packet;                                              (* :73 *)
    repeat 0 (N.to_nat packet_data_padding);             (* :74 *)
    le_bytes 4 block_total_length].                      (* :75 *)

(** All the buffers written to the file of a connection by [create] and then one [write] for each packet. *)
Fixpoint packets_writes (l : list (N * bytes)) : option (list bytes) :=
  match l with
  | [] => Some []
  | (ts, p) :: l => w ← packet_writes ts p; ws ← packets_writes l; Some (w ++ ws)
  end.
Definition file_writes (l : list (N * bytes)) : option (list bytes) :=
  ws ← packets_writes l; Some (create_writes ++ ws).

(** The calls [file.write(buf)?] (and not [write_all]): the operating system takes the first [k] bytes of the buffer.
    The result is not looked at. [counts] is what it takes, call by call. *)
Fixpoint os_write (counts : list nat) (bufs : list bytes) : bytes :=
  match counts, bufs with
  | k :: counts, b :: bufs => take k b ++ os_write counts bufs
  | _, _ => []
  end.

(** ** The capture of a connection: lib.rs:240-344, the two routines joined by [try_join!] (lib.rs:379-382) in one task.
    Simplifications: the writes to the file are complete and do not fail (see [os_write] for the others). *)
Inductive conn_event : Set :=
  | CeRead (ts : N) (packet : bytes)     (* the stream yields a packet, lib.rs:253-281 *)
  | CeRecv (message : bytes)             (* a message is taken from the channel, lib.rs:295-300 *)
  | CeSend (ts : N).                     (* the next fragment is recorded and sent, lib.rs:332-342 *)

Record conn_state : Set := ConnState {
  cs_partial : option bytes;             (* complete_packet of read_routine *)
  cs_pending : list bytes;               (* the fragments of the current message still to be sent *)
  cs_file : bytes;
  cs_read : list bytes;                  (* packets taken from the stream, with a valid header *)
  cs_delivered : list bytes;             (* sent to the environment as PicaCommand::UciPacket *)
  cs_sent : list bytes;                  (* handed to the sink *)
  cs_ended : bool }.                     (* one of the routines has returned or panicked *)

(** lib.rs:372-378, pcapng.rs:32-57 *)
Definition conn_new : conn_state := ConnState None [] (concat create_writes) [] [] [] false.

(** [None]: the event cannot occur, or [File::write] panics. *)
Definition conn_step (c : conn_state) (ev : conn_event) : option conn_state :=
  if cs_ended c then None else
  match ev with
  | CeRead ts packet =>
      match packet with
      | [] => Some (ConnState (cs_partial c) (cs_pending c) (cs_file c) (cs_read c) (cs_delivered c) (cs_sent c) true)
      | h :: _ =>
          match mt_of_code (hdr_mt h) with
          | None => Some (ConnState (cs_partial c) (cs_pending c) (cs_file c) (cs_read c) (cs_delivered c) (cs_sent c) true)
          | Some _ =>
              w ← packet_writes ts packet;
              let file := cs_file c ++ concat w in
              match read_routine_packet (cs_partial c) packet with
              | RMore p => Some (ConnState (Some p) (cs_pending c) file (cs_read c ++ [packet]) (cs_delivered c) (cs_sent c) false)
              | RDeliver p => Some (ConnState None (cs_pending c) file (cs_read c ++ [packet]) (cs_delivered c ++ [p]) (cs_sent c) false)
              | RError | RPanic => Some (ConnState (cs_partial c) (cs_pending c) file (cs_read c ++ [packet]) (cs_delivered c) (cs_sent c) true)
              end
          end
      end
  | CeRecv message =>
      match cs_pending c with
      | _ :: _ => None
      | [] =>
          match segment message with
          | None => Some (ConnState (cs_partial c) [] (cs_file c) (cs_read c) (cs_delivered c) (cs_sent c) true)
          | Some l => Some (ConnState (cs_partial c) l (cs_file c) (cs_read c) (cs_delivered c) (cs_sent c) false)
          end
      end
  | CeSend ts =>
      match cs_pending c with
      | [] => None
      | p :: l =>
          w ← packet_writes ts p;
          Some (ConnState (cs_partial c) l (cs_file c ++ concat w) (cs_read c) (cs_delivered c) (cs_sent c ++ [p]) false)
      end
  end.
Fixpoint conn_run (c : conn_state) (evs : list conn_event) : option conn_state :=
  match evs with
  | [] => Some c
  | ev :: evs => c ← conn_step c ev; conn_run c evs
  end.
