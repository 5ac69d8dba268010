(** Model of the reader task of py/pica/pica/__init__.py [Host]: how the bytes arriving on the connection, in
    whatever pieces, become packets in the two queues of the library. *)
From Verif Require Import Base Uci Codec Transport PyHost.

(** [asyncio.StreamReader]: what will arrive, in pieces, in order, and then either nothing more ([r_eof] false) or the
    end of the connection ([r_eof] true). *)
Record reader : Set := Reader { r_chunks : list bytes; r_eof : bool }.

(** [reader.read(n)], n > 0: at most [n] of the bytes that have arrived, as soon as there are some; [b''] at the end of
    the connection, at once; [None]: the coroutine waits. *)
Definition py_read (n : nat) (r : reader) : option (bytes * reader) :=
  match r_chunks r with
  | c :: cs => Some (take n c, Reader (match drop n c with [] => cs | rest => rest :: cs end) (r_eof r))
  | [] => if r_eof r then Some ([], r) else None
  end.

(** The end of a coroutine: a value, waiting for more bytes, an exception, or, after [fuel] turns of its loops, neither. *)
Inductive outcome (A : Type) : Type :=
  | Done (a : A) (r : reader)
  | Waits
  | Raises
  | StillRunning.
Arguments Done {A} _ _. Arguments Waits {A}. Arguments Raises {A}. Arguments StillRunning {A}.
Definition andthen {A B} (x : outcome A) (f : A -> reader -> outcome B) : outcome B :=
  match x with Done a r => f a r | Waits => Waits | Raises => Raises | StillRunning => StillRunning end.

(** [_read_exact] (:30-38). *)
Fixpoint py_read_exact (fuel : nat) (expected_len : nat) (received : bytes) (r : reader) : outcome bytes :=
  if Nat.ltb (length received) expected_len then
    match fuel with
    | O => StillRunning
    | S fuel =>
        match py_read (expected_len - length received) r with
        | None => Waits
        | Some (chunk, r) => py_read_exact fuel expected_len (received ++ chunk) r
        end
    end
  else Done received r.

(** [_read_packet] (:40-77). The two header classes have the length in different places (uci.py:1034-1044, 1073-1083);
    [MessageType.from_int] raises for the reserved values (uci.py:97-108). *)
Fixpoint py_next_packet (fuel : nat) (complete : bytes) (r : reader) : outcome bytes :=
  match fuel with
  | O => StillRunning
  | S fuel' =>
      andthen (py_read_exact fuel 4 [] r) (fun header r =>
        match mt_of_code (hdr_mt (nth 0 header 0)) with
        | None => Raises
        | Some mt =>
            let n := match mt with MtData => le_nat [nth 2 header 0; nth 3 header 0] | _ => nth 3 header 0 end in
            andthen (py_read_exact fuel (N.to_nat n) [] r) (fun payload r =>
              let complete := complete ++ payload in
              if hdr_pbf (nth 0 header 0) =? PBF_COMPLETE then Done (header ++ complete) r
              else py_next_packet fuel' complete r)
        end)
  end.

(** The state of the reader task, when it makes no progress any more: waiting, over ("reader task closed"), or still
    running after [fuel] turns. *)
Inductive task : Set := TaskWaits | TaskClosed | TaskRunning.
Record queues : Set := Queues { control_queue : list bytes; data_queue : list bytes }.

(** [_read_packets] (:79-91). *)
Fixpoint py_reader_loop (fuel : nat) (q : queues) (r : reader) : queues * task :=
  match fuel with
  | O => (q, TaskRunning)
  | S fuel' =>
      match py_next_packet fuel [] r with
      | Done packet r =>
          match mt_of_code (hdr_mt (nth 0 packet 0)) with
          | None => (q, TaskClosed)
          | Some MtData => py_reader_loop fuel' (Queues (control_queue q) (data_queue q ++ [packet])) r
          | Some _ => py_reader_loop fuel' (Queues (control_queue q ++ [packet]) (data_queue q)) r
          end
      | Waits => (q, TaskWaits)
      | Raises => (q, TaskClosed)
      | StillRunning => (q, TaskRunning)
      end
  end.
(** [Host.__init__] (:12-20). *)
Definition py_reader (fuel : nat) (r : reader) : queues * task := py_reader_loop fuel (Queues [] []) r.
