(** Properties of the reader task of the Python library. *)
From Verif Require Import Base Uci MacAddress AppConfig Codec Session Device Pica Sys Transport.
From Verif Require Import BaseFacts CodecSpec CodecFacts TransportSpec ContextSpec RangingSpec CrashSpec Demo SysSpec SysFacts SysDemo.
From Verif Require Import PyHost PyHostSpec PyHostFacts PyReader PyReaderSpec PyReaderFacts.

(** ** C74. The packets found in the two queues of the library depend only on the bytes received, not on the pieces in
    which they arrive; each packet is in the queue of its kind, in order; and the task then waits for more bytes. *)
Theorem C74_any_pieces : forall stream, wf_bytes stream -> exists t, t <> TaskRunning /\
  forall pieces, concat pieces = stream -> forall fuel, (length pieces + length stream < fuel)%nat ->
  py_reader fuel (Reader pieces false)
    = (Queues (control_packets (py_read_stream stream)) (data_packets (py_read_stream stream)), t).
Proof. exact reader_queues. Qed.
Print Assumptions C74_any_pieces.
(** All the messages sent by a device are queued. *)
Theorem C74_messages : forall ms, Forall wf_msg ms -> exists bs stream, mapM wire ms = Some bs /\ write_stream bs = Some stream
  /\ forall pieces, concat pieces = stream -> exists q, queued_as (control_messages ms) (control_queue q) /\ queued_as (data_messages ms) (data_queue q)
      /\ forall fuel, (length pieces + length stream < fuel)%nat -> py_reader fuel (Reader pieces false) = (q, TaskWaits).
Proof.
  intros ms W. destruct (reader_sees ms W) as (bs & s & M & S & H). exists bs, s. split; [done|]. split; [done|].
  intros cs C. by apply (H cs false).
Qed.
Print Assumptions C74_messages.
(** In every execution of the simulator, with hosts sending packets of known message types. *)
Theorem C74_execution : forall ls y h, executed ls y -> Forall known_type ls ->
  exists bs stream, mapM wire (delivered h y) = Some bs /\ write_stream bs = Some stream
  /\ forall pieces, concat pieces = stream -> exists q,
      queued_as (control_messages (delivered h y)) (control_queue q) /\ queued_as (data_messages (delivered h y)) (data_queue q)
      /\ forall fuel, (length pieces + length stream < fuel)%nat -> py_reader fuel (Reader pieces false) = (q, TaskWaits).
Proof. intros ls y h Ex K. apply C74_messages. by eapply delivered_wf. Qed.
Print Assumptions C74_execution.
Example C74_example :
  let ms := [CoreDeviceStatusNtf DsActive; DataMessageRcv 7 0 1 1 [9; 8; 7]; SessionStatusNtf 7 SsActive 0] in
  let stream := [0x60; 1; 0; 1; 2] ++ [2; 0; 20; 0; 7; 0; 0; 0; 0; 1; 0; 0; 0; 0; 0; 0; 0; 1; 0; 3; 0; 9; 8; 7] ++ [0x61; 2; 0; 6; 7; 0; 0; 0; 2; 0] in
  Forall wf_msg ms /\ (mapM wire ms ≫= write_stream) = Some stream
  /\ py_reader 200 (Reader (map (fun b => [b]) stream) false) = py_reader 200 (Reader [stream] false)
  /\ map py_parse (control_queue (py_reader 200 (Reader [take 9 stream; drop 9 stream] false)).1)
     = [Some (PyMsg (CoreDeviceStatusNtf DsActive)); Some (PyMsg (SessionStatusNtf 7 SsActive 0))]
  /\ map py_parse (data_queue (py_reader 200 (Reader [take 9 stream; drop 9 stream] false)).1) = [Some (PyMsg (DataMessageRcv 7 0 1 1 [9; 8; 7]))]
  /\ (py_reader 200 (Reader [take 9 stream; drop 9 stream] false)).2 = TaskWaits.
Proof.
  cbv zeta. split. { constructor; [done|]. constructor; [cbn [wf_msg]; split_and!; try done; by apply wf_bytesb|]. constructor; [done|constructor]. }
  repeat (split; [vm_compute; reflexivity|]). vm_compute; reflexivity.
Qed.

(** ** C75. Full statement: when the connection ends, [_read_exact] raises an exception (its documentation says so), thus
    the reader task ends:  exists fuel, (py_reader fuel (Reader pieces true)).2 = TaskClosed.
    It is false: whatever was received, the task runs for ever ([reader.read] returns at once at the end of the
    connection, so that the event loop of the program is never given back the control). *)
Theorem C75_refuted : forall ms, Forall wf_msg ms -> exists bs stream, mapM wire ms = Some bs /\ write_stream bs = Some stream
  /\ forall pieces, concat pieces = stream -> forall fuel, (py_reader fuel (Reader pieces true)).2 = TaskRunning.
Proof.
  intros ms W. destruct (reader_sees ms W) as (bs & s & M & S & H). exists bs, s. split; [done|]. split; [done|].
  intros cs C. destruct (H cs true C) as (q & _ & _ & E). apply (reader_never_ends cs (length cs + length s)). intros fuel L. by rewrite E.
Qed.
Print Assumptions C75_refuted.
(** What was received before the end is in the queues. *)
Theorem C75_queued_partial : forall ms, Forall wf_msg ms -> exists bs stream, mapM wire ms = Some bs /\ write_stream bs = Some stream
  /\ forall pieces, concat pieces = stream -> exists q, queued_as (control_messages ms) (control_queue q) /\ queued_as (data_messages ms) (data_queue q)
      /\ forall fuel, (length pieces + length stream < fuel)%nat -> (py_reader fuel (Reader pieces true)).1 = q.
Proof.
  intros ms W. destruct (reader_sees ms W) as (bs & s & M & S & H). exists bs, s. split; [done|]. split; [done|].
  intros cs C. destruct (H cs true C) as (q & Q1 & Q2 & E). exists q. split; [done|]. split; [done|]. intros fuel L. by rewrite E.
Qed.
Print Assumptions C75_queued_partial.
Example C75_example : Forall wf_msg [CoreDeviceStatusNtf DsReady]
  /\ py_reader 30 (Reader [[0x60; 1]; [0; 1; 1]] true) = (Queues [[0x60; 1; 0; 1; 1]] [], TaskRunning)
  /\ py_reader 30 (Reader [[0x60; 1]; [0; 1; 1]] false) = (Queues [[0x60; 1; 0; 1; 1]] [], TaskWaits).
Proof. split; [by repeat constructor|]. split; vm_compute; reflexivity. Qed.
