(** C01-C05: the byte transport. *)
From Verif Require Import Base Uci Codec Transport TransportSpec TransportFacts.

(** C01. The packets written for a message carry exactly its payload, in order, in
    non-empty pieces of at most 1024 (data) or 255 (control) bytes. *)
Theorem C01_segmentation_lossless : forall m : bytes, wf_bytes m -> m <> [] ->
  exists packets, segment m = Some packets
  /\ concat (map payload packets) = payload m
  /\ Forall (fun p => payload p <> []
       /\ N.of_nat (length (payload p)) <= (if is_data m then 1024 else 255)) packets.
Proof. exact segment_lossless. Qed.
Print Assumptions C01_segmentation_lossless.

(** A control message with a payload of 600 bytes is cut in 3 packets, a data message
    with a payload of 1500 bytes in 2. *)
Example C01_example :
  let m := [65; 3; 0; 0] ++ repeat 7 (N.to_nat 600) in
  map (fun p => N.of_nat (length p)) <$> segment m = Some [259; 259; 94].
Proof. vm_compute. reflexivity. Qed.
Example C01_example_data :
  let m := [2; 0; 0; 0] ++ repeat 7 (N.to_nat 1500) in
  map (fun p => (firstn 4 p, N.of_nat (length p))) <$> segment m
  = Some [([18; 0; 0; 4], 1028); ([2; 0; 220; 1], 480)].
Proof. vm_compute. reflexivity. Qed.

(** C02. Every packet keeps the kind of the message and announces its own length; all
    but the last are marked as incomplete, the last as complete. *)
Theorem C02_segment_headers : forall (m : bytes) (packets : list bytes),
  wf_bytes m -> segment m = Some packets ->
  Forall (fun p => same_kind m p
                   /\ (4 <= length p)%nat
                   /\ length_field p = N.of_nat (length (payload p))) packets
  /\ boundary_flags packets
  /\ Forall wf_bytes packets.
Proof. exact segment_headers. Qed.
Print Assumptions C02_segment_headers.

Example C02_example :
  map (firstn 4) <$> segment ([65; 3; 0; 0] ++ repeat 7 (N.to_nat 600))
  = Some [[81; 3; 0; 255]; [81; 3; 0; 255]; [65; 3; 0; 90]].
Proof. vm_compute. reflexivity. Qed.

(** C03. Whatever is received, the packets delivered are complete frames and form a
    prefix of the stream; what remains does not start with a complete packet. *)
Theorem C03_framing_sound : forall s : bytes, wf_bytes s ->
  exists rest, s = concat (read_stream s) ++ rest
  /\ Forall frame (read_stream s)
  /\ no_packet rest.
Proof. exact read_stream_sound. Qed.
Print Assumptions C03_framing_sound.

(** A stream of well-formed packets, followed or not by a truncated or malformed one,
    is split into exactly these packets. *)
Theorem C03_framing_complete : forall (l : list bytes) (rest : bytes),
  wf_bytes (concat l ++ rest) -> Forall frame l -> no_packet rest ->
  read_stream (concat l ++ rest) = l.
Proof. exact read_stream_complete. Qed.
Print Assumptions C03_framing_complete.

(** The reader ends the stream exactly when there is no complete packet. *)
Theorem C03_end_of_stream : forall s : bytes, wf_bytes s ->
  (read s = None <-> no_packet s).
Proof. exact read_None_no_packet. Qed.
Print Assumptions C03_end_of_stream.

Example C03_example :
  read_stream ([32; 0; 0; 1; 0] ++ [2; 0; 3; 0; 9; 9; 9] ++ [33; 5; 0; 2; 1])
  = [[32; 0; 0; 1; 0]; [2; 0; 3; 0; 9; 9; 9]].
Proof. vm_compute. reflexivity. Qed.
Example C03_example_hyps :
  Forall frame [[32; 0; 0; 1; 0]; [2; 0; 3; 0; 9; 9; 9]] /\ no_packet [33; 5; 0; 2; 1].
Proof.
  split.
  - repeat constructor; vm_compute; congruence.
  - right; right; vm_compute; reflexivity.
Qed.

(** C04, without data packets between the fragments of a control message: the device
    receives exactly the messages sent, however they are fragmented. *)
Theorem C04_reassembly_partial : forall l : list item,
  Forall item_ok l -> Forall wf_bytes (concat (map item_packets l)) ->
  read_routine None (concat (map item_packets l)) = (map item_message l, EndOfStream).
Proof. exact read_routine_items. Qed.
Print Assumptions C04_reassembly_partial.

Example C04_example :
  read_routine None ([49; 3; 0; 2; 10; 11] :: [2; 0; 1; 0; 5] :: []) = ([[49; 3; 0; 2; 10; 11; 5]], EndOfStream)
  /\ read_routine None (concat (map item_packets
        [IControl [[49; 3; 0; 2; 10; 11]; [33; 3; 0; 1; 12]]; IData [2; 0; 1; 0; 5]]))
     = ([[49; 3; 0; 2; 10; 11; 12]; [2; 0; 1; 0; 5]], EndOfStream)
  /\ Forall item_ok [IControl [[49; 3; 0; 2; 10; 11]; [33; 3; 0; 1; 12]]; IData [2; 0; 1; 0; 5]].
Proof.
  split_and!; [vm_compute; reflexivity..|].
  repeat constructor; vm_compute; try congruence; try lia.
Qed.

(** C04, the last sentence, is false: a data packet received after a first fragment is
    appended to it, and the result is delivered as a command. This happens always... *)
Theorem C04_interleaved_data : forall (f1 d : bytes) (l : list bytes),
  wf_bytes f1 -> wf_bytes d -> (4 <= length f1)%nat -> (4 <= length d)%nat ->
  0 < pkt_mt f1 < 4 -> pkt_more f1 = 1 -> is_data d = true ->
  (read_routine None (f1 :: d :: l)).1 = (f1 ++ payload d) :: (read_routine None l).1.
Proof. exact read_routine_interleaved. Qed.
Print Assumptions C04_interleaved_data.

(** ... so the data packet is not delivered, nor is the control message. *)
Theorem C04_interleaved_data_refuted :
  exists f1 d f2 : bytes,
    control_fragments [f1; f2] /\ item_ok (IData d) /\ Forall frame [f1; d; f2]
    /\ Forall wf_bytes [f1; d; f2]
    /\ ~ In d (read_routine None [f1; d; f2]).1
    /\ ~ In (joined [f1; f2]) (read_routine None [f1; d; f2]).1.
Proof.
  exists [49; 3; 0; 2; 10; 11], [2; 0; 1; 0; 5], [33; 3; 0; 1; 12].
  split_and!; try (repeat constructor; vm_compute; congruence).
  - vm_compute. intuition congruence.
  - vm_compute. intuition congruence.
Qed.
Print Assumptions C04_interleaved_data_refuted.

(** C05. The reference host reads, in order, each message written by the controller... *)
Theorem C05_controller_to_host : forall (messages : list bytes) (stream : bytes),
  Forall (fun m => wf_bytes m /\ (4 < length m)%nat /\ pkt_mt m < 4) messages ->
  write_stream messages = Some stream ->
  Forall2 received_as messages (py_read_stream stream).
Proof. exact py_read_written. Qed.
Print Assumptions C05_controller_to_host.

Theorem C05_controller_writes : forall messages : list bytes,
  Forall (fun m => m <> []) messages -> is_Some (write_stream messages).
Proof. exact write_stream_defined. Qed.

(** ... and the device receives, in order, each message sent by the reference host. *)
Theorem C05_host_to_controller : forall (l : list host_send) (frames : list bytes),
  Forall host_send_ok l -> mapM py_send l = Some frames ->
  exists delivered,
    read_routine None (read_stream (concat frames)) = (delivered, EndOfStream)
    /\ Forall2 received_as (map host_bytes l) delivered.
Proof. exact py_send_received. Qed.
Print Assumptions C05_host_to_controller.

Example C05_example :
  py_read_stream <$> write_stream [[64; 0; 0; 0; 0]; [65; 3; 0; 0] ++ repeat 7 300]
  = Some [[64; 0; 0; 1; 0]; [65; 3; 0; 45] ++ repeat 7 300]
  /\ mapM py_send [HControl [32; 0; 0; 0; 0]; HData [1; 0; 0; 0; 9]]
     = Some [[32; 0; 0; 1; 0]; [1; 0; 1; 0; 9]]
  /\ Forall host_send_ok [HControl [32; 0; 0; 0; 0]; HData [1; 0; 0; 0; 9]].
Proof.
  split_and!; [vm_compute; reflexivity..|].
  repeat constructor; vm_compute; congruence.
Qed.
