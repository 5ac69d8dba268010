(** C05 (messages), C06 and C07: the packet grammar. *)
From Verif Require Import Base Uci MacAddress Codec CodecSpec CodecFacts Transport.

(** C06. *)
Theorem C06_message_decodes : forall m : msg, wf_msg m ->
  exists bytes, wire m = Some bytes /\ decode_msg bytes = Some m.
Proof. exact wire_decode. Qed.
Print Assumptions C06_message_decodes.

Theorem C06_messages_distinct : forall (m m' : msg) (b : bytes),
  wf_msg m -> wf_msg m' -> wire m = Some b -> wire m' = Some b -> m = m'.
Proof. exact wire_inj. Qed.
Print Assumptions C06_messages_distinct.

Example C06_example :
  wf_msg (SessionInfoNtf 7 0xFFFFFFFF 0 200
            [Measurement 0x0102 0 0 300 65446 100 10 100 90 100 65526 100 0 255] [])
  /\ wf_msg (SessionGetAppConfigRsp 0 [(T_DST_MAC_ADDRESS, [1; 2; 3; 4]); (T_OTHER 0xE3, [])])
  /\ wire (SessionGetAppConfigRsp 0 [(T_DST_MAC_ADDRESS, [1; 2; 3; 4]); (T_OTHER 0xE3, [])])
     = Some [0x41; 4; 0; 0; 0; 2; 0x07; 4; 1; 2; 3; 4; 0xE3; 0].
Proof.
  split_and!; cbn [wf_msg]; unfold short_list, wf_measurement, wf_bytes;
    repeat first [constructor | split | (cbn; lia) | vm_compute; reflexivity].
Qed.

(** C05: what the reference host decodes from the TCP stream is what the controller sent. *)
Theorem C05_messages_end_to_end : forall (ms : list msg) (bs : list bytes) (stream : bytes),
  Forall wf_msg ms -> mapM wire ms = Some bs -> write_stream bs = Some stream ->
  Forall2 (fun m p => host_view <$> decode_msg p = Some (host_view m)) ms (py_read_stream stream).
Proof. exact py_sees_messages. Qed.
Print Assumptions C05_messages_end_to_end.

Example C05_messages_example : exists bs stream,
  mapM wire [SessionInitRsp 0; SessionGetAppConfigRsp 0 [(T_SESSION_KEY, repeat 9 200); (T_SESSION_KEY, repeat 8 200)]]
    = Some bs
  /\ write_stream bs = Some stream /\ length (py_read_stream stream) = 2%nat.
Proof. do 2 eexists. split_and!; vm_compute; reflexivity. Qed.

(** C07. *)
Theorem C07_command_iff : forall (c : command) (packet : bytes), wf_bytes packet ->
  ((exists cp, decode_control_packet packet = Some cp /\ cp_mt cp = MtCommand
     /\ specialize_command (cp_gid cp) (cp_payload cp) = SpCommand c)
   <-> wf_cmd c /\ encodes c packet).
Proof. exact decode_command_iff. Qed.
Print Assumptions C07_command_iff.

Theorem C07_encoding_unambiguous : forall (c c' : command) (packet : bytes), wf_bytes packet ->
  wf_cmd c -> wf_cmd c' -> encodes c packet -> encodes c' packet -> c = c'.
Proof. exact encodes_inj. Qed.
Print Assumptions C07_encoding_unambiguous.

(** The controlees of a multicast update ([key_size] is 0, 16 or 32). *)
Theorem C07_controlees_iff : forall (key_size : nat) (payload : bytes) (l : list (bytes * N)),
  wf_bytes payload ->
  (decode_controlees key_size payload = Some l <->
   exists l', l = map fst l' /\ short_list l' /\ Forall (wf_controlee key_size) l'
     /\ payload = with_count controlee_bytes l').
Proof.
  intros k b l W. split; [by apply decode_controlees_sound|].
  intros (l' & -> & S & F & ->). by apply decode_controlees_spec.
Qed.
Print Assumptions C07_controlees_iff.

(** Data messages of the host. *)
Theorem C07_data_message_iff : forall handle dst seq data packet, wf_bytes packet ->
  (exists h, hd_error packet = Some h /\ h / 32 = 0) ->
  (decode_data_packet packet = DdPacket (DataMessageSnd handle dst seq data) <->
   word32 handle /\ word64 dst /\ word16 seq /\ N.of_nat (length data) <= 65535 /\ wf_bytes data
   /\ encodes_data_snd handle dst seq data packet).
Proof. exact decode_data_snd_iff. Qed.
Print Assumptions C07_data_message_iff.

Example C07_example :
  wf_cmd (CmdSetAppConfig 0x01020304 [(T_CHANNEL_NUMBER, [9]); (T_SESSION_KEY, [])])
  /\ encodes (CmdSetAppConfig 0x01020304 [(T_CHANNEL_NUMBER, [9]); (T_SESSION_KEY, [])])
       [0x21; 3; 0; 10; 4; 3; 2; 1; 2; 0x04; 1; 9; 0x45; 0]
  /\ encodes_data_snd 5 6 7 [8; 9] [1; 0; 18; 0; 5; 0; 0; 0; 6; 0; 0; 0; 0; 0; 0; 0; 7; 0; 2; 0; 8; 9]
  /\ decode_controlees 0 [1; 0xA; 0xB; 4; 3; 2; 1] = Some [([0xA; 0xB], 0x01020304)].
Proof.
  split_and!.
  - cbn [wf_cmd]. unfold short_list, wf_bytes, word32. repeat first [constructor | (cbn; lia)].
  - exists 0x21, 3, 0, 10. split_and!; vm_compute; reflexivity.
  - exists 1, 0, 18, 0. split_and!; vm_compute; reflexivity.
  - vm_compute. reflexivity.
Qed.
