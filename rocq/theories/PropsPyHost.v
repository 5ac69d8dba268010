(** Properties of the reference Python host connected to the simulator. *)
From Verif Require Import Base Uci MacAddress AppConfig Codec Session Device Pica Sys Transport.
From Verif Require Import BaseFacts CodecSpec CodecFacts TransportSpec ContextSpec InvFacts RangingSpec CrashSpec MulticastSpec.
From Verif Require Import CommandFacts Demo SysSpec SysFacts SysDemo PropsRanging PropsSys PyHost PyHostSpec PyHostFacts.

(** ** C67. Full statement: for every list of messages sent, the library shows, in order, an object of the class of each
    message with its fields. It is false for the responses to multicast list updates, proved for all others. *)
Theorem C67_messages_partial : forall ms, Forall wf_msg ms ->
  exists bs stream, mapM wire ms = Some bs /\ write_stream bs = Some stream
    /\ Forall2 (fun m packet => multicast_response m = false -> py_shows m packet) ms (py_read_stream stream).
Proof. exact py_sees_all. Qed.
Print Assumptions C67_messages_partial.
(** In every execution of the simulator, with hosts sending packets of known message types. *)
Theorem C67_execution_partial : forall ls y h, executed ls y -> Forall known_type ls ->
  exists bs stream, mapM wire (delivered h y) = Some bs /\ write_stream bs = Some stream
    /\ Forall2 (fun m packet => multicast_response m = false -> py_shows m packet) (delivered h y) (py_read_stream stream).
Proof. intros ls y h Ex K. apply py_sees_all. by eapply delivered_wf. Qed.
Print Assumptions C67_execution_partial.

(** No response to a multicast list update is shown as such: the class of the library has a status only. The object is
    generic, with the group, the opcode and the bytes. *)
Theorem C67_multicast_generic : forall st l b packet, wf_msg (SessionUpdateControllerMulticastListRsp st l) ->
  wire (SessionUpdateControllerMulticastListRsp st l) = Some b -> received_as b packet ->
  exists rest, py_parse packet = Some (PySessionConfigPacket MtResponse 7 (st :: N.of_nat (length l) :: rest)).
Proof. exact py_wire_multicast. Qed.
Print Assumptions C67_multicast_generic.
Definition y_multicast : list label := y_active ++ serve [rd 0 (CmdMulticast 7 AddControlee [1; 3; 0; 0; 0; 0; 0])] (at_end y_active).
Theorem C67_multicast_refuted : exists ls y h m b stream packet, executed ls y /\ Forall polite ls
  /\ In m (delivered h y) /\ wire m = Some b /\ write_stream [b] = Some stream /\ py_read_stream stream = [packet] /\ ~ py_shows m packet.
Proof.
  assert (executed y_multicast (at_end y_multicast)) as Ex by run_demo.
  exists y_multicast, (at_end y_multicast), 0, (SessionUpdateControllerMulticastListRsp 0 [([3; 0], 0)]),
    [0x41; 7; 0; 0; 0; 1; 3; 0; 0], [0x41; 7; 0; 5; 0; 1; 3; 0; 0], [0x41; 7; 0; 5; 0; 1; 3; 0; 0].
  split; [exact Ex|]. split; [apply (politeb_sound _ _ Ex); vm_compute; reflexivity|].
  split. { assert (last (delivered 0 (at_end y_multicast)) = Some (SessionUpdateControllerMulticastListRsp 0 [([3; 0], 0)])) as L by (vm_compute; reflexivity).
    apply last_Some in L as [l ->]. apply in_or_app. right. by left. }
  split; [vm_compute; reflexivity|]. split; [vm_compute; reflexivity|]. split; [vm_compute; reflexivity|].
  cbn [py_shows]. vm_compute. discriminate.
Qed.
Print Assumptions C67_multicast_refuted.
Example C67_example : executed y_active (at_end y_active) /\ Forall known_type y_active
  /\ Forall wf_msg [SessionStatusNtf 7 SsActive 0; CoreDeviceStatusNtf DsActive]
  /\ map py_parse (py_read_stream [0x61; 2; 0; 6; 7; 0; 0; 0; 2; 0; 0x60; 1; 0; 1; 2])
     = [Some (PyMsg (SessionStatusNtf 7 SsActive 0)); Some (PyMsg (CoreDeviceStatusNtf DsActive))]
  /\ (mapM wire [SessionStatusNtf 7 SsActive 0; CoreDeviceStatusNtf DsActive] ≫= write_stream)
     = Some [0x61; 2; 0; 6; 7; 0; 0; 0; 2; 0; 0x60; 1; 0; 1; 2]
  /\ length (delivered 0 (at_end y_active)) = 4%nat.
Proof.
  split; [run_demo|]. split; [vm_compute; repeat (constructor; [first [exact I|reflexivity]|]); constructor|].
  split; [by repeat constructor|]. repeat (split; [vm_compute; reflexivity|]). vm_compute; reflexivity.
Qed.

(** ** C68. Every command built with the library, with at most 255 bytes of arguments, is decoded by the device as meant,
    in order; a longer one is not sent ([None]: the exception is raised by the program). *)
Theorem C68_commands : forall cs, Forall (fun c => wf_cmd c /\ (length (cmd_args c) <= 255)%nat) cs ->
  exists frames packets, mapM py_send_command cs = Some frames
    /\ read_routine None (read_stream (concat frames)) = (packets, EndOfStream) /\ Forall2 decoded_as cs packets.
Proof. exact py_commands_received. Qed.
Print Assumptions C68_commands.
Theorem C68_too_long : forall c, wf_cmd c -> (255 < length (cmd_args c))%nat -> py_send_command c = None.
Proof. exact py_command_too_long. Qed.
Print Assumptions C68_too_long.
(** The controlees of a multicast list update: the bytes built by the library list them. *)
Theorem C68_controlees : forall a l, short_list l -> Forall (wf_controlee (key_size a)) l -> controlees a l (py_ser_controlees l).
Proof. intros a l S F. split; [done|]. split; [done|]. by eapply py_ser_controlees_eq. Qed.
Print Assumptions C68_controlees.
Example C68_example : let cs := [CmdDeviceReset 0; CmdSessionInit 7 1; CmdMulticast 7 AddControlee (py_ser_controlees [([3; 0], 5, [])])] in
  Forall (fun c => wf_cmd c /\ (length (cmd_args c) <= 255)%nat) cs
  /\ mapM py_send_command cs = Some [[0x20; 0; 0; 1; 0]; [0x21; 0; 0; 5; 7; 0; 0; 0; 1]; [0x21; 7; 0; 12; 7; 0; 0; 0; 0; 1; 3; 0; 5; 0; 0; 0]]
  /\ wf_cmd (CmdMulticast 7 AddControlee (repeat 0 (N.to_nat 251))) /\ py_send_command (CmdMulticast 7 AddControlee (repeat 0 (N.to_nat 251))) = None.
Proof.
  cbv zeta. split. { constructor; [split; [done|cbn; lia]|]. constructor; [split; [split; [done|right; by left]|cbn; lia]|]. constructor; [|constructor].
    split; [|vm_compute; lia]. split; [done|]. apply wf_bytesb. vm_compute. reflexivity. }
  split; [vm_compute; reflexivity|]. split; [|vm_compute; reflexivity]. split; [done|]. apply wf_bytesb. vm_compute. reflexivity.
Qed.

(** ** C69. The file given to the console command is sent as data messages: the device receives packets which are those
    sent, carry the parts of the file in order, numbered 0, 1, ..., 65534, 0, ... and have the packet boundary flag but the last. *)
Theorem C69_packets : forall handle dst file, word32 handle -> word64 dst -> wf_bytes file ->
  exists frames, py_data_transfer handle dst file = Some frames
    /\ read_routine None (read_stream (concat frames)) = (frames, EndOfStream)
    /\ carries_file handle dst file frames /\ boundary_flags frames.
Proof.
  intros handle dst file W1 W2 W. destruct (py_transfer_ok _ _ _ W1 W2 W) as (frames & parts & E & R & B & _ & C & L & Nb).
  exists frames. split_and!; try done. by exists parts.
Qed.
Print Assumptions C69_packets.
(** Once the packets are processed, one credit notification was sent for each, and the file is pending after what was. *)
Theorem C69_pending : forall handle dst file frames h p s l, word32 handle -> word64 dst -> wf_bytes file ->
  py_data_transfer handle dst file = Some frames -> reachable p -> session_at p h handle = Some s -> s_type s = 0x01 ->
  Forall wf_env l.*1 -> map snd l = map (UciPacket h) frames ->
  exists p' outs, run p l = Ret (p', outs) /\ session_at p' h handle = Some (s_set_data (s_data s ++ file) s)
    /\ sent h outs = repeat (SessionDataCreditNtf handle 1) (length frames).
Proof.
  intros handle dst file frames h p s l W1 W2 W E R S T We El.
  destruct (py_transfer_ok _ _ _ W1 W2 W) as (frames' & parts & E' & _ & _ & Wf & C & L & Nb). rewrite E in E'. injection E' as <-.
  destruct (transfer_run handle dst h parts frames 0 p s l) as (p' & outs & H & _ & S' & Sn); try done. exists p', outs. by rewrite <- C.
Qed.
Print Assumptions C69_pending.
(** Full statement: the next round gives the file, whole, to every receiver. It is so up to 65535 bytes pending... *)
Theorem C69_delivered_partial : forall handle dst file frames h p s l p' outs e p2 outs2 k,
  word32 handle -> word64 dst -> wf_bytes file -> py_data_transfer handle dst file = Some frames ->
  reachable p -> session_at p h handle = Some s -> s_type s = 0x01 -> s_data s = [] -> Forall wf_env l.*1 ->
  map snd l = map (UciPacket h) frames -> run p l = Ret (p', outs) ->
  receives e p' h handle (s_set_data file s) k -> step e p' (Ranging h handle) = Ret (p2, outs2) ->
  exists src, data_received k outs2 = [(handle, 0x00, src, 1, file)].
Proof.
  intros handle dst file frames h p s l p' outs e p2 outs2 k W1 W2 W E R S T D We El H Rk St.
  destruct (py_transfer_ok _ _ _ W1 W2 W) as (frames' & parts & E' & _ & _ & Wf & C & L & Nb). rewrite E in E'. injection E' as <-.
  destruct (transfer_run handle dst h parts frames 0 p s l) as (p1 & outs1 & H' & R' & S' & Sn); try done.
  rewrite H in H'. apply Ret_inj in H'. injection H' as <- <-. rewrite D, C in S'. cbn [app] in S'.
  destruct (transfer_round _ _ _ _ _ _ _ _ R' S' Rk St) as (src & ->). by exists src.
Qed.
Print Assumptions C69_delivered_partial.
(** ... and beyond, the simulator stops. *)
Theorem C69_long_file_stops : forall handle dst file frames h p s l p' outs e k,
  word32 handle -> word64 dst -> wf_bytes file -> py_data_transfer handle dst file = Some frames ->
  reachable p -> session_at p h handle = Some s -> s_type s = 0x01 -> s_data s = [] -> Forall wf_env l.*1 ->
  map snd l = map (UciPacket h) frames -> run p l = Ret (p', outs) ->
  receives e p' h handle (s_set_data file s) k -> 65535 < N.of_nat (length file) ->
  crashed (step e p' (Ranging h handle)) = true.
Proof.
  intros handle dst file frames h p s l p' outs e k W1 W2 W E R S T D We El H Rk Ln.
  destruct (py_transfer_ok _ _ _ W1 W2 W) as (frames' & parts & E' & _ & _ & Wf & C & L & Nb). rewrite E in E'. injection E' as <-.
  destruct (transfer_run handle dst h parts frames 0 p s l) as (p1 & outs1 & H' & R' & S' & Sn); try done.
  rewrite H in H'. apply Ret_inj in H'. injection H' as <- <-. rewrite D, C in S'. cbn [app] in S'.
  by eapply transfer_round_crash.
Qed.
Print Assumptions C69_long_file_stops.

(** A file of 2500 bytes, sent by the host of device 0 and received by those of devices 1 and 2. *)
Definition demo_file : bytes := map (fun i => N.of_nat i mod 251) (seq 0 (N.to_nat 2500)).
Definition demo_frames : list bytes := default [] (py_data_transfer 7 2 demo_file).
Example C69_example : py_data_transfer 7 2 demo_file = Some demo_frames
  /\ map (fun f => N.of_nat (length f)) demo_frames = [1044; 1044; 472] /\ map (take 4) demo_frames = [[0x11; 0; 0x10; 4]; [0x11; 0; 0x10; 4]; [1; 0; 0xd4; 1]]
  /\ wf_bytes demo_file
  /\ ok_history (linked ++ map (UciPacket 0) demo_frames) = true
  /\ (s_type <$> session_at (state_after linked) 0 7) = Some 1 /\ (s_data <$> session_at (state_after linked) 0 7) = Some []
  /\ data_received 1 (round_result demo_env (state_after (linked ++ map (UciPacket 0) demo_frames)) 0 7).2 = [(7, 0, 1, 1, demo_file)]
  /\ data_received 2 (round_result demo_env (state_after (linked ++ map (UciPacket 0) demo_frames)) 0 7).2 = [(7, 0, 1, 1, demo_file)].
Proof.
  split; [vm_compute; reflexivity|]. split; [vm_compute; reflexivity|]. split; [vm_compute; reflexivity|].
  split; [apply wf_bytesb; vm_compute; reflexivity|]. repeat (split; [vm_compute; reflexivity|]). vm_compute; reflexivity.
Qed.

Definition long_file : bytes := repeat 5 (N.to_nat 65536).
Definition long_frames : list bytes := default [] (py_data_transfer 7 2 long_file).
Lemma long_file_frames : py_data_transfer 7 2 long_file = Some long_frames.
Proof. vm_compute. reflexivity. Qed.
Lemma long_file_wf : wf_bytes long_file.
Proof. apply wf_bytesb. vm_compute. reflexivity. Qed.
Lemma long_file_length : 65535 < N.of_nat (length long_file).
Proof. unfold long_file. rewrite repeat_length, N2Nat.id. done. Qed.
Definition seen (p : pica) (h : N) : session_state * N * option bytes :=
  match session_at p h 7 with Some s => (s_state s, s_type s, app_config_get (s_cfg s) T_DEVICE_ROLE) | None => (SsDeinit, 0, None) end.
Lemma long_file_peer : match run (state_after linked) (history (map (UciPacket 0) long_frames)) with
  | Ret (p, _) => seen p 1 | Crash _ => (SsDeinit, 0, None) end = (SsActive, 1, Some [0]).
Proof. vm_compute. reflexivity. Qed.
Lemma seen_data_session p h r : seen p h = (SsActive, 1, Some [r]) -> exists s, session_at p h 7 = Some s /\ data_session r s.
Proof. unfold seen. destruct (session_at p h 7) as [s|]; [|discriminate]. intros [= H1 H2 H3]. by exists s. Qed.
Theorem C69_refuted : exists handle dst file frames h p s l p' outs e k,
  word32 handle /\ word64 dst /\ wf_bytes file /\ py_data_transfer handle dst file = Some frames
  /\ reachable p /\ session_at p h handle = Some s /\ s_type s = 0x01 /\ s_data s = [] /\ Forall wf_env l.*1
  /\ map snd l = map (UciPacket h) frames /\ run p l = Ret (p', outs) /\ wf_env e
  /\ receives e p' h handle (s_set_data file s) k /\ crashed (step e p' (Ranging h handle)) = true.
Proof.
  assert (ok_history linked = true) as Ok by (vm_compute; reflexivity). pose proof (history_reachable _ Ok) as R. clear Ok.
  destruct (seen_data_session (state_after linked) 0 1) as (s & S & Ds); [vm_compute; reflexivity|].
  assert (s_data s = []) as D. { assert (s_data <$> session_at (state_after linked) 0 7 = Some []) as X by (vm_compute; reflexivity). rewrite S in X. by injection X. }
  assert (wf_env plain_env) as We by (intros a b r H; discriminate H).
  pose proof long_file_frames as E. pose proof long_file_wf as W. pose proof long_file_length as Ln. pose proof long_file_peer as X.
  generalize dependent (state_after linked). generalize dependent long_frames. generalize dependent long_file. intros file W Ln frames E p R S X.
  assert (map snd (history (map (UciPacket 0) frames)) = map (UciPacket 0) frames) as El.
  { unfold history. rewrite map_map. by rewrite map_id. }
  assert (Forall wf_env (history (map (UciPacket 0) frames)).*1) as Fe.
  { unfold history. apply Forall_fmap, Forall_forall. intros x Hx. apply elem_of_list_In, in_map_iff in Hx as (o & <- & _). exact We. }
  destruct (C69_pending 7 2 file frames 0 p s _ eq_refl eq_refl W E R S (proj1 (proj2 Ds)) Fe El) as (p' & outs & H & S' & _).
  rewrite H in X. destruct (seen_data_session _ _ _ X) as (ps & Sp & Dp).
  assert (receives demo_env p' 0 7 (s_set_data file s) 1) as Rk.
  { split; [done|]. split; [exact Ds|]. split; [by exists ps|intros [_ [N|N]]; discriminate N]. }
  exists 7, 2, file, frames, 0, p, s, (history (map (UciPacket 0) frames)), p', outs, demo_env, 1.
  split; [done|]. split; [done|]. split_and!; try assumption; [apply Ds|apply demo_env_wf|].
  refine (C69_long_file_stops 7 2 file frames 0 p s _ p' outs demo_env 1 eq_refl eq_refl W E R S (proj1 (proj2 Ds)) D Fe El H Rk Ln).
Qed.
Print Assumptions C69_refuted.
