(** C11: the capture files. *)
From Verif Require Import Base Uci Codec Transport BaseFacts TransportSpec TransportFacts Pcapng PcapngSpec PcapngFacts.

(** The packets whose block length fits 32 bits; all the packets of a TCP connection do. *)
Definition fits (p : bytes) : Prop := N.of_nat (length p) + 36 < 2 ^ 32.

(** Reading back the file gives exactly the packets recorded: in order, with their bytes and their original length, on an
    interface of link type 293, with their time in microseconds (modulo 2^64). [map snd], [map fst]: packets and times. *)
Theorem C11_read_back : forall l : list (N * bytes), Forall (fun x => fits (snd x)) l ->
  exists w, file_writes l = Some w /\
    read_capture (concat w) = Some (map (fun x => PacketRecord 293 (fst x mod 2 ^ 64) (N.of_nat (length (snd x))) (snd x)) l)
    /\ N.of_nat (length (concat w)) mod 4 = 0.
Proof.
  intros l F. assert (Forall (fun x => recordable (snd x)) l) as R by (eapply Forall_impl; [exact F|]; intros x; apply small_recordable).
  destruct (file_writes_ok l R) as (w & E & C). exists w. split; [done|]. rewrite C. split; [by apply read_file|by apply file_of_length_mod].
Qed.
Print Assumptions C11_read_back.

(** If the simulator is killed at any moment, the file is cut at any place: what can be read is a prefix of the packets
    recorded, with all those whose writes were complete. *)
Theorem C11_crash : forall (l : list (N * bytes)) w k, Forall (fun x => fits (snd x)) l -> file_writes l = Some w ->
  exists j, read_truncated_capture (take k (concat w))
      = Some (map (fun x => PacketRecord 293 (fst x mod 2 ^ 64) (N.of_nat (length (snd x))) (snd x)) (take j l))
    /\ forall i w', (i <= length l)%nat -> file_writes (take i l) = Some w' -> (length (concat w') <= k)%nat -> (i <= j)%nat.
Proof.
  intros l w k F E. assert (Forall (fun x => recordable (snd x)) l) as R by (eapply Forall_impl; [exact F|]; intros x; apply small_recordable).
  destruct (file_writes_ok l R) as (w0 & E0 & C0). rewrite E in E0. injection E0 as <-. rewrite C0.
  destruct (read_cut l k R) as (j & Ej & I). exists j. split; [exact Ej|]. intros i w' Hi Ew Lw.
  apply I; [done|]. destruct (file_writes_ok (take i l) (Forall_take _ _ _ R)) as (w1 & E1 & C1). rewrite Ew in E1. injection E1 as <-. by rewrite <- C1.
Qed.
Print Assumptions C11_crash.

(** The file of a connection is the transcript of the connection: the packets read from the host and the packets sent to
    it, each once and in the order of their direction; the packets read are those the stream yielded (as long as the
    connection lives), what is delivered is what they reassemble to, and the packets sent are the fragments of the messages. *)
Theorem C11_connection : forall evs c, Forall (fun ev => match ev with CeRead _ p => fits p | _ => True end) evs ->
  conn_run conn_new evs = Some c ->
  (exists records, read_capture (cs_file c) = Some records /\ interleaving (cs_read c) (cs_sent c) (map pr_data records))
  /\ fst (read_routine None (cs_read c)) = cs_delivered c
  /\ (cs_ended c = false -> cs_read c = read_of evs
      /\ exists fragments, mapM segment (received_of evs) = Some fragments /\ cs_sent c ++ cs_pending c = concat fragments).
Proof.
  intros evs c F R. split.
  - destruct (conn_run_captured evs c F R) as (l & E & Rl & I). exists (map record_of l). split; [by rewrite E, read_file|].
    by rewrite map_map.
  - destruct (conn_run_inv _ _ R) as [D L]. split; [done|]. intros En. destruct (L En) as (_ & ? & ?). done.
Qed.
Print Assumptions C11_connection.
(** Recording never stops a connection. *)
Theorem C11_harmless : forall evs c ev, Forall event_small (evs ++ [ev]) -> conn_run conn_new evs = Some c -> cs_ended c = false ->
  match ev with CeRead _ _ => True | CeRecv _ => cs_pending c = [] | CeSend _ => cs_pending c <> [] end ->
  is_Some (conn_step c ev).
Proof.
  intros evs c ev F R En H. apply Forall_app in F as [F Fe]. inversion Fe; subst. apply conn_step_defined; try done.
  assert (forall c0, Forall small (cs_pending c0) -> captured c0 -> conn_run c0 evs = Some c -> Forall small (cs_pending c)) as G.
  { clear R. induction F as [|e evs Fx F IH]; intros c0 P C R; cbn in R; [by injection R as <-|].
    destruct (conn_step c0 e) as [c1|] eqn:S; [|discriminate]. destruct (conn_step_captured _ _ _ Fx P C S) as [P' C']. by apply (IH c1). }
  apply (G conn_new); [constructor| |done]. by apply (conn_run_captured []).
Qed.
Print Assumptions C11_harmless.
(** The packets of a TCP connection fit. *)
Theorem C11_frames_fit : forall p, wf_bytes p -> frame p -> fits p.
Proof.
  intros p W (L & _ & E). unfold fits. unfold payload in E. rewrite skipn_length in E. unfold length_field in E.
  assert (forall k, nth k p 0 < 256) as B.
  { intros k. destruct (Nat.ltb_spec k (length p)) as [K|K]; [|rewrite nth_overflow by lia; lia].
    unfold wf_bytes in W. rewrite List.Forall_forall in W. by apply W, nth_In. }
  pose proof (B 2%nat). pose proof (B 3%nat). destruct (is_data p); lia.
Qed.
Print Assumptions C11_frames_fit.
(** The other packets, which only an embedder of the library can provide, panic in the dev profile (pcapng.rs:61). *)
Theorem C11_overflow : forall ts p, N.of_nat (length p) < 2 ^ 32 ->
  packet_writes ts p = None <-> 2 ^ 32 <= N.of_nat (length p) + (4 - N.of_nat (length p) mod 4) + 32.
Proof. intros ts p L. rewrite packet_panic by done. unfold recordable. lia. Qed.
Print Assumptions C11_overflow.

(** Finding: [file.write] is used instead of [write_all] and its result ignored; a short write corrupts the file. Here the
    second packet is lost to a reader, although all its bytes were written. *)
Theorem C11_short_write_refuted : exists l w counts, file_writes l = Some w /\ length counts = length w
  /\ Forall2 (fun k (b : bytes) => (k <= length b)%nat) counts w
  /\ read_capture (os_write counts w) = None
  /\ read_truncated_capture (os_write counts w) = Some [].
Proof.
  exists [(5, [1; 2; 3]); (6, [1; 2; 3; 4; 5])].
  eexists _, ([4;4;4;2;2;8;4; 4;4;2;2;4;4; 4;4;4;4;4;4;4;2;1;4; 4;4;4;4;4;4;4;5;3;4]%nat).
  split; [vm_compute; reflexivity|]. split; [reflexivity|]. split; [repeat constructor; cbn; lia|]. split; vm_compute; reflexivity.
Qed.
Print Assumptions C11_short_write_refuted.

Example C11_example :
  let evs := [CeRead 3 [0x20; 0; 0; 1; 0]; CeRecv [0x40; 0; 0; 0; 0]; CeSend 4; CeRead 9 [0x30; 3; 0; 0]; CeRead 10 [0x20; 3; 0; 2; 8; 9]] in
  Forall event_small evs /\
  exists c, conn_run conn_new evs = Some c /\ cs_ended c = false
    /\ cs_delivered c = [[0x20; 0; 0; 1; 0]; [0x30; 3; 0; 0; 8; 9]]
    /\ read_capture (cs_file c) = Some [PacketRecord 293 3 5 [0x20; 0; 0; 1; 0]; PacketRecord 293 4 5 [0x40; 0; 0; 1; 0];
        PacketRecord 293 9 4 [0x30; 3; 0; 0]; PacketRecord 293 10 6 [0x20; 3; 0; 2; 8; 9]].
Proof.
  cbv zeta. split; [repeat constructor|]. eexists. split; [vm_compute; reflexivity|]. split; [reflexivity|]. split; [reflexivity|vm_compute; reflexivity].
Qed.
