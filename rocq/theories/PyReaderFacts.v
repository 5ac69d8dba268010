(** Proofs about the reader task of the Python library. *)
From Verif Require Import Base Uci MacAddress AppConfig Codec Session Device Pica Transport.
From Verif Require Import BaseFacts CodecSpec CodecFacts TransportSpec TransportFacts PyHost PyHostSpec PyHostFacts PyReader PyReaderSpec.

Lemma read_exact_done fuel n received r : (n <= length received)%nat -> py_read_exact fuel n received r = Done received r.
Proof. intros L. destruct fuel; cbn [py_read_exact]; destruct (Nat.ltb_spec (length received) n); try lia; done. Qed.

(** Enough bytes are coming: they are returned, in order, and nothing else is consumed. *)
Lemma read_exact_enough eof n : forall cs fuel received, (length cs < fuel)%nat ->
  (n - length received <= length (concat cs))%nat ->
  exists cs', py_read_exact fuel n received (Reader cs eof) = Done (received ++ take (n - length received) (concat cs)) (Reader cs' eof)
    /\ concat cs' = drop (n - length received) (concat cs) /\ (length cs' <= length cs)%nat.
Proof.
  induction cs as [|c cs IH]; intros fuel received F L.
  - cbn [concat length] in *. rewrite take_nil, drop_nil, app_nil_r. rewrite read_exact_done by lia. by eexists.
  - destruct (decide (n <= length received)%nat) as [Le|Gt].
    { rewrite read_exact_done by lia. replace (n - length received)%nat with 0%nat by lia. rewrite take_0, drop_0, app_nil_r. by eexists. }
    destruct fuel as [|fuel]; [cbn in F; lia|]. cbn [py_read_exact]. destruct (Nat.ltb_spec (length received) n); [|lia].
    unfold py_read. cbn [r_chunks r_eof]. remember (n - length received)%nat as k eqn:Ek. cbn [concat] in *. rewrite app_length in L.
    destruct (decide (length c <= k)%nat) as [Lc|Gc].
    + rewrite (take_ge c) by lia. rewrite (drop_ge c) by lia.
      destruct (IH fuel (received ++ c)) as (cs' & E & C & Ln); [cbn in F; lia|rewrite app_length; lia|].
      rewrite app_length in *. exists cs'. rewrite E. split; [|split; [|cbn; lia]].
      * rewrite take_app_ge by lia. rewrite <- app_assoc. by replace (n - (length received + length c))%nat with (k - length c)%nat by lia.
      * rewrite drop_app_ge by lia. rewrite C. f_equal. lia.
    + destruct (drop k c) as [|x d] eqn:D. { assert (length (drop k c) = 0%nat) as Z by (by rewrite D). rewrite drop_length in Z. lia. }
      rewrite read_exact_done by (rewrite app_length, take_length; lia). eexists. rewrite take_app_le by lia. split; [done|].
      rewrite drop_app_le by lia. cbn [concat]. rewrite <- D. split; [done|cbn; lia].
Qed.
(** Not enough bytes are coming. *)
Lemma read_exact_short eof n : forall cs fuel received, (length cs < fuel)%nat -> (length received + length (concat cs) < n)%nat ->
  py_read_exact fuel n received (Reader cs eof) = if eof then StillRunning else Waits.
Proof.
  induction cs as [|c cs IH]; intros fuel received F L.
  - destruct eof.
    + cbn [concat length] in L. clear F. revert received L. induction fuel as [|fuel IH]; intros received L; cbn [py_read_exact];
        (destruct (Nat.ltb_spec (length received) n); [|lia]); [done|]. cbn [py_read r_chunks r_eof]. rewrite app_nil_r. by apply IH.
    + destruct fuel as [|fuel]; [cbn in F; lia|]. cbn [concat length] in L. cbn [py_read_exact]. destruct (Nat.ltb_spec (length received) n); [|lia]. done.
  - cbn [concat] in L. rewrite app_length in L. destruct fuel as [|fuel]; [cbn in F; lia|]. cbn [py_read_exact].
    destruct (Nat.ltb_spec (length received) n); [|lia]. unfold py_read. cbn [r_chunks r_eof].
    rewrite (take_ge c) by lia. rewrite (drop_ge c) by lia. apply IH; [cbn in F; lia|rewrite app_length; lia].
Qed.

(** The next packet of the stream has a segment of a reserved message type. *)
Fixpoint invalid (f : nat) (s : bytes) : bool :=
  match f, s with
  | S f, h0 :: h1 :: h2 :: h3 :: rest =>
      match mt_of_code (hdr_mt h0) with
      | None => true
      | Some mt =>
          let n := match mt with MtData => le_nat [h2; h3] | _ => h3 end in
          if N.of_nat (length rest) <? n then false
          else if hdr_pbf h0 =? PBF_COMPLETE then false else invalid f (drop (N.to_nat n) rest)
      end
  | _, _ => false
  end.
Definition stuck {A} (eof : bool) (bad : bool) : outcome A := if bad then Raises else if eof then StillRunning else Waits.

Lemma next_packet_eq eof : forall f fuel complete cs, (length (concat cs) <= f)%nat -> (length cs + length (concat cs) < fuel)%nat ->
  match py_read_packet f complete (concat cs) with
  | Some (p, rest) => exists cs', py_next_packet fuel complete (Reader cs eof) = Done p (Reader cs' eof) /\ concat cs' = rest /\ (length cs' <= length cs)%nat
  | None => py_next_packet fuel complete (Reader cs eof) = stuck eof (invalid f (concat cs))
  end.
Proof.
  induction f as [|f IH]; intros fuel complete cs L1 L2.
  - destruct fuel as [|fuel]; [lia|]. cbn [py_read_packet]. cbn [py_next_packet].
    rewrite read_exact_short by (cbn; lia). by destruct eof.
  - destruct fuel as [|fuel]; [lia|]. cbn [py_next_packet].
    destruct (decide (length (concat cs) < 4)%nat) as [Sh|Ge].
    { rewrite read_exact_short by (cbn; lia). assert (py_read_packet (S f) complete (concat cs) = None) as ->.
      { destruct (concat cs) as [|? [|? [|? [|? ?]]]]; try done. cbn in Sh. lia. }
      assert (invalid (S f) (concat cs) = false) as ->. { destruct (concat cs) as [|? [|? [|? [|? ?]]]]; try done. cbn in Sh. lia. }
      by destruct eof. }
    destruct (read_exact_enough eof 4 cs (S fuel) []) as (c1 & -> & C1 & N1); [lia|cbn; lia|].
    destruct (concat cs) as [|h0 [|h1 [|h2 [|h3 rest]]]] eqn:E; try (exfalso; cbn [length] in Ge; lia).
    cbn [length Nat.sub take drop app] in C1 |- *. rewrite drop_0 in C1. rewrite take_0. cbn [andthen nth py_read_packet invalid].
    destruct (mt_of_code (hdr_mt h0)) as [mt|]; [|done].
    cbv zeta. generalize (match mt with MtData => le_nat [h2; h3] | _ => h3 end). intros n.
    destruct (N.ltb_spec (N.of_nat (length rest)) n) as [Lt|Ge2].
    { rewrite read_exact_short by (rewrite ?C1; cbn [length]; lia). by destruct eof. }
    destruct (read_exact_enough eof (N.to_nat n) c1 (S fuel) []) as (c2 & -> & C2 & N2); [lia|rewrite C1; cbn [length]; lia|].
    cbn [length app andthen] in C2 |- *. rewrite C1 in C2 |- *. rewrite Nat.sub_0_r in C2 |- *.
    destruct (hdr_pbf h0 =? PBF_COMPLETE). { exists c2. split; [done|]. split; [done|lia]. }
    assert (length (concat c2) <= length rest)%nat as Lr by (rewrite C2, drop_length; lia).
    specialize (IH fuel (complete ++ take (N.to_nat n) rest) c2). rewrite C2 in IH. cbn [length] in L1, L2. rewrite C2 in Lr.
    specialize (IH ltac:(lia) ltac:(lia)).
    destruct (py_read_packet f (complete ++ take (N.to_nat n) rest) (drop (N.to_nat n) rest)) as [[p rest']|].
    + destruct IH as (c3 & -> & C3 & N3). exists c3. split; [done|]. split; [done|lia].
    + exact IH.
Qed.

(** ** Streams *)
Lemma read_packet_shape : forall f complete s p rest, py_read_packet f complete s = Some (p, rest) ->
  exists h0 q, p = h0 :: q /\ is_Some (mt_of_code (hdr_mt h0)) /\ In h0 s /\ (length rest + 4 <= length s)%nat /\ (forall b, In b rest -> In b s).
Proof.
  induction f as [|f IH]; intros complete s p rest H; [done|]. destruct s as [|h0 [|h1 [|h2 [|h3 s]]]]; try done.
  cbn [py_read_packet] in H. destruct (mt_of_code (hdr_mt h0)) as [mt|] eqn:M; [|done]. revert H.
  generalize (match mt with MtData => le_nat [h2; h3] | _ => h3 end). intros n H.
  destruct (N.of_nat (length s) <? n); [done|]. destruct (hdr_pbf h0 =? PBF_COMPLETE).
  - injection H as <- <-. exists h0. eexists. split; [done|]. split; [by rewrite M|]. split; [by left|]. split; [rewrite drop_length; cbn; lia|].
    intros b Hb. do 4 right. rewrite <- (take_drop (N.to_nat n) s). apply in_or_app. by right.
  - apply IH in H as (h & q & -> & Hm & Hi & Hl & Hr). rewrite drop_length in Hl. exists h, q. split; [done|]. split; [done|].
    assert (forall b, In b (drop (N.to_nat n) s) -> In b s) as D.
    { intros b Hb. rewrite <- (take_drop (N.to_nat n) s). apply in_or_app. by right. }
    split; [do 4 right; by apply D|]. split; [cbn; lia|]. intros b Hb. do 4 right. by apply D, Hr.
Qed.

(** [reads s ps r]: the packets [ps] are read from the stream [s], and then nothing more from the rest [r]. *)
Inductive reads : bytes -> list bytes -> bytes -> Prop :=
  | reads_end s : py_read_packet (length s) [] s = None -> reads s [] s
  | reads_packet s p s' ps r : py_read_packet (length s) [] s = Some (p, s') -> reads s' ps r -> reads s (p :: ps) r.
Lemma reads_ex : forall n s, (length s <= n)%nat -> exists ps r, reads s ps r.
Proof.
  induction n as [|n IH]; intros s L.
  - exists [], s. constructor. by destruct s; [|cbn in L; lia].
  - destruct (py_read_packet (length s) [] s) as [[p s']|] eqn:E; [|exists [], s; by constructor].
    destruct (read_packet_shape _ _ _ _ _ E) as (_ & _ & _ & _ & _ & Hl & _). destruct (IH s') as (ps & r & R); [lia|].
    exists (p :: ps), r. by econstructor.
Qed.
Lemma reads_fuel s ps r : reads s ps r -> forall n, (length s <= n)%nat -> py_read_fuel n s = ps.
Proof.
  induction 1 as [s E|s p s' ps r E R IH]; intros n L.
  - destruct n; [done|]. cbn [py_read_fuel]. by rewrite E.
  - destruct (read_packet_shape _ _ _ _ _ E) as (_ & _ & _ & _ & _ & Hl & _). destruct n as [|n]; [lia|].
    cbn [py_read_fuel]. rewrite E, (IH n); [done|lia].
Qed.
Lemma reads_stream s ps r : reads s ps r -> py_read_stream s = ps.
Proof. intros R. by apply (reads_fuel _ _ _ R). Qed.

(** ** The queues *)
Definition status (eof : bool) (r : bytes) : task := if invalid (length r) r then TaskClosed else if eof then TaskRunning else TaskWaits.
Lemma reader_loop_eq eof s ps r : reads s ps r -> wf_bytes s -> forall fuel q cs, concat cs = s -> (length cs + length s < fuel)%nat ->
  py_reader_loop fuel q (Reader cs eof) = (Queues (control_queue q ++ control_packets ps) (data_queue q ++ data_packets ps), status eof r).
Proof.
  induction 1 as [s E|s p s' ps r E R IH]; intros W fuel q cs C L; (destruct fuel as [|fuel]; [lia|]); cbn [py_reader_loop].
  - pose proof (next_packet_eq eof (length s) (S fuel) [] cs) as X. rewrite C, E in X. rewrite (X (le_n _) L).
    cbn [control_packets data_packets List.filter]. rewrite !app_nil_r. unfold status, stuck. destruct q. by destruct (invalid (length s) s), eof.
  - pose proof (next_packet_eq eof (length s) (S fuel) [] cs) as X. rewrite C, E in X. destruct (X (le_n _) L) as (cs' & -> & C' & N').
    destruct (read_packet_shape _ _ _ _ _ E) as (h0 & pl & -> & [mt M] & Hi & Hl & Hr). cbn [nth]. rewrite M.
    assert (h0 < 256) as Hh. { eapply Forall_forall in W; [|by apply elem_of_list_In]. exact W. }
    assert (wf_bytes s') as W'. { apply Forall_forall. intros b Hb. eapply Forall_forall in W; [exact W|]. apply elem_of_list_In, Hr. by apply elem_of_list_In. }
    assert (is_data (h0 :: pl) = match mt with MtData => true | _ => false end) as D.
    { unfold is_data, pkt_mt. cbn [hd]. rewrite <- hdr_mt_div by done. revert M. unfold mt_of_code.
      repeat (destruct (_ =? _); [by intros [= <-]|]); by intros. }
    unfold control_packets, data_packets. cbn [List.filter]. rewrite D.
    destruct mt; cbn [negb]; (rewrite IH; [|done|done|lia]); cbn [control_queue data_queue]; by rewrite <- app_assoc.
Qed.

(** ** More turns change nothing once the task waits or is over *)
Lemma read_exact_mono n : forall fuel fuel' received r, (fuel <= fuel')%nat -> py_read_exact fuel n received r <> StillRunning ->
  py_read_exact fuel' n received r = py_read_exact fuel n received r.
Proof.
  induction fuel as [|fuel IH]; intros fuel' received r L H.
  - cbn [py_read_exact] in H. destruct (Nat.ltb_spec (length received) n); [done|]. by rewrite !read_exact_done.
  - destruct fuel' as [|fuel']; [lia|]. cbn [py_read_exact] in H |- *. destruct (Nat.ltb (length received) n); [|done].
    destruct (py_read (n - length received) r) as [[c r']|]; [|done]. apply IH; [lia|done].
Qed.
Lemma next_packet_mono : forall fuel fuel' complete r, (fuel <= fuel')%nat -> py_next_packet fuel complete r <> StillRunning ->
  py_next_packet fuel' complete r = py_next_packet fuel complete r.
Proof.
  induction fuel as [|fuel IH]; intros fuel' complete r L H; [done|]. destruct fuel' as [|fuel']; [lia|].
  cbn [py_next_packet] in H |- *.
  assert (py_read_exact (S fuel) 4 [] r <> StillRunning) as N1. { intros E. rewrite E in H. done. }
  rewrite (read_exact_mono 4 (S fuel) (S fuel') [] r) by (done || lia).
  destruct (py_read_exact (S fuel) 4 [] r) as [header r1| | |]; cbn [andthen] in H |- *; [|done|done|done].
  destruct (mt_of_code (hdr_mt (nth 0 header 0))) as [mt|]; [|done]. revert H.
  generalize (N.to_nat (match mt with MtData => le_nat [nth 2 header 0; nth 3 header 0] | _ => nth 3 header 0 end)). intros n H.
  assert (py_read_exact (S fuel) n [] r1 <> StillRunning) as N2. { intros E. rewrite E in H. done. }
  rewrite (read_exact_mono n (S fuel) (S fuel') [] r1) by (done || lia).
  destruct (py_read_exact (S fuel) n [] r1) as [pl r2| | |]; cbn [andthen] in H |- *; [|done|done|done].
  destruct (hdr_pbf (nth 0 header 0) =? PBF_COMPLETE); [done|]. apply IH; [lia|done].
Qed.
Lemma reader_loop_mono : forall fuel fuel' q r, (fuel <= fuel')%nat -> (py_reader_loop fuel q r).2 <> TaskRunning ->
  py_reader_loop fuel' q r = py_reader_loop fuel q r.
Proof.
  induction fuel as [|fuel IH]; intros fuel' q r L H; [done|]. destruct fuel' as [|fuel']; [lia|]. cbn [py_reader_loop] in H |- *.
  assert (py_next_packet (S fuel) [] r <> StillRunning) as N1. { intros E. rewrite E in H. done. }
  rewrite (next_packet_mono (S fuel) (S fuel')) by (done || lia).
  destruct (py_next_packet (S fuel) [] r) as [p r'| | |]; [|done|done|done].
  destruct (mt_of_code (hdr_mt (nth 0 p 0))) as [[]|]; [..|done]; (apply IH; [lia|done]).
Qed.

(** ** Streams written by the simulator *)
Lemma write_stream_wf ms s : Forall wf_bytes ms -> write_stream ms = Some s -> wf_bytes s.
Proof.
  unfold write_stream. destruct (mapM segment ms) as [l|] eqn:E; [|done]. intros W [= <-]. apply mapM_Some in E.
  assert (Forall (Forall wf_bytes) l) as F by (clear -E W; induction E; inversion W; subst; constructor; eauto using segment_wf).
  clear -F. induction F as [|x l Fx F IH]; [constructor|]. cbn [concat]. rewrite concat_app. apply wf_bytes_app. split; [|done].
  clear -Fx. induction Fx; [constructor|]. cbn [concat]. by apply wf_bytes_app.
Qed.
Lemma written_reads ms : forall s, Forall (fun m => wf_bytes m /\ (4 < length m)%nat /\ pkt_mt m < 4) ms ->
  write_stream ms = Some s -> exists ps, reads s ps [] /\ Forall2 received_as ms ps.
Proof.
  unfold write_stream. induction ms as [|m ms IH]; intros s Hms Hs.
  - inversion Hs; subst s. exists []. split; [by constructor|constructor].
  - apply Forall_cons in Hms as [(Hw & Hlen & Hmt) Hms].
    assert (m <> []) as Hne by (by destruct m).
    destruct (segment_ok m Hw Hne) as (segs & Es & Hok).
    simpl in Hs. rewrite Es in Hs. simpl in Hs.
    destruct (mapM segment ms) as [l'|] eqn:El; [|done]. inversion Hs; subst s. clear Hs.
    cbn [concat]. rewrite concat_app.
    destruct (IH _ Hms eq_refl) as (ps & R & F).
    assert (segs <> []) as Hsne.
    { intros ->. destruct Hok as (E & _). simpl in E.
      destruct (length4_inv m) as (? & ? & ? & ? & r & ->); [lia|]. rewrite payload_cons4 in E. subst r. simpl in Hlen. lia. }
    assert (Forall (fun p => (1 <= length p)%nat) segs) as Hpos.
    { destruct Hok as (_ & _ & H3 & _). eapply Forall_impl; [exact H3|]. intros p (H & _). lia. }
    pose proof (concat_length_ge _ Hpos) as Hcl.
    destruct (py_read_packet_segments _ _ _ _ _ Hok Hsne Hmt (segment_wf _ _ Hw Es)
      (length (concat segs ++ concat (concat l'))) [] (concat (concat l')))
      as (h & H1 & H2 & H3 & H4 & H5 & E). { rewrite app_length; lia. }
    eexists. split; [eapply reads_packet; [exact E|exact R]|]. constructor; [|done].
    unfold received_as, same_kind. simpl app. rewrite app_length.
    destruct (length4_inv h H1) as (a & b & x & y & q & ->). destruct q; [|simpl in H5; lia].
    split_and!; try done. simpl; lia.
Qed.

Lemma response_header gid : (mk_hdr (mt_code MtResponse) gid / 32 =? 0) = false.
Proof.
  apply N.eqb_neq. unfold mk_hdr. change 32 with (2 ^ 5). rewrite <- N.shiftr_div_pow2, N.shiftr_lor. intros E.
  apply N.lor_eq_0_l in E. discriminate E.
Qed.
Lemma wire_kind m b : wire m = Some b -> is_data b = data_message_received m.
Proof.
  unfold wire. destruct (msg_payload m) as [p|]; [|done]. cbn [mbind option_bind]. intros E. apply (inj Some) in E. subst b.
  unfold is_data, pkt_mt. destruct m; try reflexivity; cbn [app hd data_message_received]; apply response_header.
Qed.
Lemma received_kind m b p : wire m = Some b -> received_as b p -> is_data p = data_message_received m.
Proof. intros E ((K & _) & _). rewrite <- (wire_kind _ _ E). unfold is_data. by rewrite K. Qed.

(** What the library shows of the messages sent, in whatever pieces their bytes arrive. *)
Lemma reader_sees ms : Forall wf_msg ms -> exists bs s, mapM wire ms = Some bs /\ write_stream bs = Some s
  /\ forall cs eof, concat cs = s -> exists q, queued_as (control_messages ms) (control_queue q) /\ queued_as (data_messages ms) (data_queue q)
      /\ forall fuel, (length cs + length s < fuel)%nat -> py_reader fuel (Reader cs eof) = (q, if eof then TaskRunning else TaskWaits).
Proof.
  intros W. assert (is_Some (mapM wire ms)) as [bs M]. { apply mapM_is_Some. eapply Forall_impl; [exact W|]. apply wire_some. }
  assert (Forall (fun m => wf_bytes m /\ (4 < length m)%nat /\ pkt_mt m < 4) bs) as F.
  { apply mapM_Some in M. clear -M W. induction M; inversion W; subst; constructor; eauto using wire_wf. }
  destruct (write_stream_defined bs) as [s S]. { eapply Forall_impl; [exact F|]. intros b (_ & L & _) ->. cbn in L. lia. }
  exists bs, s. split; [done|]. split; [done|]. intros cs eof C. destruct (written_reads _ _ F S) as (ps & R & Fr).
  assert (wf_bytes s) as Ws. { eapply write_stream_wf; [|exact S]. eapply Forall_impl; [exact F|]. by intros b (? & _). }
  apply mapM_Some in M.
  assert (Forall2 (fun m p => is_data p = data_message_received m /\ carries m p) ms ps) as Fk.
  { clear -M W Fr. revert ps Fr. induction M as [|m b ms bs E M IH]; intros ps Fr; inversion Fr; subst; inversion W; subst; constructor; [|by apply IH].
    split; [by eapply received_kind|]. by exists b. }
  exists (Queues (control_packets ps) (data_packets ps)). cbn [control_queue data_queue].
  assert (queued_as (control_messages ms) (control_packets ps) /\ queued_as (data_messages ms) (data_packets ps)) as [Q1 Q2].
  { unfold queued_as, control_messages, data_messages, control_packets, data_packets. clear -Fk.
    induction Fk as [|m p ms ps [K Sh] Fk [IH1 IH2]]; [split; constructor|]. cbn [List.filter]. rewrite K.
    destruct (data_message_received m); cbn [negb]; split; try done; by constructor. }
  split; [done|]. split; [done|]. intros fuel L.
  unfold py_reader. by rewrite (reader_loop_eq eof s ps [] R Ws fuel (Queues [] []) cs C L).
Qed.
(** Whatever the stream. *)
Lemma reader_queues s : wf_bytes s -> exists t, t <> TaskRunning /\ forall cs, concat cs = s -> forall fuel, (length cs + length s < fuel)%nat ->
  py_reader fuel (Reader cs false) = (Queues (control_packets (py_read_stream s)) (data_packets (py_read_stream s)), t).
Proof.
  intros W. destruct (reads_ex (length s) s (le_n _)) as (ps & r & R). rewrite (reads_stream _ _ _ R). exists (status false r).
  split; [unfold status; by destruct (invalid _ _)|]. intros cs C fuel L. unfold py_reader. by rewrite (reader_loop_eq false s ps r R W fuel (Queues [] []) cs C L).
Qed.

Global Instance task_eq_dec : EqDecision task.
Proof. solve_decision. Defined.
Lemma reader_never_ends cs fuel0 : (forall fuel, (fuel0 < fuel)%nat -> (py_reader fuel (Reader cs true)).2 = TaskRunning) ->
  forall fuel, (py_reader fuel (Reader cs true)).2 = TaskRunning.
Proof.
  intros H fuel. destruct (decide ((py_reader fuel (Reader cs true)).2 = TaskRunning)) as [E|N]; [done|].
  unfold py_reader in *. pose proof (H (S (fuel + fuel0)) ltac:(lia)) as X. rewrite (reader_loop_mono fuel) in X; [done|lia|done].
Qed.
