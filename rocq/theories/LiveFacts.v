(** Liveness: what happens in every infinite execution under a fair scheduler. *)
From Verif Require Import Base Uci MacAddress AppConfig Codec Session Device Pica Sys BaseFacts CodecSpec CodecFacts ContextSpec InvFacts StepFacts CommandFacts RangingSpec RangingFacts EffectFacts SysSpec SysFacts ScheduleFacts DeliveryFacts LiveSpec.
Open Scope nat_scope.

Section Live.
Context (f : nat -> label) (s : nat -> sys) (Inf : infinite f s).

Lemma before_S n : before f (S n) = before f n ++ [f n].
Proof. unfold before. rewrite seq_S, map_app. done. Qed.
Lemma live_executed n : executed (before f n) (s n).
Proof.
  destruct Inf as [S0 St]. induction n as [|n IH].
  - rewrite S0. split; [constructor|reflexivity].
  - rewrite before_S. destruct (St n) as [W S]. by eapply executed_snoc.
Qed.
Lemma live_moved n : y_crash (s n) = None /\ moved (s n) (f n) (s (S n)).
Proof. destruct Inf as [_ St]. by apply sys_step_moved, St. Qed.
Lemma live_processed n : processed (before f (S n)) sys_new = processed (before f n) sys_new ++ taken (f n) (s n).
Proof. rewrite before_S. apply (processed_snoc _ _ _ (s n) (s (S n))); [apply live_executed|apply Inf]. Qed.

(** The next occurrence of something that occurs later. *)
Lemma first_later (P : nat -> bool) n : (exists m, n <= m /\ P m = true) -> exists m, n <= m /\ P m = true /\ forall j, n <= j < m -> P j = false.
Proof.
  intros (m & L & H). remember (m - n) as d eqn:D. revert m L H D. induction d as [d IH] using lt_wf_ind. intros m L H D.
  destruct (existsb P (seq n (m - n))) eqn:E.
  - apply existsb_exists in E as (j & I & Hj). apply in_seq in I. apply (IH (j - n)) with j; try done; lia.
  - exists m. split; [done|]. split; [done|]. intros j Lj. destruct (P j) eqn:Hj; [|done].
    assert (existsb P (seq n (m - n)) = true) as A by (apply existsb_exists; exists j; split; [apply in_seq; lia|done]). congruence.
Qed.

(** The commands of the queue among those processed: the ends of connections are not. *)
Definition real (l : list op) : list op := List.filter (fun o => match o with HostGone _ => false | _ => true end) l.
Definition from_queue (l : list (env * op)) : list op := real l.*2.
Lemma from_queue_app l l' : from_queue (l ++ l') = from_queue l ++ from_queue l'.
Proof. unfold from_queue, real. by rewrite fmap_app, List.filter_app. Qed.
Lemma packets_app h l l' : packets h (l ++ l') = packets h l ++ packets h l'.
Proof. unfold packets. by rewrite map_app, concat_app. Qed.
Lemma packets_real h l : packets h (real l) = packets h l.
Proof.
  induction l as [|o l IH]; [done|]. change (packets h (o :: l)) with (packet_of h o ++ packets h l). rewrite <- IH.
  by destruct o.
Qed.

(** An action of another task leaves the effects to be performed alone, and only adds to the queue. *)
Lemma other_action n : of_loop (f n) = false -> y_todo (s (S n)) = y_todo (s n)
  /\ (exists r, y_queue (s (S n)) = y_queue (s n) ++ r)
  /\ from_queue (processed (before f (S n)) sys_new) = from_queue (processed (before f n) sys_new).
Proof.
  intros L. destruct (live_moved n) as [_ M]. rewrite live_processed, from_queue_app.
  assert (from_queue (taken (f n) (s n)) = []) as T by (destruct (f n); try done; discriminate L). rewrite T, app_nil_r.
  destruct M; try discriminate L; cbn; try (split; [done|]; split; [|done]; (by eexists) || (by exists []; rewrite app_nil_r)).
  destruct (deliver_fields (n_host n0) (n_msg n0) (y_set_delayed (delete i (y_delayed (s n))) (s n))) as (_ & _ & Q & Tq & _).
  rewrite Q, Tq. split; [done|]. split; [exists []; by rewrite app_nil_r|done].
Qed.
Lemma other_actions n m : n <= m -> (forall j, n <= j < m -> of_loop (f j) = false) -> y_todo (s m) = y_todo (s n)
  /\ (exists r, y_queue (s m) = y_queue (s n) ++ r)
  /\ from_queue (processed (before f m) sys_new) = from_queue (processed (before f n) sys_new).
Proof.
  intros L A. induction L as [|m L IH].
  - split; [done|]. split; [exists []; by rewrite app_nil_r|done].
  - destruct IH as (T & (r & Q) & P); [intros j Hj; apply A; lia|]. destruct (other_action m) as (T' & (r' & Q') & P'); [apply A; lia|].
    split; [congruence|]. split; [exists (r ++ r'); by rewrite Q', Q, app_assoc|congruence].
Qed.

Context (Fl : fair_loop f s).

(** The effects of a command are all performed. *)
Lemma effects_done n : exists k, n <= k /\ y_todo (s k) = [] /\ (exists r, y_queue (s k) = y_queue (s n) ++ r)
  /\ from_queue (processed (before f k) sys_new) = from_queue (processed (before f n) sys_new).
Proof.
  remember (length (y_todo (s n))) as d eqn:D. revert n D. induction d as [|d IH]; intros n D.
  - exists n. split; [done|]. split; [by destruct (y_todo (s n))|]. split; [exists []; by rewrite app_nil_r|done].
  - destruct (first_later (fun m => of_loop (f m)) n) as (m & L & H & A).
    { apply Fl. right. intros E. by rewrite E in D. }
    destruct (other_actions n m L A) as (T & (r & Q) & P). destruct (live_moved m) as [_ M].
    assert (exists o todo, y_todo (s m) = o :: todo /\ f m = LEffect /\ s (S m) = perform o (y_set_todo todo (s m))) as (o & todo & To & Fe & Sm).
    { destruct M; try discriminate H; try (rewrite T in H0; rewrite H0 in D; discriminate D). by exists o, todo. }
    destruct (perform_fields o (y_set_todo todo (s m))) as (_ & _ & Q' & T' & _). rewrite <- Sm in Q', T'. cbn in Q', T'.
    destruct (IH (S m)) as (k & Lk & Tk & (r' & Qk) & Pk).
    { rewrite T'. rewrite T in To. rewrite To in D. cbn in D. lia. }
    exists k. split; [lia|]. split; [done|]. split; [exists (r ++ r'); by rewrite Qk, Q', Q, app_assoc|].
    rewrite Pk, live_processed, from_queue_app, Fe, P. cbn. by rewrite app_nil_r.
Qed.

(** The next command of the queue is taken. *)
Lemma next_taken n o q : y_queue (s n) = o :: q -> exists m e r, n <= m /\ f m = LTake e /\ y_queue (s m) = o :: q ++ r
  /\ y_queue (s (S m)) = q ++ r /\ taken (f m) (s m) = [(e, o)]
  /\ from_queue (processed (before f m) sys_new) = from_queue (processed (before f n) sys_new).
Proof.
  intros E. destruct (effects_done n) as (k & L & T & (r' & Q) & P). rewrite E in Q. cbn in Q.
  destruct (first_later (fun m => of_loop (f m)) k) as (m & Lm & H & A).
  { apply Fl. left. by rewrite Q. }
  destruct (other_actions k m Lm A) as (Tm & (r2 & Qm) & Pm). rewrite T in Tm. rewrite Q in Qm. cbn in Qm. rewrite <- app_assoc in Qm.
  pose proof (live_moved (S m)) as [C' _]. destruct (live_moved m) as [C M]. exists m.
  assert (exists e, f m = LTake e /\ taken (f m) (s m) = [(e, o)] /\ y_queue (s (S m)) = q ++ r' ++ r2) as (e & Fm & Tk & Qs).
  { destruct M; try discriminate H; try congruence.
    - rewrite Qm in H1. injection H1 as <- <-. exists e. split; [done|]. cbn [taken]. by rewrite Qm, H2.
    - discriminate C'. }
  exists e, (r' ++ r2). split; [lia|]. split; [done|]. split; [done|]. split; [done|]. split; [done|]. congruence.
Qed.
(** Every command in the queue is taken. *)
Lemma op_taken q n o r : y_queue (s n) = q ++ o :: r -> exists m e r', n <= m /\ f m = LTake e /\ y_queue (s m) = o :: r'.
Proof.
  revert n r. induction q as [|o' q IH]; intros n r E; cbn in E.
  - destruct (next_taken _ _ _ E) as (m & e & r' & L & Fm & Q & _). exists m, e, (r ++ r'). done.
  - destruct (next_taken _ _ _ E) as (m & e & r' & L & Fm & _ & Q & _). rewrite <- app_assoc in Q. cbn in Q.
    destruct (IH _ _ Q) as (m' & e' & r2 & L' & R). exists m', e', r2. split; [lia|done].
Qed.
(** The commands in the queue are all processed, and their effects performed. *)
Lemma queue_done q n r : y_queue (s n) = q ++ r -> exists k, n <= k /\ y_todo (s k) = []
  /\ from_queue (processed (before f k) sys_new) = from_queue (processed (before f n) sys_new) ++ real q.
Proof.
  revert n r. induction q as [|o q IH]; intros n r E.
  - destruct (effects_done n) as (k & L & T & _ & P). exists k. by rewrite app_nil_r.
  - destruct (next_taken _ _ _ E) as (m & e & r' & L & Fm & _ & Qs & Tk & Pm). rewrite <- app_assoc in Qs.
    destruct (IH _ _ Qs) as (k' & Lk' & Tk' & Pk').
    exists k'. split; [lia|]. split; [done|]. rewrite Pk', live_processed, from_queue_app, Tk, Pm.
    rewrite <- app_assoc. f_equal. unfold from_queue. cbn [fmap list_fmap snd]. change (o :: q) with ([o] ++ q). unfold real. by rewrite <- List.filter_app.
Qed.

Lemma commands_answered_later h n : stays h s -> exists k, n <= k
  /\ Forall2 answered (commands (packets_read h (before f n))) (responses (delivered h (s k))).
Proof.
  intros St. destruct (queue_done (y_queue (s n)) n []) as (k & L & T & P); [by rewrite app_nil_r|].
  exists k. split; [done|]. destruct (commands_answered _ _ h (live_executed k)) as (lost & F & Ls).
  rewrite (Ls (St k)), T in F. change (responses (sent h [])) with (@nil msg) in F. rewrite !app_nil_r in F.
  rewrite <- packets_real in F. change (real (processed (before f k) sys_new).*2) with (from_queue (processed (before f k) sys_new)) in F.
  rewrite P, packets_app in F. unfold from_queue in F. rewrite !packets_real in F.
  rewrite <- (packets_in_order _ _ h (live_executed n)) by apply live_moved. done.
Qed.

(** ** Devices whose connection has ended *)
Lemma moved_counter y l y' : moved y l y' -> (p_counter (y_pica y) <= p_counter (y_pica y'))%N
  /\ forall h, (h < p_counter (y_pica y))%N -> connected (y_pica y') h -> connected (y_pica y) h.
Proof.
  intros M.
  assert (y_pica y' = y_pica y -> (p_counter (y_pica y) <= p_counter (y_pica y'))%N
    /\ forall h, (h < p_counter (y_pica y))%N -> connected (y_pica y') h -> connected (y_pica y) h) as Same by (intros ->; done).
  destruct M; try (by apply Same); try done.
  - cbn [y_pica y_set_pica]. clear Same. destruct o; try (match type of H1 with step _ _ ?o = _ =>
      destruct (step_conn _ _ _ _ _ H1 ltac:(done)) as (_ & Le & _ & Oc); split; [done|]; intros k Lt C;
      destruct (step_connected _ _ _ _ _ _ H1 C) as [_ [C0|[m0 Hm]]]; [done|];
      destruct Oc as [Oc|(o1 & m1 & -> & Oc & _)]; [by destruct (no_connected_in _ _ _ Oc Hm)|];
      apply elem_of_app in Hm as [Hm|Hm]; [by destruct (no_connected_in _ _ _ Oc Hm)|];
      apply elem_of_list_singleton in Hm; injection Hm as -> _; lia end).
    cbn in H1. apply Ret_inj in H1. injection H1 as <- <-. done.
  - apply Same. destruct (perform_fields o (y_set_todo todo y)) as (Ep & _). by rewrite Ep.
  - apply Same. destruct (deliver_fields (n_host n) (n_msg n) (y_set_delayed (delete i (y_delayed y)) y)) as (Ep & _). by rewrite Ep.
Qed.
Lemma counter_grows n k : n <= k -> (p_counter (y_pica (s n)) <= p_counter (y_pica (s k)))%N.
Proof. intros L. induction L as [|k L IH]; [done|]. destruct (live_moved k) as [_ M]. apply moved_counter in M as [? _]. lia. Qed.
Lemma absent_stays h n k : n <= k -> (h < p_counter (y_pica (s n)))%N -> ~ connected (y_pica (s n)) h -> ~ connected (y_pica (s k)) h.
Proof.
  intros L Lt N. induction L as [|k L IH]; [done|]. destruct (live_moved k) as [_ M]. intros C. apply IH.
  apply (moved_counter _ _ _ M); [|done]. pose proof (counter_grows _ _ L). lia.
Qed.
Lemma connected_counter h n : connected (y_pica (s n)) h -> (h < p_counter (y_pica (s n)))%N.
Proof.
  intros [d L]. destruct (executed_sinv _ _ (live_executed n)) as (outs & I).
  assert (pinv (fun _ => false) (y_pica (s n))) as Pi by (eapply reachable_pinv; eexists _, _; apply (si_reach _ _ _ I)).
  by destruct (pi_device _ _ Pi _ _ L) as (_ & _ & _ & ?).
Qed.
Lemma removed_later h n : fair_disconnect f s -> y_conns (s n) !! h = Some CnEnded ->
  exists k, n <= k /\ forall j, k <= j -> ~ connected (y_pica (s j)) h.
Proof.
  intros Fd E. destruct (Fd n h E) as (m & L & Fm). destruct (live_moved m) as [_ M]. rewrite Fm in M.
  assert ((h < p_counter (y_pica (s n)))%N) as Lt by (apply connected_counter, (ci_open _ (executed_cinv _ _ (live_executed n))); by right).
  assert (y_queue (s (S m)) = y_queue (s m) ++ [Disconnect h]) as Q by (by inversion M).
  destruct (op_taken _ _ _ _ Q) as (m' & e & r' & Lm & Fm' & Qm').
  exists (S m'). split; [lia|]. pose proof (live_moved (S m')) as [C' _]. destruct (live_moved m') as [_ M']. 
  pose proof (counter_grows n (S m') ltac:(lia)) as G. intros j Lj. apply (absent_stays _ (S m')); [done|lia|]. intros C.
  rewrite Fm' in M'. inversion M' as [e0 o q p outs T Qo St Ee Es|e0 o q c T Qo St Ee Es| | | | | | | | | | | | | |].
  - rewrite Qm' in Qo. injection Qo as <- <-. rewrite <- Es in C. cbn [y_pica y_set_pica] in C. by destruct (step_connected _ _ _ _ _ _ St C) as [? _].
  - rewrite <- Es in C'. discriminate C'.
Qed.

(** ** Notifications *)
Lemma now_grows n k : n <= k -> (y_now (s n) <= y_now (s k))%N.
Proof.
  intros L. induction L as [|k L IH]; [done|]. destruct (live_moved k) as [_ M]. etrans; [exact IH|]. destruct M; try done.
  - by destruct (perform_fields o (y_set_todo todo (s k))) as (_ & -> & _).
  - by destruct (deliver_fields (n_host n0) (n_msg n0) (y_set_delayed (delete i (y_delayed (s k))) (s k))) as (_ & -> & _).
  - cbn. lia.
Qed.
(** Of the delayed notifications, those with a deadline up to [D]. *)
Definition old (D : N) (l : list delayed) : list delayed := List.filter (fun d => n_deadline d <=? D)%N l.
Definition to (h : N) (l : list delayed) : list msg := concat (map (fun n => if (n_host n =? h)%N then [n_msg n] else []) l).
Lemma to_app h l l' : to h (l ++ l') = to h l ++ to h l'.
Proof. unfold to. by rewrite map_app, concat_app. Qed.
Lemma old_app D l l' : old D (l ++ l') = old D l ++ old D l'.
Proof. apply List.filter_app. Qed.
Lemma to_old_delete h D l i n : l !! i = Some n ->
  to h (old D l) ⊆+ (if (n_host n =? h)%N then [n_msg n] else []) ++ to h (old D (delete i l)).
Proof.
  intros E. rewrite <- (take_drop_middle l i n E) at 1. rewrite delete_take_drop, !old_app, !to_app.
  assert (to h (old D (n :: drop (S i) l)) ⊆+ (if (n_host n =? h)%N then [n_msg n] else []) ++ to h (old D (drop (S i) l))) as A.
  { unfold old at 1. cbn [List.filter]. destruct (n_deadline n <=? D)%N; [done|]. apply submseteq_inserts_l. done. }
  etrans; [apply submseteq_skips_l, A|]. rewrite !app_assoc. apply submseteq_skips_r. apply Permutation_submseteq, Permutation_app_comm.
Qed.
Lemma moved_delayed y l y' : moved y l y' ->
  y_delayed y' = y_delayed y /\ (forall i, l <> LNotify i)
  \/ (exists h ms m, y_delayed y' = y_delayed y ++ [Delayed h (y_now y + ms) m] /\ (forall i, l <> LNotify i))
  \/ exists i n, l = LNotify i /\ y_delayed y !! i = Some n /\ y_delayed y' = delete i (y_delayed y).
Proof.
  intros M. destruct M; try (by left).
  - destruct o as [h [m|ms m|id iv|id|a id n]|h m|h m|r]; cbn [perform]; try (by left).
    + destruct (_ && _); [by left|]. left. by destruct (deliver_fields h m (y_set_todo todo y)) as (_ & _ & _ & _ & _ & -> & _).
    + right; left. by exists h, ms, m.
  - right; right. exists i, n. split; [done|]. split; [done|].
    by destruct (deliver_fields (n_host n) (n_msg n) (y_set_delayed (delete i (y_delayed y)) y)) as (_ & _ & _ & _ & _ & -> & _).
Qed.
Lemma kept h D n k : stays h s -> n <= k ->
  delivered h (s n) ++ to h (old D (y_delayed (s n))) ⊆+ delivered h (s k) ++ to h (old D (y_delayed (s k))).
Proof.
  intros St L. induction L as [|k L IH]; [done|]. rewrite IH. clear IH. destruct (live_moved k) as [_ M].
  assert (y_log (s (S k)) = y_log (s k) -> y_delayed (s (S k)) = y_delayed (s k) ->
    delivered h (s k) ++ to h (old D (y_delayed (s k))) ⊆+ delivered h (s (S k)) ++ to h (old D (y_delayed (s (S k))))) as Same.
  { intros E1 E2. unfold delivered. by rewrite E1, E2. }
  assert (host_closed h (s k) = false) as Hc by (apply bool_decide_eq_false, St).
  destruct M; try (by apply Same).
  - destruct o as [h0 [m|ms m|id iv|id|a id n0]|h0 m|h0 m|r]; cbn [perform] in *; try (by apply Same).
    + destruct (host_closed h0 (y_set_todo todo (s k)) && y_strict (y_set_todo todo (s k))); [by apply Same|].
      rewrite delivered_deliver. destruct (deliver_fields h0 m (y_set_todo todo (s k))) as (_ & _ & _ & _ & _ & -> & _).
      cbn [y_delayed y_set_todo]. change (delivered h (y_set_todo todo (s k))) with (delivered h (s k)). rewrite <- app_assoc. apply submseteq_skips_l, submseteq_inserts_l. done.
    + cbn [y_delayed y_set_delayed y_set_todo]. rewrite old_app, to_app. change (delivered h (y_set_delayed ?a (y_set_todo todo (s k)))) with (delivered h (s k)).
      apply submseteq_skips_l, submseteq_inserts_r. done.
  - rewrite delivered_deliver. destruct (deliver_fields (n_host n0) (n_msg n0) (y_set_delayed (delete i (y_delayed (s k))) (s k))) as (_ & _ & _ & _ & _ & -> & _).
    cbn [y_delayed y_set_delayed]. change (delivered h (y_set_delayed ?a (s k))) with (delivered h (s k)). change (host_closed ?a (y_set_delayed ?b (s k))) with (host_closed a (s k)).
    rewrite <- app_assoc. apply submseteq_skips_l. rewrite (to_old_delete h D _ _ _ H). destruct (N.eqb_spec (n_host n0) h) as [->|Ne]; [|by rewrite andb_false_r].
    by rewrite Hc.
Qed.

Context (Fn : fair_notify f s) (Ft : fair_time s).
Lemma old_done D n : exists k, n <= k /\ old D (y_delayed (s k)) = [].
Proof.
  destruct (Ft (D + 1)%N) as (n1 & Hn). set (n0 := Nat.max n n1).
  assert (D < y_now (s n0))%N as Hd by (pose proof (now_grows n1 n0 ltac:(lia)); lia).
  enough (exists k, n0 <= k /\ old D (y_delayed (s k)) = []) as (k & L & E) by (exists k; split; [lia|done]).
  clearbody n0. clear n n1 Hn.
  (* the number of old notifications does not grow *)
  assert (forall k, n0 <= k -> length (old D (y_delayed (s (S k)))) <= length (old D (y_delayed (s k)))) as Mono1.
  { intros k L. destruct (live_moved k) as [_ M]. pose proof (now_grows _ _ L) as G.
    destruct (moved_delayed _ _ _ M) as [[-> _]|[(h & ms & m & -> & _)|(i & d & _ & E & ->)]]; [done| |].
    - rewrite old_app, app_length. unfold old at 2. cbn [List.filter n_deadline]. destruct (N.leb_spec (y_now (s k) + ms) D); [lia|]. cbn. lia.
    - pose proof (filter_delete_length (fun d => n_deadline d <=? D)%N _ _ _ E) as Fd. fold (old D (delete i (y_delayed (s k)))) (old D (y_delayed (s k))) in Fd. rewrite <- Fd. apply Nat.le_add_r. }
  assert (forall m k, n0 <= m -> m <= k -> length (old D (y_delayed (s k))) <= length (old D (y_delayed (s m)))) as Mono.
  { intros m k Lm L. induction L as [|k L IH]; [done|]. specialize (Mono1 k ltac:(lia)). lia. }
  remember (length (old D (y_delayed (s n0)))) as c eqn:Hc.
  assert (forall m, n0 <= m -> length (old D (y_delayed (s m))) <= c -> exists k, n0 <= k /\ old D (y_delayed (s k)) = []) as Go.
  { clear Hc. induction c as [|c IH]; intros m L Hl.
    - exists m. split; [done|]. destruct (old D (y_delayed (s m))); [done|]. cbn in Hl. lia.
    - destruct (old D (y_delayed (s m))) as [|d l] eqn:E; [by exists m|].
      assert (In d (y_delayed (s m)) /\ (n_deadline d <= D)%N) as [Hi Hdl].
      { assert (In d (old D (y_delayed (s m)))) as I by (rewrite E; by left). apply filter_In in I as [? I]. apply N.leb_le in I. done. }
      pose proof (now_grows _ _ L) as G. destruct (Fn m d Hi ltac:(lia)) as (m' & i & Lm' & Fm' & Ei).
      apply (IH (S m')); [lia|]. destruct (live_moved m') as [_ M]. destruct (moved_delayed _ _ _ M) as [[_ N]|[(h & ms & mg & _ & N)|(j & d' & Ej & Ed & Ey)]]; [by destruct (N i)|by destruct (N i)|].
      rewrite Fm' in Ej. injection Ej as <-. rewrite Ei in Ed. injection Ed as <-. rewrite Ey.
      pose proof (filter_delete_length (fun d => n_deadline d <=? D)%N _ _ _ Ei) as Fd. fold (old D (delete i (y_delayed (s m')))) (old D (y_delayed (s m'))) in Fd. apply N.leb_le in Hdl. cbv beta in Fd. rewrite Hdl in Fd.
      pose proof (Mono m m' L Lm') as Mm. rewrite E in Mm. cbn in Mm, Hl. lia. }
  apply (Go n0); [done|lia].
Qed.
(** All the messages produced for a host that stays are delivered. *)
Lemma all_delivered h n outs : stays h s -> run pica_new (processed (before f n) sys_new) = Ret (y_pica (s n), outs) ->
  exists k, n <= k /\ messages h outs ⊆+ delivered h (s k).
Proof.
  intros St R. destruct (effects_done n) as (k1 & L1 & T1 & _).
  destruct (executed_sinv _ _ (live_executed k1)) as (outs1 & I1). destruct (si_reach _ _ _ I1) as [_ R1].
  destruct (si_msgs _ _ _ I1 h) as (lost & P & Ls). rewrite (Ls (St k1)), T1 in P. change (messages h []) with (@nil msg) in P. rewrite !app_nil_r in P.
  assert (messages h outs ⊆+ messages h outs1) as Sub.
  { assert (exists l, processed (before f k1) sys_new = processed (before f n) sys_new ++ l) as [l El].
    { clear -L1 Inf. induction L1 as [|k L1 [l El]]; [exists []; by rewrite app_nil_r|]. rewrite (live_processed k), El. eexists. by rewrite <- app_assoc. }
    rewrite El, run_app, R in R1. cbn [obind] in R1. destruct (run (y_pica (s n)) l) as [[p2 o2]|]; [|discriminate]. apply Ret_inj in R1. injection R1 as _ <-.
    rewrite messages_app. by apply submseteq_inserts_r. }
  set (D := fold_right N.max 0%N (map n_deadline (y_delayed (s k1)))).
  destruct (old_done D k1) as (k & L & E). exists k. split; [lia|]. rewrite Sub, <- P. pose proof (kept h D k1 k St L) as K. rewrite E in K.
  change (to h []) with (@nil msg) in K. rewrite app_nil_r in K. rewrite <- K. apply submseteq_skips_l.
  assert (old D (y_delayed (s k1)) = y_delayed (s k1)) as ->; [|done].
  subst D. clear. generalize (y_delayed (s k1)). intros l.
  assert (forall D, (fold_right N.max 0%N (map n_deadline l) <= D)%N -> old D l = l) as G.
  { induction l as [|d l IH]; intros D H; [done|]. cbn in H. unfold old. cbn [List.filter]. destruct (N.leb_spec (n_deadline d) D); [|lia]. f_equal. apply IH. lia. }
  by apply G.
Qed.
End Live.

(** ** A fair execution *)
Section Rest.
Context (ls : list label) (y : sys) (Ex : executed ls y) (Re : at_rest y).
Let f := padded ls.
Let s := padded_state ls.
Lemma padded_before n : before f n = take n ls ++ repeat LTick (n - length ls).
Proof.
  induction n as [|n IH]; [by rewrite take_0|]. rewrite before_S, IH. unfold f, padded.
  destruct (decide (n < length ls)) as [L|L].
  - rewrite (nth_lookup ls n LTick). destruct (lookup_lt_is_Some_2 ls n L) as [l El]. rewrite El. cbn.
    replace (n - length ls) with 0 by lia. replace (S n - length ls) with 0 by lia. cbn. rewrite !app_nil_r. by rewrite (take_S_r _ _ _ El).
  - rewrite nth_overflow by lia. replace (S n - length ls) with (S (n - length ls)) by lia. rewrite !take_ge by lia.
    rewrite <- app_assoc. f_equal. generalize (n - length ls). intros k. induction k as [|k IHk]; [done|]. cbn. by rewrite IHk.
Qed.
Lemma ticks_run k z : y_crash z = None -> sys_run (repeat LTick k) z = Some (y_set_now (y_now z + N.of_nat k) z).
Proof.
  revert z. induction k as [|k IH]; intros z C; [cbn; f_equal; rewrite N.add_0_r; by destruct z|].
  cbn [repeat sys_run]. unfold sys_step at 1. rewrite C. cbn [mbind option_bind]. rewrite IH by done. f_equal. cbn [y_now y_set_now]. unfold y_set_now. cbn. f_equal. lia.
Qed.
Lemma padded_run n : exists z, sys_run (before f n) sys_new = Some z.
Proof.
  rewrite padded_before. destruct Ex as [_ R]. destruct Re as (C & _). destruct (decide (n <= length ls)) as [L|L].
  - replace (n - length ls) with 0 by lia. cbn. rewrite app_nil_r. rewrite <- (take_drop n ls), sys_run_app in R.
    destruct (sys_run (take n ls) sys_new) as [z|]; [by exists z|discriminate].
  - rewrite take_ge by lia. rewrite sys_run_app, R. cbn [mbind option_bind]. rewrite ticks_run by done. by eexists.
Qed.
Lemma padded_infinite : infinite f s.
Proof.
  split; [done|]. intros n. destruct (padded_run n) as [z Z]. destruct (padded_run (S n)) as [z' Z']. unfold s, padded_state. fold f. rewrite Z, Z'.
  split.
  - destruct Ex as [F _]. unfold f, padded. rewrite nth_lookup. destruct (ls !! n) as [l|] eqn:E; [|done]. cbn. by eapply Forall_lookup_1.
  - rewrite before_S, sys_run_app, Z in Z'. cbn [mbind option_bind sys_run] in Z'. destruct (sys_step (f n) z); [|discriminate]. cbn in Z'. done.
Qed.
Lemma padded_late n : length ls <= n -> s n = y_set_now (y_now y + N.of_nat (n - length ls)) y.
Proof.
  intros L. unfold s, padded_state. fold f. rewrite padded_before, take_ge, sys_run_app by lia. destruct Ex as [_ ->]. cbn [mbind option_bind].
  rewrite ticks_run by apply Re. done.
Qed.
(** Something that is there before the end and not there at the end disappears at some time. *)
Lemma disappears (P : nat -> Prop) (Q : nat -> Prop) n : P n -> (forall m, n <= m -> P m -> P (S m) \/ Q m) -> (forall m, length ls <= m -> ~ P m) -> exists m, n <= m /\ Q m.
Proof.
  intros H St N. assert (forall k, (exists m, n <= m /\ Q m) \/ P (n + k)) as A.
  { induction k as [|k [A|A]]; [right; by rewrite Nat.add_0_r|by left|]. destruct (St (n + k) ltac:(lia) A) as [B|B]; [right; by rewrite Nat.add_succ_r|left; exists (n + k); split; [lia|done]]. }
  destruct (A (length ls)) as [B|B]; [done|]. exfalso. apply (N (n + length ls)); [lia|done].
Qed.
Lemma padded_fair_loop : fair_loop f s.
Proof.
  intros n H. pose proof padded_infinite as Inf. destruct Re as (_ & Q & T & _).
  apply (disappears (fun m => y_queue (s m) <> [] \/ y_todo (s m) <> [])); [done| |].
  - intros m L Hm. destruct (of_loop (f m)) eqn:E; [by right|left]. destruct (other_action f s Inf m E) as (-> & (r & ->) & _).
    destruct Hm as [Hm|Hm]; [left|by right]. by destruct (y_queue (s m)).
  - intros m L. rewrite padded_late by done. cbn. rewrite Q, T. tauto.
Qed.
Lemma padded_fair_notify : fair_notify f s.
Proof.
  intros n d H _. pose proof padded_infinite as Inf. destruct Re as (_ & _ & _ & Dl & _).
  destruct (disappears (fun m => In d (y_delayed (s m))) (fun m => exists i, f m = LNotify i /\ y_delayed (s m) !! i = Some d) n H) as (m & L & i & Fi & E).
  - intros m L I. destruct (live_moved f s Inf m) as [_ M]. destruct (moved_delayed _ _ _ M) as [[-> _]|[(h & ms & mg & -> & _)|(i & d' & Ei & Ed & ->)]]; [by left|left; apply in_or_app; by left|].
    rewrite <- (take_drop_middle _ _ _ Ed) in I. apply in_app_or in I as [I|[I|I]].
    + left. rewrite delete_take_drop. apply in_or_app. by left.
    + right. exists i. by subst.
    + left. rewrite delete_take_drop. apply in_or_app. by right.
  - intros m L. rewrite padded_late by done. cbn. rewrite Dl. tauto.
  - by exists m, i.
Qed.
Lemma padded_fair_time : fair_time s.
Proof. intros t. exists (length ls + N.to_nat t). rewrite padded_late by lia. cbn. lia. Qed.
Lemma padded_fair_disconnect : fair_disconnect f s.
Proof.
  intros n h H. pose proof padded_infinite as Inf. destruct Re as (_ & _ & _ & _ & Cn).
  destruct (disappears (fun m => y_conns (s m) !! h = Some CnEnded) (fun m => f m = LDisconnect h) n H) as (m & L & E).
  - intros m L I. destruct (live_moved f s Inf m) as [_ M].
    destruct M; try (by left).
    + left. destruct o as [h0 [m0|ms m0|id iv|id|a id n0]|h0 m0|h0 m0|r]; cbn [perform]; try done.
      * destruct (_ && _); [done|]. by destruct (deliver_fields h0 m0 (y_set_todo todo (s m))) as (_ & _ & _ & _ & _ & _ & _ & -> & _).
      * cbn. destruct (decide (h0 = h)) as [->|Ne]; [|by rewrite lookup_insert_ne]. exfalso.
        pose proof (executed_cinv _ _ (live_executed f s Inf m)) as Ci. destruct (ci_new _ Ci [] h m0 todo) as (X & _); [by rewrite H0|]. congruence.
    + left. by destruct (deliver_fields (n_host n0) (n_msg n0) (y_set_delayed (delete i (y_delayed (s m))) (s m))) as (_ & _ & _ & _ & _ & _ & _ & -> & _).
    + left. cbn. destruct (decide (h0 = h)) as [->|Ne]; [congruence|by rewrite lookup_insert_ne].
    + destruct (decide (h0 = h)) as [->|Ne]; [by right|]. left. cbn. by rewrite lookup_insert_ne.
    + left. cbn. destruct (decide (h0 = h)) as [->|Ne]; [congruence|by rewrite lookup_insert_ne].
  - intros m L. rewrite padded_late by done. cbn. apply Cn.
  - by exists m.
Qed.
Lemma padded_stays h : (forall n, n <= length ls -> ~ gone h (s n)) -> stays h s.
Proof.
  intros A n. destruct (decide (n <= length ls)) as [L|L]; [by apply A|]. specialize (A (length ls) ltac:(lia)).
  rewrite padded_late in A by lia. rewrite padded_late by lia. exact A.
Qed.
End Rest.
