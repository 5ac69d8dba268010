(** Proofs about KeepSpec.v. *)
From Verif Require Import Base Uci MacAddress AppConfig Codec Session Device Pica Sys BaseFacts CodecSpec CodecFacts ContextSpec InvFacts StepFacts CommandFacts RangingSpec RangingFacts EffectFacts SysSpec SysFacts ScheduleFacts DeliveryFacts LiveSpec LiveFacts KeepSpec PropsSession.
Open Scope nat_scope.

Lemma active_task l p outs h id : reaches l p outs -> state_at p h id = SsActive -> otask (p_devices p !! h) id = 1.
Proof.
  intros R A. destruct (C28_at_most_one _ _ _ h id R) as (r & E & _ & H & _). specialize (H A). rewrite (reaches_timers _ _ _ h id R) in E. lia.
Qed.
Lemma in_live h id y t : In t (y_timers y) -> is_timer h id t = true -> t_live t = true -> 1 <= live_timers h id y.
Proof.
  intros I E L. unfold live_timers. destruct (List.filter _ _) as [|x r] eqn:F; [|cbn; lia].
  assert (In t []) as []. rewrite <- F. apply filter_In. split; [done|]. by rewrite E, L.
Qed.
Lemma live_in h id y : live_timers h id y = 1 -> exists t, In t (y_timers y) /\ is_timer h id t = true /\ t_live t = true.
Proof.
  unfold live_timers. destruct (List.filter _ _) as [|x r] eqn:F; [discriminate|]. intros _. exists x.
  assert (In x (x :: r)) as Hx by by left. rewrite <- F in Hx. apply filter_In in Hx as [I E]. by apply andb_true_iff in E.
Qed.
Lemma no_stop h id ls y t : executed ls y -> state_at (y_pica y) h id = SsActive -> In t (y_timers y) -> is_timer h id t = true -> t_live t = true ->
  timers_stopped h id (y_todo y) = 0.
Proof.
  intros Ex A I E L. destruct (executed_sinv _ _ Ex) as (outs & S). pose proof (active_task _ _ _ _ _ (si_reach _ _ _ S) A) as T.
  destruct (si_timers _ _ _ S h id) as [Eq Le]. pose proof (in_live _ _ _ _ I E L). destruct (si_fine _ _ _ S) as [st F].
  pose proof (fine_one_way st h id _ F) as W. destruct st; lia.
Qed.
Lemma kept_or_fires h id ls y l y' t : executed ls y -> state_at (y_pica y) h id = SsActive ->
  In t (y_timers y) -> is_timer h id t = true -> t_live t = true -> moved y l y' ->
  In t (y_timers y') \/ exists i, l = LTimer i /\ y_timers y !! i = Some t.
Proof.
  intros Ex A I E L M. pose proof (no_stop _ _ _ _ _ Ex A I E L) as Ns.
  assert (forall i t', y_timers y !! i = Some t' -> t_live t' = false -> In t (delete i (y_timers y))) as Dl.
  { intros i t' Hi Hl. apply elem_of_list_In. apply elem_of_list_In, elem_of_list_lookup in I as [j Hj].
    rewrite delete_take_drop, elem_of_app. destruct (lt_eq_lt_dec i j) as [[Lt|Eij]|Lt]; [|subst i|].
    - right. apply elem_of_list_lookup. exists (j - S i). rewrite lookup_drop. by replace (S i + (j - S i)) with j by lia.
    - rewrite Hj in Hi. injection Hi as <-. congruence.
    - left. apply elem_of_list_lookup. exists j. by rewrite lookup_take. }
  destruct M; try (left; exact I).
  - left. rewrite H in Ns. rewrite timers_stopped_cons in Ns.
    destruct o as [k [| |id' n|id'|]| | |]; cbn [perform]; try exact I.
    + destruct (host_closed _ _ && _); [exact I|]. destruct (deliver_fields k m (y_set_todo todo y)) as (_ & _ & _ & _ & Et & _). rewrite Et. exact I.
    + cbn. apply in_app_iff. by left.
    + cbn. apply in_map_iff. exists t. split; [|done]. unfold abort. cbn [stops_timer] in Ns.
      unfold is_timer in E. apply andb_true_iff in E as [E1 E2]. apply N.eqb_eq in E1, E2. rewrite E1, E2.
      rewrite (N.eqb_sym h k), (N.eqb_sym id id'). destruct ((k =? h)%N && (id' =? id)%N); [discriminate Ns|]. done.
  - (* timer *) cbn. apply elem_of_list_In, elem_of_list_lookup in I as [j Hj]. destruct (Nat.eq_dec i j) as [->|Ne].
    + right. exists j. done.
    + left. apply elem_of_list_In, elem_of_list_lookup. exists j. by rewrite list_lookup_insert_ne.
  - left. cbn. by eapply Dl.
  - left. cbn. by eapply Dl.
  - left. destruct (deliver_fields (n_host n) (n_msg n) (y_set_delayed (delete i (y_delayed y)) y)) as (_ & _ & _ & _ & Et & _). rewrite Et. exact I.
Qed.

Section Keep.
Context (f : nat -> label) (s : nat -> sys) (Inf : infinite f s) (Fl : fair_loop f s) (Fr : fair_ranging f s) (Ft : fair_time s).
Context (h id : N) (n0 : nat) (Ac : active_from n0 h id s).

Lemma kept_until k t d : n0 <= k -> In t (y_timers (s k)) -> is_timer h id t = true -> t_live t = true ->
  In t (y_timers (s (k + d))) \/ exists m i, k <= m < k + d /\ f m = LTimer i /\ y_timers (s m) !! i = Some t.
Proof.
  intros Lk I E L. induction d as [|d [IH|(m & i & Lm & R)]]; [left; by rewrite Nat.add_0_r| |right; exists m, i; split; [lia|done]].
  destruct (live_moved f s Inf (k + d)) as [_ M].
  destruct (kept_or_fires h id _ _ _ _ t (live_executed f s Inf (k + d)) (Ac (k + d) ltac:(lia)) IH E L M) as [J|(i & J)].
  - left. by rewrite Nat.add_succ_r.
  - right. exists (k + d), i. split; [lia|done].
Qed.
Lemma fires_later n : n0 <= n -> exists m i t, n <= m /\ f m = LTimer i /\ y_timers (s m) !! i = Some t /\ is_timer h id t = true /\ t_live t = true.
Proof.
  intros Ln. destruct (effects_done f s Inf Fl n) as (k & Lk & T & _).
  destruct (executed_sinv _ _ (live_executed f s Inf k)) as (outs & S).
  pose proof (active_task _ _ _ _ _ (si_reach _ _ _ S) (Ac k ltac:(lia))) as Ot. destruct (si_timers _ _ _ S h id) as [Eq _].
  rewrite T in Eq. change (timers_started h id []) with 0 in Eq. change (timers_stopped h id []) with 0 in Eq.
  destruct (live_in h id (s k)) as (t & I & E & L); [lia|].
  destruct (Ft (t_deadline t)) as (w & Hw).
  pose proof (now_grows f s Inf w (k + w) ltac:(lia)) as Gw.
  destruct (kept_until k t w ltac:(lia) I E L) as [J|(m & i & Lm & R1 & R2)]; [|exists m, i, t; split; [lia|done]].
  destruct (Fr (k + w) t J L ltac:(lia)) as (m & Lm & [(i & F1 & F2)|N]); [exists m, i, t; split; [lia|done]|].
  destruct (kept_until (k + w) t (m - (k + w)) ltac:(lia) J E L) as [J'|(m' & i & Lm' & R1 & R2)]; [|exists m', i, t; split; [lia|done]].
  replace (k + w + (m - (k + w))) with m in J' by lia. done.
Qed.
Lemma round_later n : exists m e r, n <= m /\ f m = LTake e /\ y_queue (s m) = Ranging h id :: r.
Proof.
  destruct (fires_later (n0 + n) ltac:(lia)) as (m & i & t & Lm & Fm & Ti & E & L).
  assert (exists q, y_queue (s (S m)) = q ++ [Ranging h id]) as [q Q].
  { destruct (live_moved f s Inf m) as [_ M]. rewrite Fm in M. unfold is_timer in E. apply andb_true_iff in E as [E1 E2]. apply N.eqb_eq in E1, E2.
    inversion M as [| | |i' t' Ht|i' t' Ht _ _ Lt| | | | | | | | | | |]; subst; rewrite Ti in Ht; injection Ht as <-; [by eexists|congruence]. }
  destruct (op_taken f s Inf Fl q (S m) _ [] Q) as (k & e & r & Lk & Fk & Qk). exists k, e, r. split; [lia|done].
Qed.
Lemma rounds_app l l' : rounds h id (l ++ l') = rounds h id l + rounds h id l'.
Proof. unfold rounds. by rewrite List.filter_app, app_length. Qed.
Lemma rounds_grow n k : n <= k -> rounds h id (processed (before f n) sys_new) <= rounds h id (processed (before f k) sys_new).
Proof. induction 1 as [|k _ IH]; [done|]. rewrite (live_processed f s Inf k), rounds_app. lia. Qed.
Lemma rounds_later n c : exists k, n <= k /\ c + rounds h id (processed (before f n) sys_new) <= rounds h id (processed (before f k) sys_new).
Proof.
  induction c as [|c (k & Lk & IH)]; [exists n; split; [done|]; lia|].
  destruct (round_later k) as (m & e & r & Lm & Fm & Q). exists (S m). split; [lia|].
  rewrite (live_processed f s Inf m), rounds_app. pose proof (rounds_grow k m Lm).
  assert (taken (f m) (s m) = [(e, Ranging h id)]) as ->.
  { rewrite Fm. cbn [taken]. rewrite Q. destruct (crashed _) eqn:Cr; [|done]. destruct (live_moved f s Inf m) as [_ M]. destruct (live_moved f s Inf (S m)) as [C' _].
    rewrite Fm in M. inversion M as [e' o q p outs T Q' St Ee Es|e' o q si T Q' St Ee Es| | | | | | | | | | | | | |]; subst.
    - rewrite Q in Q'. injection Q' as <- <-. rewrite St in Cr. discriminate Cr.
    - rewrite <- Es in C'. discriminate C'. }
  assert (rounds h id [(e, Ranging h id)] = 1) as -> by (unfold rounds; cbn; by rewrite !N.eqb_refl). lia.
Qed.
End Keep.
