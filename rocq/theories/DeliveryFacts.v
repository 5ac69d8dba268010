(** Answers, notifications and connections in the executions of the whole system. *)
From Verif Require Import Base Uci MacAddress AppConfig Codec Session Device Pica Sys BaseFacts CodecSpec CodecFacts ContextSpec InvFacts StepFacts CommandFacts RangingSpec RangingFacts EffectFacts PropsDevice SysSpec SysFacts ScheduleFacts.

(** ** Answers *)
Lemma responses_app l l' : responses (l ++ l') = responses l ++ responses l'.
Proof. unfold responses. by rewrite List.filter_app. Qed.
Lemma commands_app l l' : commands (l ++ l') = commands l ++ commands l'.
Proof. unfold commands. by rewrite List.filter_app. Qed.
Definition is_ntf (m : msg) : bool :=
  match m with
  | CoreDeviceStatusNtf (DsReady | DsActive) | SessionStatusNtf _ _ _ | SessionUpdateControllerMulticastListNtf _ _
  | SessionDataCreditNtf _ _ | SessionDataTransferStatusNtf _ _ _ _ | SessionInfoNtf _ _ _ _ _ _ | DataMessageRcv _ _ _ _ _ => true
  | _ => false
  end.
Lemma ntf_not_response m : is_ntf m = true -> is_response m = false.
Proof.
  intros H. unfold is_response, wire. destruct m; try discriminate H; try (by destruct s);
  destruct (msg_payload _); cbn [mbind option_bind]; reflexivity.
Qed.
Lemma ntfs_no_response l : Forall (fun m => is_ntf m = true) l -> responses l = [].
Proof. induction 1 as [|m l H _ IH]; [done|]. unfold responses in *. cbn [List.filter]. by rewrite (ntf_not_response _ H). Qed.
Lemma answers_response packet m : answers packet m -> is_response m = true.
Proof.
  intros (b & mt & gid & oid & Wr & Hh & _). unfold is_response. destruct b as [|b0 [|b1 b]]; try discriminate.
  injection Hh as H1 _ _. rewrite Wr, H1. destruct m; try done. by destruct s.
Qed.
Lemma responses_by_loop l : responses (by_loop l) = responses l.
Proof.
  induction l as [|m l IH]; [done|]. cbn [by_loop responses List.filter] in *. destruct (by_task m) eqn:B; cbn [negb List.filter].
  - rewrite (ntf_not_response m); [exact IH|]. destruct m; try discriminate; try done.
  - unfold responses, by_loop in *. destruct (is_response m); by rewrite IH.
Qed.
Lemma sent_no_send h outs : Forall (fun o => match o with OEff _ (Send m) => False | _ => True end) outs -> sent h outs = [].
Proof.
  induction 1 as [|o outs H _ IH]; [done|]. unfold sent in *. cbn [map concat]. rewrite IH, app_nil_r. destruct o as [h' []| | |]; try done.
Qed.
Lemma effs_no_send h e : existsb is_send e = false -> Forall (fun o => match o with OEff _ (Send m) => False | _ => True end) (map (OEff h) e).
Proof. induction e as [|x e IH]; [constructor|]. cbn [existsb]. intros [H1 H2]%orb_false_iff. constructor; [by destruct x|by apply IH]. Qed.

Lemma step_responses e p o p' outs h : reachable p -> wf_op o -> step e p o = Ret (p', outs) ->
  (forall packet, o = UciPacket h packet -> connected p h) ->
  Forall2 answered (commands (packet_of h o)) (responses (sent h outs)).
Proof.
  intros R W S C. assert (packet_of h o = [] -> responses (sent h outs) = [] -> Forall2 answered (commands (packet_of h o)) (responses (sent h outs))) as Nil.
  { intros -> ->. constructor. }
  destruct o as [|k|k id|a id|k packet|a|a|k]; cbn [packet_of] in *.
  - apply Nil; [done|]. cbn [step] in S. apply Ret_inj in S. unfold add_device, device_init in S. rewrite device_set_state_eq in S. by injection S as _ <-.
  - apply Nil; [done|]. cbn [step] in S. apply Ret_inj in S. unfold disconnect in S. destruct (p_devices p !! k) as [d|]; injection S as _ <-; [|done].
    rewrite sent_no_send; [done|]. constructor; [done|]. apply effs_no_send, no_send_device_drop.
  - apply Nil; [done|]. cbn [step] in S. apply ranging_inv in S as (d & s & ms1 & ms2 & peers & o1 & o2 & s' & _ & _ & _ & _ & Sd & Si & _ & ->).
    apply ntfs_no_response. rewrite sent_app. apply Forall_app. split.
    + apply send_data_outs in Sd as (m & _ & -> & _). clear. unfold sent. induction peers as [|x l IH]; [constructor|]. cbn [map concat]. apply Forall_app. split; [|done].
      cbn. destruct (x =? h); by repeat constructor.
    + apply send_info_session in Si as [(_ & _ & ->)|(_ & _ & _ & _ & -> & _)]; [constructor|]. unfold sent. cbn. destruct (k =? h); by repeat constructor.
  - apply Nil; [done|]. cbn [step] in S. apply Ret_inj in S. unfold stop_controlee_ranging in S. injection S as _ <-. rewrite sent_no_send; [done|].
    clear. induction (env_order e _) as [|k l IH]; [constructor|]. cbn [map concat]. apply Forall_app. split; [|done]. destruct (p_devices p !! k); [|constructor].
    apply effs_no_send, stop_no_send.
  - destruct (N.eqb_spec k h) as [->|Ne].
    + specialize (C packet eq_refl). unfold commands. cbn [List.filter]. destruct (command_packet packet) eqn:Ic.
      * destruct (C17_one_answer p e h packet p' outs R C W S) as (m & -> & _ & A).
        { unfold command_packet in Ic. apply orb_true_iff in Ic as [H|H]; [left; by apply N.eqb_eq|right; by apply N.leb_le]. }
        unfold responses. cbn [List.filter]. assert (is_response m = true) as -> by (destruct A as [A|[-> _]]; [by eapply answers_response|done]).
        constructor; [|constructor]. destruct A as [A|[-> _]]; [by left|by right].
      * destruct (C17_no_answer p e h packet p' outs R W S) as [A B]. unfold command_packet in Ic. apply orb_false_iff in Ic as [I1 I2].
        apply N.eqb_neq in I1. apply N.leb_gt in I2.
        assert (hd 0 packet / 32 = 2 \/ hd 0 packet / 32 = 3 \/ hd 0 packet / 32 = 0) as [Hm|[Hm|Hm]] by lia.
        -- destruct A as [_ ->]; [by left|]. constructor.
        -- destruct A as [_ ->]; [by right|]. constructor.
        -- destruct (B Hm) as [->|(tok & seq & st & tx & cr & [-> | ->])]; [constructor|..]; unfold sent; cbn; rewrite N.eqb_refl; cbn [app]; unfold responses; cbn [List.filter];
             rewrite ntf_not_response by done; constructor.
    + apply Nil; [done|]. cbn [step] in S. unfold uci_packet in S. destruct (p_devices p !! k) as [d|]; [|apply Ret_inj in S; by injection S as _ <-].
      destruct (receive_packet d packet) as [[d1 e1]|]; [|discriminate]. cbn [obind] in S. apply Ret_inj in S. injection S as _ <-.
      rewrite sent_effs, effs_at_other by done. done.
  - apply Nil; [done|]. cbn [step] in S. unfold create_anchor in S. destruct (get_category p a).
    + apply Ret_inj in S. by injection S as _ <-.
    + destruct (p_anchors p !! a); [discriminate|]. apply Ret_inj in S. by injection S as _ <-.
  - apply Nil; [done|]. cbn [step] in S. apply Ret_inj in S. unfold destroy_anchor in S. destruct (p_anchors p !! a); by injection S as _ <-.
  - apply Nil; [done|]. cbn [step] in S. apply Ret_inj in S. by injection S as _ <-.
Qed.

(** Every packet processed belongs to a connected device. *)
Lemma packets_connected ls y h : executed ls y ->
  forall l1 e packet l2 p1 outs1, processed ls sys_new = l1 ++ (e, UciPacket h packet) :: l2 -> run pica_new l1 = Ret (p1, outs1) -> connected p1 h.
Proof.
  revert ls y. refine (executed_ind _ _ _); [by intros []|]. intros ls y l y' Ex IH W Cr M S l1 e packet l2 p1 outs1 E R.
  rewrite (processed_snoc _ _ _ _ _ (proj2 Ex) S) in E.
  assert (taken l y = [] \/ exists x, taken l y = [x]) as [T|[x T]].
  { destruct l; cbn; eauto. destruct (y_queue y); eauto. destruct (crashed _); eauto. }
  - rewrite T, app_nil_r in E. by eapply IH.
  - rewrite T in E. apply snoc_split in E as [(-> & -> & E)|(l2' & -> & E)]; [|by eapply IH].
    destruct (executed_sinv _ _ Ex) as (outs & I). destruct (si_reach _ _ _ I) as [_ R']. rewrite E in R'. rewrite R in R'. apply Ret_inj in R'. injection R' as E1 _. subst p1.
    pose proof (executed_cinv _ _ Ex) as Ci. destruct l; cbn in T; try discriminate.
    destruct (y_queue y) as [|o q] eqn:Q; [discriminate|]. destruct (crashed _); [discriminate|]. injection T as -> ->.
    eapply (ci_packet _ Ci h packet). rewrite Q. left.
Qed.
Lemma reaches_responses l p outs h : reaches l p outs ->
  (forall l1 e packet l2 p1 outs1, l = l1 ++ (e, UciPacket h packet) :: l2 -> run pica_new l1 = Ret (p1, outs1) -> connected p1 h) ->
  Forall2 answered (commands (packets h l.*2)) (responses (sent h outs)).
Proof.
  revert l p outs. refine (reaches_ind _ _ _); [intros _; constructor|].
  intros l p outs e o p' outs' R IH We Wo S C.
  rewrite fmap_app, packets_app, commands_app, sent_app, responses_app. apply Forall2_app.
  - apply IH. intros l1 e1 packet l2 p1 outs1 -> R1. eapply C; [rewrite <- app_assoc; reflexivity|done].
  - unfold packets. cbn [fmap list_fmap map concat snd]. rewrite app_nil_r. eapply step_responses; try done; [by eexists _, _|].
    intros packet ->. eapply C; [reflexivity|]. by destruct R as [_ R].
Qed.
Lemma commands_answered ls y h : executed ls y -> exists lost,
  Forall2 answered (commands (packets h (processed ls sys_new).*2)) (responses (delivered h y) ++ lost ++ responses (sent h (y_todo y)))
  /\ (~ gone h y -> lost = []).
Proof.
  intros Ex. destruct (executed_sinv _ _ Ex) as (outs & I). destruct (si_order _ _ _ I h) as (lost & E & G).
  exists (responses lost). split; [|intros N; by rewrite (G N)].
  pose proof (reaches_responses _ _ _ h (si_reach _ _ _ I) (packets_connected _ _ h Ex)) as F.
  rewrite <- (responses_by_loop (sent h outs)), <- E in F. rewrite !responses_app, !responses_by_loop in F. done.
Qed.

(** ** Notifications within one instant *)
Definition wt (h : N) (l : list delayed) : list msg := concat (map (fun n => if n_host n =? h then [n_msg n] else []) l).
Lemma wt_app h l l' : wt h (l ++ l') = wt h l ++ wt h l'.
Proof. unfold wt. by rewrite map_app, concat_app. Qed.
Lemma delete_app_l {A} (l l' : list A) i : (i < length l)%nat -> delete i (l ++ l') = delete i l ++ l'.
Proof.
  revert i. induction l as [|x l IH]; intros [|i] Hi; cbn in Hi; try lia; [done|].
  change (x :: delete i (l ++ l') = x :: (delete i l ++ l')). f_equal. apply IH. lia.
Qed.
Lemma wt_delete h l i n : l !! i = Some n -> (if n_host n =? h then [n_msg n] else []) ++ wt h (delete i l) ≡ₚ wt h l.
Proof. intros L. apply (waiting_delete h (y_set_delayed l sys_new) i n L). Qed.

Record iinv (h : N) (y0 y : sys) (old new : list delayed) (olds lost : list msg) : Prop := {
  ii_now : y_now y = y_now y0;
  ii_delayed : y_delayed y = old ++ new;
  ii_new : Forall (fun n => y_now y < n_deadline n) new;
  ii_fine : exists st, Forall (out_fine st) (y_todo y);
  ii_old : olds ++ wt h old ≡ₚ waiting h y0;
  ii_sent : delivered h y ++ lost ++ sent h (y_todo y) ≡ₚ delivered h y0 ++ olds ++ sent h (y_todo y0);
  ii_lost : ~ gone h y -> lost = [];
  ii_scheduled : wt h new ++ scheduled h (y_todo y) = scheduled h (y_todo y0) }.

Lemma iinv_frame h y0 y y' old new olds lost : iinv h y0 y old new olds lost -> y_now y' = y_now y -> y_delayed y' = y_delayed y ->
  y_todo y' = y_todo y -> y_log y' = y_log y -> p_closed (y_pica y) ⊆ p_closed (y_pica y') -> iinv h y0 y' old new olds lost.
Proof.
  intros [I1 I2 I3 I4 I5 I6 I7 I8] E1 E2 E3 E4 E5. split; rewrite ?E1, ?E2, ?E3; try done.
  - unfold delivered in *. by rewrite E4.
  - intros G. apply I7. intros G'. apply G. unfold gone in *. set_solver.
Qed.
Lemma sent_cons h o outs : sent h (o :: outs) = sent_to h o ++ sent h outs. Proof. done. Qed.
Lemma scheduled_cons h o outs : scheduled h (o :: outs) = scheduled_to h o ++ scheduled h outs. Proof. done. Qed.

Lemma iinv_step h y0 y l y' old new olds lost : iinv h y0 y old new olds lost -> instant l -> moved y l y' ->
  exists old' new' olds' lost', iinv h y0 y' old' new' olds' lost'.
Proof.
  intros I Il M. pose proof I as [I1 I2 I3 [st I4] I5 I6 I7 I8].
  destruct M; try (by destruct Il); try (eexists _, _, _, _; eapply iinv_frame; [exact I|done..]).
  - (* effect *) rewrite H in *. inversion I4 as [|? ? Fo Ft]; subst.
    assert (forall y', y_now y' = y_now y -> y_delayed y' = y_delayed y -> y_todo y' = todo -> y_log y' = y_log y -> y_pica y' = y_pica y ->
      sent_to h o = [] -> scheduled_to h o = [] -> exists old' new' olds' lost', iinv h y0 y' old' new' olds' lost') as Same.
    { intros y' E1 E2 E3 E4 E5 E6 E7. exists old, new, olds, lost. rewrite sent_cons, E6 in I6. rewrite scheduled_cons, E7 in I8.
      split; rewrite ?E1, ?E2, ?E3; try done; [by exists st| |unfold gone in *; by rewrite E5]. unfold delivered in *. by rewrite E4. }
    destruct o as [k [m|ms m|id iv|id|a id n]|k a|k a|r]; try (by apply Same).
    + cbn [perform].
      assert (forall y', y_now y' = y_now y -> y_delayed y' = y_delayed y -> y_todo y' = todo -> y_pica y' = y_pica y ->
        ((delivered h y' = delivered h y ++ sent_to h (OEff k (Send m)) \/ delivered h y' = delivered h y /\ host_closed k y = true)) ->
        exists old' new' olds' lost', iinv h y0 y' old' new' olds' lost') as Del.
      { intros y' E1 E2 E3 E4 [E5|[E5 Hc]].
        - exists old, new, olds, lost. split; rewrite ?E1, ?E2, ?E3; try done; [by exists st| |unfold gone in *; by rewrite E4].
          rewrite <- I6, sent_cons, E5, <- !app_assoc. apply Permutation_app_head. rewrite !app_assoc. apply Permutation_app_tail, Permutation_app_comm.
        - exists old, new, olds, (lost ++ sent_to h (OEff k (Send m))). split; rewrite ?E1, ?E2, ?E3; try done; [by exists st|..].
          + rewrite <- I6, sent_cons, E5, <- !app_assoc. done.
          + unfold gone in *. rewrite E4. intros G. rewrite I7 by done. cbn. destruct (N.eqb_spec k h) as [->|]; [|done]. destruct G. by apply bool_decide_eq_true in Hc. }
      destruct (host_closed k (y_set_todo todo y) && y_strict (y_set_todo todo y)) eqn:Hc.
      * apply Del; try done. right. split; [done|]. apply andb_true_iff in Hc as [Hc _]. exact Hc.
      * destruct (deliver_fields k m (y_set_todo todo y)) as (Ep & En & Eq & Et & _ & Ed & _ & _ & _ & _).
        apply Del; try done. rewrite delivered_deliver. change (host_closed k (y_set_todo todo y)) with (host_closed k y). destruct (host_closed k y).
        -- right. split; [|done]. cbn. by rewrite app_nil_r.
        -- left. done.
    + cbn [perform]. destruct Fo as (-> & _ & _). exists old, (new ++ [Delayed k (y_now y + delay_of m) m]), olds, lost.
      split; cbn [y_now y_delayed y_todo y_set_delayed y_set_todo]; try done.
      * by rewrite I2, app_assoc.
      * apply Forall_app. split; [done|]. constructor; [|constructor]. cbn. destruct m; cbn; lia.
      * by exists st.
      * rewrite wt_app, <- app_assoc. rewrite scheduled_cons in I8. rewrite <- I8. f_equal. unfold wt. cbn. by destruct (k =? h).
  - (* notify *) rewrite I2 in H. assert (i < length old)%nat as Li.
    { destruct (decide (i < length old)%nat); [done|]. rewrite lookup_app_r in H by lia. pose proof (Forall_lookup_1 _ _ _ _ I3 H) as D. cbn in D. lia. }
    rewrite lookup_app_l in H by done. pose proof (wt_delete h _ _ _ H) as P.
    destruct (deliver_fields (n_host n) (n_msg n) (y_set_delayed (delete i (y_delayed y)) y)) as (Ep & En & Eq & Et & _ & Ed & _ & _ & _ & _).
    exists (delete i old), new, (olds ++ (if n_host n =? h then [n_msg n] else [])), (if host_closed (n_host n) y then lost ++ (if n_host n =? h then [n_msg n] else []) else lost).
    split; rewrite ?En, ?Et, ?Ed; cbn [y_now y_delayed y_todo y_set_delayed]; try done.
    + by rewrite I2, delete_app_l.
    + by exists st.
    + by rewrite <- app_assoc, P.
    + rewrite delivered_deliver. change (host_closed (n_host n) (y_set_delayed (delete i (y_delayed y)) y)) with (host_closed (n_host n) y).
      change (delivered h (y_set_delayed (delete i (y_delayed y)) y)) with (delivered h y).
      set (x := if n_host n =? h then [n_msg n] else []).
      assert (delivered h y ++ (lost ++ x) ++ sent h (y_todo y) ≡ₚ delivered h y0 ++ (olds ++ x) ++ sent h (y_todo y0)) as G.
      { trans (x ++ delivered h y ++ lost ++ sent h (y_todo y)).
        { rewrite (Permutation_app_comm lost x), <- !app_assoc. rewrite !(app_assoc (delivered h y)). by rewrite (Permutation_app_comm (delivered h y) x), <- !app_assoc. }
        rewrite I6. rewrite (Permutation_app_comm olds x), <- !app_assoc. rewrite !(app_assoc (delivered h y0)). by rewrite (Permutation_app_comm (delivered h y0) x), <- !app_assoc. }
      destruct (host_closed (n_host n) y); cbn [negb andb].
      * by rewrite app_nil_r.
      * rewrite <- G. fold x. rewrite <- !app_assoc. apply Permutation_app_head. rewrite !app_assoc. apply Permutation_app_tail, Permutation_app_comm.
    + unfold gone in *. rewrite Ep. cbn. intros G. rewrite I7 by done. unfold host_closed. destruct (bool_decide _) eqn:B; [|done].
      apply bool_decide_eq_true in B. destruct (N.eqb_spec (n_host n) h) as [E|]; [|done]. rewrite E in B. done.
  - (* end *) exists old, new, olds, lost. eapply iinv_frame; [exact I|done..|]. cbn. set_solver.
  - exists old, new, olds, lost. eapply iinv_frame; [exact I|done..|]. cbn. set_solver.
Qed.
Lemma instant_run ls0 y0 ls y h : executed ls0 y0 -> continues y0 ls y -> Forall instant ls ->
  exists old new olds lost, iinv h y0 y old new olds lost.
Proof.
  intros Ex. revert ls y. refine (continues_ind _ _ _ _).
  - intros _. exists (y_delayed y0), [], [], []. destruct (executed_sinv _ _ Ex) as (outs & I). split; try done; [by rewrite app_nil_r|apply (si_fine _ _ _ I)].
  - intros ls y l y' C IH W Cr M S F. apply Forall_app in F as [F Fl]. inversion Fl; subst. destruct (IH F) as (old & new & olds & lost & I).
    by eapply iinv_step.
Qed.

(** ** Notifications in order *)
Definition in_class (ms : N) (m : msg) : bool := by_task m && (delay_of m =? ms).
Definition cls (ms : N) (l : list msg) : list msg := List.filter (in_class ms) l.
Definition sel (h ms : N) (n : delayed) : bool := (n_host n =? h) && in_class ms (n_msg n).
Lemma cls_app ms l l' : cls ms (l ++ l') = cls ms l ++ cls ms l'.
Proof. unfold cls. by rewrite List.filter_app. Qed.
Lemma cls_wt ms h l : cls ms (wt h l) = map n_msg (List.filter (sel h ms) l).
Proof.
  induction l as [|n l IH]; [done|]. change (n :: l) with ([n] ++ l). rewrite wt_app, cls_app, IH, List.filter_app, map_app. f_equal.
  unfold wt, sel. cbn. destruct (n_host n =? h); cbn; [|done]. destruct (in_class ms (n_msg n)); done.
Qed.
Lemma filter_skip {A} (f : A -> bool) l i x : l !! i = Some x -> f x = false -> List.filter f (delete i l) = List.filter f l.
Proof.
  intros L F. rewrite <- (take_drop_middle l i x L) at 2. rewrite delete_take_drop, !List.filter_app. cbn [List.filter]. by rewrite F.
Qed.
Lemma filter_first {A} (f : A -> bool) l i x : l !! i = Some x -> f x = true -> (forall j z, (j < i)%nat -> l !! j = Some z -> f z = false) ->
  List.filter f l = x :: List.filter f (delete i l).
Proof.
  intros L F N. rewrite <- (take_drop_middle l i x L) at 1. rewrite delete_take_drop, !List.filter_app. cbn [List.filter]. rewrite F.
  assert (List.filter f (take i l) = []) as ->; [|done].
  assert (forall z, z ∈ take i l -> f z = false) as Hz.
  { intros z [j Hj]%elem_of_list_lookup. apply lookup_take_Some in Hj as [Hj Hi]. by eapply N. }
  clear L F N. induction (take i l) as [|z l' IH]; [done|]. cbn. rewrite Hz by left. apply IH. intros. apply Hz. by right.
Qed.
(** The entries of a class are sorted by deadline. *)
Fixpoint mono (b : N) (l : list delayed) : Prop :=
  match l with [] => True | n :: l => b <= n_deadline n /\ mono (n_deadline n) l end.
Lemma mono_weaken b b' l : b' <= b -> mono b l -> mono b' l.
Proof. destruct l; [done|]. cbn. intros ? [? ?]. split; [lia|done]. Qed.
Lemma mono_bound b l n : mono b l -> n ∈ l -> b <= n_deadline n.
Proof.
  revert b. induction l as [|x l IH]; intros b M I; [by apply elem_of_nil in I|]. destruct M as [L M]. apply elem_of_cons in I as [->|I]; [done|].
  specialize (IH _ M I). lia.
Qed.
Lemma mono_before b l i j n n' : mono b l -> (j < i)%nat -> l !! i = Some n -> l !! j = Some n' -> n_deadline n' <= n_deadline n.
Proof.
  revert b i j. induction l as [|x l IH]; intros b [|i] [|j] M Lt Hi Hj; try lia; try discriminate; cbn in Hi, Hj.
  - injection Hj as ->. destruct M as [_ M]. eapply mono_bound; [done|]. by eapply elem_of_list_lookup_2.
  - destruct M as [_ M]. eapply IH; [done| |done..]. lia.
Qed.
Lemma mono_filter b (f : delayed -> bool) l : mono b l -> mono b (List.filter f l).
Proof.
  revert b. induction l as [|x l IH]; intros b M; [done|]. destruct M as [L M]. cbn. destruct (f x); [split; auto|]. eapply mono_weaken; [done|auto].
Qed.
Lemma mono_snoc b l n : mono b l -> b <= n_deadline n -> (forall x, x ∈ l -> n_deadline x <= n_deadline n) -> mono b (l ++ [n]).
Proof.
  revert b. induction l as [|x l IH]; intros b M L A; [done|]. destruct M as [L' M]. split; [done|]. apply IH; [done|apply A; left|]. intros. apply A. by right.
Qed.
Lemma filter_lookup_before {A} (f : A -> bool) l i j x z : (j < i)%nat -> l !! i = Some x -> l !! j = Some z -> f x = true -> f z = true ->
  exists i' j', (j' < i')%nat /\ List.filter f l !! i' = Some x /\ List.filter f l !! j' = Some z.
Proof.
  revert i j. induction l as [|a l IH]; intros [|i] [|j] Lt Hi Hj Fx Fz; try lia; try discriminate; cbn in Hi, Hj.
  - injection Hj as ->. cbn [List.filter]. rewrite Fz.
    assert (x ∈ List.filter f l) as [i' Hi']%elem_of_list_lookup.
    { apply elem_of_list_In, List.filter_In. split; [|done]. apply elem_of_list_In. by eapply elem_of_list_lookup_2. }
    exists (S i'), 0%nat. split; [lia|done].
  - destruct (IH i j) as (i' & j' & L & H1 & H2); try done; [lia|]. cbn [List.filter]. destruct (f a); [exists (S i'), (S j')|exists i', j']; (split; [lia|done]).
Qed.

Record oinv (y : sys) (outs : list out) : Prop := {
  oi_sorted : forall h ms, mono 0 (List.filter (sel h ms) (y_delayed y));
  oi_bound : forall h ms, Forall (fun n => n_deadline n <= y_now y + ms) (List.filter (sel h ms) (y_delayed y));
  oi_order : forall h ms, ~ gone h y ->
    cls ms (delivered h y) ++ cls ms (waiting h y) ++ cls ms (scheduled h (y_todo y)) = cls ms (messages h outs) }.
Lemma fine_messages ms h st outs : Forall (out_fine st) outs -> cls ms (messages h outs) = cls ms (scheduled h outs).
Proof.
  induction 1 as [|o outs F _ IH]; [done|]. change (o :: outs) with ([o] ++ outs). unfold scheduled. rewrite messages_app, map_app, concat_app, !cls_app, IH. f_equal.
  unfold messages. cbn [map concat]. rewrite !app_nil_r. unfold messages_to. rewrite cls_app. destruct o as [k [m|d m|id iv|id|a id n]|k a|k a|r]; try done. cbn in *.
  destruct (k =? h); [|done]. cbn. unfold in_class. assert (by_task m = false) as -> by (destruct m; done). done.
Qed.
Lemma oinv_frame y y' outs : oinv y outs -> y_delayed y' = y_delayed y -> y_now y <= y_now y' -> y_log y' = y_log y -> y_todo y' = y_todo y ->
  p_closed (y_pica y) ⊆ p_closed (y_pica y') -> oinv y' outs.
Proof.
  intros [O1 O2 O3] E1 E2 E3 E4 E5. split; rewrite ?E1, ?E4; try done.
  - intros h ms. eapply Forall_impl; [apply O2|]. cbn. lia.
  - intros h ms G. rewrite <- O3 by (unfold gone in *; set_solver). unfold delivered, waiting. by rewrite E1, E3.
Qed.
Lemma cls_by_task ms m : cls ms [m] = if in_class ms m then [m] else [].
Proof. done. Qed.
Lemma fifo_run ls y : executed ls y -> along fifo ls sys_new ->
  forall outs, run pica_new (processed ls sys_new) = Ret (y_pica y, outs) -> oinv y outs.
Proof.
  revert ls y. refine (executed_ind _ _ _).
  - intros _ outs R. cbn in R. injection R as <-. split; cbn; intros; done.
  - intros ls y l y' Ex IH W Cr M S A outs' R'. apply (along_snoc _ _ _ _ _ (proj2 Ex)) in A as [A Al]. specialize (IH A). clear A.
    destruct (executed_sinv _ _ Ex) as (outs & I). pose proof (si_reach _ _ _ I) as [Wh R]. specialize (IH outs R).
    rewrite (processed_snoc _ _ _ _ _ (proj2 Ex) S) in R'.
    assert (pinv (fun _ => false) (y_pica y)) as Pi by (eapply reachable_pinv; eexists _, _; by split).
    pose proof IH as [O1 O2 O3].
    assert (taken l y = [] -> y_pica y' = y_pica y -> outs' = outs) as Eo.
    { intros T Ep. rewrite T, app_nil_r, R in R'. apply Ret_inj in R'. by injection R' as _ <-. }
    destruct M; try (rewrite (Eo eq_refl eq_refl); eapply oinv_frame; [exact IH|done..]).
    + (* take *) cbn [taken] in R'. rewrite H0, H1 in R'. cbn [crashed] in R'. apply run_snoc in R' as (p1 & o1 & o2 & R1 & S1 & ->).
      rewrite R in R1. apply Ret_inj in R1. injection R1 as <- <-. rewrite H1 in S1. apply Ret_inj in S1. apply (f_equal snd) in S1. cbn in S1. subst o2.
      assert (wf_op o) as Wo. { pose proof (si_queue _ _ _ I) as Q. rewrite H0 in Q. by inversion Q. }
      destruct (step_fine _ _ _ _ _ _ Pi Wo H1) as [st F].
      split; cbn [y_delayed y_todo y_now y_set_pica y_set_strict y_set_todo y_set_queue]; try done.
      intros h ms G. rewrite messages_app, cls_app, <- (O3 h ms), H, (fine_messages _ _ _ _ F).
      * unfold delivered, waiting. cbn [y_log y_delayed y_set_pica y_set_strict y_set_todo y_set_queue]. change (scheduled h []) with (@nil msg). by rewrite app_nil_r, app_assoc.
      * intros G'. apply G. pose proof (step_closed _ _ _ _ _ H1). unfold gone in *. cbn. set_solver.
    + (* crash *) cbn [taken] in R'. rewrite H0, H1 in R'. cbn [crashed] in R'. rewrite app_nil_r, R in R'. apply Ret_inj in R'. injection R' as <-.
      by eapply oinv_frame.
    + (* effect *) destruct (perform_fields o (y_set_todo todo y)) as (Ep & En & Eq & Et & Es).
      rewrite (Eo eq_refl Ep). clear Eo R'. pose proof (si_fine _ _ _ I) as [st F]. rewrite H in F. inversion F as [|? ? Fo Ft]; subst.
      assert (forall y', y_delayed y' = y_delayed y -> y_now y' = y_now y -> y_todo y' = todo -> y_pica y' = y_pica y ->
        (forall h ms, ~ gone h y -> cls ms (delivered h y') = cls ms (delivered h y)) -> (forall h, scheduled_to h o = []) -> oinv y' outs) as Same.
      { intros y' E1 E2 E3 E4 E5 E6. split; rewrite ?E1, ?E2, ?E3; try done. intros h ms G. unfold gone in G. rewrite E4 in G. rewrite <- (O3 h ms G), H, scheduled_cons, E6, E5 by done.
        unfold waiting. by rewrite E1. }
      destruct o as [k [m|d m|id iv|id|a id n]|k a|k a|r]; try (by apply Same).
      * cbn [perform] in *. destruct (host_closed k (y_set_todo todo y) && y_strict (y_set_todo todo y)) eqn:Hc; [by apply Same|].
        destruct (deliver_fields k m (y_set_todo todo y)) as (_ & _ & _ & _ & _ & Ed & _ & _ & _ & _).
        apply Same; try done. intros h ms G. rewrite delivered_deliver, cls_app. change (delivered h (y_set_todo todo y)) with (delivered h y).
        assert (in_class ms m = false) as Ic by (unfold in_class; assert (by_task m = false) as -> by exact Fo; done). destruct (negb (host_closed k (y_set_todo todo y)) && (k =? h)); rewrite ?cls_by_task, ?Ic; apply app_nil_r.
      * destruct Fo as (-> & Dm & _). cbn [perform].
        assert (by_task m = true) as Bm by (destruct m; done).
        assert (forall h ms, sel h ms (Delayed k (y_now y + delay_of m) m) = true -> k = h /\ ms = delay_of m) as Sel.
        { intros h ms Hs. unfold sel, in_class in Hs. cbn in Hs. rewrite Bm in Hs. cbn in Hs. apply andb_true_iff in Hs as [H1%N.eqb_eq H2%N.eqb_eq]. done. }
        split; cbn [y_delayed y_now y_todo y_set_delayed y_set_todo].
        -- intros h ms. rewrite List.filter_app. cbn [List.filter]. destruct (sel h ms _) eqn:Hs; [|rewrite app_nil_r; apply O1].
           apply Sel in Hs as [-> ->]. apply mono_snoc; [apply O1|lia|]. intros x Hx. cbn. specialize (O2 h (delay_of m)). rewrite Forall_forall in O2. by apply O2.
        -- intros h ms. rewrite List.filter_app. apply Forall_app. split; [apply O2|]. cbn [List.filter]. destruct (sel h ms _) eqn:Hs; [|constructor].
           apply Sel in Hs as [-> ->]. constructor; [done|constructor].
        -- intros h ms G. rewrite <- (O3 h ms G), H, scheduled_cons, cls_app.
           change (delivered h (y_set_delayed (y_delayed y ++ [Delayed k (y_now y + delay_of m) m]) (y_set_todo todo y))) with (delivered h y).
           change (waiting h (y_set_delayed (y_delayed y ++ [Delayed k (y_now y + delay_of m) m]) (y_set_todo todo y))) with (wt h (y_delayed y ++ [Delayed k (y_now y + delay_of m) m])).
           rewrite wt_app, cls_app, <- !app_assoc. f_equal. f_equal. f_equal. unfold wt. cbn. by destruct (k =? h).
    + (* notify *) destruct (deliver_fields (n_host n) (n_msg n) (y_set_delayed (delete i (y_delayed y)) y)) as (Ep & En & Eq & Et & _ & Ed & _ & _ & _ & _).
      rewrite (Eo eq_refl Ep). clear Eo R'.
      assert (forall h ms, sel h ms n = true -> List.filter (sel h ms) (y_delayed y) = n :: List.filter (sel h ms) (delete i (y_delayed y))) as First.
      { intros h ms Hs. apply filter_first; [done|done|]. intros j z Lt Hj. destruct (sel h ms z) eqn:Hz; [|done]. exfalso.
        destruct (filter_lookup_before _ _ _ _ _ _ Lt H Hj Hs Hz) as (i' & j' & Lt' & Hi' & Hj').
        pose proof (mono_before _ _ _ _ _ _ (O1 h ms) Lt' Hi' Hj') as D. 
        assert (n_host z = n_host n) as Hh. { unfold sel in Hs, Hz. apply andb_true_iff in Hs as [Hs%N.eqb_eq _], Hz as [Hz%N.eqb_eq _]. congruence. }
        specialize (Al j n z Lt H Hj Hh). lia. }
      split; rewrite ?Ed, ?En, ?Et; cbn [y_delayed y_now y_todo y_set_delayed].
      * intros h ms. destruct (sel h ms n) eqn:Hs; [|rewrite (filter_skip _ _ _ _ H Hs); apply O1]. specialize (O1 h ms). rewrite (First _ _ Hs) in O1. destruct O1 as [_ O1].
        eapply mono_weaken; [|done]. lia.
      * intros h ms. destruct (sel h ms n) eqn:Hs; [|rewrite (filter_skip _ _ _ _ H Hs); apply O2]. specialize (O2 h ms). rewrite (First _ _ Hs) in O2. by inversion O2.
      * intros h ms G. unfold gone in G. rewrite Ep in G. rewrite <- (O3 h ms G), delivered_deliver, cls_app, <- app_assoc.
        change (delivered h (y_set_delayed (delete i (y_delayed y)) y)) with (delivered h y). f_equal. rewrite app_assoc. f_equal.
        assert (waiting h (deliver (n_host n) (n_msg n) (y_set_delayed (delete i (y_delayed y)) y)) = wt h (delete i (y_delayed y))) as -> by (unfold waiting; by rewrite Ed).
        change (waiting h y) with (wt h (y_delayed y)). rewrite !cls_wt.
        change (host_closed (n_host n) (y_set_delayed (delete i (y_delayed y)) y)) with (host_closed (n_host n) y).
        destruct (sel h ms n) eqn:Hs.
        -- rewrite (First _ _ Hs). cbn [map]. unfold sel in Hs. apply andb_true_iff in Hs as [Hh Hs]. rewrite Hh, andb_true_r. apply N.eqb_eq in Hh.
           unfold host_closed. rewrite bool_decide_false by (by rewrite Hh). cbn [negb]. by rewrite cls_by_task, Hs.
        -- rewrite (filter_skip _ _ _ _ H Hs). unfold sel in Hs. apply andb_false_iff in Hs as [Hs|Hs].
           ++ by rewrite Hs, andb_false_r.
           ++ destruct (_ && _); [|done]. by rewrite cls_by_task, Hs.
    + (* end *) cbn [taken] in R'. apply run_snoc in R' as (p1 & o1 & o2 & R1 & S1 & ->). rewrite R in R1. apply Ret_inj in R1. injection R1 as <- <-.
      cbn [step] in S1. apply Ret_inj in S1. apply (f_equal snd) in S1. cbn in S1. subst o2. rewrite app_nil_r. eapply oinv_frame; [exact IH|done..|]. cbn. set_solver.
    + cbn [taken] in R'. apply run_snoc in R' as (p1 & o1 & o2 & R1 & S1 & ->). rewrite R in R1. apply Ret_inj in R1. injection R1 as <- <-.
      cbn [step] in S1. apply Ret_inj in S1. apply (f_equal snd) in S1. cbn in S1. subst o2. rewrite app_nil_r. eapply oinv_frame; [exact IH|done..|]. cbn. set_solver.
    + rewrite (Eo eq_refl eq_refl). eapply oinv_frame; [exact IH|done| |done..]. cbn. lia.
Qed.
Lemma statuses_cls id l : statuses id l = statuses id (cls 1 l).
Proof.
  induction l as [|m l IH]; [done|]. unfold statuses, cls in *. cbn [map concat List.filter]. rewrite IH. destruct (in_class 1 m) eqn:E; [done|].
  by destruct m as [| [] | | | | | | | | | | | | | | | | | | | | | | | |].
Qed.
Lemma device_statuses_cls l : device_statuses l = device_statuses (cls 5 l).
Proof.
  induction l as [|m l IH]; [done|]. unfold device_statuses, cls in *. cbn [map concat List.filter]. rewrite IH. destruct (in_class 5 m) eqn:E; [done|].
  by destruct m as [| [] | | | | | | | | | | | | | | | | | | | | | | | |].
Qed.
Lemma statuses_app id l l' : statuses id (l ++ l') = statuses id l ++ statuses id l'.
Proof. unfold statuses. by rewrite map_app, concat_app. Qed.
Lemma device_statuses_app l l' : device_statuses (l ++ l') = device_statuses l ++ device_statuses l'.
Proof. unfold device_statuses. by rewrite map_app, concat_app. Qed.
Lemma status_order ls y outs h id : executed ls y -> along fifo ls sys_new -> run pica_new (processed ls sys_new) = Ret (y_pica y, outs) -> ~ gone h y ->
  statuses id (delivered h y) ++ statuses id (waiting h y) ++ statuses id (scheduled h (y_todo y)) = status_ntfs h id outs
  /\ device_statuses (delivered h y) ++ device_statuses (waiting h y) ++ device_statuses (scheduled h (y_todo y)) = device_statuses (messages h outs).
Proof.
  intros Ex A R G. pose proof (fifo_run _ _ Ex A _ R) as [_ _ O]. split.
  - change (status_ntfs h id outs) with (statuses id (messages h outs)). rewrite (statuses_cls id (messages h outs)), <- (O h 1 G), !statuses_app, <- !statuses_cls. done.
  - rewrite (device_statuses_cls (messages h outs)), <- (O h 5 G), !device_statuses_app, <- !device_statuses_cls. done.
Qed.

(** ** Every connected device is served *)
Definition served (h : N) (y : sys) : Prop :=
  (exists m, OConnected h m ∈ y_todo y) \/ y_conns y !! h = Some CnRunning \/ y_conns y !! h = Some CnEnded
  \/ Disconnect h ∈ y_queue y.
Lemma step_connected e p o p' outs h : step e p o = Ret (p', outs) -> connected p' h ->
  o <> Disconnect h /\ (connected p h \/ exists m, OConnected h m ∈ outs).
Proof.
  intros H C. assert (forall d k d', p_devices p !! k = Some d -> connected (p_set_device k d' p) h -> connected p h) as Ins.
  { intros d k d' L [dk Lk]. cbn in Lk. destruct (decide (k = h)) as [->|Ne]; [by eexists|]. rewrite lookup_insert_ne in Lk by done. by eexists. }
  destruct o; cbn [step] in H; (split; [try discriminate|]).
  - apply Ret_inj in H. unfold add_device, device_init in H. rewrite device_set_state_eq in H. injection H as <- <-. destruct C as [d L]. cbn in L.
    destruct (decide (p_counter p = h)) as [->|Ne]; [right; eexists; by (right; left)|left]. rewrite lookup_insert_ne in L by done. by eexists.
  - intros [= ->]. apply Ret_inj in H. unfold disconnect in H. destruct (p_devices p !! h) as [d|] eqn:L; injection H as <- <-; destruct C as [d' L']; cbn in L'; [|congruence].
    by rewrite lookup_delete in L'.
  - left. apply Ret_inj in H. unfold disconnect in H. destruct (p_devices p !! h0) as [d|] eqn:L; injection H as <- <-; [|done]. destruct C as [d' L']. cbn in L'.
    destruct (decide (h0 = h)) as [->|Ne]; [by rewrite lookup_delete in L'|]. rewrite lookup_delete_ne in L' by done. by eexists.
  - left. apply ranging_inv in H as (d & s & ms1 & ms2 & peers & o1 & o2 & s' & L & _ & _ & _ & _ & _ & -> & _). by eapply Ins.
  - left. apply Ret_inj in H. unfold stop_controlee_ranging in H. injection H as <- _. destruct C as [d L]. cbn in L. rewrite lookup_fmap in L.
    destruct (p_devices p !! h) as [d0|] eqn:L0; [by eexists|discriminate].
  - left. unfold uci_packet in H. destruct (p_devices p !! h0) as [d|] eqn:L; [|apply Ret_inj in H; by injection H as <- _].
    destruct (receive_packet d packet) as [[d1 e1]|]; [|discriminate]. cbn [obind] in H. apply Ret_inj in H. injection H as <- _. by eapply Ins.
  - left. unfold create_anchor in H. destruct (get_category p m); [apply Ret_inj in H; by injection H as <- _|].
    destruct (p_anchors p !! m); [discriminate|]. apply Ret_inj in H. by injection H as <- _.
  - left. apply Ret_inj in H. unfold destroy_anchor in H. destruct (p_anchors p !! m); by injection H as <- _.
  - left. apply Ret_inj in H. by injection H as <- _.
Qed.
Lemma all_served ls y h : executed ls y -> Forall no_panic ls -> connected (y_pica y) h -> served h y.
Proof.
  revert ls y. refine (executed_ind _ _ _); [by intros _ [d L]|].
  intros ls y l y' Ex IH W Cr M S F C. apply Forall_app in F as [F Fl]. specialize (IH F). inversion Fl as [|? ? Np _]; subst.
  assert (connected (y_pica y) h -> y_conns y' = y_conns y -> y_todo y' = y_todo y -> (forall o, o ∈ y_queue y -> o ∈ y_queue y') -> served h y') as Same.
  { intros C0 E1 E2 E3. unfold served. rewrite E1, E2. destruct (IH C0) as [?|[?|[?|?]]]; auto. }
  assert (forall k c, k <> h -> y_conns y' = <[k := c]> (y_conns y) -> connected (y_pica y) h -> y_todo y' = y_todo y -> (forall o, o ∈ y_queue y -> o ∈ y_queue y') -> served h y') as Other.
  { intros k c Ne E1 C0 E2 E3. unfold served. rewrite E1, E2, lookup_insert_ne by done. destruct (IH C0) as [?|[?|[?|?]]]; auto. }
  destruct M; try (by destruct Np); try (by apply Same); try (by apply Same; try done; cbn; intros; apply elem_of_app; left).
  - (* take *) destruct (step_connected _ _ _ _ _ _ H1 C) as [Nd [C0|[m Hm]]]; [|left; by exists m].
    destruct (IH C0) as [[m Hm]|[Hc|[Hc|Hc]]]; [rewrite H in Hm; by apply elem_of_nil in Hm|by right; left|by right; right; left|].
    rewrite H0 in Hc. apply elem_of_cons in Hc as [<-|Hc]; [done|]. by right; right; right.
  - (* crash *) destruct (IH C) as [[m Hm]|[Hc|[Hc|Hc]]]; [rewrite H in Hm; by apply elem_of_nil in Hm|by right; left|by right; right; left|].
    rewrite H0 in Hc. apply elem_of_cons in Hc as [<-|Hc]; [|by right; right; right]. cbn [step] in H1. discriminate H1.
  - (* effect *) destruct (perform_fields o (y_set_todo todo y)) as (Ep & En & Eq & Et & Es). rewrite Ep in C. specialize (IH C).
    assert (y_conns (perform o (y_set_todo todo y)) = y_conns y -> (forall k m, o <> OConnected k m) -> served h (perform o (y_set_todo todo y))) as Eff.
    { intros E1 N. unfold served. rewrite E1, Eq, Et. cbn [y_todo y_set_todo y_queue]. destruct IH as [[m Hm]|[?|[?|?]]]; auto. left. exists m. rewrite H in Hm.
      apply elem_of_cons in Hm as [Hm|Hm]; [by destruct (N h m)|done]. }
    destruct o as [k [m|d m|id iv|id|a id n]|k m|k a|r]; try (by apply Eff).
    + apply Eff; [|done]. cbn [perform]. destruct (_ && _); [done|]. by destruct (deliver_fields k m (y_set_todo todo y)) as (_ & _ & _ & _ & _ & _ & _ & -> & _).
    + unfold served. cbn [perform y_conns y_set_conns y_todo y_set_todo y_queue]. destruct (decide (k = h)) as [->|Ne]; [rewrite lookup_insert; auto|].
      rewrite lookup_insert_ne by done. destruct IH as [[m' Hm]|[?|[?|?]]]; auto. left. exists m'. rewrite H in Hm. apply elem_of_cons in Hm as [Hm|Hm]; [congruence|done].
  - (* notify *) destruct (deliver_fields (n_host n) (n_msg n) (y_set_delayed (delete i (y_delayed y)) y)) as (Ep & _ & Eq & Et & _ & _ & _ & Ec & _).
    rewrite Ep in C. apply Same; try done. by rewrite Eq.
  - (* end *) destruct (decide (h0 = h)) as [->|Ne]; [|by eapply Other]. right; right; left. cbn. by rewrite lookup_insert.
  - (* disconnect *) destruct (decide (h0 = h)) as [->|Ne].
    + right; right; right. cbn. apply elem_of_app. right. left.
    + eapply Other; try done. cbn. intros. apply elem_of_app. by left.
Qed.

(** ** Progress of the notifications *)
Lemma log_grows y ls y' : continues y ls y' -> exists l, y_log y' = y_log y ++ l.
Proof.
  revert ls y'. refine (continues_ind _ _ _ _); [exists []; by rewrite app_nil_r|].
  intros ls y1 l y2 C (x & E) W Cr M S.
  assert (exists z, y_log y2 = y_log y1 ++ z) as (z & Ez); [|exists (x ++ z); by rewrite Ez, E, app_assoc].
  destruct M; try (exists []; by rewrite app_nil_r).
  - destruct o as [k [m|ms m|id iv|id|a id n]|k a|k a|r]; try (exists []; by rewrite app_nil_r). cbn [perform]. destruct (_ && _); [exists []; by rewrite app_nil_r|].
    unfold deliver. destruct (host_closed _ _); [exists []; by rewrite app_nil_r|by eexists].
  - unfold deliver. destruct (host_closed _ _); [exists []; by rewrite app_nil_r|by eexists].
Qed.
Lemma infos_grow y ls y' h id : continues y ls y' -> exists l, infos_delivered h id y' = infos_delivered h id y ++ l.
Proof.
  intros C. destruct (log_grows _ _ _ C) as (l & E). unfold infos_delivered, delivered. rewrite E, !map_app, !concat_app, map_app, concat_app. by eexists.
Qed.
Lemma wait_until n y : y_crash y = None -> sys_run (repeat LTick n) y = Some (y_set_now (y_now y + N.of_nat n) y).
Proof.
  revert y. induction n as [|n IH]; intros y C.
  - cbn. rewrite N.add_0_r. by destruct y.
  - cbn [repeat sys_run]. unfold sys_step at 1. rewrite C. cbn [mbind option_bind]. rewrite IH by done. unfold y_set_now. cbn [y_now y_pica y_queue y_todo y_strict y_timers y_stoppers y_conns y_delayed y_log y_crash]. f_equal. f_equal; lia.
Qed.
Lemma notify_all n y : length (y_delayed y) = n -> y_crash y = None -> Forall (fun x => n_deadline x <= y_now y) (y_delayed y) ->
  exists y', sys_run (repeat (LNotify 0) n) y = Some y' /\ y_delayed y' = [] /\ y_crash y' = None /\ y_queue y' = y_queue y /\ y_pica y' = y_pica y
    /\ forall h, ~ gone h y -> delivered h y' = delivered h y ++ waiting h y.
Proof.
  revert y. induction n as [|n IH]; intros y L C F.
  - exists y. destruct (y_delayed y) eqn:D; [|discriminate]. split; [done|]. split_and!; try done. intros h _. unfold waiting. rewrite D. by rewrite app_nil_r.
  - destruct (y_delayed y) as [|x l] eqn:D; [discriminate|]. inversion F as [|? ? Fx Fl]; subst.
    set (y1 := deliver (n_host x) (n_msg x) (y_set_delayed l y)).
    destruct (deliver_fields (n_host x) (n_msg x) (y_set_delayed l y)) as (Ep & En & Eq & Et & _ & Ed & _ & _ & Ec & _). fold y1 in Ep, En, Eq, Et, Ed, Ec.
    destruct (IH y1) as (y' & R & D' & C' & Q' & P' & Dl).
    + rewrite Ed. cbn in L |- *. lia.
    + by rewrite Ec.
    + rewrite Ed, En. done.
    + exists y'. split; [|split; [done|]; split; [done|]; split; [by rewrite Q'|]; split; [by rewrite P'|]].
      * cbn [repeat sys_run]. assert (sys_step (LNotify 0) y = Some y1) as ->; [|exact R]. unfold sys_step. rewrite C, D. cbn [lookup list_lookup].
        apply N.leb_le in Fx. rewrite Fx. done.
      * intros h G. rewrite Dl by (unfold gone in *; by rewrite Ep). unfold y1 at 1. rewrite delivered_deliver, <- app_assoc. f_equal.
        assert (waiting h y1 = wt h l) as -> by (unfold waiting; by rewrite Ed). change (waiting h y) with (wt h (y_delayed y)). rewrite D. change (x :: l) with ([x] ++ l). rewrite wt_app. f_equal.
        unfold wt. cbn [map concat]. rewrite app_nil_r. change (host_closed (n_host x) (y_set_delayed l y)) with (host_closed (n_host x) y).
        destruct (N.eqb_spec (n_host x) h) as [E|Ne]; [|by rewrite andb_false_r]. unfold host_closed. rewrite bool_decide_false; [done|]. by rewrite E.
Qed.
Lemma notified y : y_crash y = None -> exists ls y', Forall (fun l => l = LTick \/ l = LNotify 0) ls /\ continues y ls y'
  /\ y_delayed y' = [] /\ y_crash y' = None /\ y_queue y' = y_queue y /\ y_pica y' = y_pica y
  /\ forall h, ~ gone h y -> delivered h y' = delivered h y ++ waiting h y.
Proof.
  intros C.
  assert (exists b, Forall (fun x => n_deadline x <= b) (y_delayed y)) as (b & Fb).
  { induction (y_delayed y) as [|x l (b & F)]; [by exists 0|]. exists (N.max b (n_deadline x)). constructor; [lia|]. eapply Forall_impl; [exact F|]. cbn. lia. }
  set (y1 := y_set_now (y_now y + N.of_nat (N.to_nat b)) y).
  destruct (notify_all (length (y_delayed y)) y1) as (y' & R & D' & C' & Q' & P' & Dl); [done|done| |].
  { cbn. eapply Forall_impl; [exact Fb|]. cbn. intros x Hx. lia. }
  exists (repeat LTick (N.to_nat b) ++ repeat (LNotify 0) (length (y_delayed y))), y'. split.
  - apply Forall_app. split; apply Forall_forall; intros l Hl; apply elem_of_list_In, repeat_spec in Hl; auto.
  - split; [|done]. split.
    + apply Forall_app. split; apply Forall_forall; intros l Hl; apply elem_of_list_In, repeat_spec in Hl; by subst l.
    + rewrite sys_run_app, wait_until by done. exact R.
Qed.
