(** Proofs about the dialogue of a host with its device. *)
From Verif Require Import Base Uci MacAddress AppConfig Codec Session Device Pica Sys BaseFacts CodecSpec ContextSpec HistorySpec InvFacts StepFacts.
From Verif Require Import CommandFacts RangingSpec EffectFacts SysSpec SysFacts ScheduleFacts DeliveryFacts PropsContext DialogueSpec.

(** ** Sorting *)
Definition shift (c : N) (x : N * msg) : N * msg := (c + x.1, x.2).
Lemma insert_shift c x l : insert_by (shift c x) (map (shift c) l) = map (shift c) (insert_by x l).
Proof.
  induction l as [|z l IH]; [done|]. cbn [map insert_by]. cbn [shift fst]. destruct (N.leb_spec (c + x.1) (c + z.1)), (N.leb_spec x.1 z.1); try lia; [done|].
  cbn [map]. by rewrite <- IH.
Qed.
Lemma by_delay_shift c l : by_delay (map (shift c) l) = map (shift c) (by_delay l).
Proof. induction l as [|x l IH]; [done|]. cbn [map by_delay]. by rewrite IH, insert_shift. Qed.
Lemma map_snd_shift c l : map snd (map (shift c) l) = map snd l.
Proof. rewrite map_map. by apply map_ext. Qed.
Lemma insert_perm x l : insert_by x l ≡ₚ x :: l.
Proof. induction l as [|z l IH]; [done|]. cbn. destruct (x.1 <=? z.1); [done|]. rewrite IH. constructor. Qed.
Lemma by_delay_perm l : by_delay l ≡ₚ l.
Proof. induction l as [|x l IH]; [done|]. cbn. by rewrite insert_perm, IH. Qed.
Lemma insert_least x l : Forall (fun z => x.1 <= z.1) l -> insert_by x l = x :: l.
Proof. intros F. destruct l as [|z l]; [done|]. inversion F; subst. cbn. destruct (N.leb_spec x.1 z.1); [done|lia]. Qed.
Lemma insert_over x z l : x.1 < z.1 -> insert_by z (x :: l) = x :: insert_by z l.
Proof. intros L. cbn. destruct (N.leb_spec z.1 x.1); [lia|done]. Qed.
(** The first of the least ones comes first. *)
Lemma by_delay_first l1 x l2 : Forall (fun z => x.1 < z.1) l1 -> Forall (fun z => x.1 <= z.1) l2 ->
  by_delay (l1 ++ x :: l2) = x :: by_delay (l1 ++ l2).
Proof.
  intros F1 F2. induction F1 as [|z l1 Hz F1 IH].
  - cbn [app by_delay]. apply insert_least. by rewrite by_delay_perm.
  - cbn [app by_delay]. rewrite IH. by apply insert_over.
Qed.

(** ** Messages *)
Lemma sent_nil h outs : messages h outs = [] -> sent h outs = [] /\ delays h outs = [] /\ scheduled h outs = [].
Proof.
  unfold messages, sent, delays, scheduled. induction outs as [|o outs IH]; [done|]. cbn [map concat]. intros E. apply app_nil in E as [E1 E2].
  destruct (IH E2) as (-> & -> & ->). unfold messages_to in E1. apply app_nil in E1 as [-> E1]. rewrite E1. split; [done|]. split; [|done].
  destruct o as [k []| | |]; try done. cbn in *. by destruct (k =? h).
Qed.
Lemma delays_snd h outs : map snd (delays h outs) = scheduled h outs.
Proof. unfold delays, scheduled. induction outs as [|o outs IH]; [done|]. cbn [map concat]. rewrite map_app, IH. f_equal. destruct o as [k []| | |]; try done. cbn. by destruct (k =? h). Qed.
Lemma messages_perm h outs : messages h outs ≡ₚ sent h outs ++ scheduled h outs.
Proof.
  unfold messages, sent, scheduled. induction outs as [|o outs IH]; [done|]. cbn [map concat]. rewrite IH. unfold messages_to.
  rewrite <- !app_assoc. apply Permutation_app_head. rewrite !app_assoc. apply Permutation_app_tail, Permutation_app_comm.
Qed.
(** The delayed notifications to [h], with their deadlines. *)
Definition dw_of (h : N) (n : delayed) : list (N * msg) := if n_host n =? h then [(n_deadline n, n_msg n)] else [].
Definition dw (h : N) (l : list delayed) : list (N * msg) := concat (map (dw_of h) l).
Lemma dw_app h l l' : dw h (l ++ l') = dw h l ++ dw h l'.
Proof. unfold dw. by rewrite map_app, concat_app. Qed.
Lemma dw_snd h y : map snd (dw h (y_delayed y)) = waiting h y.
Proof. unfold dw, waiting. induction (y_delayed y) as [|n l IH]; [done|]. cbn [map concat]. rewrite map_app, IH. f_equal. unfold dw_of. by destruct (n_host n =? h). Qed.
Lemma dw_nil h y : waiting h y = [] -> dw h (y_delayed y) = [].
Proof. rewrite <- dw_snd. by destruct (dw h (y_delayed y)). Qed.
Lemma dw_in h l x : x ∈ dw h l -> exists j n, l !! j = Some n /\ n_host n = h /\ x = (n_deadline n, n_msg n).
Proof.
  unfold dw. induction l as [|n l IH]; [intros H; by apply elem_of_nil in H|]. cbn [map concat]. intros H. apply elem_of_app in H as [H|H].
  - exists 0%nat, n. unfold dw_of in H. destruct (N.eqb_spec (n_host n) h); [|by apply elem_of_nil in H]. apply elem_of_list_singleton in H. done.
  - destruct (IH H) as (j & n' & ?). by exists (S j), n'.
Qed.
Lemma delete_split {A} (l : list A) i x : l !! i = Some x -> l = take i l ++ x :: drop (S i) l /\ delete i l = take i l ++ drop (S i) l.
Proof. intros L. split; [symmetry; by apply take_drop_middle|apply delete_take_drop]. Qed.

(** ** The invariant *)
Record linv (h : N) (y : sys) (os : list (list out)) : Prop := {
  dl_order : ~ gone h y -> delivered h y ++ sent h (y_todo y) ++ map snd (by_delay (dw h (y_delayed y) ++ map (shift (y_now y)) (delays h (y_todo y))))
    = concat (map (due h) os) }.

Lemma linv_frame h y y' os : linv h y os -> y_pica y' = y_pica y -> y_now y' = y_now y -> y_todo y' = y_todo y -> y_delayed y' = y_delayed y -> y_log y' = y_log y -> linv h y' os.
Proof.
  intros [L2] E1 E2 E3 E4 E5. unfold gone, delivered in *. split; unfold gone, delivered; rewrite ?E1, ?E2, ?E3, ?E4, ?E5; done.
Qed.
Lemma due_nil h outs : messages h outs = [] -> due h outs = [].
Proof. intros M. destruct (sent_nil _ _ M) as (E1 & E2 & _). unfold due. by rewrite E1, E2. Qed.
Lemma delays_cons h o outs : delays h (o :: outs) = delay_to h o ++ delays h outs.
Proof. done. Qed.
Lemma sent_eq h o outs : sent h (o :: outs) = sent h [o] ++ sent h outs.
Proof. unfold sent. cbn [map concat]. by rewrite app_nil_r. Qed.
Lemma shift_late c l : Forall (fun x => c <= x.1) (map (shift c) l).
Proof. induction l as [|x l IH]; constructor; [cbn; lia|done]. Qed.
Lemma linv_take h y e o q p outs os : linv h y os ->
  y_todo y = [] -> y_queue y = o :: q -> step e (y_pica y) o = Ret (p, outs) -> unhurried h (LTake e) y ->
  linv h (y_set_pica p (y_set_strict (is_round o) (y_set_todo outs (y_set_queue q y)))) (os ++ [outs]).
Proof.
  intros L T Q St Un. pose proof L as [L2]. specialize (Un _ _ _ _ Q St).
  split; cbn [y_pica y_now y_todo y_delayed y_queue y_set_pica y_set_strict y_set_todo y_set_queue].
  - intros G. rewrite map_app, concat_app. cbn [map concat]. rewrite app_nil_r. rewrite <- L2 by (intros G'; apply G; pose proof (step_closed _ _ _ _ _ St); unfold gone in *; cbn; set_solver).
    rewrite T. change (delivered h (y_set_pica _ _)) with (delivered h y). change (delays h []) with (@nil (N * msg)). change (sent h []) with (@nil msg).
    cbn [map app]. rewrite app_nil_r. destruct Un as [M|W].
    + destruct (sent_nil _ _ M) as (E1 & E2 & _). rewrite (due_nil _ _ M), E1, E2. cbn [map app]. by rewrite !app_nil_r.
    + rewrite (dw_nil _ _ W). cbn [app by_delay map]. rewrite by_delay_shift, map_snd_shift. by rewrite app_nil_r.
Qed.
Lemma linv_effect h y o todo os start : linv h y os -> out_fine start o -> y_todo y = o :: todo -> linv h (perform o (y_set_todo todo y)) os.
Proof.
  intros L Fo T. pose proof L as [L2].
  assert (forall y', y_pica y' = y_pica y -> y_now y' = y_now y -> y_todo y' = todo -> y_delayed y' = y_delayed y ->
    sent_to h o = [] -> delay_to h o = [] -> delivered h y' = delivered h y -> linv h y' os) as Same.
  { intros y' E1 E2 E3 E5 E7 E8 E9. rewrite T in L2. rewrite sent_eq, delays_cons, E8 in L2.
    assert (sent h [o] = []) as E10 by (unfold sent; cbn; by rewrite E7). rewrite E10 in L2.
    split; unfold gone; rewrite ?E1, ?E2, ?E3, ?E5, ?E9; done. }
  destruct o as [k [m|d m|id iv|id|a id n]|k a|k a|r]; try (by apply Same).
  - (* sent *) cbn [perform] in *. destruct (N.eqb_spec k h) as [->|Nk].
    + destruct (host_closed h (y_set_todo todo y)) eqn:Hc.
      * assert (gone h y) as G. { unfold host_closed in Hc. by apply bool_decide_eq_true in Hc. }
        unfold deliver in *. rewrite Hc in *. cbn [andb] in *.
        destruct (y_strict (y_set_todo todo y)); split; cbn [y_pica y_now y_todo y_delayed y_queue y_set_crash y_set_todo] in *; try done; intros N; by destruct N.
      * cbn [andb] in *. unfold deliver in *. rewrite Hc in *.
        split; cbn [y_pica y_now y_todo y_delayed y_queue y_set_log y_set_todo] in *; try done.
        -- intros G. rewrite <- (L2 G), T, sent_eq, delays_cons. rewrite delivered_app. cbn [map concat fst snd]. change (delivered h (y_set_todo todo y)) with (delivered h y).
           unfold sent at 2. cbn [map concat sent_to delay_to app]. rewrite N.eqb_refl. cbn [app]. by rewrite <- !app_assoc.
    + assert ((k =? h) = false) as Ek by (by apply N.eqb_neq). unfold deliver. destruct (_ && _) eqn:Hs; [|destruct (host_closed k _) eqn:Hc].
      * apply Same; try done. cbn. by rewrite Ek.
      * apply Same; try done. cbn. by rewrite Ek.
      * apply Same; try done; [cbn; by rewrite Ek|]. rewrite delivered_app. cbn. rewrite Ek. by rewrite app_nil_r.
  - (* after a delay *) cbn [perform] in *. destruct (N.eqb_spec k h) as [->|Nk].
    + destruct Fo as (-> & Dm & _).
      split; cbn [y_pica y_now y_todo y_delayed y_queue y_set_delayed y_set_todo] in *; try done.
      * intros G. rewrite <- (L2 G), T, sent_eq, delays_cons. change (delivered h (y_set_delayed _ _)) with (delivered h y). f_equal.
        change (sent h [OEff h (After (delay_of m) m)]) with (@nil msg). cbn [app]. f_equal. f_equal. f_equal. rewrite dw_app, <- app_assoc. f_equal.
        rewrite map_app. f_equal. unfold dw, dw_of. cbn. by rewrite N.eqb_refl.
    + assert ((k =? h) = false) as Ek by (by apply N.eqb_neq).
      assert (dw h (y_delayed y ++ [Delayed k (y_now y + d) m]) = dw h (y_delayed y)) as Ed by (rewrite dw_app; unfold dw at 2, dw_of; cbn; by rewrite Ek, app_nil_r).
      split; cbn [y_pica y_now y_todo y_delayed y_queue y_set_delayed y_set_todo] in *; rewrite ?Ed; try done.
      * intros G. rewrite <- (L2 G), T, sent_eq, delays_cons. change (sent h [OEff k (After d m)]) with (@nil msg). cbn [delay_to app]. by rewrite Ek.
Qed.
Lemma linv_notify h y i n os : linv h y os -> y_delayed y !! i = Some n -> n_deadline n <= y_now y -> orderly h (LNotify i) y -> timely h (LNotify i) y ->
  linv h (deliver (n_host n) (n_msg n) (y_set_delayed (delete i (y_delayed y)) y)) os.
Proof.
  intros L Li Dn Or Ti. pose proof L as [L2]. cbn [timely] in Ti.
  destruct (deliver_fields (n_host n) (n_msg n) (y_set_delayed (delete i (y_delayed y)) y)) as (Ep & En & Eq & Et & _ & Ed & _).
  destruct (delete_split _ _ _ Li) as [E1 E2].
  assert (dw h (y_delayed y) = dw h (take i (y_delayed y)) ++ dw_of h n ++ dw h (drop (S i) (y_delayed y))) as D1 by (rewrite E1 at 1; by rewrite dw_app).
  assert (dw h (delete i (y_delayed y)) = dw h (take i (y_delayed y)) ++ dw h (drop (S i) (y_delayed y))) as D2 by (by rewrite E2, dw_app).
  split; unfold gone; rewrite ?Ep, ?En, ?Eq, ?Et, ?Ed; cbn [y_pica y_now y_queue y_todo y_delayed y_set_delayed]; try done.
  - intros G. rewrite <- (L2 G), delivered_deliver, D1, D2. change (delivered h (y_set_delayed _ _)) with (delivered h y). rewrite <- app_assoc. f_equal.
    unfold dw_of. destruct (N.eqb_spec (n_host n) h) as [Eh|Nh]; [|by rewrite andb_false_r].
    assert (host_closed (n_host n) (y_set_delayed (delete i (y_delayed y)) y) = false) as -> by (unfold host_closed; apply bool_decide_eq_false; by rewrite Eh). cbn [negb andb].
    rewrite (Or _ Li Eh).
    cbn [app]. rewrite <- !app_assoc. cbn [app]. rewrite by_delay_first; [done| |]; cbn [fst].
    + apply Forall_forall. intros x Hx. apply dw_in in Hx as (j & n' & Lj & Hh & ->). cbn.
      assert (j < i)%nat as Lt by (apply lookup_lt_Some in Lj; rewrite take_length in Lj; lia). rewrite lookup_take in Lj by done.
      destruct (Ti j n n') as [?|[_ ?]]; [lia|done|done|congruence|congruence|lia|lia].
    + apply Forall_app. split.
      * apply Forall_forall. intros x Hx. apply dw_in in Hx as (j & n' & Lj & Hh & ->). cbn. rewrite lookup_drop in Lj.
        destruct (Ti (S i + j)%nat n n') as [?|[? _]]; [lia|done|done|congruence|congruence|lia|lia].
      * eapply Forall_impl; [apply shift_late|]. cbn. lia.
Qed.
Lemma linv_closed h k y conns os : linv h y os -> linv h (close_host k (y_set_conns conns y)) (os ++ [[]]).
Proof.
  intros [L2]. split.
  - intros G. rewrite map_app, concat_app. cbn [map concat]. rewrite !app_nil_r. apply L2. intros G'. apply G. unfold gone in *. cbn. set_solver.
Qed.
Lemma outputs_snoc p l p1 o1 e o p2 o2 : run p l = Ret (p1, o1) -> step e p1 o = Ret (p2, o2) -> outputs p (l ++ [(e, o)]) = outputs p l ++ [o2].
Proof.
  revert p p1 o1. induction l as [|[e' o'] l IH]; intros p p1 o1 R S; cbn [run outputs app] in *.
  - apply Ret_inj in R. injection R as -> _. by rewrite S.
  - destruct (step e' p o') as [[q oq]|]; [|discriminate]. cbn [obind] in R. destruct (run q l) as [[q' oq']|] eqn:Rq; [|discriminate].
    cbn [obind] in R. apply Ret_inj in R. injection R as -> _. cbn [app]. f_equal. by eapply IH.
Qed.
Lemma linv_run h ls y : executed ls y -> along (calm h) ls sys_new -> along (orderly h) ls sys_new -> along (timely h) ls sys_new -> along (unhurried h) ls sys_new ->
  linv h y (outputs pica_new (processed ls sys_new)).
Proof.
  revert ls y. refine (executed_ind _ _ _); [by split|].
  intros ls y l y' Ex IH W Cr M S A1 A0 A2 A3. apply (along_snoc _ _ _ _ _ (proj2 Ex)) in A1 as [A1 Ca], A0 as [A0 Or], A2 as [A2 Ti], A3 as [A3 Un].
  pose proof (IH A1 A0 A2 A3) as L. clear IH A1 A0 A2 A3.
  destruct (executed_sinv _ _ Ex) as (outs & I). destruct (si_reach _ _ _ I) as [_ Re].
  rewrite (processed_snoc _ _ _ _ _ (proj2 Ex) S).
  assert (taken l y = [] -> linv h y' (outputs pica_new (processed ls sys_new)) -> linv h y' (outputs pica_new (processed ls sys_new ++ taken l y))) as Skip.
  { intros ->. by rewrite app_nil_r. }
  destruct M; try (apply Skip; [done|]; by eapply linv_frame; [exact L|done..]).
  + (* take *) cbn [taken]. rewrite H0, H1. cbn [crashed negb]. rewrite (outputs_snoc _ _ _ _ _ _ _ _ Re H1).
    by eapply linv_take.
  + (* crash *) apply Skip; [cbn [taken]; by rewrite H0, H1|]. by eapply linv_frame; [exact L|done..].
  + (* effect *) apply Skip; [done|]. pose proof (si_fine _ _ _ I) as [st F]. rewrite H in F. inversion F; subst. by eapply linv_effect.
  + (* notify *) apply Skip; [done|]. by apply linv_notify.
  + (* end *) cbn [taken]. erewrite (outputs_snoc _ _ _ _ quiet_env (HostGone h0) _ _ Re) by reflexivity. by apply linv_closed.
  + cbn [taken]. erewrite (outputs_snoc _ _ _ _ quiet_env (HostGone h0) _ _ Re) by reflexivity. by apply linv_closed.
  + (* tick *) apply Skip; [done|]. cbn [calm] in Ca. destruct L as [L2]. split; cbn [y_pica y_now y_queue y_todo y_delayed y_set_now]. intros G. rewrite <- (L2 G).
    change (delivered h (y_set_now _ y)) with (delivered h y). do 2 f_equal. destruct Ca as [E|Wn].
    * rewrite <- delays_snd in E. apply map_eq_nil in E as ->. done.
    * rewrite (dw_nil _ _ Wn). cbn [app]. by rewrite !by_delay_shift, !map_snd_shift.
Qed.
Lemma dialogue ls y h : executed ls y -> along (calm h) ls sys_new -> along (orderly h) ls sys_new -> along (timely h) ls sys_new -> along (unhurried h) ls sys_new -> ~ gone h y ->
  exists rest, delivered h y ++ rest = concat (map (due h) (outputs pica_new (processed ls sys_new))) /\ rest ≡ₚ messages h (y_todo y) ++ waiting h y.
Proof.
  intros Ex A1 A0 A2 A3 G. pose proof (linv_run h ls y Ex A1 A0 A2 A3) as L. eexists. split; [apply (dl_order _ _ _ L G)|].
  rewrite by_delay_perm, map_app, dw_snd, map_snd_shift, delays_snd, messages_perm, <- app_assoc. apply Permutation_app_head, Permutation_app_comm.
Qed.

(** Only to devices. *)
Definition out_known (p : pica) (x : out) : Prop := match x with OEff k _ => exists d, p_devices p !! k = Some d | _ => True end.
Lemma known_effs p h d e : p_devices p !! h = Some d -> Forall (out_known p) (map (OEff h) e).
Proof. intros L. apply List.Forall_forall. intros x Hx. apply in_map_iff in Hx as (? & <- & _). by exists d. Qed.
Lemma peer_loop_known estimate devices h d s id order ms peers : peer_loop estimate devices h d s id order = Ret (ms, peers) ->
  Forall (fun k => exists d, devices !! k = Some d) peers.
Proof.
  revert ms peers. induction order as [|k order IH]; intros ms peers E; cbn [peer_loop] in E; [apply Ret_inj in E; injection E as <- <-; constructor|].
  destruct (devices !! k) as [peer|] eqn:L; [|by eapply IH]. destruct (d_handle peer =? h); [by eapply IH|].
  destruct (peer_measurement _ _ _ _ _) as [r|]; [|discriminate]. cbn [obind] in E. destruct (peer_loop _ _ _ _ _ _ order) as [[ms1 ps1]|]; [|discriminate]. cbn [obind] in E.
  specialize (IH _ _ eq_refl). destruct r as [[]|x]; apply Ret_inj in E; injection E as <- <-; try done; destruct (_ && _); try done; constructor; eauto.
Qed.
Lemma send_data_known p closed s id peers o : send_data closed s id peers = Ret o -> Forall (fun k => exists d, p_devices p !! k = Some d) peers -> Forall (out_known p) o.
Proof.
  revert o. induction peers as [|k peers IH]; intros o E F; cbn [send_data] in E; [apply Ret_inj in E; subst; constructor|]. apply Forall_cons in F as [Fk F].
  destruct (device_mac_address _); [|discriminate]. destruct (wire _); [|discriminate]. destruct (bool_decide _); [discriminate|].
  destruct (send_data closed s id peers) as [rest|]; [|discriminate]. cbn [obind] in E. apply Ret_inj in E. subst. constructor; [done|by apply IH].
Qed.
Lemma step_known e p o p' outs : step e p o = Ret (p', outs) -> o <> Connect -> Forall (out_known p) outs.
Proof.
  intros H N. destruct o; cbn [step] in H; try done.
  - apply Ret_inj in H. unfold disconnect in H. destruct (p_devices p !! h) as [d|] eqn:L; injection H as _ <-; [|constructor]. constructor; [done|by eapply known_effs].
  - unfold ranging in H. destruct (p_devices p !! h) as [d|] eqn:L; [|discriminate]. destruct (d_sessions d !! _) as [s|]; [|discriminate].
    destruct (anchor_measurements _ _ _ _) as [ms1|]; [|discriminate]. cbn [obind] in H. destruct (peer_loop _ _ _ _ _ _ _) as [[ms2 peers]|] eqn:Pl; [|discriminate]. cbn [obind] in H.
    destruct (send_data _ _ _ _) as [o1|] eqn:Sd; [|discriminate]. cbn [obind] in H. destruct (send_info_ntf _ _ _ _ _) as [[s' o2]|] eqn:Si; [|discriminate]. cbn [obind] in H.
    apply Ret_inj in H. injection H as _ <-. apply Forall_app. split; [eapply send_data_known; [exact Sd|by eapply peer_loop_known]|].
    unfold send_info_ntf in Si. destruct (is_session_info_ntf_enabled s); [|apply Ret_inj in Si; injection Si as _ <-; constructor].
    destruct (wire _); [|discriminate]. destruct (bool_decide _); [discriminate|]. destruct (_ =? _); [discriminate|]. apply Ret_inj in Si. injection Si as _ <-. constructor; [by exists d|constructor].
  - apply Ret_inj in H. unfold stop_controlee_ranging in H. injection H as _ <-.
    induction (env_order e (map_to_list (p_devices p)).*1) as [|k ks IH]; cbn [map concat]; [constructor|]. apply Forall_app. split; [|done].
    destruct (p_devices p !! k) as [d|] eqn:L; [by eapply known_effs|constructor].
  - unfold uci_packet in H. destruct (p_devices p !! h) as [d|] eqn:L; [|apply Ret_inj in H; injection H as _ <-; constructor].
    destruct (receive_packet d packet) as [[d' ef]|]; [|discriminate]. cbn [obind] in H. apply Ret_inj in H. injection H as _ <-. by eapply known_effs.
  - unfold create_anchor in H. destruct (get_category p m); [apply Ret_inj in H; injection H as _ <-; by repeat constructor|].
    destruct (p_anchors p !! m); [discriminate|]. apply Ret_inj in H. injection H as _ <-. by repeat constructor.
  - apply Ret_inj in H. unfold destroy_anchor in H. destruct (p_anchors p !! m); injection H as _ <-; by repeat constructor.
  - apply Ret_inj in H. injection H as _ <-. constructor.
Qed.
Lemma step_fresh cl e p o p' outs : pinv cl p -> step e p o = Ret (p', outs) -> o <> Connect -> forall h, p_counter p <= h -> messages h outs = [].
Proof.
  intros Pi St N h Ge. pose proof (step_known _ _ _ _ _ St N) as F. clear St. induction F as [|x outs Fx F IH]; [done|].
  change (messages_to h x ++ messages h outs = []). rewrite IH, app_nil_r. destruct x as [k ef| | |]; try done. destruct Fx as [d L].
  destruct (pi_device _ _ Pi _ _ L) as (_ & _ & _ & Lt). assert ((k =? h) = false) as Ek by (apply N.eqb_neq; lia). unfold messages_to. destruct ef; cbn; by rewrite ?Ek.
Qed.

(** ** In lockstep *)
Record qinv (h : N) (y : sys) : Prop := {
  qi_quiet : packets h (y_queue y) <> [] -> waiting h y = [] /\ scheduled h (y_todo y) = [] /\ length (packets h (y_queue y)) = 1%nat;
  qi_fresh : p_counter (y_pica y) <= h -> waiting h y = [] /\ messages h (y_todo y) = [] /\ packets h (y_queue y) = [] }.
Lemma packets_cons h o q : packets h (o :: q) = packet_of h o ++ packets h q.
Proof. done. Qed.
Lemma qinv_frame h y y' : qinv h y -> p_counter (y_pica y') = p_counter (y_pica y) -> y_todo y' = y_todo y -> y_delayed y' = y_delayed y ->
  packets h (y_queue y') = packets h (y_queue y) -> qinv h y'.
Proof. intros [Q1 Q2] E1 E2 E3 E4. unfold waiting in *. split; unfold waiting; rewrite ?E1, ?E2, ?E3, ?E4; done. Qed.
Lemma connect_outs e p p' outs : step e p Connect = Ret (p', outs) -> p_counter p' = p_counter p + 1
  /\ forall h, h <> p_counter p -> messages h outs = [].
Proof.
  intros St. cbn [step] in St. unfold add_device, device_init in St. rewrite device_set_state_eq in St. apply Ret_inj in St. injection St as <- <-. split; [done|].
  intros h Nh%not_eq_sym%N.eqb_neq. unfold messages, messages_to, sent_to, scheduled_to. cbn. by rewrite ?Nh.
Qed.
Lemma qinv_unhurried h e y : qinv h y -> in_turn h (LTake e) y -> unhurried h (LTake e) y.
Proof.
  intros [Q1 Q2] Tu o q p outs Q St. destruct (packet_of h o) as [|b ?] eqn:Po.
  - assert (o = Connect \/ o <> Connect) as [->|Nc] by (destruct o; by (left + right)).
    + destruct (connect_outs _ _ _ _ St) as [_ Oth]. destruct (N.eq_dec h (p_counter (y_pica y))) as [Eh|Nh]; [|left; by apply Oth].
      right. destruct Q2 as [? _]; [lia|done].
    + destruct (Tu _ _ _ _ Q St Nc Po) as [?|[? _]]; [by left|by right].
  - right. destruct Q1 as [? _]; [|done]. rewrite Q, packets_cons, Po. discriminate.
Qed.
Lemma waiting_app h y n : waiting h (y_set_delayed (y_delayed y ++ [n]) y) = waiting h y ++ (if n_host n =? h then [n_msg n] else []).
Proof. unfold waiting. cbn. by rewrite map_app, concat_app; cbn; rewrite app_nil_r. Qed.
Lemma qinv_step h y l y' : qinv h y -> cinv y -> pinv (fun _ => false) (y_pica y) -> lockstep h l y -> in_turn h l y -> moved y l y' -> qinv h y'.
Proof.
  intros Qi Ci Pi Lo Tu M. pose proof Qi as [Q1 Q2].
  assert (forall o q, packets h (q ++ [o]) = packets h q ++ packet_of h o) as Pq by (intros; by rewrite packets_app, packets_cons, app_nil_r).
  destruct M; try (eapply qinv_frame; [exact Qi|done..|]; cbn [y_queue y_set_queue y_set_timers y_set_stoppers y_set_conns]; rewrite ?Pq; apply app_nil_r || done).
  - (* take *) pose proof (step_devices _ _ _ _ _ _ Pi H1) as [Cn _]. rewrite H0, packets_cons in Q1, Q2.
    split; cbn [y_pica y_todo y_queue y_set_pica y_set_strict y_set_todo y_set_queue]; change (waiting h (y_set_pica _ _)) with (waiting h y).
    + intros Ne. destruct Q1 as (W & _ & Len); [by destruct (packet_of h o)|]. rewrite app_length in Len.
      assert (packet_of h o = []) as Po by (destruct (packets h q); [done|]; destruct (packet_of h o); [done|]; cbn in Len; lia).
      rewrite Po in Len. split_and!; [done| |done]. assert (o = Connect \/ o <> Connect) as [->|Nc] by (destruct o; by (left + right)).
      * destruct (connect_outs _ _ _ _ H1) as [_ Oth]. apply sent_nil, Oth. intros ->. destruct Q2 as (_ & _ & E); [lia|]. by destruct (packets (p_counter (y_pica y)) q).
      * destruct (Tu _ _ _ _ H0 H1 Nc Po) as [Mn|[_ [?|?]]]; [by apply sent_nil|done|done].
    + intros Ge. destruct Q2 as (W & _ & E); [lia|]. apply app_nil in E as [Po E]. split_and!; [done| |done].
      assert (o = Connect \/ o <> Connect) as [->|Nc] by (destruct o; by (left + right)).
      * destruct (connect_outs _ _ _ _ H1) as [Cc Oth]. apply Oth. lia.
      * pose proof (step_fresh _ _ _ _ _ _ Pi H1 Nc) as F. apply F. lia.
  - (* crash *) rewrite H0, packets_cons in Q1, Q2. split; cbn [y_pica y_todo y_queue y_set_crash y_set_queue]; change (waiting h (y_set_crash _ _)) with (waiting h y).
    + intros Ne. destruct Q1 as (? & ? & Len); [by destruct (packet_of h o)|]. split_and!; try done. rewrite app_length in Len. destruct (packets h q); [done|]. cbn in *. lia.
    + intros Ge. destruct (Q2 Ge) as (? & ? & E). apply app_nil in E as [_ ?]. done.
  - (* effect *) destruct (perform_fields o (y_set_todo todo y)) as (Ep & En & Eq & Et & Es).
    assert (waiting h y = [] -> scheduled_to h o = [] -> waiting h (perform o (y_set_todo todo y)) = []) as Wn.
    { intros W M1. destruct o as [k [m|d m|id iv|id|a id n]|k a|k a|r]; try done; cbn [perform].
      - destruct (_ && _); [done|]. unfold deliver. by destruct (host_closed _ _).
      - rewrite waiting_app. change (waiting h (y_set_todo todo y)) with (waiting h y). rewrite W. cbn in M1 |- *. by destruct (k =? h). }
    rewrite H in Q1, Q2. split; rewrite ?Ep, ?Eq, ?Et; cbn [y_pica y_queue y_todo y_set_todo].
    + intros Ne. destruct (Q1 Ne) as (W & Sc & Len). change (scheduled_to h o ++ scheduled h todo = []) in Sc. apply app_nil in Sc as [S1 S2]. split_and!; [by apply Wn|done|done].
    + intros Ge. destruct (Q2 Ge) as (W & Me & Pk). change (messages_to h o ++ messages h todo = []) in Me. apply app_nil in Me as [S1 S2]. unfold messages_to in S1.
      apply app_nil in S1 as [_ S1]. split_and!; [by apply Wn|done|done].
  - (* notify *) destruct (deliver_fields (n_host n) (n_msg n) (y_set_delayed (delete i (y_delayed y)) y)) as (Ep & En & Eq & Et & _ & Ed & _).
    assert (waiting h y = [] -> waiting h (deliver (n_host n) (n_msg n) (y_set_delayed (delete i (y_delayed y)) y)) = []) as Wn.
    { intros W. rewrite <- dw_snd, Ed. cbn [y_delayed y_set_delayed]. destruct (delete_split _ _ _ H) as [E1 E2]. apply dw_nil in W. rewrite E1, dw_app in W. apply app_nil in W as [W1 W].
      change (dw_of h n ++ dw h (drop (S i) (y_delayed y)) = []) in W. apply app_nil in W as [_ W3]. by rewrite E2, dw_app, W1, W3. }
    split; rewrite ?Ep, ?Eq, ?Et; cbn [y_pica y_queue y_todo y_set_delayed].
    + intros Ne. destruct (Q1 Ne) as (W & ? & ?). split_and!; [by apply Wn|done|done].
    + intros Ge. destruct (Q2 Ge) as (W & ? & ?). split_and!; [by apply Wn|done|done].
  - (* read *) pose proof (ci_known _ Ci _ _ H) as Lt. destruct (N.eqb_spec h0 h) as [->|Nh].
    + destruct (Lo eq_refl) as (Pk & Me & Wt). split; cbn [y_pica y_queue y_todo y_set_queue].
      * intros _. rewrite Pq, Pk. cbn. rewrite N.eqb_refl. done.
      * intros Ge. lia.
    + eapply qinv_frame; [exact Qi|done..|]. cbn [y_queue y_set_queue]. rewrite Pq. cbn. apply N.eqb_neq in Nh. rewrite Nh. apply app_nil_r.
Qed.
Lemma lockstep_unhurried h ls y : executed ls y -> along (lockstep h) ls sys_new -> along (in_turn h) ls sys_new -> along (unhurried h) ls sys_new.
Proof.
  intros Ex A1 A2. assert (qinv h y /\ along (unhurried h) ls sys_new) as [_ ?]; [|done]. revert ls y Ex A1 A2. refine (executed_ind _ _ _).
  - intros _ _. split; [|done]. by split.
  - intros ls y l y' Ex IH W Cr M S A1 A2. apply (along_snoc _ _ _ _ _ (proj2 Ex)) in A1 as [A1 Lo], A2 as [A2 Tu].
    destruct (IH A1 A2) as [Q A]. destruct (executed_sinv _ _ Ex) as (outs & I). pose proof (si_reach _ _ _ I) as Re.
    assert (pinv (fun _ => false) (y_pica y)) as Pi by (eapply reachable_pinv; by eexists _, _).
    split; [eapply qinv_step; try done; by eapply executed_cinv|]. apply (along_snoc _ _ _ _ _ (proj2 Ex)). split; [done|].
    destruct l; try done. by apply qinv_unhurried.
Qed.
