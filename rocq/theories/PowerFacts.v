(** Proofs about PowerSpec.v. *)
From Verif Require Import Base Uci MacAddress AppConfig Codec Session Device Pica.
From Verif Require Import BaseFacts CodecSpec CodecFacts ContextSpec HistorySpec InvFacts StepFacts CommandFacts GateFacts
  AppConfigFacts SessionSpec SessionFacts EvolveFacts DeviceSpec DeviceFacts ReadSpec ReadFacts PowerSpec.

Lemma filter_none (l : list (N * bytes)) : 1 ∉ l.*1 -> filter (fun q => q.1 = 1) l = [].
Proof.
  induction l as [|[i w] l IH]; [done|]. rewrite fmap_cons. intros [N1 N2]%not_elem_of_cons. rewrite filter_cons_False by (intros E; cbn in E, N1; congruence). by apply IH.
Qed.
Lemma last_mode l1 v l2 : 1 ∉ l2.*1 -> last (filter (fun q : N * bytes => q.1 = 1) (l1 ++ (1, v) :: l2)) = Some (1, v).
Proof. intros Ni. by rewrite filter_app, filter_cons_True, (filter_none l2 Ni), last_snoc by done. Qed.
Lemma last_split (l : list (N * bytes)) i v : last (filter (fun q => q.1 = 1) l) = Some (i, v) -> exists l1 l2, l = l1 ++ (1, v) :: l2 /\ 1 ∉ l2.*1.
Proof.
  induction l as [|[j w] l IH] using rev_ind; [done|]. rewrite filter_app, filter_cons, filter_nil. cbn [fst].
  destruct (decide (j = 1)) as [->|Nj].
  - rewrite last_snoc. intros [= <- <-]. exists l, []. split; [done|]. apply not_elem_of_nil.
  - rewrite app_nil_r. intros (l1 & l2 & -> & Ni)%IH. exists l1, (l2 ++ [(j, w)]). split; [by rewrite <- app_assoc|].
    rewrite fmap_app. intros [H|H]%elem_of_app; [done|]. apply elem_of_list_singleton in H. cbn in H. congruence.
Qed.
Definition low_at (p : pica) (h : N) : option bool := d_low_power <$> p_devices p !! h.
Inductive low_step (h : N) (x : op * list out) (p p' : pica) : Prop :=
  | LsKept : ~ restarted h x -> (forall v, ~ mode_set h v x) ->
      low_at p' h = low_at p h \/ low_at p' h = None \/ p_counter p = h /\ low_at p' h = Some true -> low_step h x p p'
  | LsReset : restarted h x -> low_at p' h = Some true -> low_step h x p p'
  | LsSet v : mode_set h v x -> low_at p' h = Some (low_power_value v) -> low_step h x p p'.
Lemma step_low e p o p' outs h : pinv (fun _ => false) p -> wf_op o -> step e p o = Ret (p', outs) -> low_step h (o, outs) p p'.
Proof.
  intros I W H. pose proof I as [D A U].
  assert (forall b : Prop, b -> (forall c packet, o = UciPacket h packet -> wf_cmd c -> encodes c packet -> forall m, sent h outs = [m] -> exists st, m = CoreDeviceStatusNtf st) ->
    ~ restarted h (o, outs) /\ (forall v, ~ mode_set h v (o, outs)) /\ b) as Q0.
  { intros b Hb N. split_and!; [| |exact Hb].
    - intros ((pk & E & Wc & Ec) & S). destruct (N _ _ E Wc Ec _ S) as [st Es]. done.
    - intros v (l1 & l2 & s & r & (pk & E & Wc & Ec) & _ & S). destruct (N _ _ E Wc Ec _ S) as [st Es]. done. }
  assert ((low_at p' h = low_at p h \/ low_at p' h = None \/ p_counter p = h /\ low_at p' h = Some true) ->
    (forall c packet, o = UciPacket h packet -> wf_cmd c -> encodes c packet -> forall m, sent h outs = [m] -> exists st, m = CoreDeviceStatusNtf st) -> low_step h (o, outs) p p') as Q.
  { intros Hb N. destruct (Q0 _ Hb N) as (? & ? & ?). by apply LsKept. }
  clear Q0. unfold low_at in *. destruct o; cbn [step] in H.
  - apply Ret_inj in H. unfold add_device, device_init in H. rewrite device_set_state_eq in H. injection H as <- <-. apply Q; [|done].
    cbn [p_devices]. destruct (N.eq_dec (p_counter p) h) as [<-|Hne]; [rewrite lookup_insert; auto|rewrite lookup_insert_ne by done; auto].
  - apply Ret_inj in H. unfold disconnect in H. apply Q; [|done]. destruct (N.eq_dec h0 h) as [->|Hne].
    + right; left. destruct (p_devices p !! h) eqn:L; injection H as <- _; cbn; [by rewrite lookup_delete|by rewrite L].
    + left. destruct (p_devices p !! h0) eqn:L; injection H as <- _; cbn; [by rewrite lookup_delete_ne by done|done].
  - apply ranging_inv in H as (d & s & ms1 & ms2 & peers & o1 & o2 & s' & L & Ls & _ & _ & _ & Si & -> & _).
    apply Q; [|done]. left. cbn. destruct (N.eq_dec h0 h) as [->|Hne]; [|by rewrite lookup_insert_ne by done]. by rewrite lookup_insert, L.
  - apply Ret_inj in H. unfold stop_controlee_ranging in H. injection H as <- <-. apply Q; [|done]. left. cbn. rewrite lookup_fmap.
    destruct (p_devices p !! h) as [d|] eqn:L; cbn; [|done]. f_equal.
    unfold stop_controlee. destruct (d_sessions d !! id) as [s|] eqn:Ls; [|done].
    destruct (negb _); [done|]. destruct (bool_decide (s_state s = _)); [|done].
    rewrite stop_ranging_task_eq, session_set_state_eq.
    match goal with |- context [if ?b then device_set_state ?x ?y else _] =>
      assert (d_low_power (if b then device_set_state x y else (y, [])).1 = d_low_power y) as G by (destruct b; [by rewrite device_set_state_eq|done]);
      destruct (if b then device_set_state x y else (y, [])) as [d1 e1] end.
    cbn in *. by rewrite G.
  - unfold uci_packet in H. destruct (N.eq_dec h0 h) as [->|Hne].
    2:{ apply Q; [|intros c pk Ep; congruence]. left.
        destruct (p_devices p !! h0) as [d|]; [|by injection H as <- _].
        destruct (receive_packet d packet) as [[d1 e1]|]; [|discriminate]. cbn [obind] in H. injection H as <- _. cbn. by rewrite lookup_insert_ne by done. }
    destruct (p_devices p !! h) as [d|] eqn:L.
    2:{ injection H as <- <-. rewrite L in *. apply Q; [by left|]. intros; discriminate. }
    destruct (receive_packet d packet) as [[d1 e1]|] eqn:R; [|discriminate]. cbn [obind] in H. injection H as <- <-.
    apply receive_received in R; [|done]. cbn in Q. rewrite lookup_insert in Q. destruct (D _ _ L) as (Id & _).
    assert (forall c, encodes c packet -> hd 0 packet / 32 = 1 /\ defined_group (hd 0 packet mod 16) = true) as Mt.
    { intros c (h1 & o1 & r1 & r2 & -> & Hm & Hg & _). cbn. split; [done|]. rewrite Hg. by destruct c. }
    destruct R as [Hh|Hh Hd|pp d' m b Hh Hd Hs Hw|h1 o1 rest -> Hc|Hh Hv Hr Hl|c d' e2 m b Wc Ec Hr Hc Hw|h1 b1 b2 rest -> Hh Hr Hv Hg].
    + apply Q; [by left|]. intros c pk [= <-] _ E. apply Mt in E as [E _]. lia.
    + apply Q; [by left|]. intros c pk [= <-] _ E. apply Mt in E as [E _]. lia.
    + apply Q; [|intros c pk [= <-] _ E; apply Mt in E as [E _]; lia]. left. cbn. f_equal.
      destruct pp as [handle dst seq data|]; cbn [device_data_message_snd] in Hs; [|by injection Hs as <- _].
      destruct (d_sessions d !! handle) as [s|] eqn:Ls; [|by injection Hs as <- _].
      destruct (session_data_message_snd _ _ _ _) as [[s' m']|] eqn:S; [|discriminate]. cbn [obind] in Hs. by injection Hs as <- _.
    + apply Q; [by left|]. intros c pk [= <-] _ E. apply Mt in E as [E E'].
      cbn in E, E'. destruct Hc as [[_ Hc]|Hc]; [|lia].
      assert (forall g, defined_group g = true -> valid_gid g = true) as G; [|rewrite G in Hc; done].
      intros g Hg. unfold defined_group in Hg. apply existsb_In in Hg.
      repeat (destruct Hg as [<-|Hg]; [reflexivity|]). destruct Hg.
    + apply Q; [by left|]. intros c pk [= <-] _ E m Hm.
      pose proof (sent_one h [] (CoreDeviceStatusNtf DsError) eq_refl) as E1. cbn [app] in E1. rewrite E1 in Hm. injection Hm as <-. by eexists.
    + assert (sent h (map (OEff h) (e2 ++ [Send m])) = [m]) as Sm.
      { apply sent_one. eapply handle_no_send; [|exact Wc|exact Hc]. by eapply dinv_weaken. }
      assert (forall c', asks h c' (UciPacket h packet) -> c' = c) as Un.
      { intros c' (pk & [= <-] & Wc' & Ec'). by eapply encodes_inj. }
      destruct (is_reset c) eqn:Rs.
      { destruct c; try discriminate Rs. cbn [handle_command] in Hc. rewrite core_reset_eq in Hc. injection Hc as <- _ <-. cbn in Wc. subst.
        apply LsReset; [|unfold low_at; cbn; by rewrite lookup_insert]. split; [|exact Sm]. by exists packet. }
      pose proof (handle_frame _ _ _ _ _ Rs Hc) as F.
      assert ((forall l, c = CmdSetConfig l -> False) -> low_step h (UciPacket h packet, map (OEff h) (e2 ++ [Send m])) p (p_set_device h d' p)) as K.
      { intros N. apply LsKept.
        - intros [Ha _]. apply Un in Ha as <-. discriminate Rs.
        - intros v (l1 & l2 & st & r & Ha & _). apply Un in Ha. by eapply N.
        - left. unfold low_at. cbn. rewrite lookup_insert, L. cbn. f_equal. apply (fr_low _ _ _ F). intros l E. by eapply N. }
      destruct c; try (apply K; intros ? E0; discriminate E0). clear K.
      cbn [handle_command] in Hc. unfold core_set_config in Hc. destruct (negb _); [discriminate|]. rewrite set_config_loop_spec in Hc.
      cbn [obind app] in Hc. apply Ret_inj in Hc. injection Hc as <- <- <-.
      destruct (last (filter (fun q => q.1 = 1) _)) as [[i v]|] eqn:La.
      * apply last_split in La as (l1 & l2 & -> & Ni). eapply (LsSet _ _ _ _ v); [|unfold low_at; cbn; by rewrite lookup_insert].
        exists l1, l2. eexists _, _. split; [by exists packet|]. split; [done|exact Sm].
      * apply LsKept.
        -- intros [Ha _]. apply Un in Ha. discriminate Ha.
        -- intros v (l1 & l2 & st & r & Ha & Ni & _). apply Un in Ha. injection Ha as <-. rewrite (last_mode _ _ _ Ni) in La. discriminate La.
        -- left. unfold low_at. cbn. by rewrite lookup_insert, L.
    + apply Q; [by left|]. intros c pk [= <-] _ E. apply Mt in E as [_ E]. cbn [hd] in E. congruence.
  - apply Q; [|done]. left. unfold create_anchor in H. destruct (get_category p m); [by injection H as <- <-|].
    destruct (p_anchors p !! m); [discriminate|]. by injection H as <- <-.
  - apply Q; [|done]. left. apply Ret_inj in H. unfold destroy_anchor in H. destruct (p_anchors p !! m); by injection H as <- <-.
  - apply Q; [|done]. left. apply Ret_inj in H. by injection H as <- <-.
Qed.
Lemma mode_now p tr h : (forall p' tr', executes p' tr' -> pinv (fun _ => false) p') -> executes p tr ->
  (p_counter p <= h -> mode h tr true) /\ forall b, low_at p h = Some b -> mode h tr b.
Proof.
  intros P X. induction X as [|p tr e o p' outs X [IH1 IH2] We Wo S]; [split; [constructor|done]|].
  pose proof (step_low _ _ _ _ _ h (P _ _ X) Wo S) as R. pose proof (step_counter _ _ _ _ _ S) as Ct.
  assert (p_counter p' <= h -> low_at p' h = None) as Ab.
  { intros Hc. unfold low_at. destruct (p_devices p' !! h) as [d|] eqn:L; [|done].
    apply (pi_device _ _ (P _ _ (ExStep _ _ _ _ _ _ X We Wo S))) in L as (_ & _ & _ & ?). lia. }
  destruct R as [Nr Ns Lo|Hr Lo|v Hs Lo].
  - split; [intros Hc; apply ModeKept; [apply IH1; lia|done..]|]. intros b Hb. apply ModeKept; [|done..].
    destruct Lo as [Lo|[Lo|[Hc Lo]]]; rewrite Lo in Hb; [by apply IH2|done|]. injection Hb as <-. apply IH1. lia.
  - split; [intros Hc; rewrite (Ab Hc) in Lo; done|]. intros b Hb. rewrite Lo in Hb. injection Hb as <-. by apply ModeReset.
  - split; [intros Hc; rewrite (Ab Hc) in Lo; done|]. intros b Hb. rewrite Lo in Hb. injection Hb as <-. by apply ModeSet.
Qed.
Lemma mode_set_fun h v v' x : wf_op x.1 -> mode_set h v x -> mode_set h v' x -> v = v'.
Proof.
  intros W (l1 & l2 & s & r & (pk & E & Wc & Ec) & Ni & _) (l1' & l2' & s' & r' & (pk' & E' & Wc' & Ec') & Ni' & _).
  rewrite E in E', W. injection E' as <-. cbn in W. pose proof (encodes_inj _ _ _ W Wc Wc' Ec Ec') as Eq. injection Eq as Eq.
  pose proof (last_mode l1 v l2 Ni) as La. rewrite Eq, (last_mode l1' v' l2' Ni') in La. by injection La.
Qed.
Lemma mode_fun p tr h : executes p tr -> forall b b', mode h tr b -> mode h tr b' -> b = b'.
Proof.
  intros X. induction X as [|p tr e o p' outs X IH We Wo S]; intros b b' H H'.
  { inversion H as [E|tr1 ? ? E|tr1 ? ? ? E|tr1 ? ? ? ? ? E]; try (by destruct tr1). inversion H' as [E'|tr2 ? ? E'|tr2 ? ? ? E'|tr2 ? ? ? ? ? E']; try (by destruct tr2). done. }
  assert (forall v, restarted h (o, outs) -> mode_set h v (o, outs) -> False) as Ex.
  { intros v [_ Hs] (? & ? & ? & ? & _ & _ & Hs'). rewrite Hs in Hs'. discriminate Hs'. }
  inversion H as [E|tr1 x1 R1 E|tr1 x1 v1 R1 E|tr1 x1 b1 M1 N1 N2 E]; [by destruct tr|..]; apply app_inj_tail in E as [-> ->];
  inversion H' as [E'|tr2 x2 R2 E'|tr2 x2 v2 R2 E'|tr2 x2 b2 M2 N3 N4 E']; try (by destruct tr); apply app_inj_tail in E' as [-> ->]; try done; try (by destruct (Ex _ ltac:(eassumption) ltac:(eassumption))).
  - by rewrite (mode_set_fun h v1 v2 (o, outs)).
  - by destruct (N4 v1).
  - by destruct (N2 v2).
  - by apply IH.
Qed.
