(** Facts about the sessions. *)
From Verif Require Import Base Uci MacAddress AppConfig Codec Session Device Pica.
From Verif Require Import BaseFacts AppConfigSpec AppConfigFacts CodecSpec CodecFacts ContextSpec InvFacts StepFacts CommandFacts SessionSpec.

Lemma state_ostate p h id : state_at p h id = ostate (p_devices p !! h) id.
Proof. unfold state_at, session_at, ostate, dstate. destruct (p_devices p !! h); done. Qed.

Lemma clean_bad h outs : clean h outs <-> bad_out h outs = false.
Proof.
  unfold clean, bad_out. induction (messages h outs) as [|m l IH]; cbn [existsb In]; [done|].
  rewrite orb_false_iff, <- IH. split.
  - intros C. split; [|intros; apply C; auto]. destruct (C m (or_introl eq_refl)) as [C1 C2].
    destruct m; try done; cbn [bad_msg].
    + apply N.eqb_neq. intros ->. by apply C1.
    + apply N.eqb_neq. intros ->. by eapply C2.
  - intros [B C] m' [<-|I]; [|by apply C]. destruct m; try done; cbn [bad_msg] in B; split; try done; intros.
    + intros E. injection E as ->. done.
    + intros E. injection E as -> -> ->. done.
Qed.

Lemma sets_all_spec c l inv c' inv' : set_tlvs c l inv = Ret (c', inv') ->
  exists r, inv' = inv ++ r /\ sets_all c l c' r.
Proof.
  revert c inv. induction l as [|[id v] l IH]; intros c inv H; cbn [set_tlvs] in H.
  - injection H as <- <-. exists []. rewrite app_nil_r. split; [done|constructor].
  - destruct (app_config_set c id v) as [[c1 []]|] eqn:E; [| |discriminate]; cbn [obind] in H.
    + apply IH in H as (r & -> & H). exists r. split; [done|]. by econstructor.
    + pose proof (set_refused _ _ _ _ E) as ->. apply IH in H as (r & -> & H).
      exists ((id, 4) :: r). rewrite <- app_assoc. split; [done|]. by constructor.
Qed.
Lemma sets_all_fun c l c1 r1 c2 r2 : sets_all c l c1 r1 -> sets_all c l c2 r2 -> c1 = c2 /\ r1 = r2.
Proof.
  intros H. revert c2 r2. induction H as [|c id v c1 l c2 r E H IH|c id v l c2 r E H IH]; intros c2' r2' H2.
  - by inversion H2.
  - inversion H2 as [|? ? ? c1' ? ? ? E' H'|? ? ? ? ? ? E' H']; subst; rewrite E in E'; [|discriminate].
    injection E' as <-. auto.
  - inversion H2 as [|? ? ? c1' ? ? ? E' H'|? ? ? ? ? ? E' H']; subst; rewrite E in E'; [discriminate|].
    destruct (IH _ _ H') as [-> ->]. done.
Qed.
Lemma configured_spec c : configured c <-> missing_mandatory c = false.
Proof.
  unfold configured, missing_mandatory, mandatory. cbn [In].
  rewrite !orb_false_iff, !negb_false_iff. split.
  - intros H.
    pose proof (H T_DEVICE_ROLE ltac:(tauto)) as H1. pose proof (H T_MULTI_NODE_MODE ltac:(tauto)) as H2.
    pose proof (H T_RANGING_ROUND_USAGE ltac:(tauto)) as H3. pose proof (H T_DEVICE_MAC_ADDRESS ltac:(tauto)) as H4.
    pose proof (H T_SCHEDULE_MODE ltac:(tauto)) as H5. cbn in H1, H2, H3, H4, H5.
    destruct (device_role c), (multi_node_mode c), (ranging_round_usage c), (device_mac_address c), (schedule_mode c); done.
  - intros ((((H1 & H2) & H3) & H4) & H5) id I.
    repeat destruct I as [<-|I]; try done; cbn; [destruct (device_role c)|destruct (multi_node_mode c)|destruct (ranging_round_usage c)
      |destruct (device_mac_address c)|destruct (schedule_mode c)]; done.
Qed.
Lemma sets_all_other c l c' r id : sets_all c l c' r -> ~ In id l.*1 -> app_config_get c' id = app_config_get c id.
Proof.
  induction 1 as [|c id' v c1 l c2 r E H IH|c id' v l c2 r E H IH]; [done|..]; cbn [fmap list_fmap In]; intros N.
  - rewrite IH by tauto. eapply set_other; [exact E|]. tauto.
  - apply IH. tauto.
Qed.
Lemma sets_all_last c l1 id v l2 c' : sets_all c (l1 ++ (id, v) :: l2) c' [] -> wf_bytes v -> ~ In id l2.*1 ->
  app_config_get c' id = Some (readback id v).
Proof.
  revert c. induction l1 as [|[i w] l1 IH]; intros c H W N; inversion H as [|? ? ? c1 ? ? ? E' H'|]; subst.
  - rewrite (sets_all_other c1 l2 c' [] id) by done. by eapply set_readback.
  - by eapply IH.
Qed.

Lemma actives_zero m : actives m = 0%nat <-> forall id s, m !! id = Some s -> s_state s <> SsActive.
Proof.
  split.
  - intros A id s L S. pose proof (actives_pos _ _ _ L S). lia.
  - intros H. unfold actives. apply map_size_empty_iff. apply map_eq. intros id. rewrite lookup_empty.
    apply map_filter_lookup_None. destruct (m !! id) as [s|] eqn:L; [|by left]. right. intros s' E. injection E as <-.
    unfold is_active. cbn. by eapply H.
Qed.
Lemma some_active m : (exists id s, m !! id = Some s /\ s_state s = SsActive) <-> actives m <> 0%nat.
Proof.
  split.
  - intros (id & s & L & S). pose proof (actives_pos _ _ _ L S). lia.
  - intros A. unfold actives in A. destruct (map_choose (filter is_active m)) as (id & s & L).
    { intros E. rewrite E, map_size_empty in A. done. }
    apply map_filter_lookup_Some in L as [L S]. by exists id, s.
Qed.
Lemma state_active p h id : state_at p h id = SsActive <-> exists d s, p_devices p !! h = Some d /\ d_sessions d !! id = Some s /\ s_state s = SsActive.
Proof.
  unfold state_at, session_at. destruct (p_devices p !! h) as [d|]; cbn.
  - destruct (d_sessions d !! id) as [s|] eqn:L.
    + split; [intros S; by exists d, s|]. intros (d' & s' & E & L' & S). injection E as <-. rewrite L in L'. by injection L' as ->.
    + split; [done|]. intros (d' & s' & E & L' & S). injection E as <-. congruence.
  - split; [done|]. intros (d' & s' & E & _). done.
Qed.
Lemma reaches_dinv l p outs h d : reaches l p outs -> p_devices p !! h = Some d -> dinv (negb (bad_out h outs)) d.
Proof. intros R L. apply reaches_pinv in R. by destruct (pi_device _ _ R _ _ L). Qed.
