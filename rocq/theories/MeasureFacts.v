(** Proofs about MeasureSpec.v. *)
From Verif Require Import Base Uci MacAddress AppConfig Codec Session Device Pica.
From Verif Require Import BaseFacts AppConfigSpec AppConfigFacts CodecSpec CodecFacts ContextSpec HistorySpec InvFacts StepFacts CommandFacts
  SessionSpec SessionFacts RangingSpec RoundFacts MulticastSpec EvolveFacts PropsContext PropsSession PropsRanging ReadSpec ReadFacts ControleeSpec ControleeFacts MeasureSpec.

Lemma told_active_iff p tr h id : executes p tr -> told_active h id tr <-> state_at p h id = SsActive.
Proof.
  intros (l & R & _)%executes_reaches. pose proof (C23_history _ _ _ h id R) as F. unfold told_active.
  remember (status_ntfs h id (concat tr.*2)) as q eqn:Eq. clear Eq. remember (state_at p h id) as s eqn:Es. clear Es.
  inversion F as [s0|s0 q' s1 s2 r F' N T]; subst.
  - split; [|done]. intros (q' & r & E). by destruct q'.
  - split; [|intros ->; by exists q', r]. intros (q2 & r2 & E). by apply app_inj_tail in E as [_ [= -> _]].
Qed.
Lemma step_anchor e p o p' outs a k : step e p o = Ret (p', outs) ->
  p_anchors p' !! MShort a = Some k <-> (o = CreateAnchor (MShort a) /\ OReply (ReplyOk k) ∈ outs) \/ (p_anchors p !! MShort a = Some k /\ o <> DestroyAnchor (MShort a)).
Proof.
  intros H.
  assert (p_anchors p' = p_anchors p -> (forall m, o <> CreateAnchor m) -> (forall m, o <> DestroyAnchor m) ->
    p_anchors p' !! MShort a = Some k <-> (o = CreateAnchor (MShort a) /\ OReply (ReplyOk k) ∈ outs) \/ (p_anchors p !! MShort a = Some k /\ o <> DestroyAnchor (MShort a))) as Q.
  { intros -> Nc Nd. split; [intros ?; right; by split|]. intros [[-> _]|[? _]]; [by destruct (Nc (MShort a))|done]. }
  destruct o; cbn [step] in H.
  - apply Ret_inj in H. unfold add_device, device_init in H. rewrite device_set_state_eq in H. injection H as <- <-. by apply Q.
  - apply Ret_inj in H. unfold disconnect in H. apply Q; try done. destruct (p_devices p !! h); by injection H as <- _.
  - apply ranging_inv in H as (d & s & ms1 & ms2 & peers & o1 & o2 & s' & L & Ls & _ & _ & _ & Si & -> & _). by apply Q.
  - apply Ret_inj in H. unfold stop_controlee_ranging in H. injection H as <- <-. by apply Q.
  - unfold uci_packet in H. apply Q; try done. destruct (p_devices p !! h); [|by injection H as <- _].
    destruct (receive_packet _ _) as [[d1 e1]|]; [|discriminate]. cbn [obind] in H. by injection H as <- _.
  - unfold create_anchor in H. destruct (get_category p m) eqn:G.
    { injection H as <- <-. split; [intros ?; right; by split|]. intros [[_ Hr]|[? _]]; [|done]. by apply elem_of_list_singleton in Hr. }
    destruct (p_anchors p !! m) eqn:L; [discriminate|]. injection H as <- <-. cbn. destruct (decide (m = MShort a)) as [->|Ne].
    + rewrite lookup_insert. split.
      * intros [= <-]. left. split; [done|left].
      * intros [[_ Hr]|[? _]]; [|congruence]. apply elem_of_list_singleton in Hr. by injection Hr as ->.
    + rewrite lookup_insert_ne by done. split; [intros ?; right; by split|]. intros [[[= ->] _]|[? _]]; done.
  - apply Ret_inj in H. unfold destroy_anchor in H. destruct (p_anchors p !! m) eqn:L; injection H as <- <-.
    + cbn. destruct (decide (m = MShort a)) as [->|Ne].
      * rewrite lookup_delete. split; [done|]. by intros [[? _]|[_ ?]].
      * rewrite lookup_delete_ne by done. split; [intros ?; right; split; [done|congruence]|]. by intros [[? _]|[? _]].
    + split; [intros Hk; right; split; [done|congruence]|]. by intros [[? _]|[? _]].
  - apply Ret_inj in H. injection H as <- <-. by apply Q.
Qed.
Lemma anchored_iff p tr a k : executes p tr -> anchored a tr k <-> p_anchors p !! MShort a = Some k.
Proof.
  intros X. induction X as [|p tr e o p' outs X IH We Wo S].
  - split; [intros H; inversion H; by destruct tr|done].
  - rewrite (step_anchor _ _ _ _ _ _ _ S), <- IH. split.
    + intros H. inversion H as [tr0 x0 k0 ? ? Et|tr0 x0 k0 ? ? Et]; apply app_inj_tail in Et as [-> ->]; auto.
    + intros [[? ?]|[? ?]]; [by apply AnchoredNew|by apply AnchoredStill].
Qed.
Lemma vec_inj m m' : wf_mac m -> wf_mac m' -> mac_to_vec m = mac_to_vec m' -> m = m'.
Proof.
  destruct m as [b|b], m' as [b'|b']; cbn; intros W W' E; subst; try done.
  - destruct W as [W _], W' as [W' _]. rewrite W in W'. discriminate.
  - destruct W as [W _], W' as [W' _]. rewrite W in W'. discriminate.
Qed.
Lemma holds_iff p tr h id i v : executes p tr -> known_id i -> ~ of_list i -> holds h id i tr v <-> exists k, cfg_at p h id = Some k /\ app_config_get k i = Some v.
Proof.
  intros X K N. unfold cfg_at. split.
  - intros H. apply (holds_sound p tr) in H; [|exact executes_pinv|done..]. unfold rd in H. destruct (session_at p h id) as [s|]; [|done]. exists (s_cfg s). by split.
  - intros (k & Hk & Hg). apply (holds_complete p tr); [exact executes_pinv|done..|]. unfold rd. destruct (session_at p h id) as [s|]; [|done]. cbn in *. injection Hk as <-. done.
Qed.
Lemma session_cfg_ok p tr h id s : executes p tr -> session_at p h id = Some s -> cfg_ok (s_cfg s).
Proof.
  intros X Hs. pose proof (executes_pinv _ _ X) as [D _ _]. unfold session_at in Hs. destruct (p_devices p !! h) as [d|] eqn:L; [|done].
  destruct (D _ _ L) as (I & _). cbn in Hs. apply (so_cfg _ _ (di_session _ _ I _ _ Hs)).
Qed.
Lemma peer_iff p tr h id s k a : executes p tr -> session_at p h id = Some s ->
  peer h id tr k a <-> k <> h /\ exists ps m, session_at p k id = Some ps /\ s_state ps = SsActive /\ compatible s ps /\ device_mac_address (s_cfg ps) = Some m /\ a = mac_to_vec m.
Proof.
  intros X Hs. unfold peer. rewrite (told_active_iff p tr k id X).
  assert (forall h i v, known_id i -> ~ of_list i -> holds h id i tr v <-> exists k, cfg_at p h id = Some k /\ app_config_get k i = Some v) as Ho by (intros; by apply holds_iff).
  assert (~ of_list T_DEVICE_ROLE) as N1 by (by intros [?|?]). assert (~ of_list T_DEVICE_TYPE) as N2 by (by intros [?|?]). assert (~ of_list T_DEVICE_MAC_ADDRESS) as N3 by (by intros [?|?]).
  assert (forall h0, cfg_at p h0 id = s_cfg <$> session_at p h0 id) as Ec by done.
  pose proof (session_cfg_ok _ _ _ _ _ X Hs) as Ok.
  assert (reachable p) as Re by (apply executes_reaches in X as (l & R & _); by eexists _, _).
  split.
  - intros (Nk & St & Hr & Ht & own & l & l' & Ho1 & Ho2 & Hl & Hl' & Ha & Hown). split; [done|].
    apply Ho in Ho1 as (c & Hc & Hg), Ho2 as (c' & Hc' & Hg'); [|done..]. rewrite Ec, Hs in Hc. injection Hc as <-. rewrite Ec in Hc'.
    destruct (session_at p k id) as [ps|] eqn:Ps; [|done]. injection Hc' as <-. cbn in Hg, Hg'.
    destruct (device_mac_address (s_cfg s)) as [m|] eqn:Em; [|done]. destruct (device_mac_address (s_cfg ps)) as [mp|] eqn:Emp; [|done]. injection Hg as <-. injection Hg' as <-.
    pose proof (session_cfg_ok _ _ _ _ _ X Ps) as Ok'.
    exists ps, mp. split; [done|]. split; [unfold state_at in St; by rewrite Ps in St|]. split; [|done]. unfold compatible.
    assert (forall i, known_id i -> ~ of_list i -> differ h k id i tr -> app_config_get (s_cfg s) i <> app_config_get (s_cfg ps) i) as Df.
    { intros i Ki Ni [(r & Hv) Hn] E.
      assert (app_config_get (s_cfg s) i = Some r) as Er.
      { rewrite !Ho in Hv by done. destruct Hv as [(c & Hc & Hg)|(c & Hc & Hg)]; rewrite Ec in Hc.
        - rewrite Hs in Hc. by injection Hc as <-.
        - rewrite Ps in Hc. injection Hc as <-. congruence. }
      apply (Hn r). rewrite !Ho by done. split; [exists (s_cfg s)|exists (s_cfg ps)].
      - by rewrite Ec, Hs.
      - rewrite Ec, Ps. split; [done|congruence]. }
    split; [by apply Df|]. split; [by apply Df|].
    exists m, mp. apply (listed_iff p tr h id executes_pinv X) in Hl as (c & Hc & ->). rewrite Ec, Hs in Hc. injection Hc as <-.
    apply (listed_iff p tr k id executes_pinv X) in Hl' as (c & Hc & ->). rewrite Ec, Ps in Hc. injection Hc as <-.
    split; [done|]. split; [done|].
    unfold dsts in *. apply elem_of_list_In, in_map_iff in Hown as (y & Ey & Hy). apply elem_of_list_In, in_map_iff in Ha as (y' & Ey' & Hy').
    rewrite <- elem_of_list_In in *. pose proof (co_dst _ Ok) as D1. pose proof (co_dst _ Ok') as D2. rewrite Forall_forall in D1, D2.
    apply vec_inj in Ey; [subst y|by apply D2|by apply (co_mac _ Ok)]. apply vec_inj in Ey'; [subst y'|by apply D1|by apply (co_mac _ Ok')]. done.
  - intros (Nk & ps & mp & Ps & Sp & (Hr & Ht & m & mp' & Em & Emp & Hm & Hmp) & Emp' & ->). rewrite Emp in Emp'. injection Emp' as ->. split; [done|].
    split; [unfold state_at; by rewrite Ps|].
    assert (forall i, known_id i -> ~ of_list i -> app_config_get (s_cfg s) i <> app_config_get (s_cfg ps) i -> differ h k id i tr) as Df.
    { intros i Ki Ni Hn. split.
      - destruct (app_config_get (s_cfg s) i) as [r|] eqn:Er.
        + exists r. left. apply Ho; try done. exists (s_cfg s). by rewrite Ec, Hs.
        + destruct (app_config_get (s_cfg ps) i) as [r|] eqn:Er'; [|done]. exists r. right. apply Ho; try done. exists (s_cfg ps). by rewrite Ec, Ps.
      - intros r. rewrite !Ho by done. intros [(c & Hc & Hg) (c' & Hc' & Hg')]. rewrite Ec, Hs in Hc. rewrite Ec, Ps in Hc'. injection Hc as <-. injection Hc' as <-. congruence. }
    split; [by apply Df|]. split; [by apply Df|]. exists (mac_to_vec m), (dsts (s_cfg s)), (dsts (s_cfg ps)).
    split; [apply Ho; try done; exists (s_cfg s); rewrite Ec, Hs; split; [done|]; cbn; by rewrite Em|].
    split; [apply Ho; try done; exists (s_cfg ps); rewrite Ec, Ps; split; [done|]; cbn; by rewrite Emp|].
    split; [apply (listed_iff p tr h id executes_pinv X); exists (s_cfg s); by rewrite Ec, Hs|].
    split; [apply (listed_iff p tr k id executes_pinv X); exists (s_cfg ps); by rewrite Ec, Ps|].
    unfold dsts. split; apply elem_of_list_In, in_map, elem_of_list_In; done.
Qed.
Lemma found_anchors e p tr h dst xs : executes p tr -> Forall wf_mac dst ->
  Forall2 (fun t x => measures t.1.1 t.1.2 t.2 x) (anchors_measured e p h dst) xs ->
  found (fun a x => exists k, anchored a tr k /\ estimated e h k a x) (fun a => exists k, anchored a tr k /\ seen e h k) (map mac_to_vec dst) xs.
Proof.
  intros X W. revert xs. induction W as [|m dst Wm W IH]; intros xs F.
  { inversion F; subst. constructor. }
  unfold anchors_measured in F. cbn [omap list_omap] in F. cbn [map].
  destruct (a ← p_anchors p !! m; local ← env_estimate e h a; remote ← env_estimate e a h; Some (m, local, remote)) as [t|] eqn:E.
  - inversion F as [|? x ? xs' Hx F']; subst. destruct (p_anchors p !! m) as [k|] eqn:L; [|discriminate E]. cbn in E.
    destruct (env_estimate e h k) as [lo|] eqn:E1; [|discriminate E]. cbn in E. destruct (env_estimate e k h) as [re|] eqn:E2; [|discriminate E]. cbn in E. injection E as <-.
    cbn in Hx. pose proof Hx as (a & -> & _). cbn [mac_to_vec]. rewrite <- (anchored_iff p tr a k X) in L. constructor.
    + exists k. split; [done|]. unfold seen. by rewrite E1, E2.
    + exists k. split; [done|]. by exists lo, re.
    + by apply IH.
  - apply FoundNone; [|by apply IH]. intros (k & Ha & S1 & S2). apply (anchored_iff p tr _ _ X) in Ha. destruct (pi_anchor _ _ (executes_pinv _ _ X) _ _ Ha) as ([W1 _] & _). cbn in W1.
    destruct m as [a|a]; cbn [mac_to_vec] in *.
    + rewrite Ha in E. cbn in E. destruct (env_estimate e h k) as [lo|]; [|done]. cbn in E. by destruct (env_estimate e k h).
    + destruct Wm as [Wm _]. rewrite Wm in W1. discriminate.
Qed.
