(** Which ranging rounds, and more generally which commands, stop the simulator: proofs. *)
From Verif Require Import Base Uci MacAddress AppConfig Codec Session Device Pica BaseFacts
  CodecSpec ContextSpec InvFacts StepFacts RangingSpec RangingFacts CrashSpec CrashFacts.

Lemma extended_measured a l r x : ~ measures (MExtended a) l r x.
Proof. by intros (b & E & _). Qed.
Lemma make_crash m l r : crashed (make_measurement m l r) = true -> exists a, m = MExtended a.
Proof. destruct m as [a|a]; [done|by exists a]. Qed.

Lemma anchors_crash e p h dst : crashed (anchor_measurements (env_estimate e) (p_anchors p) h dst) = true ->
  exists a l r, In (MExtended a, l, r) (anchors_measured e p h dst).
Proof.
  induction dst as [|m dst IH]; cbn [anchor_measurements]; [done|]. unfold anchors_measured. cbn [omap list_omap].
  fold (anchors_measured e p h dst).
  destruct (p_anchors p !! m) as [b|]; cbn [mbind option_bind]; [|done].
  destruct (env_estimate e h b) as [l|]; cbn [mbind option_bind]; [|done].
  destruct (env_estimate e b h) as [r|]; cbn [mbind option_bind]; [|done].
  destruct (make_measurement m l r) as [x|] eqn:M.
  - cbn [obind]. destruct (anchor_measurements _ _ _ _) as [k|]; [done|]. intros _. destruct (IH eq_refl) as (a & l' & r' & I).
    exists a, l', r'. by right.
  - intros _. destruct (make_crash m l r) as [a ->]; [by rewrite M|]. exists a, l, r. by left.
Qed.

(** The address of an active session is set; so is that of a session with peers. *)
Lemma active_mac id s : session_ok id s -> s_state s = SsActive -> exists m, device_mac_address (s_cfg s) = Some m.
Proof.
  intros O A. pose proof (so_mandatory _ _ O (or_intror A)) as M. unfold missing_mandatory in M.
  destruct (device_mac_address (s_cfg s)) as [m|]; [by exists m|]. cbn in M. by rewrite orb_true_r in M.
Qed.
Lemma compatible_total id s ps : session_ok id s -> session_ok id ps -> s_state ps = SsActive ->
  exists b, is_compatible_for_ranging (s_cfg ps) (s_cfg s) = Ret b.
Proof.
  intros O Op A. unfold is_compatible_for_ranging. destruct (bool_decide _); [by eexists|]. destruct (bool_decide _); [by eexists|].
  destruct (active_mac _ _ Op A) as [m ->]. case_bool_decide as I; cbn [negb]; [|by eexists].
  destruct (device_mac_address (s_cfg s)) as [m'|] eqn:E; [by eexists|]. rewrite (so_unset _ _ O E) in I. by apply elem_of_nil in I.
Qed.

Lemma peer_crash cl e p h d id s k peer : pinv cl p -> p_devices p !! h = Some d -> d_sessions d !! id = Some s ->
  p_devices p !! k = Some peer -> k <> h -> crashed (peer_measurement (env_estimate e) d s id peer) = true ->
  exists a l r, measured e p h id s k (MExtended a, l, r).
Proof.
  intros I L Ls Lk Ne H. destruct (pi_device _ _ I _ _ L) as (Id & Hh & _). destruct (pi_device _ _ I _ _ Lk) as (Ik & Hk & _).
  unfold peer_measurement, can_start_ranging in H. rewrite Hh, Hk in H.
  destruct (d_sessions peer !! id) as [ps|] eqn:Lp; [|done].
  case_bool_decide as A; [|done].
  destruct (compatible_total id s ps (di_session _ _ Id _ _ Ls) (di_session _ _ Ik _ _ Lp) A) as [b C].
  rewrite C in H. cbn [obind] in H. pose proof (compatible_spec _ _ _ s ps C eq_refl eq_refl) as Cb. destruct b; [|done].
  destruct (active_mac _ _ (di_session _ _ Ik _ _ Lp) A) as [m Em]. rewrite Em in H.
  destruct (env_estimate e h k) as [l|] eqn:E1; [|done]. destruct (env_estimate e k h) as [r|] eqn:E2; [|done].
  destruct (make_measurement m l r) as [x|] eqn:M; [done|]. destruct (make_crash m l r) as [a ->]; [by rewrite M|].
  exists a, l, r. split; [done|]. exists ps. unfold session_at. rewrite Lk. split_and!; try done. by apply Cb.
Qed.
Lemma peers_crash cl e p h d id s order : pinv cl p -> p_devices p !! h = Some d -> d_sessions d !! id = Some s ->
  crashed (peer_loop (env_estimate e) (p_devices p) h d s id order) = true ->
  exists k a l r, measured e p h id s k (MExtended a, l, r).
Proof.
  intros I L Ls. induction order as [|k order IH]; cbn [peer_loop]; [done|]. intros H.
  destruct (p_devices p !! k) as [peer|] eqn:Lk; [|by apply IH]. destruct (pi_device _ _ I _ _ Lk) as (_ & Hk & _). rewrite Hk in H.
  destruct (N.eqb_spec k h) as [->|Ne]; [by apply IH|].
  destruct (peer_measurement _ _ _ _ _) as [r|] eqn:P.
  - cbn [obind] in H. destruct (peer_loop _ _ _ _ _ _ _) as [[ms ps]|]; [|by apply IH]. by destruct r as [[]|].
  - exists k. eapply peer_crash; eauto. by rewrite P.
Qed.

Lemma notifies_spec s : notifies s <-> is_session_info_ntf_enabled s = true.
Proof.
  unfold notifies, is_session_info_ntf_enabled. cbn. rewrite negb_true_iff, N.eqb_neq.
  split; [intros N E; apply N; by rewrite E|intros N E; apply N; by injection E].
Qed.
Lemma enc_measurements_total (l : list measurement) : exists v, mapM (fun m => Some (enc_measurement m)) l = Some v.
Proof. induction l as [|x l [v E]]; [by eexists|]. cbn [mapM mbind option_bind]. rewrite E. by eexists. Qed.
Lemma data_wire id st m n data : wire (DataMessageRcv id st m n data) = None <-> 65535 < N.of_nat (length data).
Proof. unfold wire. cbn [msg_payload]. unfold enc_vec16. destruct (N.leb_spec (N.of_nat (length data)) 65535); cbn; split; try done; lia. Qed.
Lemma info_wire seq id ms : wire (SessionInfoNtf seq id 0 0 ms []) = None <-> (255 < length ms)%nat.
Proof.
  unfold wire. cbn [msg_payload]. unfold enc_counted. destruct (Nat.leb_spec (length ms) 255).
  - destruct (enc_measurements_total ms) as [v ->]. cbn. split; [done|lia].
  - split; [done|]. intros _. reflexivity.
Qed.

Lemma order_ok e p : NoDup (env_order e (map_to_list (p_devices p)).*1)
  /\ forall k, k ∈ env_order e (map_to_list (p_devices p)).*1 <-> connected p k.
Proof.
  split; [rewrite (env_order_perm e); apply NoDup_fst_map_to_list|]. intros k. rewrite (env_order_perm e). split.
  - intros Hk. apply elem_of_list_fmap in Hk as ([k' d'] & -> & Hk). exists d'. by apply elem_of_map_to_list.
  - intros [d' Hk]. apply elem_of_list_fmap. exists (k, d'). split; [done|]. by apply elem_of_map_to_list.
Qed.

Lemma round_crash cl e p h id : pinv cl p -> crashed (step e p (Ranging h id)) = true <-> fatal_round e p h id.
Proof.
  intros I. split.
  - cbn [step]. unfold ranging. intros H. destruct (p_devices p !! h) as [d|] eqn:L; [|apply RoundSession; unfold session_at; by rewrite L].
    assert (session_at p h id = d_sessions d !! id) as Es by (unfold session_at; by rewrite L).
    destruct (d_sessions d !! id) as [s|] eqn:Ls; [|by apply RoundSession].
    destruct (pi_device _ _ I _ _ L) as (Id & Hh & _). rewrite Hh in H. pose proof (di_session _ _ Id _ _ Ls) as O.
    destruct (order_ok e p) as [Nd Or].
    destruct (anchor_measurements _ _ _ _) as [ms1|] eqn:Am.
    2:{ destruct (anchors_crash e p h (dst_mac_address (s_cfg s))) as (a & l & r & Ia); [by rewrite Am|]. by eapply RoundAnchor. }
    cbn [obind] in H. destruct (peer_loop _ _ _ _ _ _ _) as [[ms2 peers]|] eqn:Pl.
    2:{ destruct (peers_crash cl e p h d id s (env_order e (map_to_list (p_devices p)).*1) I L Ls) as (k & a & l & r & M); [by rewrite Pl|]. by eapply RoundPeer. }
    cbn [obind] in H. apply (peer_loop_spec _ _ _ _ _ _ _ _ _ _ I L Ls) in Pl as (ks & N1 & N2 & K1 & K2 & Ck & Cp); [|done|intros k; apply Or].
    destruct (send_data _ _ _ _) as [o1|] eqn:Sd.
    2:{ clear H. assert (forall k, k ∈ peers -> receives e p h id s k) as Rp by (intros k Hk; by apply Cp in Hk as [_ ?]). clear Cp N2.
        induction peers as [|k peers IH]; cbn [send_data] in Sd; [discriminate|].
        assert (receives e p h id s k) as Rk by (apply Rp; left).
        destruct (active_mac _ _ O) as [m Em]; [by destruct Rk as (_ & (? & _) & _)|]. rewrite Em in Sd.
        destruct (wire _) as [b|] eqn:W; [|apply data_wire in W; eapply RoundData; eauto].
        case_bool_decide; [by eapply RoundData; eauto|].
        destruct (send_data _ _ _ peers); [discriminate|]. apply IH; [done|]. intros k' Hk'. apply Rp. by right. }
    cbn [obind] in H. destruct (send_info_ntf _ _ _ _ _) as [[s' o2]|] eqn:Si; [discriminate|]. clear H.
    unfold send_info_ntf in Si. destruct (is_session_info_ntf_enabled s) eqn:En; [|discriminate]. apply notifies_spec in En.
    destruct (wire _) as [b|] eqn:W.
    + case_bool_decide; [eapply RoundHost; eauto|]. destruct (N.eqb_spec (s_seq s) 4294967295); [eapply RoundHost; eauto|discriminate].
    + apply info_wire in W. apply anchor_spec in Am. apply Forall2_length in Am. pose proof (Forall2_length _ _ _ K2) as L2.
      rewrite app_length in W. eapply (RoundMany _ _ _ _ s ks); eauto; [|lia].
      intros k Hk. apply elem_of_list_lookup in Hk as [i Hi]. destruct (Forall2_lookup_l _ _ _ _ _ K2 Hi) as (x & _ & t & M & _). by exists t.
  - intros F. destruct (step e p (Ranging h id)) as [[p' outs]|] eqn:S; [exfalso|done]. pose proof S as S0.
    apply (round_spec _ _ _ _ _ _ _ I) in S0 as (s & s' & ms & ks & peers & Es & _ & Nk & Np & Fk & Ck & Cp & m & ms1 & Em & Fa & _).
    cbn [step] in S. apply ranging_inv in S as (d & s0 & ms1' & ms2' & peers' & o1 & o2 & s'' & L & Ls & Am & Pl & Sd & Si & _ & _).
    assert (s0 = s) as -> by (unfold session_at in Es; rewrite L in Es; cbn in Es; congruence).
    destruct (pi_device _ _ I _ _ L) as (_ & Hh & _). rewrite Hh in Am. apply anchor_spec in Am.
    destruct (order_ok e p) as [Nd Or].
    apply (peer_loop_spec _ _ _ _ _ _ _ _ _ _ I L Ls) in Pl as (ks' & N1 & N2 & K1 & K2 & Ck' & Cp'); [|done|intros k; apply Or].
    assert (forall k t, measured e p h id s k t -> connected p k) as Mc.
    { intros k t (_ & ps & Sk & _). unfold session_at in Sk. destruct (p_devices p !! k) as [dk|] eqn:Lk; [by exists dk|discriminate]. }
    assert (forall k, receives e p h id s k -> k ∈ peers') as Rp.
    { intros k R. apply Cp'. split; [|done]. apply Or. destruct R as (_ & _ & (ps & Sk & _) & _). unfold session_at in Sk.
      destruct (p_devices p !! k) as [dk|] eqn:Lk; [by exists dk|discriminate]. }
    apply send_data_outs in Sd as (m' & Em' & _ & Fc & Wd).
    destruct F as [N|t a l r E Ia|t k a l r E M|t k E R Hd|t E Nt Hh'|t ks2 E Nt N0 Hm Hl]; [congruence|..]; rewrite Es in E; injection E as <-.
    + apply elem_of_list_In, elem_of_list_lookup in Ia as [i Hi]. destruct (Forall2_lookup_l _ _ _ _ _ Fa Hi) as (x & _ & Mx). by apply extended_measured in Mx.
    + pose proof (Ck _ _ M) as Hk. apply elem_of_list_lookup in Hk as [i Hi]. destruct (Forall2_lookup_l _ _ _ _ _ Fk Hi) as (x & _ & t & M' & Mx).
      destruct M as (_ & ps & Sk & _ & _ & Ep & _), M' as (_ & ps' & Sk' & _ & _ & Ep' & _). rewrite Sk in Sk'. injection Sk' as <-.
      cbn [fst snd] in Ep. destruct t as [[mt lt] rt]. cbn [fst snd] in *. rewrite Ep in Ep'. injection Ep' as <-. by apply extended_measured in Mx.
    + specialize (Rp _ R). destruct Hd as [Hd|Hd].
      * destruct Wd as [b Wd]; [by intros ->; apply elem_of_nil in Rp|]. apply (data_wire id STATUS_OK (mac_to_u64 m') 1) in Hd. congruence.
      * rewrite Forall_forall in Fc. by apply Fc in Rp.
    + apply notifies_spec in Nt. apply send_info_session in Si as [(En & _)|(_ & Hs & _ & Hc & _)]; [congruence|]. by destruct Hh'.
    + apply notifies_spec in Nt. apply send_info_session in Si as [(En & _)|(_ & _ & _ & _ & _ & b & Wr)]; [congruence|].
      assert (length (ms1' ++ ms2') <= 255)%nat as Lw.
      { destruct (Nat.leb_spec (length (ms1' ++ ms2')) 255) as [?|G]; [done|]. apply (info_wire (s_seq s) id) in G. congruence. }
      rewrite app_length in Lw. apply Forall2_length in Am. pose proof (Forall2_length _ _ _ K2) as L2.
      assert (length ks2 <= length ks')%nat; [|lia]. apply submseteq_length, NoDup_submseteq; [done|].
      intros k Hk. destruct (Hm _ Hk) as [t M]. eapply Ck'; [|exact M]. apply Or. by eapply Mc.
Qed.

(** Only packets and rounds stop the simulator. *)
Lemma op_crash cl e p o : pinv cl p -> wf_op o -> crashed (step e p o) = true <-> fatal_op e p o.
Proof.
  intros I W. split.
  - intros H. destruct o; cbn [step] in H; try discriminate.
    + apply FatalRound. by apply (round_crash cl).
    + unfold uci_packet in H. destruct (p_devices p !! h) as [d|] eqn:L; [|done]. constructor; [by exists d|].
      destruct (pi_device _ _ I _ _ L) as (Id & _). apply (packet_crash p h d packet L); [|done|].
      * eapply dinv_imp; [exact Id|]. done.
      * destruct (receive_packet d packet) as [[? ?]|]; done.
    + unfold create_anchor in H. destruct (get_category p m) eqn:G; [done|]. unfold get_category in G.
      destruct (p_anchors p !! m); [done|]. done.
  - intros F. destruct F as [h packet [d L] F|h id F].
    + cbn [step]. unfold uci_packet. rewrite L. destruct (pi_device _ _ I _ _ L) as (Id & _).
      apply (packet_crash p h d packet L) in F; [|eapply dinv_imp; [exact Id|done]|done]. by destruct (receive_packet d packet).
    + by apply (round_crash cl).
Qed.
