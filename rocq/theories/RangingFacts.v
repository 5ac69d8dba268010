(** Facts about the ranging rounds. *)
From Verif Require Import Base Uci MacAddress AppConfig Codec Session Device Pica.
From Verif Require Import BaseFacts AppConfigSpec AppConfigFacts CodecSpec CodecFacts ContextSpec InvFacts StepFacts CommandFacts SessionSpec SessionFacts EvolveFacts HistorySpec RangingSpec.

Lemma make_measures m l r x : make_measurement m l r = Ret x -> measures m l r x.
Proof.
  destruct m as [a|a]; [|discriminate]. cbn [make_measurement]. intros H. apply Ret_inj in H. subst x.
  assert (forall z, Z.of_N (as_u16 z) = (z mod 65536)%Z) as E.
  { intros z. unfold as_u16. rewrite Z2N.id; [done|]. apply Z.mod_pos_bound. lia. }
  exists a. cbn. rewrite !E. done.
Qed.
Lemma anchor_spec e p h dst ms : anchor_measurements (env_estimate e) (p_anchors p) h dst = Ret ms ->
  Forall2 (fun t x => measures t.1.1 t.1.2 t.2 x) (anchors_measured e p h dst) ms.
Proof.
  revert ms. induction dst as [|m dst IH]; intros ms H; cbn [anchor_measurements] in H.
  - injection H as <-. constructor.
  - unfold anchors_measured. cbn [omap list_omap]. destruct (p_anchors p !! m) as [a|]; cbn [mbind option_bind]; [|by apply IH].
    destruct (env_estimate e h a) as [l|]; cbn [mbind option_bind]; [|by apply IH].
    destruct (env_estimate e a h) as [r|]; cbn [mbind option_bind]; [|by apply IH].
    destruct (make_measurement m l r) as [x|] eqn:M; [|discriminate]. cbn [obind] in H.
    destruct (anchor_measurements _ _ _ _) as [k|]; [|discriminate]. injection H as <-.
    constructor; [by apply make_measures|]. by apply IH.
Qed.

Lemma compatible_spec c pc b s ps : is_compatible_for_ranging pc c = Ret b -> s_cfg s = c -> s_cfg ps = pc ->
  (b = true <-> compatible s ps).
Proof.
  intros H <- <-. unfold is_compatible_for_ranging in H. unfold compatible. cbn [app_config_get].
  assert (forall o o' : option N, (fun v => [v]) <$> o = (fun v => [v]) <$> o' <-> o = o') as Inj.
  { intros [] []; cbn; split; congruence. }
  rewrite !Inj. clear Inj. case_bool_decide as E1; [injection H as <-; split; [done|]; intros (N & _); congruence|].
  case_bool_decide as E2; [injection H as <-; split; [done|]; intros (_ & N & _); congruence|].
  destruct (device_mac_address (s_cfg ps)) as [mp|]; [|discriminate].
  case_bool_decide as E3; cbn [negb] in H.
  2:{ injection H as <-. split; [done|]. intros (_ & _ & m & mp' & _ & E & _ & I). by injection E as <-. }
  destruct (device_mac_address (s_cfg s)) as [m|]; [|discriminate]. injection H as <-. rewrite bool_decide_eq_true. split.
  - intros E4. split; [congruence|]. split; [congruence|]. by exists m, mp.
  - intros (_ & _ & m' & mp' & E & _ & I & _). by injection E as <-.
Qed.

Lemma compatible_sym s ps : compatible s ps <-> compatible ps s.
Proof.
  assert (forall s ps, compatible s ps -> compatible ps s) as G; [|by split; apply G].
  intros a b (N1 & N2 & m & mp & ? & ? & ? & ?). split; [congruence|]. split; [congruence|]. by exists mp, m.
Qed.

Lemma can_receive_spec d id : can_receive_data_transfer d id = true <-> exists ps, d_sessions d !! id = Some ps /\ data_session 0 ps.
Proof.
  unfold can_receive_data_transfer, data_session. destruct (d_sessions d !! id) as [s|].
  - rewrite !andb_true_iff, bool_decide_eq_true, N.eqb_eq. unfold cfg_can_receive_data_transfer. rewrite bool_decide_eq_true. cbn [app_config_get].
    split.
    + intros [[A T] R]. exists s. split; [done|]. rewrite R. done.
    + intros (ps & E & A & T & R). injection E as <-. split_and!; try done. destruct (device_role (s_cfg s)); [|done]. cbn in R. by injection R as ->.
  - split; [done|]. by intros (ps & E & _).
Qed.
Lemma can_start_spec d id s : d_sessions d !! id = Some s -> (can_start_data_transfer d id = true <-> data_session 1 s).
Proof.
  unfold can_start_data_transfer, data_session. intros ->.
  rewrite !andb_true_iff, bool_decide_eq_true, N.eqb_eq. unfold cfg_can_start_data_transfer. rewrite bool_decide_eq_true. cbn [app_config_get].
  split.
  - intros [[A T] R]. rewrite R. done.
  - intros (A & T & R). split_and!; try done. destruct (device_role (s_cfg s)); [|done]. cbn in R. by injection R as ->.
Qed.

Lemma peer_measurement_spec cl e p h d id s k peer r : pinv cl p -> p_devices p !! h = Some d -> p_devices p !! k = Some peer -> k <> h ->
  peer_measurement (env_estimate e) d s id peer = Ret r ->
  match r with
  | inl true => (forall t, ~ measured e p h id s k t) /\ ~ not_estimated e p h id s k
  | inl false => (forall t, ~ measured e p h id s k t) /\ not_estimated e p h id s k
  | inr x => (exists t, measured e p h id s k t /\ measures t.1.1 t.1.2 t.2 x) /\ ~ not_estimated e p h id s k
  end.
Proof.
  intros [D _ _] L Lk Ne H. destruct (D _ _ L) as (_ & Hh & _). destruct (D _ _ Lk) as (_ & Hk & _).
  unfold peer_measurement in H. rewrite Hh, Hk in H. unfold can_start_ranging in H.
  assert (session_at p k id = d_sessions peer !! id) as Es. { unfold session_at. by rewrite Lk. }
  destruct (d_sessions peer !! id) as [ps|] eqn:Lp.
  2:{ injection H as <-. split.
      - intros t (_ & ps & E & _). congruence.
      - intros ((ps & E & _) & _). congruence. }
  case_bool_decide as A.
  2:{ injection H as <-. split.
      - intros t (_ & ps' & E & A' & _). congruence.
      - intros ((ps' & E & A' & _) & _). congruence. }
  destruct (is_compatible_for_ranging _ _) as [b|] eqn:C; [|discriminate]. cbn [obind] in H.
  pose proof (compatible_spec _ _ _ s ps C eq_refl eq_refl) as Cb.
  destruct b.
  2:{ injection H as <-. split.
      - intros t (_ & ps' & E & A' & C' & _). rewrite Es in E. injection E as <-. apply Cb in C'. done.
      - intros ((ps' & E & A' & C') & _). rewrite Es in E. injection E as <-. apply Cb in C'. done. }
  assert (compatible s ps) as Cs by by apply Cb.
  destruct (device_mac_address (s_cfg ps)) as [m|] eqn:M; [|discriminate].
  assert (exists ps, session_at p k id = Some ps /\ s_state ps = SsActive /\ compatible s ps) as Co by by exists ps.
  destruct (env_estimate e h k) as [l|] eqn:E1.
  2:{ injection H as <-. split; [|split; auto]. intros t (_ & ps' & _ & _ & _ & _ & E & _). congruence. }
  destruct (env_estimate e k h) as [r'|] eqn:E2.
  2:{ injection H as <-. split; [|split; auto]. intros t (_ & ps' & _ & _ & _ & _ & _ & E). congruence. }
  destruct (make_measurement m l r') as [x|] eqn:Mm; [|discriminate]. injection H as <-. split.
  - exists (m, l, r'). split; [|by apply make_measures]. split; [done|]. by exists ps.
  - intros (_ & [E|E]); congruence.
Qed.

Lemma peer_loop_spec cl e p h d id s order ms peers : pinv cl p -> p_devices p !! h = Some d -> d_sessions d !! id = Some s ->
  NoDup order -> (forall k, k ∈ order -> connected p k) ->
  peer_loop (env_estimate e) (p_devices p) h d s id order = Ret (ms, peers) ->
  exists ks, NoDup ks /\ NoDup peers /\ (forall k, k ∈ ks -> k ∈ order)
    /\ Forall2 (fun k x => exists t, measured e p h id s k t /\ measures t.1.1 t.1.2 t.2 x) ks ms
    /\ (forall k t, k ∈ order -> measured e p h id s k t -> k ∈ ks)
    /\ (forall k, k ∈ peers <-> k ∈ order /\ receives e p h id s k).
Proof.
  intros I L Ls. revert ms peers. induction order as [|k order IH]; intros ms peers Nd Co H; cbn [peer_loop] in H.
  - injection H as <- <-. exists []. split_and!; try constructor; try done; [by intros []%elem_of_nil|by intros [[]%elem_of_nil _]].
  - inversion Nd as [|? ? Nk Nd']; subst. destruct (Co k) as [peer Lk]; [left|]. rewrite Lk in H.
    assert (forall k0, k0 ∈ order -> connected p k0) as Co'. { intros. apply Co. by right. }
    destruct (pi_device _ _ I _ _ Lk) as (_ & Hk & _). rewrite Hk in H.
    destruct (N.eqb_spec k h) as [->|Ne].
    { destruct (IH _ _ Nd' Co' H) as (ks & ? & ? & ? & ? & Ck & Cp). exists ks. split_and!; try done.
      - intros k Hk'. right. auto.
      - intros k t [->|Hk']%elem_of_cons M; [by destruct M as [M _]|eauto].
      - intros k. rewrite Cp. split; intros [Hk' R].
        + split; [by right|done].
        + apply elem_of_cons in Hk' as [->|Hk']; [by destruct R as [R _]|done]. }
    destruct (peer_measurement _ _ _ _ _) as [r|] eqn:P; [|discriminate]. cbn [obind] in H.
    destruct (peer_loop _ _ _ _ _ _ _) as [[ms1 ps1]|] eqn:Lp; [|discriminate]. cbn [obind] in H.
    destruct (IH _ _ Nd' Co' eq_refl) as (ks & N1 & N2 & K1 & K2 & Ck & Cp). clear IH.
    pose proof (peer_measurement_spec _ _ _ _ _ _ _ _ _ _ I L Lk Ne P) as Ps.
    assert (NotP : k ∉ ps1). { intros E. apply Cp in E as [E _]. done. }
    assert (Pe : forall b, ~ not_estimated e p h id s k -> b = (can_start_data_transfer d id && can_receive_data_transfer peer id) ->
      NoDup (if b : bool then k :: ps1 else ps1) /\ (forall k', k' ∈ (if b then k :: ps1 else ps1) <-> k' ∈ k :: order /\ receives e p h id s k')).
    { intros b Ne' Eb. assert (b = true <-> receives e p h id s k) as Rb.
      { rewrite Eb, andb_true_iff, (can_start_spec _ _ _ Ls), can_receive_spec. unfold receives, session_at. rewrite Lk. cbn. tauto. }
      destruct b.
      - split; [by constructor|]. intros k'. rewrite !elem_of_cons, Cp. split.
        + intros [->|[? ?]]; [split; [by left|by apply Rb]|auto].
        + intros [[->|?] ?]; auto.
      - split; [done|]. intros k'. rewrite Cp, elem_of_cons. split; [intros [? ?]; auto|]. intros [[->|?] R]; [by apply Rb in R|done]. }
    destruct r as [[]|x].
    + destruct Ps as [Nm Ne']. injection H as <- <-. destruct (Pe _ Ne' eq_refl) as [? ?]. exists ks. split_and!; try done.
      * intros k' Hk'. right. auto.
      * intros k' t [->|Hk']%elem_of_cons M; [by destruct (Nm t)|eauto].
    + destruct Ps as [Nm Ne']. injection H as <- <-. exists ks. split_and!; try done.
      * intros k' Hk'. right. auto.
      * intros k' t [->|Hk']%elem_of_cons M; [by destruct (Nm t)|eauto].
      * intros k'. rewrite Cp, elem_of_cons. split; [intros [? ?]; auto|]. intros [[->|?] R]; [by destruct R as (_ & _ & _ & R)|done].
    + destruct Ps as [(t & M & Mx) Ne']. injection H as <- <-. destruct (Pe _ Ne' eq_refl) as [? ?]. exists (k :: ks). split_and!; try done.
      * constructor; [|done]. intros E. by apply K1 in E.
      * intros k' [->|Hk']%elem_of_cons; [by left|right; auto].
      * constructor; [by exists t|done].
      * intros k' t' [->|Hk']%elem_of_cons Mt; [by left|right; eauto].
Qed.

(** A round, in full. *)
Lemma round_spec cl e p h id p' outs : pinv cl p -> step e p (Ranging h id) = Ret (p', outs) ->
  exists s s' ms ks peers,
    session_at p h id = Some s /\ session_at p' h id = Some s'
    /\ NoDup ks /\ NoDup peers
    /\ Forall2 (fun k x => exists t, measured e p h id s k t /\ measures t.1.1 t.1.2 t.2 x) ks ms
    /\ (forall k t, measured e p h id s k t -> k ∈ ks)
    /\ (forall k, k ∈ peers <-> receives e p h id s k)
    /\ (exists m ms1, (peers <> [] -> device_mac_address (s_cfg s) = Some m)
       /\ Forall2 (fun t x => measures t.1.1 t.1.2 t.2 x) (anchors_measured e p h (dst_mac_address (s_cfg s))) ms1
       /\ ((notifies s /\ s' = clear_data (s_set_seq (s_seq s + 1) s)
           /\ outs = map (fun k => OEff k (Send (DataMessageRcv id 0x00 (mac_to_u64 m) 1 (s_data s)))) peers
                     ++ [OEff h (Send (SessionInfoNtf (s_seq s) id 0 0 (ms1 ++ ms) []))])
          \/ (~ notifies s /\ s' = clear_data s
           /\ outs = map (fun k => OEff k (Send (DataMessageRcv id 0x00 (mac_to_u64 m) 1 (s_data s)))) peers))).
Proof.
  intros I H. cbn [step] in H.
  apply ranging_inv in H as (d & s & ms1 & ms2 & peers & o1 & o2 & s' & L & Ls & Am & Pl & Sd & Si & -> & ->).
  destruct (pi_device _ _ I _ _ L) as (_ & Hh & _). rewrite Hh in Am.
  apply (peer_loop_spec _ _ _ _ _ _ _ _ _ _ I L Ls) in Pl as (ks & N1 & N2 & K1 & K2 & Ck & Cp).
  2:{ rewrite (env_order_perm e). apply NoDup_fst_map_to_list. }
  2:{ intros k Hk. rewrite (env_order_perm e) in Hk. apply elem_of_list_fmap in Hk as ([k' d'] & -> & Hk). exists d'. by apply elem_of_map_to_list. }
  assert (forall k ps, session_at p k id = Some ps -> k ∈ env_order e (map_to_list (p_devices p)).*1) as Or.
  { intros k ps Sk. unfold session_at in Sk. destruct (p_devices p !! k) as [dk|] eqn:Lk; [|discriminate].
    rewrite (env_order_perm e). apply elem_of_list_fmap. exists (k, dk). split; [done|]. by apply elem_of_map_to_list. }
  apply send_data_outs in Sd as (m & Em & -> & _).
  exists s, (clear_data s'), ms2, ks, peers. unfold session_at at 1 2. cbn [p_devices p_set_device p_set_devices]. rewrite lookup_insert, L. cbn. rewrite lookup_insert.
  split_and!; try done.
  - intros k t M. eapply Ck; [|exact M]. destruct M as (_ & ps & Sk & _). by eapply Or.
  - intros k. rewrite Cp. split; [by intros [_ ?]|]. intros R. split; [|done]. destruct R as (_ & _ & (ps & Sk & _) & _). by eapply Or.
  - exists m, ms1. split; [done|]. split; [by apply anchor_spec|].
    assert (notifies s <-> is_session_info_ntf_enabled s = true) as Nt.
    { unfold notifies, is_session_info_ntf_enabled. cbn. rewrite negb_true_iff, N.eqb_neq. split; [intros N E; apply N; by rewrite E|intros N E; apply N; by injection E]. }
    apply send_info_session in Si as [(En & -> & ->)|(En & _ & -> & _ & -> & _)].
    + right. rewrite Nt, En, app_nil_r. done.
    + left. rewrite Nt, En. done.
Qed.

(** ** Outside the rounds *)
Definition no_round (m : msg) : Prop := match m with SessionInfoNtf _ _ _ _ _ _ | DataMessageRcv _ _ _ _ _ => False | _ => True end.
Definition calm (x : eff) : Prop := match x with Send m | After _ m => no_round m | _ => True end.
Definition out_calm (o : out) : Prop := match o with OEff _ x => calm x | _ => True end.

Lemma calm_drop s : Forall calm (session_drop s).
Proof. rewrite session_drop_eq. destruct (s_task s), (bool_decide _); by repeat constructor. Qed.
Lemma calm_device_drop d : Forall calm (device_drop d).
Proof.
  unfold device_drop. induction (map_to_list (d_sessions d)) as [|x l IH]; [constructor|].
  cbn [map concat]. apply Forall_app. split; [apply calm_drop|done].
Qed.
Lemma calm_dec d d' e : device_dec_active d = Ret (d', e) -> Forall calm e.
Proof.
  unfold device_dec_active. destruct (_ =? 0); [discriminate|]. cbn. destruct (_ =? 0); intros H; apply Ret_inj in H.
  - rewrite device_set_state_eq in H. injection H as _ <-. destruct (bool_decide _); by repeat constructor.
  - injection H as _ <-. constructor.
Qed.
Lemma calm_remove id att l dst st rsp ntf e dst' st' rsp' ntf' e' :
  remove_controlees id att l dst st rsp ntf e = Ret (dst', st', rsp', ntf', e') -> Forall calm e -> Forall calm e'.
Proof.
  revert dst st rsp ntf e. induction l as [|a l IH]; intros dst st rsp ntf e H F; cbn [remove_controlees] in H.
  - by injection H as _ _ _ _ <-.
  - destruct (short_bytes a); [|discriminate]. cbn [obind] in H. destruct (negb _); (eapply IH; [exact H|]); [done|].
    destruct (att =? 0); [done|]. apply Forall_app. split; [done|by repeat constructor].
Qed.
Lemma calm_set_state st r s : Forall calm (session_set_state st r s).2.
Proof. rewrite session_set_state_eq. cbn. destruct (bool_decide _); by repeat constructor. Qed.
Lemma calm_finish d id s dst : Forall calm (multicast_finish d id s dst).2.
Proof. rewrite multicast_finish_eq. cbn. destruct dst; [|constructor]. destruct (bool_decide _); by repeat constructor. Qed.
Lemma handle_calm d c d' e m : handle_command d c = Ret (d', e, m) -> Forall calm e.
Proof.
  intros H. destruct c; cbn [handle_command] in H.
  - rewrite core_reset_eq in H. injection H as _ <- _. apply Forall_app. split; [apply calm_device_drop|by repeat constructor].
  - destruct (core_get_device_info d); [|discriminate]. injection H as _ <- _. constructor.
  - injection H as _ <- _. constructor.
  - destruct (core_set_config _ _) as [[? ?]|]; [|discriminate]. injection H as _ <- _. constructor.
  - injection H as _ <- _. constructor.
  - apply Ret_inj in H. unfold session_init in H. destruct (Nat.leb _ _); [injection H as _ <- _; constructor|].
    destruct (d_sessions d !! id); [injection H as _ <- _; apply calm_drop|].
    unfold session_init_state in H. pose proof (calm_set_state SsInit REASON_STATE_CHANGE_WITH_SESSION_MANAGEMENT_COMMANDS (session_new id session_type)) as C.
    destruct (session_set_state _ _ _) as [? ?]. by injection H as _ <- _.
  - unfold session_deinit in H. destruct (d_sessions d !! id); [|injection H as _ <- _; constructor].
    destruct (bool_decide _).
    + destruct (device_dec_active d) as [[d1 e1]|] eqn:D; [|discriminate]. apply Ret_inj in H. injection H as _ <- _.
      apply Forall_app. split; [by eapply calm_dec|apply calm_drop].
    + apply Ret_inj in H. injection H as _ <- _. apply calm_drop.
  - unfold session_set_app_config in H. destruct (d_sessions d !! id); [|injection H as _ <- _; constructor].
    destruct (negb _); [discriminate|]. destruct (bool_decide _ && _); [injection H as _ <- _; constructor|].
    destruct (_ && _); [injection H as _ <- _; constructor|].
    destruct (set_tlvs _ _ _) as [[c i]|]; [|discriminate]. cbn [obind] in H.
    destruct (missing_mandatory c); [injection H as _ <- _; constructor|].
    destruct i; [|injection H as _ <- _; constructor]. rewrite session_set_state_eq in H.
    destruct (bool_decide _); apply Ret_inj in H; injection H as _ <- _; [|constructor]. destruct (bool_decide _); by repeat constructor.
  - injection H as _ <- _. constructor.
  - injection H as _ <- _. constructor.
  - injection H as _ <- _. constructor.
  - unfold session_update_controller_multicast_list in H.
    destruct (d_sessions d !! id) as [s|] eqn:L; [|injection H as _ <- _; constructor].
    destruct (_ || _); [injection H as _ <- _; constructor|].
    destruct (multicast_controlees action payload) as [l|] eqn:Mc; [|injection H as _ <- _; constructor].
    assert (forall kr, (let! (dst, status, rsp) := add_controlees kr l (dst_mac_address (s_cfg s)) STATUS_OK [] in
         let '(d1, e3) := multicast_finish d id s dst in
         Ret (d1, e3, SessionUpdateControllerMulticastListRsp status rsp)) = Ret (d', e, m) -> Forall calm e) as Ga.
    { clear H. intros kr H. destruct (add_controlees _ _ _ _ _) as [[[d1 s1] r1]|]; [|discriminate]. cbn [obind] in H.
      pose proof (calm_finish d id s d1) as C. destruct (multicast_finish _ _ _ _). apply Ret_inj in H. by injection H as _ <- _. }
    destruct action; [by eapply Ga| |by eapply Ga..].
    destruct (remove_controlees _ _ _ _ _ _ _ _) as [[[[[d1 s1] r1] n1] e1]|] eqn:Rm; [|discriminate].
    cbn [obind] in H. pose proof (calm_finish d id s d1) as C. destruct (multicast_finish _ _ _ _). apply Ret_inj in H. injection H as _ <- _.
    apply calm_remove in Rm; [|constructor]. rewrite !Forall_app. split; [done|]. split; [|done]. destruct (bool_decide _); by repeat constructor.
  - unfold session_start in H. destruct (d_sessions d !! id); [|injection H as _ <- _; constructor].
    destruct (negb _); [injection H as _ <- _; constructor|]. destruct (s_task s); [discriminate|].
    rewrite session_set_state_eq, device_set_state_eq in H. apply Ret_inj in H. injection H as _ <- _.
    cbn. repeat destruct (bool_decide _); by repeat constructor.
  - unfold session_stop in H. destruct (d_sessions d !! id); [|injection H as _ <- _; constructor].
    destruct (negb _); [injection H as _ <- _; constructor|].
    rewrite stop_ranging_task_eq, session_set_state_eq in H.
    destruct (device_dec_active _) as [[d1 e1]|] eqn:D; [|discriminate]. apply Ret_inj in H. injection H as _ <- _.
    apply calm_dec in D. rewrite !Forall_app. destruct (s_task s), (bool_decide _); by repeat constructor.
  - injection H as _ <- _. constructor.
  - injection H as _ <- _. constructor.
  - injection H as _ <- _. constructor.
Qed.
Lemma answer_calm d cmd d' e m : handle_command d cmd = Ret (d', e, m) -> no_round m.
Proof.
  intros H. destruct cmd; cbn [handle_command] in H.
  all: unfold core_get_device_info, core_set_config, session_init, session_deinit, session_set_app_config,
         session_update_controller_multicast_list, session_start, session_stop, android_set_country_code,
         core_get_config, session_get_app_config, session_get_state, session_get_ranging_count in H.
  all: repeat first
    [ match type of H with Ret _ = Ret _ => apply Ret_inj in H end
    | match type of H with Crash _ = Ret _ => discriminate H end
    | match type of H with context [match ?x with _ => _ end] => destruct x; cbn [obind] in H end
    | match type of H with context [obind ?x _] => destruct x; cbn [obind] in H end].
  all: try (injection H as <- <- <-; done); try discriminate.
Qed.
Lemma receive_calm d packet d' e : wf_bytes packet -> receive_packet d packet = Ret (d', e) -> Forall calm e.
Proof.
  intros W R. apply receive_received in R; [|done].
  destruct R as [Hh|Hh Hd|pp d' m b Hh Hd Hs Hw|h1 o1 rest -> Hc|Hh Hv Hr Hl|c d' e2 m b Wc Ec Hr Hc Hw|h1 b1 b2 rest -> Hh Hr Hv Hg];
    try (by repeat constructor).
  - constructor; [|constructor]. cbn. destruct pp as [handle dst seq data|]; cbn [device_data_message_snd] in Hs; [|by injection Hs as _ <-].
    destruct (d_sessions d !! handle) as [s|]; [|by injection Hs as _ <-].
    unfold session_data_message_snd in Hs. destruct (negb _); [by injection Hs as _ <-|]. destruct (negb _); [discriminate|]. by injection Hs as _ <-.
  - apply Forall_app. split; [by eapply handle_calm|]. constructor; [|constructor]. by eapply answer_calm.
Qed.
Lemma stop_calm m id d : Forall calm (stop_controlee m id d).2.
Proof.
  unfold stop_controlee. destruct (d_sessions d !! id); [|constructor]. destruct (negb _); [constructor|]. destruct (bool_decide _); [|constructor].
  rewrite stop_ranging_task_eq, session_set_state_eq.
  match goal with |- context [if ?b then device_set_state ?x ?y else ?z] =>
    assert (Forall calm (if b then device_set_state x y else z).2) as G
      by (destruct b; [rewrite device_set_state_eq; cbn; destruct (bool_decide _)|]; by repeat constructor);
    destruct (if b then device_set_state x y else z) as [d1 e1] end.
  cbn [snd] in *. rewrite !Forall_app. destruct (s_task s), (bool_decide _); by repeat constructor.
Qed.

Lemma effs_calm h e : Forall calm e -> Forall out_calm (map (OEff h) e).
Proof. induction 1; by constructor. Qed.
Lemma step_calm e p o p' outs : wf_op o -> step e p o = Ret (p', outs) -> (forall h id, o <> Ranging h id) -> Forall out_calm outs.
Proof.
  intros W H NR. destruct o; cbn [step] in H.
  - apply Ret_inj in H. unfold add_device, device_init in H. rewrite device_set_state_eq in H. injection H as _ <-. by repeat constructor.
  - apply Ret_inj in H. unfold disconnect in H. destruct (p_devices p !! h) as [d|]; injection H as _ <-; [|constructor].
    constructor; [done|]. apply effs_calm, calm_device_drop.
  - by destruct (NR h id).
  - apply Ret_inj in H. unfold stop_controlee_ranging in H. injection H as _ <-.
    induction (env_order e _) as [|k l IH]; [constructor|]. cbn [map concat]. apply Forall_app. split; [|done].
    destruct (p_devices p !! k); [|constructor]. apply effs_calm, stop_calm.
  - unfold uci_packet in H. destruct (p_devices p !! h) as [d|]; [|injection H as _ <-; constructor].
    destruct (receive_packet d packet) as [[d1 e1]|] eqn:R; [|discriminate]. cbn [obind] in H. injection H as _ <-.
    apply effs_calm. by eapply receive_calm.
  - unfold create_anchor in H. destruct (get_category p m); [injection H as _ <-; by repeat constructor|].
    destruct (p_anchors p !! m); [discriminate|]. injection H as _ <-; by repeat constructor.
  - apply Ret_inj in H. unfold destroy_anchor in H. destruct (p_anchors p !! m); injection H as _ <-; by repeat constructor.
  - apply Ret_inj in H. injection H as _ <-. constructor.
Qed.
Lemma messages_calm k outs : Forall out_calm outs -> Forall no_round (messages k outs).
Proof.
  unfold messages. induction 1 as [|o outs C _ IH]; [constructor|]. cbn [map concat]. apply Forall_app. split; [|done].
  destruct o as [h' x| | |]; try constructor. unfold messages_to, sent_to, scheduled_to.
  destruct x; cbn in *; try constructor; destruct (h' =? k); try done; by repeat constructor.
Qed.
Lemma calm_info h id outs : Forall out_calm outs -> info_seqs h id outs = [].
Proof.
  intros C. apply (messages_calm h) in C. unfold info_seqs. induction C as [|m l N _ IH]; [done|]. cbn [map concat]. rewrite IH. by destruct m.
Qed.
Lemma calm_data k outs : Forall out_calm outs -> data_received k outs = [].
Proof.
  intros C. apply (messages_calm k) in C. unfold data_received. induction C as [|m l N _ IH]; [done|]. cbn [map concat]. rewrite IH. by destruct m.
Qed.

(** ** Messages of a round *)
Lemma messages_app k o o' : messages k (o ++ o') = messages k o ++ messages k o'.
Proof. unfold messages. by rewrite map_app, concat_app. Qed.
Lemma info_seqs_app h id o o' : info_seqs h id (o ++ o') = info_seqs h id o ++ info_seqs h id o'.
Proof. unfold info_seqs. by rewrite messages_app, map_app, concat_app. Qed.
Lemma data_received_app k o o' : data_received k (o ++ o') = data_received k o ++ data_received k o'.
Proof. unfold data_received. by rewrite messages_app, map_app, concat_app. Qed.
Lemma messages_sends k peers m : NoDup peers ->
  messages k (map (fun k => OEff k (Send m)) peers) = if bool_decide (k ∈ peers) then [m] else [].
Proof.
  induction 1 as [|x l Nx Nd IH]; [done|]. change (map _ (x :: l)) with ([OEff x (Send m)] ++ map (fun k => OEff k (Send m)) l).
  rewrite messages_app, IH. unfold messages. cbn. destruct (N.eqb_spec x k) as [->|Ne]; cbn.
  - rewrite bool_decide_false by done. rewrite (bool_decide_true (k ∈ k :: l)); [done|left].
  - rewrite (bool_decide_ext (k ∈ x :: l) (k ∈ l)); [done|]. rewrite elem_of_cons. split; [intros [->|?]; done|auto].
Qed.
Lemma messages_one k h m : messages k [OEff h (Send m)] = if h =? k then [m] else [].
Proof. unfold messages. cbn. by destruct (h =? k). Qed.
Lemma sent_app k o o' : sent k (o ++ o') = sent k o ++ sent k o'.
Proof. unfold sent. by rewrite map_app, concat_app. Qed.
Lemma sent_sends k peers m : k ∉ peers -> sent k (map (fun k => OEff k (Send m)) peers) = [].
Proof.
  induction peers as [|x l IH]; [done|]. intros N%not_elem_of_cons. destruct N as [N1 N2]. unfold sent in *. cbn.
  apply not_eq_sym, N.eqb_neq in N1. rewrite N1. cbn. by apply IH.
Qed.

(** ** Initialisation and data *)
Lemma encodes_hd c packet : encodes c packet -> hd 0 packet / 32 = 1.
Proof. by intros (h & o & r1 & r2 & -> & ? & _). Qed.
Lemma init_cases cl e p h id ty packet p' outs : pinv cl p -> wf_bytes packet -> wf_cmd (CmdSessionInit id ty) ->
  encodes (CmdSessionInit id ty) packet -> step e p (UciPacket h packet) = Ret (p', outs) ->
  (session_at p' h id = session_at p h id /\ ~ initialises h id (UciPacket h packet) outs)
  \/ (initialises h id (UciPacket h packet) outs
      /\ exists s', session_at p' h id = Some s' /\ s_seq s' = 0 /\ s_data s' = [] /\ s_type s' = ty).
Proof.
  intros I W Wc Ec H. pose proof H as H0. cbn [step] in H. unfold uci_packet in H.
  assert (forall l, ~ In (SessionInitRsp 0x00) l -> ~ In (SessionInitRsp 0x12) l -> sent h outs = l -> ~ initialises h id (UciPacket h packet) outs) as Ni.
  { intros l N1 N2 E (pk & ty' & _ & _ & _ & O). rewrite E in O. by destruct O. }
  destruct (p_devices p !! h) as [d|] eqn:L.
  2:{ injection H as <- <-. left. split; [done|]. apply (Ni []); [intros []|intros []|done]. }
  destruct (d_is_reset d) eqn:Rs.
  - clear H. rewrite (step_command _ _ _ _ _ _ L W Wc Ec) in H0 by auto. cbn [handle_command] in H0.
    destruct (pi_device _ _ I _ _ L) as (Id & _). apply dinv_weaken in Id.
    destruct (session_init d id ty) as [[d' e'] m] eqn:Si. cbn [obind] in H0. destruct (wire m) eqn:Wm; [|discriminate].
    apply Ret_inj in H0. injection H0 as <- Ho.
    assert (sent h outs = [m]) as Sn.
    { rewrite <- Ho, sent_effs, effs_at_same, eff_sent_app, (eff_sent_none e'); [done|].
      eapply (handle_no_send d (CmdSessionInit id ty)); [done|done|]. cbn [handle_command]. by rewrite Si. }
    unfold session_at. cbn [p_devices p_set_device p_set_devices]. rewrite lookup_insert, L. cbn.
    unfold session_init in Si. destruct (Nat.leb _ _).
    { injection Si as <- _ <-. left. split; [done|]. eapply Ni; [..|exact Sn]; intros [E|[]]; discriminate E. }
    right. destruct (d_sessions d !! id).
    + injection Si as <- _ <-. split.
      * exists packet, ty. rewrite Sn. split_and!; try done. right. left. done.
      * cbn. rewrite lookup_insert. by eexists.
    + unfold session_init_state in Si. rewrite session_set_state_eq in Si. injection Si as <- _ <-. split.
      * exists packet, ty. rewrite Sn. split_and!; try done. left. left. done.
      * cbn. rewrite lookup_insert. by eexists.
  - destruct (receive_packet d packet) as [[d1 e1]|] eqn:R; [|discriminate]. cbn [obind] in H. injection H as <- Ho.
    apply receive_received in R; [|done]. pose proof (encodes_hd _ _ Ec) as Hd.
    assert (session_at (p_set_device h d p) h id = session_at p h id) as Same.
    { unfold session_at. cbn [p_devices p_set_device p_set_devices]. by rewrite lookup_insert, L. }
    destruct R as [Hh|Hh Hd'|pp d' m b Hh Hd' Hs Hw|h1 o1 rest -> Hc|Hh Hv Hr Hl|c d' e2 m b Wc' Ec' Hr Hc Hw|h1 b1 b2 rest -> Hh Hr Hv Hg].
    + rewrite Hd in Hh. by destruct Hh.
    + rewrite Hd in Hh. done.
    + rewrite Hd in Hh. done.
    + left. split; [done|]. eapply (Ni [_]); [..|rewrite <- Ho; unfold sent; cbn; rewrite N.eqb_refl; reflexivity]; intros [E|[]]; discriminate E.
    + left. split; [done|]. eapply (Ni [_]); [..|rewrite <- Ho; unfold sent; cbn; rewrite N.eqb_refl; reflexivity]; intros [E|[]]; discriminate E.
    + exfalso. destruct Hr as [Hr|Hr]; [congruence|]. pose proof (encodes_inj _ _ _ W Wc Wc' Ec Ec'). congruence.
    + congruence.
Qed.
Lemma data_message_hd id dst seq data packet : data_message id dst seq data packet -> hd 0 packet / 32 = 0.
Proof. by intros (_ & _ & _ & _ & _ & h & r1 & r2 & r3 & -> & ? & _). Qed.
Lemma data_message_decode id dst seq data packet : wf_bytes packet -> data_message id dst seq data packet ->
  decode_data_packet packet = DdPacket (DataMessageSnd id dst seq data).
Proof.
  intros W D. pose proof (data_message_hd _ _ _ _ _ D) as Hd. apply decode_data_snd_iff; [done| |done].
  destruct D as (_ & _ & _ & _ & _ & h & r1 & r2 & r3 & -> & _). by exists h.
Qed.
Lemma data_cases cl e p h id packet p' outs : pinv cl p -> wf_bytes packet -> hd 0 packet / 32 = 0 -> step e p (UciPacket h packet) = Ret (p', outs) ->
  (exists s dst seq data, session_at p h id = Some s /\ s_type s = 1 /\ data_message id dst seq data packet
     /\ session_at p' h id = Some (s_set_data (s_data s ++ data) s) /\ sent h outs = [SessionDataCreditNtf id 1])
  \/ (session_at p' h id = session_at p h id /\ sent h outs <> [SessionDataCreditNtf id 1]).
Proof.
  intros I W Hd H. cbn [step] in H. unfold uci_packet in H.
  destruct (p_devices p !! h) as [d|] eqn:L.
  2:{ injection H as <- <-. right. done. }
  destruct (receive_packet d packet) as [[d1 e1]|] eqn:R; [|discriminate]. cbn [obind] in H. injection H as <- <-.
  apply receive_received in R; [|done]. rewrite sent_effs, effs_at_same. unfold session_at. cbn [p_devices p_set_device p_set_devices].
  rewrite lookup_insert, L. cbn [mbind option_bind].
  destruct R as [Hh|Hh Hd'|pp d' m b Hh Hd' Hs Hw|h1 o1 rest -> Hc|Hh Hv Hr Hl|c d' e2 m b Wc' Ec' Hr Hc Hw|h1 b1 b2 rest -> Hh Hr Hv Hg].
  - by right.
  - by right.
  - destruct pp as [handle dst seq data|]; cbn [device_data_message_snd] in Hs; [|injection Hs as <- <-; by right].
    destruct (d_sessions d !! handle) as [s|] eqn:Ls; [|injection Hs as <- <-; by right].
    unfold session_data_message_snd, FIRA_RANGING_AND_IN_BAND_DATA_SESSION in Hs. destruct (N.eqb_spec (s_type s) 1) as [T|T]; cbn [negb] in Hs.
    2:{ injection Hs as <- <-. right. split; [|done]. cbn. by rewrite insert_id. }
    destruct (negb _); [discriminate|]. injection Hs as <- <-. cbn [d_sessions d_set_sessions].
    destruct (N.eq_dec handle id) as [->|Hne].
    2:{ right. rewrite lookup_insert_ne by done. split; [done|]. cbn. congruence. }
    left. rewrite lookup_insert. exists s, dst, seq, data. split_and!; try done.
    apply decode_data_snd_iff in Hd'; [done|done|]. destruct packet as [|x pk]; [discriminate|]. by exists x.
  - exfalso. cbn in Hd. lia.
  - exfalso. lia.
  - exfalso. apply encodes_hd in Ec'. lia.
  - exfalso. cbn in Hd. lia.
Qed.

(** The life of a session. *)
Lemma step_keeps cl e p o p' outs h id s : pinv cl p -> wf_op o -> step e p o = Ret (p', outs) -> session_at p h id = Some s ->
  ~ initialises h id o outs -> o <> Ranging h id -> session_at p' h id <> None ->
  exists s', session_at p' h id = Some s' /\ s_seq s' = s_seq s /\ s_type s' = s_type s
    /\ ((forall data, ~ accepts h id o outs data) -> s_data s' = s_data s).
Proof.
  intros I W H S Ni Nr Ex. pose proof (step_evolves _ _ _ _ _ _ h id I W H) as E. rewrite S in E.
  assert (session_at p' h id = session_at p h id -> exists s', session_at p' h id = Some s' /\ s_seq s' = s_seq s /\ s_type s' = s_type s
    /\ ((forall data, ~ accepts h id o outs data) -> s_data s' = s_data s)) as Same.
  { intros ->. rewrite S. by exists s. }
  remember (session_at p' h id) as q eqn:Eq in E.
  assert (forall s', q = Some s' -> s_seq s' = s_seq s -> s_type s' = s_type s -> ((forall data, ~ accepts h id o outs data) -> s_data s' = s_data s) ->
    exists s', session_at p' h id = Some s' /\ s_seq s' = s_seq s /\ s_type s' = s_type s
    /\ ((forall data, ~ accepts h id o outs data) -> s_data s' = s_data s)) as G.
  { intros s' E1 ? ? ?. exists s'. split; [congruence|done]. }
  inversion E as [s0 E1 E2|s0 N E1 E2|old packet ty s' Eo Wc Ec Es E1 E2|s0 st t N E1 E2|packet s0 l c st Eo Wc Ec Sa E1 E2|packet s0 a payload cs dst st Eo Ec Cs U L8 E1 E2|s0 s' Eo Es E1 E2|packet s0 dst seq data Eo Wd Ed T E1 E2].
  - apply Same. congruence.
  - congruence.
  - subst o. destruct (init_cases _ _ _ _ _ _ _ _ _ I W Wc Ec H) as [[Es' _]|[Ei _]]; [by apply Same|by destruct Ni].
  - by eapply G.
  - by eapply G.
  - by eapply G.
  - done.
  - subst o. assert (hd 0 packet / 32 = 0) as Hd by by destruct Ed as (x & r1 & r2 & r3 & -> & ? & _).
    destruct (data_cases _ _ _ h id _ _ _ I W Hd H) as [(s1 & dst' & seq' & data' & S1 & T1 & D1 & S2 & Sn)|[Es' _]].
    + rewrite S in S1. injection S1 as <-. eapply G; [rewrite Eq; exact S2|done|done|].
      intros Na. exfalso. apply (Na data'). by exists packet, dst', seq'.
    + by apply Same.
Qed.
Lemma initialises_session cl e p o p' outs h id : pinv cl p -> wf_op o -> step e p o = Ret (p', outs) -> initialises h id o outs ->
  exists s', session_at p' h id = Some s' /\ s_seq s' = 0 /\ s_data s' = [].
Proof.
  intros I W H In. pose proof In as (packet & ty & -> & Wc & Ec & _).
  destruct (init_cases _ _ _ _ _ _ _ _ _ I W Wc Ec H) as [[_ N]|(_ & s' & ? & ? & ? & _)]; [done|]. by exists s'.
Qed.
Lemma step_appears cl e p o p' outs h id : pinv cl p -> wf_op o -> step e p o = Ret (p', outs) -> session_at p h id = None ->
  session_at p' h id <> None -> initialises h id o outs.
Proof.
  intros I W H S Ex. pose proof (step_evolves _ _ _ _ _ _ h id I W H) as E. rewrite S in E.
  inversion E as [s0 E1 E2| |old packet ty s' Eo Wc Ec Es E1 E2| | | | |].
  - congruence.
  - subst o. destruct (init_cases _ _ _ _ _ _ _ _ _ I W Wc Ec H) as [[Es' _]|[Ei _]]; [congruence|done].
Qed.
Lemma initialises_dec h id o outs : wf_op o -> initialises h id o outs \/ ~ initialises h id o outs.
Proof.
  intros W. destruct o as [| | | |k packet| | |]; try (right; by intros (pk & ty & E & _)).
  destruct (N.eq_dec k h) as [->|Ne]; [|right; intros (pk & ty & E & _); congruence].
  assert ((exists ty, wf_cmd (CmdSessionInit id ty) /\ encodes (CmdSessionInit id ty) packet) \/ ~ exists ty, wf_cmd (CmdSessionInit id ty) /\ encodes (CmdSessionInit id ty) packet) as [(ty & Wc & Ec)|N].
  { cbn in W. destruct (decode_control_packet packet) as [cp|] eqn:D.
    - destruct (decide (cp_mt cp = MtCommand)) as [M|M].
      + destruct (specialize_command (cp_gid cp) (cp_payload cp)) as [c| | |] eqn:Sp.
        2-4: right; intros (ty & Wc & Ec); destruct (proj2 (decode_command_iff _ _ W) (conj Wc Ec)) as (cp' & D' & _ & S'); congruence.
        destruct (proj1 (decode_command_iff c packet W)) as [Wc Ec]; [by exists cp|].
        destruct c; try (right; intros (ty & Wc' & Ec'); pose proof (encodes_inj _ _ _ W Wc Wc' Ec Ec'); discriminate).
        destruct (N.eq_dec id0 id) as [->|Ni]; [left; by eexists|].
        right; intros (ty & Wc' & Ec'); pose proof (encodes_inj _ _ _ W Wc Wc' Ec Ec'); congruence.
      + right; intros (ty & Wc & Ec); destruct (proj2 (decode_command_iff _ _ W) (conj Wc Ec)) as (cp' & D' & M' & S'). congruence.
    - right; intros (ty & Wc & Ec); destruct (proj2 (decode_command_iff _ _ W) (conj Wc Ec)) as (cp' & D' & _ & S'). congruence. }
  - assert (forall x : N, In (SessionInitRsp x) (sent h outs) \/ ~ In (SessionInitRsp x) (sent h outs)) as Dec.
    { intros x. induction (sent h outs) as [|m l IH]; [right; intros []|]. destruct IH as [IH|IH]; [left; by right|].
      assert (m = SessionInitRsp x \/ m <> SessionInitRsp x) as [->|N].
      { destruct m; try (by right). destruct (N.eq_dec status x) as [->|]; [by left|right; congruence]. }
      - left. by left.
      - right. intros [E|E]; auto. }
    destruct (Dec 0x00) as [H|H0]; [left; exists packet, ty; auto|]. destruct (Dec 0x12) as [H|H1]; [left; exists packet, ty; auto 10|].
    right. intros (pk & ty' & _ & _ & _ & [H|H]); auto.
  - right. intros (pk & ty & E & Wc & Ec & _). injection E as <-. apply N. by exists ty.
Qed.
