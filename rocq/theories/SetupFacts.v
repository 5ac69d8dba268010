(** Proofs about what each command gives to its host, and about the set-up of a session. *)
From Verif Require Import Base Uci MacAddress AppConfig Codec Session Device Pica Sys BaseFacts CodecSpec ContextSpec HistorySpec SessionSpec InvFacts StepFacts.
From Verif Require Import CodecFacts CommandFacts SessionFacts RangingSpec EffectFacts SysSpec SysFacts ScheduleFacts DeliveryFacts PropsContext PropsMulticast PropsSession DialogueSpec DialogueFacts.

(** ** What a command gives to its host *)
Definition eff_delays (e : list eff) : list (N * msg) := concat (map (fun x => match x with After ms m => [(ms, m)] | _ => [] end) e).
Lemma eff_delays_app e e' : eff_delays (e ++ e') = eff_delays e ++ eff_delays e'.
Proof. unfold eff_delays. by rewrite map_app, concat_app. Qed.
Lemma delays_effs h e : delays h (map (OEff h) e) = eff_delays e.
Proof. unfold delays, eff_delays. rewrite map_map. f_equal. apply map_ext. intros []; try done. cbn. by rewrite N.eqb_refl. Qed.
Lemma by_delay_sorted a b : Forall (fun x => x.1 = 1) a -> Forall (fun x => x.1 = 5) b -> by_delay (a ++ b) = a ++ b.
Proof.
  intros Fa Fb. assert (by_delay b = b) as Eb.
  { clear Fa. induction Fb as [|x b Hx Fb IH]; [done|]. cbn [by_delay]. rewrite IH. apply insert_least. eapply Forall_impl; [exact Fb|]. cbn. lia. }
  induction Fa as [|x a Hx Fa IH]; [done|]. cbn [app by_delay]. rewrite IH. apply insert_least. apply Forall_app. split; (eapply Forall_impl; [done|]); cbn; lia.
Qed.
Lemma due_run p h c p' outs d d' e m : command_run p h c p' outs d d' e m -> due h outs = m :: map snd (by_delay (eff_delays e)).
Proof.
  intros R. unfold due. rewrite (cr_sent R), (cr_outs R), delays_effs, eff_delays_app. cbn [app]. f_equal. f_equal. unfold eff_delays at 2. cbn. by rewrite app_nil_r.
Qed.
Lemma due_connect e p p' outs : step e p Connect = Ret (p', outs) ->
  due (p_counter p) outs = [CoreDeviceStatusNtf DsReady]
  /\ exists d, p_devices p' !! p_counter p = Some d /\ d_sessions d = ∅ /\ d_state d = DsReady.
Proof.
  intros S. cbn [step] in S. apply Ret_inj in S. unfold add_device, device_init in S. rewrite device_set_state_eq in S. injection S as <- <-.
  split; [unfold due, sent, delays; cbn; by rewrite N.eqb_refl|]. eexists. split; [apply lookup_insert|]. done.
Qed.
Lemma drop_delays d : (forall id s, d_sessions d !! id = Some s -> s_id s = id) ->
  exists ids, eff_delays (device_drop d) = map (fun id => (1, SessionStatusNtf id SsDeinit 0)) ids
    /\ NoDup ids /\ forall id, id ∈ ids <-> dstate d id <> SsDeinit.
Proof.
  intros K. unfold device_drop.
  assert (forall l : list (N * session), NoDup l.*1 -> (forall k s, (k, s) ∈ l -> s_id s = k) ->
    exists ids, eff_delays (concat (map (fun p => session_drop p.2) l)) = map (fun id => (1, SessionStatusNtf id SsDeinit 0)) ids
    /\ NoDup ids /\ forall id, id ∈ ids <-> exists s, (id, s) ∈ l /\ s_state s <> SsDeinit) as G.
  { induction l as [|[k s] l IH]; intros Nd Kl.
    - exists []. split_and!; [done|constructor|]. intros id. split; [by intros []%elem_of_nil|intros (? & []%elem_of_nil & _)].
    - inversion Nd as [|? ? Nk Nd']; subst. destruct IH as (ids & E & Ni & Hi); [done|intros ? ? ?; apply Kl; by right|].
      cbn [map concat]. rewrite eff_delays_app, E. rewrite session_drop_eq, eff_delays_app. cbn [snd]. rewrite (Kl k s) by left.
      replace (eff_delays (if s_task s then _ else _)) with (@nil (N * msg)) by (by destruct (s_task s)). cbn [app].
      assert (k ∉ ids) as Nk'. { intros (s' & I & _)%Hi. apply Nk, elem_of_list_fmap. by exists (k, s'). }
      case_bool_decide as B.
      + exists ids. split_and!; [done|done|]. intros id. rewrite Hi. split; intros (s' & I & N); exists s'; (split; [|done]); [by right|].
        apply elem_of_cons in I as [[= -> ->]|I]; [by destruct N|done].
      + exists (k :: ids). split_and!; [done|by constructor|]. intros id. rewrite elem_of_cons, Hi. split.
        * intros [->|(s' & I & N)]; [exists s|exists s']; split; [left|congruence|by right|done].
        * intros (s' & [[= -> ->]|I]%elem_of_cons & N); [by left|right; by exists s']. }
  destruct (G (map_to_list (d_sessions d))) as (ids & E & Ni & Hi); [apply NoDup_fst_map_to_list|intros k s I; apply K; by apply elem_of_map_to_list|].
  exists ids. split_and!; [done|done|]. intros id. rewrite Hi. unfold dstate. split.
  - intros (s & I & N). apply elem_of_map_to_list in I. by rewrite I.
  - destruct (d_sessions d !! id) as [s|] eqn:L; [|by intros []]. intros N. exists s. split; [by apply elem_of_map_to_list|done].
Qed.
Lemma due_reset e p h d packet : reachable p -> p_devices p !! h = Some d -> wf_bytes packet -> encodes (CmdDeviceReset 0) packet ->
  exists ids outs, step e p (UciPacket h packet) = Ret (p_set_device h (d_set_state DsReady (d_set_reset true (device_new (d_handle d) (d_mac d)))) p, outs)
  /\ due h outs = CoreDeviceResetRsp 0 :: map (fun id => SessionStatusNtf id SsDeinit 0) ids ++ [CoreDeviceStatusNtf DsReady]
  /\ NoDup ids /\ forall id, id ∈ ids <-> state_at p h id <> SsDeinit.
Proof.
  intros R L W E.
  rewrite (step_command e p h d (CmdDeviceReset 0)) by (done || by right).
  cbn [handle_command]. rewrite core_reset_eq. cbn [obind wire msg_payload mbind option_bind].
  destruct (drop_delays d) as (ids & Ed & Ni & Hi).
  { intros id s Ls. apply (so_id _ _ (di_session _ _ (reachable_dinv _ _ _ R L) _ _ Ls)). }
  exists ids. eexists. split; [reflexivity|]. split; [|split; [done|]].
  - unfold due. rewrite sent_effs, effs_at_same, !eff_sent_app, (eff_sent_none (device_drop d)) by apply no_send_device_drop. rewrite delays_effs, !eff_delays_app, Ed.
    rewrite <- !app_assoc. rewrite by_delay_sorted.
    + rewrite map_app, map_map. done.
    + apply Forall_map, Forall_forall. done.
    + by repeat constructor.
  - intros id. rewrite Hi. unfold state_at, session_at. by rewrite L.
Qed.
Lemma due_init p h d id ty p' outs : commanded p h (CmdSessionInit id ty) p' outs -> p_devices p !! h = Some d -> (size (d_sessions d) < 255)%nat ->
  d_sessions d !! id = None ->
  due h outs = [SessionInitRsp 0; SessionStatusNtf id SsInit 0] /\ p_devices p' !! h = Some (d_set_sessions (<[id := s_set_state SsInit (session_new id ty)]> (d_sessions d)) d).
Proof.
  intros C L Sz N. destruct (commanded_inv _ _ _ _ _ C) as (d0 & d' & e & m & R).
  pose proof (cr_dev R) as L'. rewrite L in L'. injection L' as <-. rewrite (due_run _ _ _ _ _ _ _ _ _ R), (cr_lookup R), bool_decide_true by done.
  pose proof (cr_handle R) as H. cbn [handle_command] in H. unfold session_init, MAX_SESSION in H.
  destruct (Nat.leb_spec 255 (size (d_sessions d))) as [Hl|_]; [lia|].
  rewrite N in H. unfold session_init_state in H. rewrite session_set_state_eq in H. apply Ret_inj in H. injection H as <- <- <-. done.
Qed.
Lemma due_config p h d s id l c p' outs : commanded p h (CmdSetAppConfig id l) p' outs -> p_devices p !! h = Some d -> d_sessions d !! id = Some s ->
  s_state s = SsInit -> sets_all (s_cfg s) l c [] -> configured c ->
  due h outs = [SessionSetAppConfigRsp 0 []; SessionStatusNtf id SsIdle 0]
  /\ p_devices p' !! h = Some (d_set_sessions (<[id := s_set_state SsIdle (s_set_cfg c s)]> (d_sessions d)) d).
Proof.
  intros C L Ls Si Sa Cf. destruct (commanded_inv _ _ _ _ _ C) as (d0 & d' & e & m & R).
  pose proof (cr_dev R) as L'. rewrite L in L'. injection L' as <-. rewrite (due_run _ _ _ _ _ _ _ _ _ R), (cr_lookup R), bool_decide_true by done.
  pose proof (so_id _ _ (di_session _ _ (cr_dinv R) _ _ Ls)) as Hid.
  pose proof (cr_handle R) as H. cbn [handle_command] in H. unfold session_set_app_config in H. rewrite Ls in H.
  destruct (negb _); [discriminate|]. rewrite Si in H. cbn [bool_decide decide_rel andb negb] in H.
  rewrite (bool_decide_false (SsInit = SsActive)), (bool_decide_true (SsInit = SsInit)) in H by done. cbn [andb negb] in H.
  destruct (set_tlvs (s_cfg s) l []) as [[c' inv]|] eqn:St; [|discriminate]. cbn [obind] in H.
  apply sets_all_spec in St as (r & -> & Sa'). cbn [app] in H.
  destruct (sets_all_fun _ _ _ _ _ _ Sa Sa') as [<- <-]. apply configured_spec in Cf. rewrite Cf in H.
  rewrite session_set_state_eq in H. cbn [s_state s_set_cfg s_id] in H. rewrite Si, Hid in H.
  rewrite (bool_decide_true (SsInit = SsInit)), (bool_decide_false (SsIdle = SsInit)) in H by done.
  apply Ret_inj in H. injection H as <- <- <-. done.
Qed.
Lemma due_start p h d s id p' outs : commanded p h (CmdStart id) p' outs -> p_devices p !! h = Some d -> d_sessions d !! id = Some s -> s_state s = SsIdle ->
  due h outs = [SessionStartRsp 0; SessionStatusNtf id SsActive 0] ++ device_change p p' h /\ device_state_at p' h = Some DsActive.
Proof.
  intros C L Ls Si. destruct (commanded_inv _ _ _ _ _ C) as (d0 & d' & e & m & R).
  pose proof (cr_dev R) as L'. rewrite L in L'. injection L' as <-. unfold device_change. rewrite (due_run _ _ _ _ _ _ _ _ _ R), (cr_devstate R), (cr_devstate' R).
  pose proof (so_id _ _ (di_session _ _ (cr_dinv R) _ _ Ls)) as Hid.
  pose proof (cr_handle R) as H. cbn [handle_command] in H. unfold session_start in H. rewrite Ls in H. rewrite (bool_decide_true (s_state s = SsIdle)) in H by done. cbn [negb] in H.
  destruct (s_task s); [discriminate|]. rewrite session_set_state_eq, device_set_state_eq in H. apply Ret_inj in H. injection H as <- <- <-. cbn [s_state s_set_task s_id]. rewrite Si, Hid.
  rewrite (bool_decide_false (SsActive = SsIdle)) by done. cbn [d_state d_set_active d_set_sessions d_set_state].
  split; [|done]. by destruct (bool_decide (DsActive = d_state d)).
Qed.
Lemma dec_change d : d_state d = DsActive -> 
  map snd (eff_delays (if (d_active d - 1 =? 0) && negb (bool_decide (DsReady = d_state d)) then [After 5 (CoreDeviceStatusNtf DsReady)] else []))
  = (if bool_decide ((if d_active d - 1 =? 0 then DsReady else d_state d) = d_state d) then [] else [CoreDeviceStatusNtf (if d_active d - 1 =? 0 then DsReady else d_state d)]).
Proof. intros ->. by destruct (_ =? 0). Qed.
Lemma dec_delays (b : bool) : Forall (fun x => x.1 = 5) (eff_delays (if b then [After 5 (CoreDeviceStatusNtf DsReady)] else [])).
Proof. destruct b; repeat constructor. Qed.
Lemma active_device p h d s id : reachable p -> p_devices p !! h = Some d -> d_sessions d !! id = Some s -> s_state s = SsActive -> d_state d = DsActive.
Proof.
  intros Re L Ls Si. assert (device_state_at p h = Some DsActive) as E; [|unfold device_state_at in E; rewrite L in E; by injection E].
  eapply C27_active; [done|]. unfold state_at, session_at. rewrite L. cbn. rewrite Ls. exact Si.
Qed.
Lemma due_stop p h d s id p' outs : commanded p h (CmdStop id) p' outs -> p_devices p !! h = Some d -> d_sessions d !! id = Some s -> s_state s = SsActive ->
  due h outs = [SessionStopRsp 0; SessionStatusNtf id SsIdle 0] ++ device_change p p' h.
Proof.
  intros C L Ls Si. destruct (commanded_inv _ _ _ _ _ C) as (d0 & d' & e & m & R).
  pose proof (cr_dev R) as L'. rewrite L in L'. injection L' as <-. unfold device_change. rewrite (due_run _ _ _ _ _ _ _ _ _ R), (cr_devstate R), (cr_devstate' R).
  pose proof (so_id _ _ (di_session _ _ (cr_dinv R) _ _ Ls)) as Hid. pose proof (active_device _ _ _ _ _ (proj1 C) L Ls Si) as Da.
  pose proof (cr_handle R) as H. cbn [handle_command] in H. unfold session_stop in H. rewrite Ls in H. rewrite (bool_decide_true (s_state s = SsActive)) in H by done. cbn [negb] in H.
  pose proof (so_active _ _ (di_session _ _ (cr_dinv R) _ _ Ls) Si) as T.
  rewrite stop_ranging_task_eq, session_set_state_eq in H.
  destruct (device_dec_active _) as [[d1 e1]|] eqn:Dc; [|discriminate]. cbn [obind] in H.
  apply dec_active_inv in Dc as (Pos & -> & ->).
  apply Ret_inj in H. injection H as <- <- <-. cbn [s_state s_set_task s_id d_active d_state d_set_sessions d_set_state d_set_active] in *. rewrite Si, Hid, T.
  rewrite (bool_decide_false (SsIdle = SsActive)) by done. rewrite !eff_delays_app. cbn [app].
  change (eff_delays [AbortRanging id]) with (@nil (N * msg)). cbn [app].
  rewrite by_delay_sorted, map_app, dec_change; [done|done|by repeat constructor|apply dec_delays].
Qed.
Lemma due_deinit p h d s id p' outs : commanded p h (CmdSessionDeinit id) p' outs -> p_devices p !! h = Some d -> d_sessions d !! id = Some s -> s_state s <> SsDeinit ->
  due h outs = [SessionDeinitRsp 0; SessionStatusNtf id SsDeinit 0] ++ device_change p p' h.
Proof.
  intros C L Ls Si. destruct (commanded_inv _ _ _ _ _ C) as (d0 & d' & e & m & R).
  pose proof (cr_dev R) as L'. rewrite L in L'. injection L' as <-. unfold device_change. rewrite (due_run _ _ _ _ _ _ _ _ _ R), (cr_devstate R), (cr_devstate' R).
  pose proof (so_id _ _ (di_session _ _ (cr_dinv R) _ _ Ls)) as Hid.
  pose proof (cr_handle R) as H. cbn [handle_command] in H. unfold session_deinit in H. rewrite Ls in H.
  rewrite session_drop_eq, Hid, (bool_decide_false (SsDeinit = s_state s)) in H by congruence.
  case_bool_decide as A.
  - pose proof (active_device _ _ _ _ _ (proj1 C) L Ls A) as Da.
    destruct (device_dec_active _) as [[d1 e1]|] eqn:Dc; [|discriminate]. cbn [obind] in H.
    apply dec_active_inv in Dc as (Pos & -> & ->). apply Ret_inj in H. injection H as <- <- <-.
    cbn [d_active d_state d_set_sessions d_set_state d_set_active]. rewrite Da.
    rewrite (bool_decide_false (DsReady = DsActive)) by done. cbn [negb]. rewrite andb_true_r.
    destruct (d_active d - 1 =? 0); by destruct (s_task s).
  - cbn [obind] in H. apply Ret_inj in H. injection H as <- <- <-. cbn [d_state d_set_sessions]. rewrite bool_decide_true by done. by destruct (s_task s).
Qed.

(** ** What the other commands do to a device without an active session *)
Lemma due_effs h outs : due h outs = eff_sent (effs_at h outs) ++ map snd (by_delay (eff_delays (effs_at h outs))).
Proof.
  unfold due. rewrite sent_effs. f_equal. f_equal. f_equal. unfold delays, eff_delays, effs_at. induction outs as [|o outs IH]; [done|]. cbn [map concat].
  rewrite map_app, concat_app, IH. f_equal. destruct o as [k x| | |]; try done. unfold delay_to, effs_of. destruct (k =? h); destruct x; done.
Qed.
Lemma effs_at_none h outs : (forall x, ~ In (OEff h x) outs) -> effs_at h outs = [].
Proof.
  unfold effs_at. induction outs as [|o outs IH]; intros N; [done|]. cbn [map concat]. rewrite IH by (intros x I; apply (N x); by right). rewrite app_nil_r.
  destruct o as [k x| | |]; try done. unfold effs_of. destruct (N.eqb_spec k h) as [->|?]; [|done]. destruct (N x). by left.
Qed.
Definition idle_device (d : device) : Prop := forall id s, d_sessions d !! id = Some s -> s_state s <> SsActive.
Lemma peer_loop_receives estimate devices h d s id order ms peers : peer_loop estimate devices h d s id order = Ret (ms, peers) ->
  Forall (fun k => exists d, devices !! k = Some d /\ can_receive_data_transfer d id = true) peers.
Proof.
  revert ms peers. induction order as [|k order IH]; intros ms peers E; cbn [peer_loop] in E; [apply Ret_inj in E; injection E as <- <-; constructor|].
  destruct (devices !! k) as [peer|] eqn:L; [|by eapply IH]. destruct (d_handle peer =? h); [by eapply IH|].
  destruct (peer_measurement _ _ _ _ _) as [r|]; [|discriminate]. cbn [obind] in E. destruct (peer_loop _ _ _ _ _ _ order) as [[ms1 ps1]|]; [|discriminate]. cbn [obind] in E.
  specialize (IH _ _ eq_refl). destruct r as [[]|x]; apply Ret_inj in E; injection E as <- <-; try done.
  all: destruct (can_start_data_transfer _ _); cbn [andb]; [|done]; destruct (can_receive_data_transfer peer id) eqn:C; [|done]; constructor; eauto.
Qed.
Lemma frame_idle e p o p' outs h d : reachable p -> step e p o = Ret (p', outs) -> p_devices p !! h = Some d -> idle_device d ->
  packet_of h o = [] -> (forall id, o <> Ranging h id) -> o <> Disconnect h ->
  p_devices p' !! h = Some d /\ effs_at h outs = [].
Proof.
  intros Re S L Id Np Nr Nd. pose proof (reachable_pinv _ Re) as Pi. destruct (pi_device _ _ Pi _ _ L) as (_ & _ & _ & Lt).
  assert (match o with Ranging _ _ | StopRanging _ _ | UciPacket _ _ => False | _ => True end -> subject p o <> Some h -> p_devices p' !! h = Some d /\ effs_at h outs = []) as Env.
  { intros O N. destruct (C38_environment _ _ _ _ _ _ S O N) as [E1 E2]. rewrite E1. split; [done|]. by apply effs_at_none. }
  destruct o as [|k|k id|m id|k packet|m|m|k]; try (by apply Env).
  - apply Env; [done|]. cbn. intros E. injection E as E. lia.
  - apply Env; [done|]. cbn. intros E. injection E as E. congruence.
  - assert (h <> k) as Ne by (intros <-; by destruct (Nr id)).
    cbn [step] in S. apply ranging_inv in S as (dk & s & ms1 & ms2 & peers & o1 & o2 & s' & Lk & Ls & _ & Lp & Sd & Si & -> & ->). cbn. rewrite lookup_insert_ne by done. split; [done|].
    rewrite effs_at_app. replace (effs_at h o2) with (@nil eff).
    2:{ apply send_info_session in Si as [(_ & _ & ->)|(_ & _ & _ & _ & -> & _)]; [done|]. unfold effs_at. cbn. apply not_eq_sym, N.eqb_neq in Ne. by rewrite Ne. }
    rewrite app_nil_r. apply effs_at_none. intros x I. apply send_data_outs in Sd as (m & _ & -> & _). apply in_map_iff in I as (j & [= -> _] & I).
    apply peer_loop_receives in Lp. rewrite List.Forall_forall in Lp. destruct (Lp _ I) as (d0 & L0 & C). rewrite L in L0. injection L0 as <-.
    unfold can_receive_data_transfer in C. destruct (d_sessions d !! id) as [s0|] eqn:Ls0; [|discriminate]. case_bool_decide as A; [|discriminate]. by destruct (Id _ _ Ls0).
  - cbn [step] in S. apply Ret_inj in S. assert (stop_controlee m id d = (d, [])) as E. { apply stop_controlee_none. intros s Ls [A _]. by destruct (Id _ _ Ls). }
    pose proof (stop_effs e p m id h) as Es. rewrite S in Es. cbn [snd] in Es. rewrite Es, L, E. split; [|done].
    unfold stop_controlee_ranging in S. injection S as <- _. cbn. rewrite lookup_fmap, L. cbn [fmap option_fmap option_map]. by rewrite E.
  - assert (h <> k) as Ne. { intros <-. cbn in Np. by rewrite N.eqb_refl in Np. }
    destruct (C38_packet _ _ _ _ _ _ S) as (E1 & _ & _ & _ & E2). rewrite E1 by done. split; [done|]. apply effs_at_none. intros x I. destruct (E2 _ I) as [? [=]]. congruence.
Qed.
Lemma frame_none e p o p' outs h : reachable p -> step e p o = Ret (p', outs) -> p_devices p !! h = None -> packet_of h o = [] ->
  (o = Connect -> h <> p_counter p) -> p_devices p' !! h = None /\ effs_at h outs = [].
Proof.
  intros Re S L Np Nc. assert (o = Connect \/ o <> Connect) as [->|Nc'] by (destruct o; by (left + right)).
  - destruct (C38_environment _ _ _ _ _ h S I) as [E1 E2]; [cbn; intros E; injection E as E; by destruct (Nc eq_refl)|]. rewrite E1. split; [done|]. by apply effs_at_none.
  - pose proof (step_known _ _ _ _ _ S Nc') as K. split.
    2:{ apply effs_at_none. intros x I. rewrite List.Forall_forall in K. destruct (K _ I) as [d E]. congruence. }
    assert (match o with Ranging _ _ | StopRanging _ _ | UciPacket _ _ => False | _ => True end -> subject p o <> Some h -> p_devices p' !! h = None) as Env.
    { intros O N. destruct (C38_environment _ _ _ _ _ _ S O N) as [E1 E2]. by rewrite E1. }
    destruct o as [|k|k id|m id|k packet|m|m|k]; try (by apply Env); try done.
    + destruct (N.eq_dec h k) as [<-|Ne]; [|apply Env; [done|]; cbn; congruence]. cbn [step] in S. apply Ret_inj in S. unfold disconnect in S. rewrite L in S. by injection S as <- _.
    + cbn [step] in S. apply ranging_inv in S as (dk & s & ms1 & ms2 & peers & o1 & o2 & s' & Lk & Ls & _ & Lp & Sd & Si & -> & ->). cbn. rewrite lookup_insert_ne by congruence. done.
    + cbn [step] in S. apply Ret_inj in S. unfold stop_controlee_ranging in S. injection S as <- _. cbn. by rewrite lookup_fmap, L.
    + assert (h <> k) as Ne. { intros <-. cbn in Np. by rewrite N.eqb_refl in Np. } destruct (C38_packet _ _ _ _ _ _ S) as (E1 & _). by rewrite E1.
Qed.

(** ** The set-up of a session *)
Lemma packets_snoc h l e o : packets h (l ++ [(e, o)] : list (env * op)).*2 = packets h l.*2 ++ packet_of h o.
Proof. rewrite fmap_app, packets_app. f_equal. unfold packets. cbn. by rewrite app_nil_r. Qed.
Lemma in_packets h (l : list (env * op)) e packet : In (e, UciPacket h packet) l -> In packet (packets h l.*2).
Proof.
  induction l as [|[e' o] l IH]; [done|]. intros [E|I].
  - injection E as -> ->. unfold packets. cbn. rewrite N.eqb_refl. by left.
  - unfold packets. cbn. apply in_or_app. right. by apply IH.
Qed.
Lemma encodes_start_group c id packet : encodes c packet -> encodes (CmdStart id) packet -> cmd_gid c = 2.
Proof. intros (a & o & r1 & r2 & -> & _ & G & _) (a' & o' & r1' & r2' & E & _ & G' & _). injection E as -> _ _ _ _. by rewrite <- G, G'. Qed.

(** A ranging task of [h] exists only if a session was started. *)
Lemma no_round ls y h : executed ls y -> forall l1 l2, processed ls sys_new = l1 ++ l2 -> (forall id, no_start h id l1) ->
  forall e id, ~ In (e, Ranging h id) l1.
Proof.
  revert ls y. refine (executed_ind _ _ _).
  - intros l1 l2 E _ e id. destruct l1; [by intros []|discriminate].
  - intros ls y l y' Ex IH W Cr M S l1 l2 E Ns e id I. rewrite (processed_snoc _ _ _ _ _ (proj2 Ex) S) in E.
    assert (taken l y = [] \/ exists x, taken l y = [x]) as [T|[x T]].
    { destruct l; cbn; eauto. destruct (y_queue y); eauto. destruct (crashed _); eauto. }
    { rewrite T, app_nil_r in E. exact (IH _ _ E Ns _ _ I). }
    rewrite T in E. destruct l2 as [|z l2 _] using rev_ind.
    2:{ rewrite app_assoc in E. apply app_inj_tail in E as [E _]. exact (IH _ _ E Ns _ _ I). }
    rewrite app_nil_r in E. subst l1. apply in_app_or in I as [I|I].
    { eapply (IH (processed ls sys_new) []); [by rewrite app_nil_r| |exact I]. intros id'. specialize (Ns id'). by apply no_start_app in Ns as [? _]. }
    destruct I as [->|[]]. specialize (Ns id). apply no_start_app in Ns as [Ns _].
    destruct (quiet_run [] sys_new ls y h id) as (_ & _ & P); [by split|exact Ex|done|done|done|].
    destruct l; cbn in T; try discriminate. destruct (y_queue y) as [|o q] eqn:Q; [discriminate|]. destruct (crashed _); [discriminate|]. injection T as -> ->.
    unfold potential, queued_rounds in P. rewrite Q in P. cbn in P. rewrite !N.eqb_refl in P. cbn in P. lia.
Qed.
Lemma gone_mono h y l y' : moved y l y' -> gone h y -> gone h y'.
Proof.
  unfold gone. intros M G. destruct M; try done.
  - cbn. by apply (step_closed _ _ _ _ _ H1).
  - destruct (perform_fields o (y_set_todo todo y)) as (-> & _). done.
  - destruct (deliver_fields (n_host n) (n_msg n) (y_set_delayed (delete i (y_delayed y)) y)) as (-> & _). done.
  - cbn. set_solver.
  - cbn. set_solver.
Qed.
Lemma no_disconnect ls y h : executed ls y -> ~ gone h y -> forall e, ~ In (e, Disconnect h) (processed ls sys_new).
Proof.
  revert ls y. refine (executed_ind _ _ _).
  - intros _ e [].
  - intros ls y l y' Ex IH W Cr M S G e I. rewrite (processed_snoc _ _ _ _ _ (proj2 Ex) S) in I.
    assert (~ gone h y) as G' by (intros ?; apply G; by eapply gone_mono).
    apply in_app_or in I as [I|I]; [by eapply IH|]. apply G'. apply (ci_gone _ (executed_cinv _ _ Ex)). right.
    apply (ci_disc _ (executed_cinv _ _ Ex)). destruct l; cbn in I; try (by destruct I as [[=]|[]]); try done.
    destruct (y_queue y) as [|o q] eqn:Q; [done|]. destruct (crashed _); [done|]. destruct I as [I|[]]. injection I as _ ->. left.
Qed.
Section Setup.
  Context (h id ty : N) (l : list (tlv_id * bytes)) (cfg : app_config) (r i c : bytes).
  Context (Er : encodes (CmdDeviceReset 0) r) (Ei : encodes (CmdSessionInit id ty) i) (Ec : encodes (CmdSetAppConfig id l) c).
  Context (Wi : wf_cmd (CmdSessionInit id ty)) (Wc : wf_cmd (CmdSetAppConfig id l)).
  Context (Sa : sets_all default_app_config l cfg []) (Cf : configured cfg).

  (** The device when its host has sent the packets [ps] and is due [ms]. *)
  Definition stage (d : device) (ps : list bytes) (ms : list msg) : Prop :=
    d_state d = DsReady /\
    match length ps with
    | 0%nat => d_sessions d = ∅ /\ ms = take 1 (set_up id)
    | 1%nat => d_is_reset d = true /\ d_sessions d = ∅ /\ ms = take 3 (set_up id)
    | 2%nat => d_is_reset d = true /\ d_sessions d = {[ id := s_set_state SsInit (session_new id ty) ]} /\ ms = take 5 (set_up id)
    | _ => d_is_reset d = true /\ ms = set_up id /\ d_sessions d = {[ id := s_set_state SsIdle (s_set_cfg cfg (session_new id ty)) ]}
    end.
  Lemma stage_idle d ps ms : stage d ps ms -> idle_device d.
  Proof.
    intros [_ H] id' s Ls. assert (forall s0, d_sessions d = {[ id := s0 ]} -> s_state s0 <> SsActive -> s_state s <> SsActive) as One.
    { intros s0 E N. rewrite E in Ls. apply lookup_singleton_Some in Ls as [_ <-]. done. }
    destruct (length ps) as [|[|[|n]]].
    - destruct H as [E _]. by rewrite E, lookup_empty in Ls.
    - destruct H as (_ & E & _). by rewrite E, lookup_empty in Ls.
    - destruct H as (_ & E & _). by eapply One.
    - destruct H as (_ & _ & E). by eapply One.
  Qed.
  Definition proper (lst : list (env * op)) : Prop :=
    (forall l1 e packet l2 p1 o1, lst = l1 ++ (e, UciPacket h packet) :: l2 -> run pica_new l1 = Ret (p1, o1) -> connected p1 h)
    /\ (forall l1 l2, lst = l1 ++ l2 -> (forall id', no_start h id' l1) -> forall e id', ~ In (e, Ranging h id') l1)
    /\ (forall e, ~ In (e, Disconnect h) lst).
  Lemma proper_snoc lst x : proper (lst ++ [x]) -> proper lst.
  Proof.
    intros (P1 & P2 & P3). split_and!.
    - intros l1 e packet l2 p1 o1 E. apply (P1 l1 e packet (l2 ++ [x])). by rewrite E, <- app_assoc.
    - intros l1 l2 E. apply (P2 l1 (l2 ++ [x])). by rewrite E, app_assoc.
    - intros e I. apply (P3 e). apply in_or_app. by left.
  Qed.
  Lemma prefix_no_start (lst : list (env * op)) : packets h lst.*2 `prefix_of` [r; i; c] -> forall id', no_start h id' lst.
  Proof.
    intros [k E] id' e packet I En. apply in_packets in I. assert (In packet [r; i; c]) as [<-|[<-|[<-|[]]]] by (rewrite E; apply in_or_app; by left).
    - by pose proof (encodes_start_group _ _ _ Er En).
    - by pose proof (encodes_start_group _ _ _ Ei En).
    - by pose proof (encodes_start_group _ _ _ Ec En).
  Qed.
  Lemma setup_stage lst p outs : reaches lst p outs -> proper lst -> packets h lst.*2 `prefix_of` [r; i; c] ->
    match p_devices p !! h with
    | None => packets h lst.*2 = [] /\ concat (map (due h) (outputs pica_new lst)) = []
    | Some d => stage d (packets h lst.*2) (concat (map (due h) (outputs pica_new lst)))
    end.
  Proof.
    revert lst p outs. refine (reaches_ind _ _ _); [done|]. intros lst p outs e o p' outs' Re IH We Wo S Pr Px.
    assert (reachable p) as Rp by (by eexists _, _).
    rewrite (outputs_snoc _ _ _ _ _ _ _ _ (proj2 Re) S), (map_app (due h)), concat_app. cbn [map concat]. rewrite app_nil_r.
    pose proof (prefix_no_start _ Px) as Ns. rewrite packets_snoc in Px |- *.
    specialize (IH (proper_snoc _ _ Pr)). specialize (IH (transitivity (prefix_app_r _ _ _ (reflexivity _)) Px)).
    destruct Pr as (P1 & P2 & P3).
    destruct (packet_of h o) as [|packet []] eqn:Po; [| |destruct o; cbn in Po; try discriminate; by destruct (_ =? h)].
    - (* not a packet of the host *) rewrite app_nil_r. destruct (p_devices p !! h) as [d|] eqn:L.
      + destruct (frame_idle _ _ _ _ _ _ _ Rp S L) as [E1 E2]; [by eapply stage_idle|done| | |].
        * intros id' ->. apply (P2 (lst ++ [(e, Ranging h id')]) [] (eq_sym (app_nil_r _)) Ns e id'). apply in_or_app. right. by left.
        * intros ->. apply (P3 e). apply in_or_app. right. by left.
        * rewrite E1. rewrite due_effs, E2. cbn. by rewrite app_nil_r.
      + destruct IH as [E1 E2]. rewrite E1, E2. assert ((o = Connect /\ h = p_counter p) \/ (o = Connect -> h <> p_counter p)) as [[-> Eh]|Nc].
        { destruct (N.eq_dec h (p_counter p)); destruct o; auto; right; by intros. }
        * rewrite Eh. destruct (due_connect _ _ _ _ S) as (Ed & d & Ld & Es & Et). rewrite Ld, Ed. done.
        * destruct (frame_none _ _ _ _ _ h Rp S L Po Nc) as [E3 E4]. rewrite E3, due_effs, E4. done.
    - (* a packet *) assert (o = UciPacket h packet) as ->.
      { destruct o; cbn in Po; try discriminate. destruct (N.eqb_spec h0 h) as [->|]; [|discriminate]. by injection Po as ->. }
      destruct (P1 lst e packet [] p outs eq_refl (proj2 Re)) as [d L]. rewrite L in IH. destruct IH as [Ds IH]. cbn [wf_op] in Wo.
      destruct Px as [k Px]. remember (packets h lst.*2) as ps eqn:Eps. clear Eps.
      destruct ps as [|p1 [|p2 [|p3 [|p4 ps]]]]; cbn in IH, Px; [| | |exfalso; by injection Px as _ _ _ Px|exfalso; by injection Px as _ _ _ Px].
      + (* reset *) injection Px as <- _. destruct IH as [Es Em]. destruct (due_reset e p h d r Rp L Wo Er) as (ids & outs1 & S1 & Ed & _ & Hi).
        rewrite S1 in S. apply Ret_inj in S. injection S as <- <-. cbn. rewrite lookup_insert. rewrite Ed, Em.
        assert (ids = []) as ->. { destruct ids as [|j ids]; [done|]. exfalso. apply (proj1 (Hi j)); [by left|]. unfold state_at, session_at. rewrite L. cbn. by rewrite Es, lookup_empty. }
        done.
      + (* init *) injection Px as <- <- _. destruct IH as (Hr & Es & Em).
        assert (commanded p h (CmdSessionInit id ty) p' outs') as C. { split_and!; [done|by exists d|done|]. by exists e, i. }
        destruct (due_init _ _ d _ _ _ _ C L) as [Ed Ld]; [by rewrite Es, map_size_empty; lia|by rewrite Es, lookup_empty|].
        rewrite Ld, Ed, Em, Es. cbn. done.
      + (* configuration *) injection Px as <- <- <- _. destruct IH as (Hr & Es & Em).
        assert (commanded p h (CmdSetAppConfig id l) p' outs') as C. { split_and!; [done|by exists d|done|]. by exists e, c. }
        destruct (due_config _ _ d _ _ _ cfg _ _ C L ltac:(rewrite Es; apply lookup_singleton)) as [Ed Ld]; [done|exact Sa|done|].
        rewrite Ld, Ed, Em, Es. cbn. split; [done|]. split; [done|]. split; [done|]. by rewrite insert_singleton.
  Qed.
  (** With a start. *)
  Lemma setup_start lst p outs s more : reaches lst p outs -> proper lst -> encodes (CmdStart id) s -> wf_cmd (CmdStart id) ->
    packets h lst.*2 = r :: i :: c :: s :: more ->
    exists rest, concat (map (due h) (outputs pica_new lst)) =
      set_up id ++ started_up id ++ rest.
  Proof.
    intros Re Pr Es Ws. revert lst p outs Re more Pr. refine (reaches_ind _ _ _); [done|]. intros lst p outs e o p' outs' Re IH We Wo S more Pr Px.
    assert (reachable p) as Rp by (by eexists _, _).
    rewrite (outputs_snoc _ _ _ _ _ _ _ _ (proj2 Re) S), map_app, concat_app. cbn [map concat]. rewrite app_nil_r.
    rewrite packets_snoc in Px. pose proof (proper_snoc _ _ Pr) as Pr'.
    assert (packets h lst.*2 = [r; i; c] /\ packet_of h o = s :: more \/ exists more', packets h lst.*2 = r :: i :: c :: s :: more') as [[E1 E2]|[more' E]].
    { destruct (packet_of h o) as [|packet []] eqn:Po; [right; exists more; by rewrite <- Px, app_nil_r| |destruct o; cbn in Po; try discriminate; by destruct (_ =? h)].
      destruct more as [|z more _] using rev_ind.
      - left. change (r :: i :: c :: [s]) with ([r; i; c] ++ [s]) in Px. apply app_inj_tail in Px as [-> ->]. done.
      - right. exists more. change (r :: i :: c :: s :: more ++ [z]) with ((r :: i :: c :: s :: more) ++ [z]) in Px. by apply app_inj_tail in Px as [-> _]. }
    - pose proof (setup_stage _ _ _ Re Pr') as St. rewrite E1 in St. specialize (St (reflexivity _)).
      assert (o = UciPacket h s /\ more = []) as [-> ->].
      { destruct o; cbn in E2; try discriminate. destruct (N.eqb_spec h0 h) as [->|]; [|discriminate]. by injection E2 as -> ->. }
      destruct Pr as (P1 & _). destruct (P1 lst e s [] p outs eq_refl (proj2 Re)) as [d L]. rewrite L in St. destruct St as (Ds & Hr & Em & Ess).
      assert (commanded p h (CmdStart id) p' outs') as C. { split_and!; [done|by exists d|done|]. by exists e, s. }
      destruct (due_start _ _ d _ _ _ _ C L ltac:(rewrite Ess; apply lookup_singleton)) as [Ed Da]; [done|]. exists []. rewrite Em, Ed. unfold device_change. rewrite Da.
      unfold device_state_at. rewrite L. cbn [fmap option_fmap option_map]. by rewrite Ds.
    - destruct (IH _ Pr' E) as [rest ->]. exists (rest ++ due h outs'). by rewrite <- !app_assoc.
  Qed.
End Setup.
Lemma executed_proper ls y h : executed ls y -> ~ gone h y -> proper h (processed ls sys_new).
Proof.
  intros Ex G. split_and!.
  - intros l1 e packet l2 p1 o1 E R. by eapply packets_connected.
  - intros l1 l2 E Ns. by eapply no_round.
  - by eapply no_disconnect.
Qed.
Lemma settled_run h id ty l cfg r i c ls y : encodes (CmdDeviceReset 0) r -> encodes (CmdSessionInit id ty) i -> encodes (CmdSetAppConfig id l) c ->
  wf_cmd (CmdSessionInit id ty) -> wf_cmd (CmdSetAppConfig id l) -> sets_all default_app_config l cfg [] -> configured cfg ->
  executed ls y -> along (calm h) ls sys_new -> along (orderly h) ls sys_new -> along (timely h) ls sys_new -> along (lockstep h) ls sys_new -> along (in_turn h) ls sys_new -> ~ gone h y -> settled h y ->
  (packets_read h ls = [r; i; c] -> delivered h y = set_up id /\ exists s, session_at (y_pica y) h id = Some s /\ s_state s = SsIdle /\ s_type s = ty /\ s_cfg s = cfg)
  /\ (forall s more, encodes (CmdStart id) s -> wf_cmd (CmdStart id) -> packets_read h ls = r :: i :: c :: s :: more ->
       exists rest, delivered h y = set_up id ++ started_up id ++ rest).
Proof.
  intros Er Ei Ec Wi Wc Sa Cf Ex A1 A0 A2 A3 A4 G (Cr & Pq & Ar1 & Ar2). destruct (executed_sinv _ _ Ex) as (outs & I). pose proof (si_reach _ _ _ I) as Re.
  destruct (dialogue _ _ _ Ex A1 A0 A2 (lockstep_unhurried _ _ _ Ex A3 A4) G) as (rest & E & Er0). rewrite Ar1, Ar2 in Er0. symmetry in Er0. apply Permutation_nil in Er0 as ->. rewrite app_nil_r in E.
  pose proof (executed_proper _ _ _ Ex G) as Pr. rewrite <- (packets_in_order _ _ h Ex Cr), Pq, app_nil_r. split.
  - intros Pk. pose proof (setup_stage h id ty l cfg r i c Er Ei Ec Wi Wc Sa Cf _ _ _ Re Pr) as St. rewrite Pk, <- E in St. specialize (St (reflexivity _)).
    destruct (p_devices (y_pica y) !! h) as [d|] eqn:L; [|by destruct St]. destruct St as (_ & _ & Em & Es). split; [done|].
    eexists. split; [unfold session_at; rewrite L; cbn; rewrite Es; apply lookup_singleton|]. done.
  - intros s more Es Ws Pk. rewrite E. by eapply setup_start.
Qed.
