(** C23-C29: sessions. *)
From Verif Require Import Base Uci MacAddress AppConfig Codec Session Device Pica.
From Verif Require Import BaseFacts AppConfigSpec AppConfigFacts CodecSpec CodecFacts ContextSpec InvFacts StepFacts CommandFacts Demo SessionSpec SessionFacts.

(** ** C23. [state_at] is the state of a session, DEINIT if it does not exist; [transition] is
    the table of transitions; [status_ntfs] are the SESSION_STATUS_NTFs of this session to the
    host of [h] (ContextSpec.v). *)
(** Whatever the command processed: *)
Theorem C23_step : forall e p o p' outs h id,
  reachable p -> wf_op o -> step e p o = Ret (p', outs) ->
  (state_at p' h id = state_at p h id /\ status_ntfs h id outs = [])
  \/ (state_at p' h id <> state_at p h id
      /\ exists reason, transition (state_at p h id) (state_at p' h id) reason
         /\ status_ntfs h id outs = [(state_at p' h id, reason)]).
Proof.
  intros e p o p' outs h id R W S.
  destruct (step_hstep _ _ _ _ _ _ h (reachable_pinv _ R) W S) as ([T _] & _).
  destruct (T id) as (r & E & Tr). rewrite status_ntfs_effs, !state_ostate, E.
  case_bool_decide as Eq; [by left|]. right. split; [congruence|]. exists r. auto.
Qed.
Print Assumptions C23_step.
(** Over a whole history, the notifications received by a host replay the states of each of
    its sessions. *)
Theorem C23_history : forall l p outs h id,
  reaches l p outs -> follows SsDeinit (status_ntfs h id outs) (state_at p h id).
Proof.
  intros l p outs h id. revert l p outs. apply (reaches_ind (fun l p outs => follows SsDeinit (status_ntfs h id outs) (state_at p h id))).
  - apply FNil.
  - intros l p outs e o p' outs' R IH _ W S.
    rewrite !status_ntfs_effs in *. rewrite effs_at_app, eff_status_app, <- (status_ntfs_effs h id outs').
    destruct (C23_step _ _ _ _ _ h id (ex_intro _ l (ex_intro _ outs R)) W S) as [[-> ->]|(N & r & T & ->)].
    + by rewrite app_nil_r.
    + eapply FSnoc; [exact IH|congruence|done].
Qed.
Print Assumptions C23_history.
Example C23_example :
  reachable (state_after active) /\ status_ntfs 0 7 (outs_after (active ++ [cmd 0 (CmdStop 7); cmd 0 (CmdSessionDeinit 7)]))
    = [(SsInit, 0); (SsIdle, 0); (SsActive, 0); (SsIdle, 0); (SsDeinit, 0)]
  /\ ok_history (active ++ [cmd 0 (CmdStop 7); cmd 0 (CmdSessionDeinit 7)]) = true.
Proof. split; [apply history_reachable|]; by vm_compute. Qed.

(** ** C24. *)
Definition set_answer (s : option session) (l : list (tlv_id * bytes)) (refused : list (tlv_id * N)) (c : app_config) : N * list (tlv_id * N) :=
  match s with
  | None => (0x11 (* ERROR_SESSION_NOT_EXIST *), [])
  | Some s =>
      match s_state s with
      | SsIdle | SsDeinit => (0x01 (* REJECTED *), [])
      | st =>
          if bool_decide (st = SsActive) && existsb (fun x => bool_decide (x.1 = T_AOA_RESULT_REQ)) l
          then (0x13 (* ERROR_SESSION_ACTIVE *), [])
          else if forallb (fun i => bool_decide (app_config_get c i <> None)) mandatory
          then match refused with [] => (0x00 (* OK *), []) | _ => (0x04 (* INVALID_PARAM *), refused) end
          else (0x01 (* REJECTED *), [])
      end
  end.
Theorem C24_set_app_config_partial : forall p h id l p' outs,
  commanded p h (CmdSetAppConfig id l) p' outs ->
  exists status refused, sent h outs = [SessionSetAppConfigRsp status refused]
  /\ ((* all *)
      (status = 0x00 /\ refused = [] /\ same_but_session h id p p' /\ device_state_at p' h = device_state_at p h
       /\ exists s s', session_at p h id = Some s /\ session_at p' h id = Some s' /\ same_session s s'
          /\ s_task s' = s_task s /\ sets_all (s_cfg s) l (s_cfg s') [] /\ configured (s_cfg s')
          /\ (s_state s = SsInit /\ s_state s' = SsIdle \/ s_state s = SsActive /\ s_state s' = SsActive))
      \/ (* or nothing *)
      (status <> 0x00 /\ p' = p /\ outs = [OEff h (Send (SessionSetAppConfigRsp status refused))]
       /\ (refused <> [] -> status = 0x04 /\ exists s c, session_at p h id = Some s /\ sets_all (s_cfg s) l c refused))).
Proof.
  intros p h id l p' outs C. destruct (commanded_inv _ _ _ _ _ C) as (d & d' & e & m & R).
  pose proof (cr_frame id R eq_refl) as Fr. pose proof (cr_same R) as Sm.
  rewrite (cr_sent R), (cr_session R), (cr_session' R), (cr_devstate R), (cr_devstate' R), (cr_outs R).
  pose proof (cr_handle R) as H. cbn [handle_command] in H. unfold session_set_app_config in H.
  assert (forall st rf, Ret (d, [], SessionSetAppConfigRsp st rf) = Ret (d', e, m) -> st <> 0x00 ->
    (rf <> [] -> st = 4 /\ exists s c, d_sessions d !! id = Some s /\ sets_all (s_cfg s) l c rf) ->
    exists status refused, [m] = [SessionSetAppConfigRsp status refused]
    /\ ((status = 0 /\ refused = [] /\ same_but_session h id p p' /\ Some (d_state d') = Some (d_state d)
       /\ exists s s', d_sessions d !! id = Some s /\ d_sessions d' !! id = Some s' /\ same_session s s'
          /\ s_task s' = s_task s /\ sets_all (s_cfg s) l (s_cfg s') [] /\ configured (s_cfg s')
          /\ (s_state s = SsInit /\ s_state s' = SsIdle \/ s_state s = SsActive /\ s_state s' = SsActive))
      \/ (status <> 0 /\ p' = p /\ map (OEff h) (e ++ [Send m]) = [OEff h (Send (SessionSetAppConfigRsp status refused))]
       /\ (refused <> [] -> status = 4 /\ exists s c, d_sessions d !! id = Some s /\ sets_all (s_cfg s) l c refused)))) as No.
  { intros st rf E N L. apply Ret_inj in E. injection E as <- <- <-. exists st, rf. split; [done|]. right. split_and!; auto. }
  destruct (d_sessions d !! id) as [s|] eqn:Ls; [|by eapply No].
  destruct (negb _); [discriminate|].
  destruct (bool_decide (s_state s = SsActive) && _) eqn:Ea; [by eapply No|].
  destruct (negb (bool_decide (s_state s = SsInit)) && _) eqn:Es; [by eapply No|].
  destruct (set_tlvs (s_cfg s) l []) as [[c inv]|] eqn:St; [|discriminate]. cbn [obind] in H.
  apply sets_all_spec in St as (r & -> & Sa). cbn [app] in H.
  destruct (missing_mandatory c) eqn:Mm; [by eapply No|]. destruct r as [|x r].
  - rewrite session_set_state_eq in H.
    assert (s_state s = SsInit \/ s_state s = SsActive) as Hs. { destruct (s_state s); auto; discriminate Es. }
    exists 0, []. destruct Hs as [Hs|Hs]; cbn [s_state s_set_cfg] in H.
    + rewrite (bool_decide_true (s_state s = SsInit)) in H by done. apply Ret_inj in H. injection H as <- <- <-.
      split; [done|]. left. split_and!; try done. eexists _, _. split; [done|]. split; [apply lookup_insert|].
      split; [done|]. split; [done|]. split; [exact Sa|]. split; [by apply configured_spec|]. by left.
    + rewrite (bool_decide_false (s_state s = SsInit)) in H by congruence. apply Ret_inj in H. injection H as <- <- <-.
      split; [done|]. left. split_and!; try done. eexists _, _. split; [done|]. split; [apply lookup_insert|].
      split; [done|]. split; [done|]. split; [exact Sa|]. split; [by apply configured_spec|]. by right.
  - eapply No; [exact H|done|]. intros _. split; [done|]. eexists _, _. split; [done|]. exact Sa.
Qed.
Print Assumptions C24_set_app_config_partial.
(** The exact answer, hence exactly when the command is accepted. [refused] are the refused parameters and
    [c] the configuration with all the others set. *)
Theorem C24_answer : forall p h id l p' outs refused c,
  commanded p h (CmdSetAppConfig id l) p' outs ->
  (forall s, session_at p h id = Some s -> sets_all (s_cfg s) l c refused) ->
  sent h outs = [let '(status, r) := set_answer (session_at p h id) l refused c in SessionSetAppConfigRsp status r].
Proof.
  intros p h id l p' outs rf c C Hs. destruct (commanded_inv _ _ _ _ _ C) as (d & d' & e & m & R).
  rewrite (cr_sent R). rewrite (cr_session R) in *.
  pose proof (cr_handle R) as H. cbn [handle_command] in H. unfold session_set_app_config in H.
  destruct (d_sessions d !! id) as [s|] eqn:Ls; [|apply Ret_inj in H; by injection H as <- <- <-].
  destruct (negb _); [discriminate|]. cbn [set_answer].
  destruct (set_tlvs (s_cfg s) l []) as [[c' inv]|] eqn:St; cbn [obind] in H.
  - apply sets_all_spec in St as (r & -> & Sa). destruct (sets_all_fun _ _ _ _ _ _ Sa (Hs s eq_refl)) as [-> ->].
    cbn [app] in H.
    assert (forallb (fun i => bool_decide (app_config_get c i <> None)) mandatory = negb (missing_mandatory c)) as ->.
    { destruct (missing_mandatory c) eqn:M; cbn [negb].
      - apply not_true_is_false. intros F. rewrite forallb_forall in F.
        assert (configured c) as K by (intros i I; apply F in I; by apply bool_decide_eq_true in I).
        apply configured_spec in K. congruence.
      - apply forallb_forall. intros i I. apply bool_decide_eq_true. apply configured_spec in M. by apply M. }
    destruct (s_state s) eqn:Es; cbn [bool_decide decide_rel] in *.
    all: repeat match type of H with
      | context [bool_decide (?a = ?b)] => first [rewrite (bool_decide_true (a = b)) in H by done | rewrite (bool_decide_false (a = b)) in H by done] end.
    all: cbn [andb negb s_set_cfg s_state] in *.
    all: try (rewrite (bool_decide_true (SsActive = SsActive)) by done; cbn [andb]).
    all: try (rewrite (bool_decide_false (SsInit = SsActive)) by done; cbn [andb]).
    all: try destruct (existsb _ l); destruct (missing_mandatory c); try destruct rf; cbn [negb].
    all: try rewrite session_set_state_eq in H; try rewrite Es in H.
    all: repeat match type of H with
      | context [bool_decide (?a = ?b)] => first [rewrite (bool_decide_true (a = b)) in H by done | rewrite (bool_decide_false (a = b)) in H by done] end.
    all: apply Ret_inj in H; by injection H as <- <- <-.
  - exfalso. clear H. specialize (Hs s eq_refl). revert St Hs. clear.
    generalize (s_cfg s) as c0. generalize (@nil (tlv_id * N)). revert rf. 
    induction l as [|[i v] l IH]; intros rf inv c0 St Hs; cbn [set_tlvs] in St; [discriminate|].
    inversion Hs as [|? ? ? c1' ? ? ? E' H'|? ? ? ? ? ? E' H']; subst; rewrite E' in St; cbn [obind] in St; by eapply IH.
Qed.
Print Assumptions C24_answer.
(** After success, the parameters of the command read back, the last value winning (with the 4 byte form of UWB_INITIATION_TIME extended to 8 bytes), and the others are unchanged. *)
Theorem C24_read_back : forall p h id l p' outs l1 i v l2,
  commanded p h (CmdSetAppConfig id l) p' outs -> sent h outs = [SessionSetAppConfigRsp 0x00 []] ->
  l = l1 ++ (i, v) :: l2 -> ~ In i l2.*1 ->
  exists s', session_at p' h id = Some s' /\ app_config_get (s_cfg s') i
    = Some (if bool_decide (i = T_UWB_INITIATION_TIME) && Nat.eqb (length v) 4 then v ++ [0; 0; 0; 0] else v).
Proof.
  intros p h id l p' outs l1 i v l2 C S -> N. pose proof C as (_ & _ & (_ & _ & Wl) & _).
  destruct (C24_set_app_config_partial _ _ _ _ _ _ C) as (st & rf & S' & Cs).
  rewrite S in S'. injection S' as <- <-. destruct Cs as [(_ & _ & _ & _ & s & s' & _ & L' & _ & _ & Sa & _)|[? _]]; [|done].
  exists s'. split; [done|]. rewrite (sets_all_last _ _ _ _ _ _ Sa); [done| |done].
  apply Forall_app in Wl as [_ Wl]. apply Forall_cons in Wl as [Wv _]. apply Wv.
Qed.
Print Assumptions C24_read_back.
Theorem C24_others_unchanged : forall p h id l p' outs i s,
  commanded p h (CmdSetAppConfig id l) p' outs -> session_at p h id = Some s -> ~ In i l.*1 ->
  exists s', session_at p' h id = Some s' /\ app_config_get (s_cfg s') i = app_config_get (s_cfg s) i.
Proof.
  intros p h id l p' outs i s C L N.
  destruct (C24_set_app_config_partial _ _ _ _ _ _ C) as (st & rf & _ & [(_ & _ & _ & _ & s0 & s' & L0 & L' & _ & _ & Sa & _)|(_ & -> & _)]).
  - rewrite L in L0. injection L0 as <-. exists s'. split; [done|]. by eapply sets_all_other.
  - by exists s.
Qed.
Print Assumptions C24_others_unchanged.
(** What is missing: a refused parameter is not listed when a mandatory parameter is also missing. *)
Theorem C24_list_refuted : exists p h id l p' outs s c r,
  commanded p h (CmdSetAppConfig id l) p' outs /\ session_at p h id = Some s /\ s_state s = SsInit
  /\ sets_all (s_cfg s) l c r /\ r = [(T_DEVICE_ROLE, 0x04)] /\ sent h outs = [SessionSetAppConfigRsp 0x01 []].
Proof.
  exists (state_after inited), 0, 7, [(T_DEVICE_ROLE, [9])], (state_after (inited ++ [cmd 0 (CmdSetAppConfig 7 [(T_DEVICE_ROLE, [9])])])),
    (outs_of inited (cmd 0 (CmdSetAppConfig 7 [(T_DEVICE_ROLE, [9])]))), (s_set_state SsInit (session_new 7 0)), default_app_config, [(T_DEVICE_ROLE, 4)].
  split; [apply history_commanded; [|by vm_compute..]|].
  - split_and!; [done|unfold short_list; cbn; lia|]. by repeat constructor.
  - split_and!; try by vm_compute. apply SaRefused; [done|constructor].
Qed.
Print Assumptions C24_list_refuted.
Example C24_example :
  commanded (state_after inited) 0 (CmdSetAppConfig 7 (controller_config [1; 0] [2; 0])) (state_after idle)
    (outs_of inited (cmd 0 (CmdSetAppConfig 7 (controller_config [1; 0] [2; 0]))))
  /\ state_at (state_after idle) 0 7 = SsIdle
  /\ outs_of inited (cmd 0 (CmdSetAppConfig 7 (controller_config [1; 0] [2; 0] ++ [(T_DEVICE_ROLE, [9])])))
     = [OEff 0 (Send (SessionSetAppConfigRsp 4 [(T_DEVICE_ROLE, 4)]))].
Proof.
  split; [apply (history_commanded inited); [|by vm_compute..]|by vm_compute].
  split_and!; [done|unfold short_list; cbn; lia|]. by repeat constructor.
Qed.

(** ** C25. *)
Theorem C25_configured : forall p h id s, reachable p -> session_at p h id = Some s ->
  s_state s = SsIdle \/ s_state s = SsActive -> configured (s_cfg s).
Proof.
  intros p h id s R L S. unfold session_at in L. destruct (p_devices p !! h) as [d|] eqn:Ld; [|discriminate]. cbn in L.
  apply configured_spec. apply (so_mandatory _ _ (di_session _ _ (reachable_dinv _ _ _ R Ld) _ _ L) S).
Qed.
Print Assumptions C25_configured.
Example C25_example : reachable (state_after active) /\ state_at (state_after active) 0 7 = SsActive.
Proof. split; [apply history_reachable|]; by vm_compute. Qed.

(** ** C26. *)
Theorem C26_start : forall p h id p' outs,
  commanded p h (CmdStart id) p' outs ->
  match session_at p h id with
  | None => p' = p /\ outs = [OEff h (Send (SessionStartRsp 0x11 (* ERROR_SESSION_NOT_EXIST *)))]
  | Some s =>
      if bool_decide (s_state s = SsIdle) then
        sent h outs = [SessionStartRsp 0x00] /\ status_ntfs h id outs = [(SsActive, 0x00)]
        (* one timer, with the configured period *)
        /\ timers_started h id outs = 1%nat /\ timers_stopped h id outs = 0%nat
        /\ (exists v, app_config_get (s_cfg s) T_RANGING_DURATION = Some v /\ In (OEff h (SpawnRanging id (ranging_duration (s_cfg s)))) outs
            /\ v = le_bytes 4 (ranging_duration (s_cfg s)))
        /\ device_state_at p' h = Some DsActive
        /\ same_but_session h id p p' /\ state_at p' h id = SsActive
        /\ exists s', session_at p' h id = Some s' /\ same_session s s' /\ s_cfg s' = s_cfg s
      else p' = p /\ outs = [OEff h (Send (SessionStartRsp 0x15 (* ERROR_SESSION_NOT_CONFIGURED *)))]
  end.
Proof.
  intros p h id p' outs C. destruct (commanded_inv _ _ _ _ _ C) as (d & d' & e & m & R).
  pose proof (cr_frame id R eq_refl) as Fr. pose proof (cr_same R) as Sm.
  rewrite (cr_dstate' R), (cr_sent R), (cr_status R), (cr_starts R), (cr_stops R), (cr_session R), (cr_session' R), (cr_devstate' R), (cr_outs R).
  pose proof (cr_handle R) as H. cbn [handle_command] in H. unfold session_start in H.
  destruct (d_sessions d !! id) as [s|] eqn:Ls; [|apply Ret_inj in H; injection H as <- <- <-; auto].
  pose proof (so_id _ _ (di_session _ _ (cr_dinv R) _ _ Ls)) as Hid.
  case_bool_decide as Si; cbn [negb] in H; [|apply Ret_inj in H; injection H as <- <- <-; auto].
  destruct (s_task s) eqn:T; [discriminate|]. rewrite session_set_state_eq, device_set_state_eq in H.
  apply Ret_inj in H. injection H as <- <- <-. cbn [s_state s_set_task s_id]. rewrite Si, Hid.
  rewrite (bool_decide_false (SsActive = SsIdle)) by done. cbn [d_state d_set_active d_set_sessions].
  assert (forall b : bool, let l := SpawnRanging id (ranging_duration (s_cfg s)) :: [After 1 (SessionStatusNtf id SsActive 0)] ++ (if b then [] else [After 5 (CoreDeviceStatusNtf DsActive)]) in
    eff_status id l = [(SsActive, 0)] /\ eff_starts id l = 1%nat /\ eff_stops id l = 0%nat) as E.
  { intros []; unfold eff_status, eff_starts, eff_stops; cbn; by rewrite !N.eqb_refl. }
  destruct (E (bool_decide (DsActive = d_state d))) as (E1 & E2 & E3).
  split; [done|]. split; [exact E1|]. split; [exact E2|]. split; [exact E3|].
  split_and!; try done.
  - eexists. split; [done|]. split; [by left|done].
  - unfold dstate. cbn. by rewrite lookup_insert.
  - eexists. split; [apply lookup_insert|]. done.
Qed.
Print Assumptions C26_start.
Theorem C26_stop : forall p h id p' outs,
  commanded p h (CmdStop id) p' outs ->
  match session_at p h id with
  | None => p' = p /\ outs = [OEff h (Send (SessionStopRsp 0x11 (* ERROR_SESSION_NOT_EXIST *)))]
  | Some s =>
      if bool_decide (s_state s = SsActive) then
        sent h outs = [SessionStopRsp 0x00] /\ status_ntfs h id outs = [(SsIdle, 0x00)]
        /\ timers_started h id outs = 0%nat /\ timers_stopped h id outs = 1%nat
        /\ same_but_session h id p p' /\ state_at p' h id = SsIdle
        /\ exists s', session_at p' h id = Some s' /\ same_session s s' /\ s_cfg s' = s_cfg s
      else p' = p /\ outs = [OEff h (Send (SessionStopRsp 0x13 (* ERROR_SESSION_ACTIVE *)))]
  end.
Proof.
  intros p h id p' outs C. destruct (commanded_inv _ _ _ _ _ C) as (d & d' & e & m & R).
  pose proof (cr_frame id R eq_refl) as Fr. pose proof (cr_same R) as Sm.
  rewrite (cr_dstate' R), (cr_sent R), (cr_status R), (cr_starts R), (cr_stops R), (cr_session R), (cr_session' R), (cr_outs R).
  pose proof (cr_handle R) as H. cbn [handle_command] in H. unfold session_stop in H.
  destruct (d_sessions d !! id) as [s|] eqn:Ls; [|apply Ret_inj in H; injection H as <- <- <-; auto].
  pose proof (so_id _ _ (di_session _ _ (cr_dinv R) _ _ Ls)) as Hid.
  case_bool_decide as Si; cbn [negb] in H; [|apply Ret_inj in H; injection H as <- <- <-; auto].
  pose proof (so_active _ _ (di_session _ _ (cr_dinv R) _ _ Ls) Si) as T.
  rewrite stop_ranging_task_eq, session_set_state_eq in H.
  destruct (device_dec_active _) as [[d1 e1]|] eqn:Da; [|discriminate]. cbn [obind] in H.
  apply dec_active_inv in Da as (_ & -> & ->).
  apply Ret_inj in H. injection H as <- <- <-. cbn [s_state s_set_task s_id]. rewrite Si, Hid, T.
  rewrite (bool_decide_false (SsIdle = SsActive)) by done.
  assert (forall b : bool, let l := [AbortRanging id] ++ [After 1 (SessionStatusNtf id SsIdle 0)] ++ (if b then [After 5 (CoreDeviceStatusNtf DsReady)] else []) in
    eff_status id l = [(SsIdle, 0)] /\ eff_starts id l = 0%nat /\ eff_stops id l = 1%nat) as E.
  { intros []; unfold eff_status, eff_starts, eff_stops; cbn; by rewrite !N.eqb_refl. }
  match goal with |- context [if ?b then [After 5 _] else []] => destruct (E b) as (E1 & E2 & E3) end.
  split; [done|]. split; [exact E1|]. split; [exact E2|]. split; [exact E3|].
  split_and!; try done.
  - unfold dstate. cbn. by rewrite lookup_insert.
  - eexists. split; [apply lookup_insert|]. done.
Qed.
Print Assumptions C26_stop.
Example C26_example :
  commanded (state_after idle) 0 (CmdStart 7) (state_after active) (outs_of idle (cmd 0 (CmdStart 7)))
  /\ state_at (state_after active) 0 7 = SsActive
  /\ commanded (state_after active) 0 (CmdStop 7) (state_after (active ++ [cmd 0 (CmdStop 7)])) (outs_of active (cmd 0 (CmdStop 7)))
  /\ device_ntfs 0 (outs_of active (cmd 0 (CmdStop 7))) = [DsReady].
Proof.
  split; [apply (history_commanded idle); [done|by vm_compute..]|]. split; [by vm_compute|].
  split; [apply (history_commanded active); [done|by vm_compute..]|by vm_compute].
Qed.

(** ** C27. *)
(** Always: the host of a device with an active session sees it ACTIVE. *)
Theorem C27_active : forall p h id, reachable p -> state_at p h id = SsActive -> device_state_at p h = Some DsActive.
Proof.
  intros p h id R S. apply state_active in S as (d & s & L & Ls & S). unfold device_state_at. rewrite L. cbn. f_equal.
  destruct (reachable_dinv _ _ _ R L). pose proof (actives_pos _ _ _ Ls S). rewrite di_state.
  destruct (N.eqb_spec (d_active d) 0); [lia|done].
Qed.
Print Assumptions C27_active.
(** As long as no session id was used twice and no session lost its last controlee: exactly then. *)
Theorem C27_device_state_partial : forall l p outs h,
  reaches l p outs -> connected p h -> clean h outs ->
  (device_state_at p h = Some DsActive <-> exists id, state_at p h id = SsActive)
  /\ (device_state_at p h = Some DsReady <-> forall id, state_at p h id <> SsActive).
Proof.
  intros l p outs h R (d & L) C. apply clean_bad in C.
  destruct (reaches_dinv _ _ _ _ _ R L) as [_ _ _ Ist _ _ _ Icl]. rewrite C in Icl. destruct (Icl eq_refl) as [Ia _].
  assert ((exists id, state_at p h id = SsActive) <-> d_active d <> 0) as A.
  { rewrite <- Ia. transitivity (actives (d_sessions d) <> 0%nat); [|lia]. rewrite <- some_active. split.
    - intros (id & S). apply state_active in S as (d' & s & L' & Ls & S). rewrite L in L'. injection L' as <-. by exists id, s.
    - intros (id & s & Ls & S). exists id. apply state_active. by exists d, s. }
  unfold device_state_at. rewrite L. cbn. rewrite Ist.
  destruct (N.eqb_spec (d_active d) 0) as [E|E]; split; (split; [|try done]).
  - done.
  - intros B. apply A in B. done.
  - intros _ id S. assert (exists id, state_at p h id = SsActive) as B by by exists id. apply A in B. done.
  - intros _. by apply A.
  - done.
  - intros B. exfalso. destruct (proj2 A E) as (id & S). by eapply B.
Qed.
Print Assumptions C27_device_state_partial.
(** Every change of state is notified once, and (but for a reset, C19) nothing else is. *)
Theorem C27_notified : forall e p o p' outs h,
  reachable p -> wf_op o -> step e p o = Ret (p', outs) -> connected p' h ->
  ~ (exists packet, o = UciPacket h packet /\ encodes (CmdDeviceReset 0) packet) ->
  exists st, device_state_at p' h = Some st
    /\ device_ntfs h outs = (if bool_decide (device_state_at p h = Some st) then [] else [st]).
Proof.
  intros e p o p' outs h R W S (d & L) N.
  destruct (step_hstep _ _ _ _ _ _ h (reachable_pinv _ R) W S) as (_ & D & _). specialize (D N).
  exists (d_state d). unfold device_state_at. rewrite L. split; [done|]. rewrite device_ntfs_effs.
  unfold hdev in D. rewrite L in D. exact D.
Qed.
Print Assumptions C27_notified.
(** After a duplicate SESSION_INIT the device remains ACTIVE for ever although no session is:
    not even deinitialising every session brings it back. *)
Theorem C27_refuted : exists p h,
  reachable p /\ device_state_at p h = Some DsActive /\ (forall id, state_at p h id = SsDeinit).
Proof.
  exists (state_after (active ++ [cmd 0 (CmdSessionInit 7 0); cmd 0 (CmdSessionDeinit 7)])), 0.
  split; [apply history_reachable; by vm_compute|]. split; [by vm_compute|].
  intros id. unfold state_at, session_at.
  assert (map_to_list ∘ d_sessions <$> p_devices (state_after (active ++ [cmd 0 (CmdSessionInit 7 0); cmd 0 (CmdSessionDeinit 7)])) !! 0 = Some []) as E by by vm_compute.
  destruct (p_devices _ !! 0) as [d|]; [|done]. cbn in *. injection E as E. apply map_to_list_empty_iff in E. rewrite E. by rewrite lookup_empty.
Qed.
Print Assumptions C27_refuted.
Lemma clean_b h outs : bad_out h outs = false -> clean h outs.
Proof. apply clean_bad. Qed.
Example C27_example :
  reaches (history active) (state_after active) (outs_after active) /\ clean 0 (outs_after active)
  /\ device_state_at (state_after active) 0 = Some DsActive /\ device_state_at (state_after idle) 0 = Some DsReady
  /\ device_ntfs 0 (outs_of idle (cmd 0 (CmdStart 7))) = [DsActive].
Proof. split; [apply history_reaches|split; [apply clean_b|]]; by vm_compute. Qed.

(** ** C28. The timers running for a session are those started and not stopped. *)
(** Always: at most one timer, and exactly one for an active session. *)
Theorem C28_at_most_one : forall l p outs h id,
  reaches l p outs ->
  exists running, timers_started h id outs = (timers_stopped h id outs + running)%nat /\ (running <= 1)%nat
    /\ (state_at p h id = SsActive -> running = 1%nat)
    /\ (running = 1%nat -> state_at p h id = SsActive \/ state_at p h id = SsIdle).
Proof.
  intros l p outs h id R. exists (otask (p_devices p !! h) id). split; [by eapply reaches_timers|].
  rewrite state_ostate. unfold otask, ostate. destruct (p_devices p !! h) as [d|] eqn:L; [|split_and!; by (lia || done)].
  unfold dtask, dstate. destruct (d_sessions d !! id) as [s|] eqn:Ls; [|split_and!; by (lia || done)].
  pose proof (di_session _ _ (reaches_dinv _ _ _ _ _ R L) _ _ Ls) as So.
  split_and!.
  - destruct (s_task s); lia.
  - intros S. by rewrite (so_active _ _ So S).
  - intros T. apply (so_task _ _ So). by destruct (s_task s).
Qed.
Print Assumptions C28_at_most_one.
Theorem C28_exactly_active_partial : forall l p outs h id,
  reaches l p outs -> clean h outs ->
  timers_started h id outs = (timers_stopped h id outs + if bool_decide (state_at p h id = SsActive) then 1 else 0)%nat.
Proof.
  intros l p outs h id R C. apply clean_bad in C. rewrite (reaches_timers _ _ _ _ _ R). f_equal.
  rewrite state_ostate. unfold otask, ostate. destruct (p_devices p !! h) as [d|] eqn:L; [|done].
  unfold dtask, dstate. destruct (d_sessions d !! id) as [s|] eqn:Ls; [|done].
  pose proof (reaches_dinv _ _ _ _ _ R L) as I. pose proof (di_session _ _ I _ _ Ls) as So.
  destruct I as [_ _ _ _ _ _ _ Icl]. rewrite C in Icl. destruct (Icl eq_refl) as [_ T].
  case_bool_decide as S; [by rewrite (so_active _ _ So S)|].
  destruct (s_task s) eqn:E; [|done]. destruct S. by apply (T _ _ Ls).
Qed.
Print Assumptions C28_exactly_active_partial.
(** Removing the last controlee makes the session IDLE with its timer still running. *)
Definition emptied : list op := active ++ [cmd 0 (CmdMulticast 7 RemoveControlee [1; 2; 0; 0; 0; 0; 0])].
Theorem C28_refuted : exists l p outs h id,
  reaches l p outs /\ state_at p h id = SsIdle
  /\ timers_started h id outs = 1%nat /\ timers_stopped h id outs = 0%nat.
Proof.
  exists (history emptied), (state_after emptied), (outs_after emptied), 0, 7.
  split; [apply history_reaches|]; by vm_compute.
Qed.
Print Assumptions C28_refuted.
Example C28_example :
  reaches (history active) (state_after active) (outs_after active) /\ clean 0 (outs_after active)
  /\ timers_started 0 7 (outs_after active) = 1%nat.
Proof. split; [apply history_reaches|split; [apply clean_b|]]; by vm_compute. Qed.

(** ** C29. The step is total: the active session counter cannot underflow. *)
Theorem C29_deinit : forall e p h id packet,
  reachable p -> serving p h -> wf_bytes packet -> wf_cmd (CmdSessionDeinit id) -> encodes (CmdSessionDeinit id) packet ->
  exists p' outs, step e p (UciPacket h packet) = Ret (p', outs)
  /\ match session_at p h id with
     | None => p' = p /\ outs = [OEff h (Send (SessionDeinitRsp 0x11 (* ERROR_SESSION_NOT_EXIST *)))]
     | Some s =>
         sent h outs = [SessionDeinitRsp 0x00] /\ session_at p' h id = None
         /\ same_but_session h id p p'
         /\ status_ntfs h id outs = (if bool_decide (s_state s = SsDeinit) then [] else [(SsDeinit, 0x00)])
         /\ (forall id', id' <> id -> status_ntfs h id' outs = [] /\ timers_stopped h id' outs = 0%nat /\ timers_started h id' outs = 0%nat)
         /\ timers_started h id outs = 0%nat /\ timers_stopped h id outs = (if s_task s then 1 else 0)%nat
     end.
Proof.
  intros en p h id packet Re Se W Wc E. pose proof Se as (d & L & Hr).
  pose proof (reachable_dinv _ _ _ Re L) as I.
  assert (exists d' e m, session_deinit d id = Ret (d', e, m) /\ exists b, wire m = Some b) as (d' & e & m & H & b & Wm).
  { unfold session_deinit. destruct (d_sessions d !! id) as [s|] eqn:Ls.
    2:{ eexists _, _, _. split; [done|]. by eexists. }
    case_bool_decide as A.
    2:{ eexists _, _, _. split; [done|]. by eexists. }
    destruct (dec_active_ok _ _ _ _ I Ls A) as [[d1 e1] ->]. eexists _, _, _. split; [done|]. by eexists. }
  pose proof (step_command en p h d _ packet L W Wc E (or_introl Hr)) as S. cbn [handle_command] in S. rewrite H in S. cbn [obind] in S.
  rewrite Wm in S. exists (p_set_device h d' p), (map (OEff h) (e ++ [Send m])). split; [done|].
  assert (commanded p h (CmdSessionDeinit id) (p_set_device h d' p) (map (OEff h) (e ++ [Send m]))) as C.
  { split_and!; try done. by exists en, packet. }
  assert (command_run p h (CmdSessionDeinit id) (p_set_device h d' p) (map (OEff h) (e ++ [Send m])) d d' e m) as R by by split.
  pose proof (cr_frame id R eq_refl) as Fr. pose proof (cr_same R) as Sm.
  pose proof (cr_status R) as Rst. pose proof (cr_starts R) as Rt. pose proof (cr_stops R) as Rp.
  pose proof (cr_sent R) as Rs. pose proof (cr_session' R id) as Rl.
  rewrite (cr_session R). unfold session_deinit in H.
  destruct (d_sessions d !! id) as [s|] eqn:Ls; [|apply Ret_inj in H; injection H as <- <- <-; auto].
  pose proof (so_id _ _ (di_session _ _ I _ _ Ls)) as Hid.
  destruct (if bool_decide _ then _ else _) as [[d1 e1]|] eqn:Da; [|discriminate]. cbn [obind] in H.
  apply Ret_inj in H. injection H as <- <- <-.
  assert ((forall i, eff_status i e1 = []) /\ (forall i, eff_starts i e1 = 0%nat) /\ (forall i, eff_stops i e1 = 0%nat)) as (Q1 & Q2 & Q3).
  { destruct (bool_decide _).
    - apply dec_active_inv in Da as (_ & _ & ->). by destruct (_ && _).
    - apply Ret_inj in Da. by injection Da as <- <-. }
  split; [exact Rs|]. split. { rewrite Rl. apply lookup_delete. }
  split; [done|]. rewrite Rst, eff_status_app, Q1, drop_status, Hid, N.eqb_refl.
  split; [done|]. split.
  - intros id' Ne. rewrite Rst, Rt, Rp, eff_status_app, eff_starts_app, eff_stops_app, Q1, Q2, Q3, drop_status, drop_starts, drop_stops, Hid.
    apply N.eqb_neq in Ne. rewrite N.eqb_sym in Ne. by rewrite Ne.
  - rewrite Rt, Rp, eff_starts_app, eff_stops_app, Q2, Q3, drop_starts, drop_stops, Hid, N.eqb_refl. done.
Qed.
Print Assumptions C29_deinit.
(** When it was the last active session, the device is READY again, and told so (clean histories). *)
Example C29_example :
  reachable (state_after active) /\ serving (state_after active) 0 /\ encodes (CmdSessionDeinit 7) (cmd_packet (CmdSessionDeinit 7))
  /\ wf_cmd (CmdSessionDeinit 7) /\ state_at (state_after active) 0 7 = SsActive
  /\ device_ntfs 0 (outs_of active (cmd 0 (CmdSessionDeinit 7))) = [DsReady].
Proof.
  split; [apply history_reachable; by vm_compute|]. split; [apply servingb_sound; by vm_compute|].
  split; [apply cmd_packet_encodes|]. split; [done|]. by vm_compute.
Qed.
