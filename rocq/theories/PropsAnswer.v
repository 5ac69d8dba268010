(** C101: the answers to the commands about sessions follow from the history of the host. *)
From Verif Require Import Base Uci MacAddress AppConfig Codec Session Device Pica.
From Verif Require Import BaseFacts CodecSpec ContextSpec HistorySpec InvFacts StepFacts CommandFacts GateFacts EvolveFacts SessionSpec Demo
  MulticastSpec MulticastFacts PropsContext PropsDevice PropsSession ReadSpec ReadFacts PropsRead AnswerSpec.

Lemma last_state_ok p tr h id : executes p tr -> last_state h id tr = state_at p h id.
Proof.
  intros (l & R & _)%executes_reaches. pose proof (C23_history _ _ _ h id R) as F. unfold last_state.
  remember (status_ntfs h id (concat tr.*2)) as q eqn:Eq. clear Eq. remember (state_at p h id) as s eqn:Es. clear Es.
  inversion F as [s0|s0 q' s1 s2 r F' N T]; subst; [done|]. by rewrite last_snoc.
Qed.
Lemma sessions_ok p tr h d : executes p tr -> p_devices p !! h = Some d -> sessions h tr (size (d_sessions d)).
Proof.
  intros X L. exists (map_to_list (d_sessions d)).*1. split; [apply NoDup_fst_map_to_list|]. split.
  - intros id. rewrite (exists_iff p tr h id executes_pinv X). unfold session_at. rewrite L. cbn. rewrite elem_of_list_fmap. split.
    + intros ([i s] & -> & Hi%elem_of_map_to_list). by eexists.
    + intros [s Hs]. exists (id, s). split; [done|]. by apply elem_of_map_to_list.
  - by rewrite fmap_length.
Qed.
Lemma sessions_fun h tr n n' : sessions h tr n -> sessions h tr n' -> n = n'.
Proof.
  intros (l & N & H & <-) (l' & N' & H' & <-). apply Permutation_length, NoDup_Permutation; [done..|]. intros id. by rewrite H, H'.
Qed.
(** Every answer to one of these commands. Before its first reset, a device answers with the notification of its state only (C16). *)
Theorem C101_answers : forall p tr o outs h c m,
  executes p (tr ++ [(o, outs)]) -> asks h c o -> about_sessions c -> m ∈ sent h outs -> (forall st, m <> CoreDeviceStatusNtf st) -> answer h tr c m.
Proof.
  intros p tr o outs h c m X A Ab Hm Ns.
  destruct (last_asked _ _ _ _ _ _ X A) as (p0 & X0 & [C|[_ H]]); [by intros ->| |by destruct (H _ Hm) as [st ->]; destruct (Ns st)].
  destruct (commanded_inv _ _ _ _ _ C) as (d & d' & e & m' & R). rewrite (cr_sent R) in Hm. apply elem_of_list_singleton in Hm as ->.
  pose proof (cr_handle R) as H. pose proof (sessions_ok p0 tr h d X0 (cr_dev R)) as Se.
  assert (forall id, exists_after h id tr <-> is_Some (d_sessions d !! id)) as Ex.
  { intros id. rewrite (exists_iff p0 tr h id executes_pinv X0). by rewrite (cr_session R). }
  assert (forall id s, d_sessions d !! id = Some s -> last_state h id tr = s_state s) as Ls.
  { intros id s L. rewrite (last_state_ok p0 tr h id X0). unfold state_at. rewrite (cr_session R), L. done. }
  pose proof (di_size _ _ (cr_dinv R)) as Sz.
  destruct c; try destruct Ab; cbn [handle_command] in H.
  - apply Ret_inj in H. unfold session_init, MAX_SESSION in H. destruct (Nat.leb_spec 255 (size (d_sessions d))) as [Hl|Hl].
    { injection H as _ _ <-. assert (size (d_sessions d) = 255%nat) as E by lia. rewrite E in Se. by apply AInitFull. }
    destruct (d_sessions d !! id) as [s|] eqn:L.
    + injection H as _ _ <-. eapply AInitOld; [exact Se|lia|]. apply Ex. by eexists.
    + unfold session_init_state in H. rewrite session_set_state_eq in H. injection H as _ _ <-. eapply AInitNew; [exact Se|lia|]. rewrite Ex, L. by intros [].
  - unfold session_deinit in H. destruct (d_sessions d !! id) as [s|] eqn:L.
    2:{ apply Ret_inj in H. injection H as _ _ <-. apply ADeinitNone. rewrite Ex, L. by intros []. }
    destruct (if bool_decide _ then _ else _) as [[d1 e1]|]; [|discriminate]. apply Ret_inj in H. injection H as _ _ <-. apply ADeinit, Ex. by eexists.
  - apply Ret_inj in H. injection H as _ _ <-. unfold session_get_count. rewrite N.mod_small by lia. by apply ACount.
  - apply Ret_inj in H. injection H as _ _ <-. unfold session_get_state. destruct (d_sessions d !! id) as [s|] eqn:L.
    + rewrite <- (Ls _ _ L). apply AState, Ex. by eexists.
    + apply AStateNone. rewrite Ex, L. by intros [].
  - unfold session_start in H. destruct (d_sessions d !! id) as [s|] eqn:L.
    2:{ apply Ret_inj in H. injection H as _ _ <-. apply AStartNone. rewrite Ex, L. by intros []. }
    assert (exists_after h id tr) as E by (apply Ex; by eexists).
    destruct (bool_decide_reflect (s_state s = SsIdle)) as [Si|Si]; cbn [negb] in H.
    2:{ apply Ret_inj in H. injection H as _ _ <-. apply AStartNot; [done|]. by rewrite (Ls _ _ L). }
    destruct (s_task s); [discriminate|]. rewrite session_set_state_eq, device_set_state_eq in H. apply Ret_inj in H. injection H as _ _ <-.
    apply AStart; [done|]. by rewrite (Ls _ _ L).
  - unfold session_stop in H. destruct (d_sessions d !! id) as [s|] eqn:L.
    2:{ apply Ret_inj in H. injection H as _ _ <-. apply AStopNone. rewrite Ex, L. by intros []. }
    assert (exists_after h id tr) as E by (apply Ex; by eexists).
    destruct (bool_decide_reflect (s_state s = SsActive)) as [Si|Si]; cbn [negb] in H.
    2:{ apply Ret_inj in H. injection H as _ _ <-. apply AStopNot; [done|]. by rewrite (Ls _ _ L). }
    rewrite stop_ranging_task_eq, session_set_state_eq in H. destruct (device_dec_active _) as [[d1 e1]|]; [|discriminate].
    apply Ret_inj in H. injection H as _ _ <-. apply AStop; [done|]. by rewrite (Ls _ _ L).
Qed.
Print Assumptions C101_answers.
(** A command that names a session is answered ERROR_SESSION_NOT_EXIST exactly when, after this history, the session does not exist. *)
Theorem C101_unknown : forall p tr o outs h c id m,
  executes p (tr ++ [(o, outs)]) -> asks h c o -> names_session c id -> m ∈ sent h outs -> (forall st, m <> CoreDeviceStatusNtf st) ->
  exists st, answer_status m = Some st /\ (st = 0x11 <-> ~ exists_after h id tr).
Proof.
  intros p tr o outs h c id m X A Ab Hm Ns.
  destruct (last_asked _ _ _ _ _ _ X A) as (p0 & X0 & [C|[_ H]]); [by intros ->| |by destruct (H _ Hm) as [st ->]; destruct (Ns st)].
  destruct (commanded_inv _ _ _ _ _ C) as (d & d' & e & m' & R). rewrite (cr_sent R) in Hm. apply elem_of_list_singleton in Hm as ->.
  pose proof (cr_handle R) as H.
  assert (forall st, (st = 0x11 <-> d_sessions d !! id = None) -> st = 0x11 <-> ~ exists_after h id tr) as Ex.
  { intros st ->. rewrite (exists_iff p0 tr h id executes_pinv X0), (cr_session R), <- eq_None_not_Some. done. }
  destruct c; try destruct Ab; cbn [handle_command names_session] in *.
  - unfold session_deinit in H. destruct (d_sessions d !! id0) as [s|].
    2:{ apply Ret_inj in H. injection H as _ _ <-. eexists. split; [reflexivity|]. by apply Ex. }
    destruct (if bool_decide _ then _ else _) as [[d1 e1]|]; [|discriminate]. apply Ret_inj in H. injection H as _ _ <-. eexists. split; [reflexivity|]. by apply Ex.
  - unfold session_set_app_config in H. destruct (d_sessions d !! id0) as [s|].
    2:{ apply Ret_inj in H. injection H as _ _ <-. eexists. split; [reflexivity|]. by apply Ex. }
    assert (exists st l, m' = SessionSetAppConfigRsp st l /\ st <> 0x11) as (st & l & -> & N).
    { destruct (negb _); [discriminate|].
      destruct (bool_decide (s_state s = SsActive) && _); [apply Ret_inj in H; injection H as _ _ <-; by eexists _, _|].
      destruct (negb (bool_decide (s_state s = SsInit)) && _); [apply Ret_inj in H; injection H as _ _ <-; by eexists _, _|].
      destruct (set_tlvs _ _ _) as [[k r]|]; [|discriminate]. cbn [obind] in H.
      destruct (missing_mandatory k); [apply Ret_inj in H; injection H as _ _ <-; by eexists _, _|].
      destruct r; [|apply Ret_inj in H; injection H as _ _ <-; by eexists _, _].
      rewrite session_set_state_eq in H. destruct (bool_decide (s_state (s_set_cfg k s) = SsInit)); apply Ret_inj in H; injection H as _ _ <-; by eexists _, _. }
    eexists. split; [reflexivity|]. by apply Ex.
  - apply Ret_inj in H. injection H as _ _ <-. unfold session_get_app_config. destruct (d_sessions d !! id0) as [s|].
    2:{ eexists. split; [reflexivity|]. by apply Ex. }
    destruct (get_tlvs _ _ _ _) as [valid invalid]. destruct invalid; eexists; (split; [reflexivity|]); by apply Ex.
  - apply Ret_inj in H. injection H as _ _ <-. unfold session_get_state. destruct (d_sessions d !! id0) as [s|]; eexists; (split; [reflexivity|]); by apply Ex.
  - unfold session_update_controller_multicast_list in H. destruct (d_sessions d !! id0) as [s|].
    2:{ apply Ret_inj in H. injection H as _ _ <-. eexists. split; [reflexivity|]. by apply Ex. }
    assert (exists st l, m' = SessionUpdateControllerMulticastListRsp st l /\ st <> 0x11) as (st & l & -> & N).
    { match type of H with (if ?b then _ else _) = _ => destruct b; [apply Ret_inj in H; injection H as _ _ <-; by eexists _, _|] end.
      destruct (multicast_controlees _ _) as [cs|]; [|apply Ret_inj in H; injection H as _ _ <-; by eexists _, _].
      assert (forall kr, (let! (dst, status, rsp) := add_controlees kr cs (dst_mac_address (s_cfg s)) STATUS_OK [] in
        let '(d0, e3) := multicast_finish d id0 s dst in Ret (d0, e3, SessionUpdateControllerMulticastListRsp status rsp)) = Ret (d', e, m') ->
        exists st l, m' = SessionUpdateControllerMulticastListRsp st l /\ st <> 0x11) as Ga.
      { clear H. intros kr H. destruct (add_controlees _ _ _ _ _) as [[[dst st] rsp]|] eqn:Ad; [|discriminate]. cbn [obind] in H.
        destruct (multicast_finish _ _ _ _) as [d0 e3]. apply Ret_inj in H. injection H as _ _ <-. eexists _, _. split; [reflexivity|].
        apply add_status in Ad. intros ->. by repeat destruct Ad as [Ad|Ad]. }
      destruct action; [by eapply Ga| |by eapply Ga..].
      destruct (remove_controlees _ _ _ _ _ _ _ _) as [[[[[dst st] rsp] ntf] e1]|] eqn:Rm; [|discriminate]. cbn [obind] in H.
      destruct (multicast_finish _ _ _ _) as [d0 e3]. apply Ret_inj in H. injection H as _ _ <-. eexists _, _. split; [reflexivity|].
      apply remove_status in Rm. intros ->. by repeat destruct Rm as [Rm|Rm]. }
    eexists. split; [reflexivity|]. by apply Ex.
  - unfold session_start in H. destruct (d_sessions d !! id0) as [s|].
    2:{ apply Ret_inj in H. injection H as _ _ <-. eexists. split; [reflexivity|]. by apply Ex. }
    destruct (negb _). { apply Ret_inj in H. injection H as _ _ <-. eexists. split; [reflexivity|]. by apply Ex. }
    destruct (s_task s); [discriminate|]. rewrite session_set_state_eq, device_set_state_eq in H. apply Ret_inj in H. injection H as _ _ <-.
    eexists. split; [reflexivity|]. by apply Ex.
  - unfold session_stop in H. destruct (d_sessions d !! id0) as [s|].
    2:{ apply Ret_inj in H. injection H as _ _ <-. eexists. split; [reflexivity|]. by apply Ex. }
    destruct (negb _). { apply Ret_inj in H. injection H as _ _ <-. eexists. split; [reflexivity|]. by apply Ex. }
    rewrite stop_ranging_task_eq, session_set_state_eq in H. destruct (device_dec_active _) as [[d1 e1]|]; [|discriminate].
    apply Ret_inj in H. injection H as _ _ <-. eexists. split; [reflexivity|]. by apply Ex.
  - apply Ret_inj in H. injection H as _ _ <-. unfold session_get_ranging_count. destruct (d_sessions d !! id0) as [s|]; eexists; (split; [reflexivity|]); by apply Ex.
Qed.
Print Assumptions C101_unknown.
(** There is one answer. *)
Theorem C101_determined : forall h tr c m m', answer h tr c m -> answer h tr c m' -> m = m'.
Proof.
  intros h tr c m m' A B. destruct A; inversion B; subst; try done; try congruence;
    repeat match goal with X : sessions h tr ?n, Y : sessions h tr ?k |- _ => pose proof (sessions_fun _ _ _ _ X Y); clear Y end; subst; try lia; try done.
Qed.
Print Assumptions C101_determined.
(** A host asks for a session which exists, starts another one which is only initialised, stops and starts the first one again. *)
Definition asked_answers : list op := active ++ [cmd 0 (CmdSessionInit 8 0)].
Definition answers_to (l : list op) (c : command) : list msg := sent 0 (outs_of l (cmd 0 c)).
Example C101_example :
  executes (state_after (asked_answers ++ [cmd 0 (CmdStart 8)])) (trace pica_new asked_answers ++ [(cmd 0 (CmdStart 8), outs_of asked_answers (cmd 0 (CmdStart 8)))])
  /\ asks 0 (CmdStart 8) (cmd 0 (CmdStart 8))
  /\ answers_to asked_answers (CmdStart 8) = [SessionStartRsp 0x15] /\ answers_to asked_answers (CmdStart 9) = [SessionStartRsp 0x11]
  /\ answers_to asked_answers (CmdStop 7) = [SessionStopRsp 0x00] /\ answers_to asked_answers CmdGetCount = [SessionGetCountRsp 0x00 2]
  /\ answers_to asked_answers (CmdGetState 7) = [SessionGetStateRsp 0x00 SsActive] /\ answers_to asked_answers (CmdSessionInit 8 0) = [SessionInitRsp 0x12]
  /\ answers_to (asked_answers ++ [cmd 0 (CmdStop 7)]) (CmdStart 7) = [SessionStartRsp 0x00]
  /\ last_state 0 7 (trace pica_new asked_answers) = SsActive.
Proof.
  split.
  { pose proof (history_executes (asked_answers ++ [cmd 0 (CmdStart 8)]) ltac:(vm_compute; reflexivity)) as X.
    assert (trace pica_new (asked_answers ++ [cmd 0 (CmdStart 8)]) = trace pica_new asked_answers ++ [(cmd 0 (CmdStart 8), outs_of asked_answers (cmd 0 (CmdStart 8)))]) as E by (vm_compute; reflexivity).
    by rewrite E in X. }
  split; [eexists; split; [reflexivity|]; split; [done|apply cmd_packet_encodes]|].
  repeat (split; [vm_compute; reflexivity|]). vm_compute; reflexivity.
Qed.
