(** The processing of one command, from the packet to the messages. *)
From Coq Require Import ZifyBool ZifyN ZifyNat.
From Verif Require Import Base Uci MacAddress AppConfig Codec Session Device Pica BaseFacts AppConfigFacts
  CodecSpec CodecFacts ContextSpec InvFacts StepFacts.

Lemma p_set_device_same p h d : p_devices p !! h = Some d -> p_set_device h d p = p.
Proof. intros L. unfold p_set_device, p_set_devices. rewrite insert_id by done. by destruct p. Qed.

Lemma receive_command_eq d c packet : wf_bytes packet -> wf_cmd c -> encodes c packet ->
  d_is_reset d = true \/ c = CmdDeviceReset 0 ->
  receive_packet d packet =
    let! (d', e, m) := handle_command d c in
    match wire m with Some _ => Ret (d', e ++ [Send m]) | None => Crash CmdEncode end.
Proof.
  intros W Wc E R. destruct (proj2 (decode_command_iff c packet W) (conj Wc E)) as (cp & D & M & S).
  pose proof E as (h & o & r1 & r2 & -> & Hm & _). unfold receive_packet.
  pose proof W as W0. apply wf_bytes_cons in W0 as [Hh Wr]. rewrite hdr_mt_cases by done. rewrite Hm. cbn [mt_of_code N.eqb Pos.eqb].
  rewrite D. unfold receive_command.
  replace (negb (d_is_reset d) && negb (is_core_device_reset_cmd cp)) with false.
  2:{ destruct R as [-> | ->]; [done|]. pose proof (encodes_reset_like _ W E) as L. unfold reset_like in L. rewrite D in L.
      rewrite L. by destruct (d_is_reset d). }
  rewrite M, S. destruct (handle_command d c) as [[[d' e] m]|]; [|done]. cbn [obind]. unfold send_control. by destruct (wire m).
Qed.
Lemma step_command e p h d c packet : p_devices p !! h = Some d -> wf_bytes packet -> wf_cmd c -> encodes c packet ->
  d_is_reset d = true \/ c = CmdDeviceReset 0 ->
  step e p (UciPacket h packet) =
    let! (d', e, m) := handle_command d c in
    match wire m with
    | Some _ => Ret (p_set_device h d' p, map (OEff h) (e ++ [Send m]))
    | None => Crash CmdEncode end.
Proof.
  intros L W Wc E R. cbn [step]. unfold uci_packet. rewrite L. rewrite (receive_command_eq d c) by done.
  destruct (handle_command d c) as [[[d' e'] m]|]; [|done]. cbn [obind]. by destruct (wire m).
Qed.

Record command_run (p : pica) (h : N) (c : command) (p' : pica) (outs : list out)
    (d d' : device) (e : list eff) (m : msg) : Prop := {
  cr_dinv : dinv false d;
  cr_dev : p_devices p !! h = Some d;
  cr_wf : wf_cmd c;
  cr_handle : handle_command d c = Ret (d', e, m);
  cr_state : p' = p_set_device h d' p;
  cr_outs : outs = map (OEff h) (e ++ [Send m]) }.
Arguments cr_dinv {_ _ _ _ _ _ _ _ _}. Arguments cr_dev {_ _ _ _ _ _ _ _ _}. Arguments cr_wf {_ _ _ _ _ _ _ _ _}.
Arguments cr_handle {_ _ _ _ _ _ _ _ _}. Arguments cr_state {_ _ _ _ _ _ _ _ _}. Arguments cr_outs {_ _ _ _ _ _ _ _ _}.
Lemma commanded_inv p h c p' outs : commanded p h c p' outs -> exists d d' e m, command_run p h c p' outs d d' e m.
Proof.
  intros (R & (d & L & Hr) & Wc & en & packet & W & E & S).
  rewrite (step_command en p h d c) in S by (auto).
  destruct (handle_command d c) as [[[d' e] m]|] eqn:H; [|discriminate]. cbn [obind] in S.
  destruct (wire m); [|discriminate]. apply Ret_inj in S. injection S as <- <-.
  exists d, d', e, m. split; try done. by eapply reachable_dinv.
Qed.

(** An environment for the examples and for the commands which do not depend on it. *)
Definition plain_env : env := Env (fun _ _ => None) (fun l => l) (fun l => reflexivity _).
Lemma plain_env_wf : wf_env plain_env.
Proof. done. Qed.
Lemma commanded_reachable p h c p' outs : commanded p h c p' outs -> reachable p'.
Proof.
  intros (R & _ & _ & e & packet & W & _ & S).
  by eapply (reachable_step p plain_env (UciPacket h packet)).
Qed.
(** ** Messages of one command *)
Definition is_send (e : eff) : bool := match e with Send _ => true | _ => false end.
Lemma no_send_app e e' : existsb is_send (e ++ e') = existsb is_send e || existsb is_send e'.
Proof. apply existsb_app. Qed.
Lemma no_send_drop s : existsb is_send (session_drop s) = false.
Proof. rewrite session_drop_eq. rewrite no_send_app. by destruct (s_task s), (bool_decide _). Qed.
Lemma no_send_device_drop d : existsb is_send (device_drop d) = false.
Proof.
  unfold device_drop. induction (map_to_list (d_sessions d)) as [|x l IH]; [done|].
  cbn [map concat]. by rewrite no_send_app, IH, no_send_drop.
Qed.
Lemma no_send_dec d d' e : device_dec_active d = Ret (d', e) -> existsb is_send e = false.
Proof.
  unfold device_dec_active. destruct (_ =? 0); [discriminate|]. cbn. destruct (_ =? 0); intros H; apply Ret_inj in H.
  - rewrite device_set_state_eq in H. injection H as _ <-. by destruct (bool_decide _).
  - by injection H as _ <-.
Qed.
Lemma handle_no_send d c d' e m : dinv false d -> wf_cmd c -> handle_command d c = Ret (d', e, m) -> existsb is_send e = false.
Proof.
  intros I W H. destruct c; cbn [handle_command] in H.
  - rewrite core_reset_eq in H. injection H as <- <- <-. by rewrite no_send_app, no_send_device_drop.
  - destruct (core_get_device_info d); [|discriminate]. by injection H as <- <- <-.
  - by injection H as <- <- <-.
  - destruct (core_set_config _ _) as [[? ?]|]; [|discriminate]. by injection H as <- <- <-.
  - by injection H as <- <- <-.
  - apply Ret_inj in H. unfold session_init in H. destruct (Nat.leb _ _); [by injection H as <- <- <-|].
    destruct (d_sessions d !! id); [|by injection H as <- <- <-]. injection H as <- <- <-. apply no_send_drop.
  - unfold session_deinit in H. destruct (d_sessions d !! id); [|by injection H as <- <- <-].
    destruct (bool_decide _).
    + destruct (device_dec_active d) as [[d1 e1]|] eqn:D; [|discriminate]. apply Ret_inj in H. injection H as <- <- <-.
      by rewrite no_send_app, no_send_drop, (no_send_dec _ _ _ D).
    + apply Ret_inj in H. injection H as <- <- <-. apply no_send_drop.
  - unfold session_set_app_config in H. destruct (d_sessions d !! id); [|by injection H as <- <- <-].
    destruct (negb _); [discriminate|]. destruct (bool_decide _ && _); [by injection H as <- <- <-|].
    destruct (_ && _); [by injection H as <- <- <-|].
    destruct (set_tlvs _ _ _) as [[c i]|]; [|discriminate]. cbn [obind] in H.
    destruct (missing_mandatory c); [by injection H as <- <- <-|].
    destruct i; [|by injection H as <- <- <-]. rewrite session_set_state_eq in H.
    destruct (bool_decide _); apply Ret_inj in H; injection H as <- <- <-; [|done]. by destruct (bool_decide _).
  - by injection H as <- <- <-.
  - by injection H as <- <- <-.
  - by injection H as <- <- <-.
  - unfold session_update_controller_multicast_list in H.
    destruct (d_sessions d !! id) as [s|] eqn:L; [|by injection H as <- <- <-].
    destruct (_ || _); [by injection H as <- <- <-|].
    destruct (multicast_controlees action payload) as [l|] eqn:Mc; [|by injection H as <- <- <-].
    apply multicast_controlees_short in Mc as [Fl _]; [|apply W].
    assert (forall l : list mac_address, existsb is_send (match l with
      | [] => if bool_decide (SsIdle = s_state s) then [] else [After 1 (SessionStatusNtf (s_id s) SsIdle REASON_ERROR_INVALID_NUM_OF_CONTROLEES)]
      | _ => [] end) = false) as G. { clear H. intros []; [|done]. by destruct (bool_decide _). }
    destruct (bool_decide_reflect (action = RemoveControlee)) as [->|Hr].
    + destruct (remove_controlees _ _ _ _ _ _ _ _) as [[[[[d1 s1] r1] n1] e1]|] eqn:Rm; [|discriminate].
      cbn [obind] in H. rewrite multicast_finish_eq in H. apply Ret_inj in H. injection H as _ <- _.
      apply remove_controlees_ok in Rm as (_ & _ & _ & _ & _ & _ & e2 & -> & F); [|done|exact (co_dst _ (so_cfg _ _ (di_session _ _ I _ _ L)))|done|done|done].
      rewrite !no_send_app, G.
      replace (existsb is_send (if bool_decide (s_state s = SsActive) then _ else _)) with false
        by (by destruct (bool_decide (s_state s = SsActive))).
      rewrite !orb_false_r. cbn [app existsb]. clear -F. induction F as [|? ? (a & n & -> & _) _ IH]; [done|exact IH].
    + assert (exists kr, (let! (dst, status, rsp) := add_controlees kr l (dst_mac_address (s_cfg s)) STATUS_OK [] in
         let '(d1, e3) := multicast_finish d id s dst in
         Ret (d1, e3, SessionUpdateControllerMulticastListRsp status rsp)) = Ret (d', e, m)) as (kr & H').
      { destruct action; try done; by eexists. }
      clear H. destruct (add_controlees _ _ _ _ _) as [[[d1 s1] r1]|]; [|discriminate].
      cbn [obind] in H'. rewrite multicast_finish_eq in H'. apply Ret_inj in H'. injection H' as _ <- _. apply G.
  - unfold session_start in H. destruct (d_sessions d !! id); [|by injection H as <- <- <-].
    destruct (negb _); [by injection H as <- <- <-|]. destruct (s_task s); [discriminate|].
    rewrite session_set_state_eq, device_set_state_eq in H. apply Ret_inj in H. injection H as _ <- _.
    cbn. by repeat destruct (bool_decide _).
  - unfold session_stop in H. destruct (d_sessions d !! id); [|by injection H as <- <- <-].
    destruct (negb _); [by injection H as <- <- <-|].
    rewrite stop_ranging_task_eq, session_set_state_eq in H.
    destruct (device_dec_active _) as [[d1 e1]|] eqn:D; [|discriminate]. apply Ret_inj in H. injection H as _ <- _.
    rewrite !no_send_app, (no_send_dec _ _ _ D). by destruct (s_task s), (bool_decide _).
  - by injection H as <- <- <-.
  - by injection H as <- <- <-.
  - by injection H as <- <- <-.
Qed.

Definition eff_sent (e : list eff) : list msg := concat (map (fun x => match x with Send m => [m] | _ => [] end) e).
Lemma sent_effs h outs : sent h outs = eff_sent (effs_at h outs).
Proof.
  unfold sent, eff_sent, effs_at. induction outs as [|o outs IH]; [done|]. cbn [map concat].
  rewrite map_app, concat_app, IH. f_equal. destruct o as [h' x| | |]; try done. unfold sent_to, effs_of.
  destruct (h' =? h); destruct x; cbn; done.
Qed.
Lemma eff_sent_none e : existsb is_send e = false -> eff_sent e = [].
Proof. induction e as [|[] e IH]; try done; cbn; auto. Qed.
Lemma eff_sent_app e e' : eff_sent (e ++ e') = eff_sent e ++ eff_sent e'.
Proof. unfold eff_sent. by rewrite map_app, concat_app. Qed.

Section Run.
  Context {p h c p' outs d d' e m} (R : command_run p h c p' outs d d' e m).
  Lemma cr_effs : effs_at h outs = e ++ [Send m].
  Proof. rewrite (cr_outs R). apply effs_at_same. Qed.
  Lemma cr_sent : sent h outs = [m].
  Proof.
    rewrite sent_effs, cr_effs, eff_sent_app, (eff_sent_none e); [done|].
    eapply handle_no_send; apply R.
  Qed.
  Lemma cr_status id : status_ntfs h id outs = eff_status id e.
  Proof.
    rewrite status_ntfs_effs, cr_effs, eff_status_app. unfold eff_status at 2. cbn.
    rewrite (answer_quiet _ _ _ _ _ (cr_handle R)). apply app_nil_r.
  Qed.
  Lemma cr_device : device_ntfs h outs = eff_dev e.
  Proof. rewrite device_ntfs_effs, cr_effs, eff_dev_app. apply app_nil_r. Qed.
  Lemma cr_starts id : timers_started h id outs = eff_starts id e.
  Proof. rewrite started_effs, cr_effs, eff_starts_app. cbn. lia. Qed.
  Lemma cr_stops id : timers_stopped h id outs = eff_stops id e.
  Proof. rewrite stopped_effs, cr_effs, eff_stops_app. cbn. lia. Qed.
  Lemma cr_lookup h' : p_devices p' !! h' = if bool_decide (h' = h) then Some d' else p_devices p !! h'.
  Proof.
    rewrite (cr_state R). cbn. case_bool_decide as E; [by rewrite E, lookup_insert|].
    by rewrite lookup_insert_ne.
  Qed.
  Lemma cr_session id : session_at p h id = d_sessions d !! id.
  Proof. unfold session_at. by rewrite (cr_dev R). Qed.
  Lemma cr_session' id : session_at p' h id = d_sessions d' !! id.
  Proof. unfold session_at. by rewrite cr_lookup, bool_decide_true. Qed.
  Lemma cr_dstate id : state_at p h id = dstate d id.
  Proof. unfold state_at. by rewrite cr_session. Qed.
  Lemma cr_dstate' id : state_at p' h id = dstate d' id.
  Proof. unfold state_at. by rewrite cr_session'. Qed.
  Lemma cr_devstate : device_state_at p h = Some (d_state d).
  Proof. unfold device_state_at. by rewrite (cr_dev R). Qed.
  Lemma cr_devstate' : device_state_at p' h = Some (d_state d').
  Proof. unfold device_state_at. by rewrite cr_lookup, bool_decide_true. Qed.
  Lemma cr_other h' : h' <> h -> effs_at h' outs = [].
  Proof. intros N. rewrite (cr_outs R). by apply effs_at_other. Qed.
  Lemma cr_same : d' = d -> p' = p.
  Proof. intros E. rewrite (cr_state R), E. apply p_set_device_same, R. Qed.
End Run.

(** ** What a command leaves unchanged *)
Definition target (c : command) : option N :=
  match c with
  | CmdSessionInit id _ | CmdSessionDeinit id | CmdSetAppConfig id _ | CmdMulticast id _ _
  | CmdStart id | CmdStop id => Some id
  | _ => None
  end.
Record frame (c : command) (d d' : device) : Prop := {
  fr_reset : d_is_reset d' = d_is_reset d;
  fr_handle : d_handle d' = d_handle d;
  fr_mac : d_mac d' = d_mac d;
  fr_cfg : d_cfg_state d' = d_cfg_state d;
  fr_low : (forall l, c <> CmdSetConfig l) -> d_low_power d' = d_low_power d;
  fr_country : (forall l, c <> CmdSetCountryCode l) -> d_country d' = d_country d;
  fr_sessions : forall id, target c <> Some id -> d_sessions d' !! id = d_sessions d !! id }.
Lemma handle_frame d c d' e m : is_reset c = false -> handle_command d c = Ret (d', e, m) -> frame c d d'.
Proof.
  intros R H.
  assert (forall c, frame c d d) as F0 by (intros; by split).
  assert (forall id s st n, target c = Some id -> d' = d_set_state st (d_set_active n (d_set_sessions (<[id := s]> (d_sessions d)) d)) ->
    frame c d d') as F1.
  { intros id s st n T ->. split; try done. intros id' N. cbn. rewrite lookup_insert_ne; [done|]. congruence. }
  assert (forall id s, target c = Some id -> d' = d_set_sessions (<[id := s]> (d_sessions d)) d -> frame c d d') as F2.
  { intros id s T ->. split; try done. intros id' N. cbn. rewrite lookup_insert_ne; [done|]. congruence. }
  destruct c; cbn [handle_command] in H; try discriminate R; try (by injection H as <- _ _).
  - unfold core_get_device_info in H. destruct (bool_decide _); [|discriminate]. by injection H as <- _ _.
  - unfold core_set_config in H. destruct (negb _); [discriminate|]. destruct (set_config_loop _ _ _).
    injection H as <- _ _. split; try done. intros N. by destruct (N parameters).
  - apply Ret_inj in H. unfold session_init in H. destruct (Nat.leb _ _); [by injection H as <- _ _|].
    destruct (d_sessions d !! _); [injection H as H _ _; eapply F2; [reflexivity|symmetry; exact H]|].
    unfold session_init_state in H. rewrite session_set_state_eq in H. injection H as H _ _; eapply F2; [reflexivity|symmetry; exact H].
  - unfold session_deinit in H. destruct (d_sessions d !! _) as [s|]; [|by injection H as <- _ _].
    assert (forall st n, d' = d_set_state st (d_set_active n (d_set_sessions (delete id (d_sessions d)) d)) -> frame (CmdSessionDeinit id) d d') as F3.
    { intros st n ->. split; try done. intros id' N. cbn. rewrite lookup_delete_ne; [done|]. cbn in N. congruence. }
    destruct (bool_decide _).
    + destruct (device_dec_active d) as [[d1 e1]|] eqn:D; [|discriminate]. apply dec_active_inv in D as (_ & -> & _).
      injection H as H _ _. eapply F3; symmetry; exact H.
    + injection H as H _ _. apply (F3 (d_state d) (d_active d)). rewrite <- H. by destruct d.
  - unfold session_set_app_config in H. destruct (d_sessions d !! _) as [s|]; [|by injection H as <- _ _].
    destruct (negb _); [discriminate|]. destruct (_ && _); [by injection H as <- _ _|].
    destruct (negb _ && _); [by injection H as <- _ _|].
    destruct (set_tlvs _ _ _) as [[c' inv]|]; [|discriminate]. cbn [obind] in H.
    destruct (missing_mandatory _); [by injection H as <- _ _|].
    destruct inv; [|by injection H as <- _ _].
    rewrite session_set_state_eq in H. destruct (bool_decide _); injection H as H _ _; (eapply F2; [reflexivity|symmetry; exact H]).
  - unfold session_update_controller_multicast_list in H. destruct (d_sessions d !! _) as [s|]; [|by injection H as <- _ _].
    destruct (_ || _); [by injection H as <- _ _|]. destruct (multicast_controlees _ _); [|by injection H as <- _ _].
    assert (forall kr l st dst, (let! (dst, status, rsp) := add_controlees kr l dst st [] in
      let '(d, e3) := multicast_finish d id s dst in
      Ret (d, e3, SessionUpdateControllerMulticastListRsp status rsp)) = Ret (d', e, m) ->
      frame (CmdMulticast id action payload) d d') as Add.
    { clear H. intros kr l0 st dst H. destruct (add_controlees _ _ _ _ _) as [[[? ?] ?]|]; [|discriminate].
      cbn [obind] in H. rewrite multicast_finish_eq in H. injection H as H _ _. eapply F2; [reflexivity|symmetry; exact H]. }
    destruct action; [by eapply Add| |by eapply Add|by eapply Add].
    destruct (remove_controlees _ _ _ _ _ _ _ _) as [[[[[? ?] ?] ?] ?]|]; [|discriminate].
    cbn [obind] in H. rewrite multicast_finish_eq in H. injection H as H _ _. eapply F2; [reflexivity|symmetry; exact H].
  - unfold session_start in H. destruct (d_sessions d !! _) as [s|]; [|by injection H as <- _ _].
    destruct (negb _); [by injection H as <- _ _|]. destruct (s_task s); [discriminate|].
    rewrite session_set_state_eq, device_set_state_eq in H. injection H as H _ _. eapply F1; [reflexivity|symmetry; exact H].
  - unfold session_stop in H. destruct (d_sessions d !! _) as [s|]; [|by injection H as <- _ _].
    destruct (negb _); [by injection H as <- _ _|]. rewrite stop_ranging_task_eq, session_set_state_eq in H.
    destruct (device_dec_active _) as [[d1 e1]|] eqn:D; [|discriminate]. apply dec_active_inv in D as (_ & -> & _).
    injection H as H _ _. eapply F1; [reflexivity|symmetry; exact H].
  - injection H as <- _ _. split; try done. intros N. by destruct (N code).
Qed.

Lemma handle_is_reset d c d' e m : handle_command d c = Ret (d', e, m) -> d_is_reset d' = is_reset c || d_is_reset d.
Proof.
  intros H. destruct (is_reset c) eqn:R.
  - destruct c; try discriminate R. cbn [handle_command] in H. rewrite core_reset_eq in H. by injection H as <- _ _.
  - by apply handle_frame in H as [-> _ _ _ _ _ _].
Qed.
Lemma commanded_serving p h c p' outs : commanded p h c p' outs -> serving p' h.
Proof.
  intros C. pose proof C as (_ & (d0 & L & Hr) & _). destruct (commanded_inv _ _ _ _ _ C) as (d & d' & e & m & R).
  pose proof (cr_dev R) as L'. rewrite L in L'. injection L' as <-.
  exists d'. rewrite (cr_lookup R), bool_decide_true by done. split; [done|].
  rewrite (handle_is_reset _ _ _ _ _ (cr_handle R)), Hr. apply orb_true_r.
Qed.
Lemma cr_frame {p h c p' outs d d' e m} id : command_run p h c p' outs d d' e m -> target c = Some id ->
  same_but_session h id p p'.
Proof.
  intros R T. assert (is_reset c = false) as N by by destruct c.
  pose proof (handle_frame _ _ _ _ _ N (cr_handle R)) as [].
  assert (forall h', p_devices p' !! h' = if bool_decide (h' = h) then Some d' else p_devices p !! h') as Lk.
  { intros. by apply (cr_lookup R). }
  pose proof (cr_dev R) as L.
  split_and!; try (by rewrite (cr_state R)).
  - intros h' id' Ne. unfold session_at. rewrite Lk. case_bool_decide as E; [|done]. subst h'. rewrite L. cbn.
    apply fr_sessions0. rewrite T. congruence.
  - intros h' Ne. by rewrite Lk, bool_decide_false.
  - rewrite Lk, bool_decide_true, L by done. cbn. rewrite fr_low0; [done|]. intros l ->. discriminate T.
  - rewrite Lk, bool_decide_true, L by done. cbn. rewrite fr_country0; [done|]. intros l ->. discriminate T.
  - rewrite Lk, bool_decide_true, L by done. cbn. by rewrite fr_mac0.
Qed.
