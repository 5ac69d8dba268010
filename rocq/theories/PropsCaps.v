(** C89: what a device says about itself. *)
From Verif Require Import Base Uci MacAddress AppConfig Codec Session Device Pica.
From Verif Require Import BaseFacts AppConfigSpec AppConfigFacts CodecSpec CodecFacts ContextSpec InvFacts StepFacts CommandFacts Demo SessionSpec SessionFacts
  CapsSpec PropsSession RangingSpec CrashSpec RoundFacts.

(** The answers that are always the same: the versions (UCI 2.0, MAC and PHY 1.3.0, test 1.1, little-endian octets), the
    capabilities, the statistics, and the country code, which is always accepted. *)
Definition capabilities : list (N * bytes) :=
  [(0x00, [1; 1; 1; 3]); (0x01, [1; 1; 1; 3]); (0x02, [3]); (0x03, [31]); (0x04, [31]); (0x05, [255]); (0x06, [1]); (0x07, [1]); (0x08, [0]); (0x09, [1]);
   (0x0A, [1]); (0x0B, [255]); (0x0C, [255]); (0x0D, [255]); (0x0E, [255]); (0x0F, [255]); (0x10, [255]); (0xE3, [1]); (0x11, [1]);
   (0xA4, [1; 0]); (0xA5, [0]); (0xA6, [0]); (0xA7, [0; 0; 0; 0]); (0xA0, [255]); (0xA1, [255; 255; 255; 255]); (0xA3, [255]); (0xA2, [255])].
Theorem C89_constant : forall p h c p' outs, commanded p h c p' outs ->
  match c with
  | CmdGetDeviceInfo => p' = p /\ outs = [OEff h (Send (CoreGetDeviceInfoRsp 0x00 0x0002 0x3001 0x3001 0x1001 []))]
  | CmdGetCapsInfo => p' = p /\ outs = [OEff h (Send (CoreGetCapsInfoRsp 0x00 capabilities))]
  | CmdGetPowerStats => p' = p /\ outs = [OEff h (Send (AndroidGetPowerStatsRsp 0x00 0 0 0 0))]
  | CmdSetCountryCode code => outs = [OEff h (Send (AndroidSetCountryCodeRsp 0x00))] /\ d_country <$> p_devices p' !! h = Some code
      /\ (forall h' id, session_at p' h' id = session_at p h' id) /\ device_state_at p' h = device_state_at p h
  | CmdGetRangingCount id => session_at p h id = None -> p' = p /\ outs = [OEff h (Send (SessionGetRangingCountRsp 0x11 0))]
  | _ => True
  end.
Proof.
  intros p h c p' outs C. destruct (commanded_inv _ _ _ _ _ C) as (d & d' & e & m & R). pose proof (cr_handle R) as H.
  destruct c; try exact I; cbn [handle_command] in H.
  - unfold core_get_device_info in H. destruct (bool_decide _); [|discriminate]. cbn [obind] in H. apply Ret_inj in H. injection H as E <- <-.
    rewrite (cr_outs R). split; [by apply (cr_same R)|done].
  - apply Ret_inj in H. injection H as E <- <-. rewrite (cr_outs R). split; [by apply (cr_same R)|reflexivity].
  - apply Ret_inj in H. injection H as E <- <-. rewrite (cr_session R), (cr_outs R). intros L. unfold session_get_ranging_count. rewrite L. split; [by apply (cr_same R)|reflexivity].
  - apply Ret_inj in H. injection H as E <- <-. rewrite (cr_outs R). split; [by apply (cr_same R)|reflexivity].
  - apply Ret_inj in H. injection H as E <- <-. rewrite (cr_outs R), (cr_devstate R), (cr_devstate' R). rewrite (cr_state R), <- E. split; [done|].
    cbn. rewrite lookup_insert. split; [done|]. split; [|done]. intros h' id. unfold session_at. cbn.
    destruct (decide (h' = h)) as [->|Nh]; [by rewrite lookup_insert, (cr_dev R)|by rewrite lookup_insert_ne].
Qed.
Print Assumptions C89_constant.

(** What is declared is accepted: adding the declared value of a parameter to a list of parameters that is accepted is
    accepted. *)
Lemma sets_all_snoc c l c1 r id v c2 : sets_all c l c1 r -> app_config_set c1 id v = Ret (c2, true) -> sets_all c (l ++ [(id, v)]) c2 r.
Proof.
  induction 1 as [c|c i w c0 l c3 r E S IH|c i w l c3 r E S IH]; intros H; cbn [app].
  - eapply SaOk; [exact H|constructor].
  - eapply SaOk; [exact E|by apply IH].
  - eapply SaRefused; [exact E|by apply IH].
Qed.
Theorem C89_supported_partial : forall p h id l p1 outs1 p2 outs2 cap bit parameter value,
  declares p h cap bit true -> (cap, bit, parameter, value) ∈ meaning ->
  commanded p h (CmdSetAppConfig id l) p1 outs1 -> sent h outs1 = [SessionSetAppConfigRsp 0x00 []] ->
  commanded p h (CmdSetAppConfig id (l ++ [(parameter, [value])])) p2 outs2 ->
  sent h outs2 = [SessionSetAppConfigRsp 0x00 []] /\ exists s', session_at p2 h id = Some s' /\ app_config_get (s_cfg s') parameter = Some [value].
Proof.
  intros p h id l p1 outs1 p2 outs2 cap bit param v (q & outs & caps & b & C & S & Hin & T) M C1 S1 C2.
  apply C89_constant in C as [_ ->]. unfold sent in S. cbn [map concat sent_to app] in S. rewrite N.eqb_refl in S. injection S as <-.
  assert (forall c, exists c', app_config_set c param [v] = Ret (c', true)) as A.
  { intros c. revert Hin T M. clear.
    intros Hin T M. unfold capabilities in Hin. unfold meaning in M.
    repeat (apply elem_of_cons in M as [M|M]; [injection M as -> -> -> ->|]); [..|by apply elem_of_nil in M].
    all: repeat (apply elem_of_cons in Hin as [Hin|Hin]; [try discriminate Hin; injection Hin as ->|]); [..|by apply elem_of_nil in Hin].
    all: first [discriminate T | eexists; cbn; reflexivity]. }
  destruct (C24_set_app_config_partial _ _ _ _ _ _ C1) as (st & rf & E1 & [(-> & -> & _ & _ & s & s1 & L & L1 & _ & _ & Sa & Cf & St)|(Ns & _)]);
    [|rewrite S1 in E1; by injection E1 as <- <-].
  destruct (A (s_cfg s1)) as (c2 & E2). pose proof (sets_all_snoc _ _ _ _ _ _ _ Sa E2) as Sb.
  pose proof (C24_answer _ _ _ _ _ _ [] c2 C2) as An. rewrite L in An. specialize (An ltac:(intros s0 E0; injection E0 as <-; exact Sb)).
  pose proof (C24_answer _ _ _ _ _ _ [] (s_cfg s1) C1) as An1. rewrite L in An1. specialize (An1 ltac:(intros s0 E0; injection E0 as <-; exact Sa)).
  assert (param <> T_AOA_RESULT_REQ) as Na.
  { intros ->. revert M. clear. unfold meaning. intros M. by repeat (apply elem_of_cons in M as [M|M]; [discriminate M|]); apply elem_of_nil in M. }
  assert (wf_bytes [v]) as Wv.
  { destruct C2 as (_ & _ & (_ & _ & W) & _). apply Forall_app in W as [_ W]. apply Forall_cons in W as [W _]. apply W. }
  assert (forall i, In i mandatory -> app_config_get c2 i <> None) as Cf2.
  { intros i Hi. destruct (decide (i = param)) as [->|Ni]; [by rewrite (set_readback _ _ _ _ Wv E2)|]. rewrite (set_other _ _ _ _ _ i E2) by done. by apply Cf. }
  assert (sent h outs2 = [SessionSetAppConfigRsp 0x00 []]) as S2.
  { rewrite An. rewrite S1 in An1. unfold set_answer in *. rewrite existsb_app. cbn [existsb fst]. rewrite (bool_decide_false (param = T_AOA_RESULT_REQ)) by done.
    assert (forallb (fun i => bool_decide (app_config_get c2 i <> None)) mandatory = true) as ->.
    { apply forallb_forall. intros i Hi. apply bool_decide_eq_true. by apply Cf2. }
    rewrite !orb_false_r. destruct St as [[St _]|[St _]]; rewrite St in *; [done|].
    destruct (existsb _ l); [|by rewrite andb_false_r]. discriminate An1. }
  split; [done|].
  destruct (C24_read_back _ _ _ _ _ _ l param [v] [] C2 S2 eq_refl) as (s' & Ls & G); [by intros []|].
  exists s'. split; [done|]. rewrite G. by rewrite andb_false_r.
Qed.
Print Assumptions C89_supported_partial.

(** What is missing. Extended addresses are declared, and accepted, but the first round of two devices that use them stops
    the program. *)
Definition extended (l : list (tlv_id * bytes)) : list (tlv_id * bytes) :=
  (fun x => if bool_decide (x.1 = T_MAC_ADDRESS_MODE) then (T_MAC_ADDRESS_MODE, [2]) else x) <$> l.
Definition long_a : bytes := [1; 0; 0; 0; 0; 0; 0; 1].
Definition long_b : bytes := [2; 0; 0; 0; 0; 0; 0; 2].
Definition extended_pair : list op :=
  [Connect; cmd 0 (CmdDeviceReset 0); cmd 0 (CmdSessionInit 7 0); cmd 0 (CmdSetAppConfig 7 (extended (controller_config long_a long_b)));
   Connect; cmd 1 (CmdDeviceReset 0); cmd 1 (CmdSessionInit 7 0); cmd 1 (CmdSetAppConfig 7 (extended (controlee_config long_b long_a)));
   cmd 0 (CmdStart 7); cmd 1 (CmdStart 7)].
Theorem C89_extended_refuted : exists p, reachable p /\ serving p 0 /\ serving p 1 /\ (0x11, [1]) ∈ capabilities
  /\ (exists s, session_at p 0 7 = Some s /\ app_config_get (s_cfg s) T_DEVICE_MAC_ADDRESS = Some long_a /\ s_state s = SsActive)
  /\ (exists s, session_at p 1 7 = Some s /\ app_config_get (s_cfg s) T_DEVICE_MAC_ADDRESS = Some long_b /\ s_state s = SsActive)
  /\ forall e, env_estimate e 0 1 <> None -> env_estimate e 1 0 <> None -> crashed (step e p (Ranging 0 7)) = true.
Proof.
  exists (state_after extended_pair). assert (reachable (state_after extended_pair)) as Rp by (apply history_reachable; vm_compute; reflexivity). split; [exact Rp|].
  split; [apply servingb_sound; vm_compute; reflexivity|]. split; [apply servingb_sound; vm_compute; reflexivity|].
  split; [unfold capabilities; set_solver|].
  split; [eexists; split; [vm_compute; reflexivity|]; split; vm_compute; reflexivity|].
  split; [eexists; split; [vm_compute; reflexivity|]; split; vm_compute; reflexivity|].
  intros e E1 E2. apply (round_crash (fun _ => false)); [by apply reachable_pinv|].
  destruct (env_estimate e 0 1) as [local|] eqn:El; [|done]. destruct (env_estimate e 1 0) as [remote|] eqn:Er; [|done].
  eapply (RoundPeer e _ 0 7 _ 1 long_b local remote); [vm_compute; reflexivity|]. split; [done|].
  eexists. split; [vm_compute; reflexivity|]. split; [reflexivity|]. split; [|split; [reflexivity|by split]].
  split; [cbn; discriminate|]. split; [cbn; discriminate|]. exists (MExtended long_a), (MExtended long_b).
  split; [reflexivity|]. split; [reflexivity|]. split; apply elem_of_list_In; cbn; auto.
Qed.
Print Assumptions C89_extended_refuted.
(** And what is declared as not supported is accepted as well: hopping. *)
Theorem C89_undeclared_refuted : exists p p' outs, declares p 0 0x08 0 false /\ (0x08, 0, T_HOPPING_MODE, 1) ∈ meaning
  /\ commanded p 0 (CmdSetAppConfig 7 (controller_config [1; 0] [2; 0] ++ [(T_HOPPING_MODE, [1])])) p' outs
  /\ sent 0 outs = [SessionSetAppConfigRsp 0x00 []].
Proof.
  set (c := CmdSetAppConfig 7 (controller_config [1; 0] [2; 0] ++ [(T_HOPPING_MODE, [1])])).
  exists (state_after inited), (state_after (inited ++ [cmd 0 c])), (outs_of inited (cmd 0 c)).
  split; [|split; [unfold meaning; set_solver|split; [|vm_compute; reflexivity]]].
  - exists (state_after (inited ++ [cmd 0 CmdGetCapsInfo])), (outs_of inited (cmd 0 CmdGetCapsInfo)), capabilities, 0.
    split; [apply history_commanded; [done|vm_compute; reflexivity..]|]. split; [vm_compute; reflexivity|]. split; [unfold capabilities; set_solver|done].
  - apply history_commanded; [|vm_compute; reflexivity..]. split_and!; [done|unfold short_list; cbn; lia|by repeat constructor].
Qed.
Print Assumptions C89_undeclared_refuted.
Example C89_example : let l := controller_config [1; 0] [2; 0] in
  declares (state_after inited) 0 0x0B 7 true /\ (0x0B, 7, T_CHANNEL_NUMBER, 14) ∈ meaning
  /\ sent 0 (outs_of inited (cmd 0 (CmdSetAppConfig 7 l))) = [SessionSetAppConfigRsp 0x00 []]
  /\ commanded (state_after inited) 0 (CmdSetAppConfig 7 l) (state_after (inited ++ [cmd 0 (CmdSetAppConfig 7 l)])) (outs_of inited (cmd 0 (CmdSetAppConfig 7 l)))
  /\ (let l := l ++ [(T_CHANNEL_NUMBER, [14])] in
      commanded (state_after inited) 0 (CmdSetAppConfig 7 l) (state_after (inited ++ [cmd 0 (CmdSetAppConfig 7 l)])) (outs_of inited (cmd 0 (CmdSetAppConfig 7 l)))).
Proof.
  cbv zeta. split.
  - exists (state_after (inited ++ [cmd 0 CmdGetCapsInfo])), (outs_of inited (cmd 0 CmdGetCapsInfo)), capabilities, 255.
    split; [apply history_commanded; [done|vm_compute; reflexivity..]|]. split; [vm_compute; reflexivity|]. split; [unfold capabilities; set_solver|done].
  - split; [unfold meaning; set_solver|]. split; [vm_compute; reflexivity|].
    split; (apply history_commanded; [split_and!; [done|unfold short_list; cbn; lia|by repeat constructor]|vm_compute; reflexivity..]).
Qed.
