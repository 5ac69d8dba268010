(** Measurements in the notifications that hosts receive, in any execution of the system (C39), and with the default binary (C86). *)
From Verif Require Import Base Uci MacAddress AppConfig Codec Session Device Pica Sys DefaultBin.
From Verif Require Import BaseFacts CodecSpec CodecFacts ContextSpec HistorySpec InvFacts StepFacts CommandFacts RangingSpec RangingFacts EffectFacts SysSpec SysFacts DialogueSpec DialogueFacts Demo SysDemo HttpFacts PropsRanging.
From Verif Require Import MacAddress PyHost PyReaderSpec Script ScriptSpec ScriptDemo ScriptRunDemo TransferSpec TransferFacts TransferDemo PropsTransfer.

Definition round_of (e : env) (p : pica) (h id : N) (m : msg) : Prop :=
  exists s anchors peers ks, session_at p h id = Some s /\ m = SessionInfoNtf (s_seq s) id 0 0 (anchors ++ peers) []
    /\ Forall2 (fun t x => measures t.1.1 t.1.2 t.2 x) (anchors_measured e p h (dst_mac_address (s_cfg s))) anchors
    /\ Forall2 (fun k x => exists t, measured e p h id s k t /\ measures t.1.1 t.1.2 t.2 x) ks peers
    /\ NoDup ks /\ (forall k, k ∈ ks <-> exists t, measured e p h id s k t).

Lemma round_report e p o p' outs h seq id a b ms v : reachable p -> wf_env e -> wf_op o -> step e p o = Ret (p', outs) ->
  In (SessionInfoNtf seq id a b ms v) (messages h outs) -> o = Ranging h id /\ round_of e p h id (SessionInfoNtf seq id a b ms v).
Proof.
  intros R We Wo H Hi. assert (o = Ranging h id) as -> by by eapply C41_only_rounds. split; [done|].
  destruct (round_spec _ _ _ _ _ _ _ (reachable_pinv _ R) H) as (s & _ & _ & _ & _ & S & _).
  destruct (decide (app_config_get (s_cfg s) T_SESSION_INFO_NTF_CONFIG = Some [0x00])) as [D|Nt].
  - destruct (C42_disabled _ _ _ _ _ _ _ R S D H) as (E & _). specialize (E h).
    assert (SessionInfoNtf seq id a b ms v ∈ filter is_info (messages h outs)) as X; [|by rewrite E in X; apply elem_of_nil in X].
    apply elem_of_list_filter. split; [done|by apply elem_of_list_In].
  - destruct (C42_enabled _ _ _ _ _ _ _ R S Nt H) as ((ms' & E) & _).
    assert (SessionInfoNtf seq id a b ms v ∈ filter is_info (messages h outs)) as X.
    { apply elem_of_list_filter. split; [done|by apply elem_of_list_In]. }
    destruct (C39_measurements _ _ _ _ _ _ _ R We S Nt H) as (xa & xp & ks & Se & F1 & F2 & Nd & Ks).
    assert (SessionInfoNtf (s_seq s) id 0 0 (xa ++ xp) [] ∈ filter is_info (messages h outs)) as Y.
    { apply elem_of_list_filter. split; [done|]. rewrite messages_perm, Se. by left. }
    rewrite E in X, Y. apply elem_of_list_singleton in X, Y. rewrite X, <- Y.
    exists s, xa, xp, ks. by split_and!.
Qed.
Lemma reported ls y : executed ls y -> forall outs h seq id a b ms v, run pica_new (processed ls sys_new) = Ret (y_pica y, outs) ->
  In (SessionInfoNtf seq id a b ms v) (messages h outs) ->
  exists ls1 ls2 e y1 q, ls = ls1 ++ LTake e :: ls2 /\ sys_run ls1 sys_new = Some y1 /\ y_queue y1 = Ranging h id :: q
    /\ round_of e (y_pica y1) h id (SessionInfoNtf seq id a b ms v).
Proof.
  revert ls y. apply (executed_ind (fun ls y => forall outs h seq id a b ms v, run pica_new (processed ls sys_new) = Ret (y_pica y, outs) ->
    In (SessionInfoNtf seq id a b ms v) (messages h outs) ->
    exists ls1 ls2 e y1 q, ls = ls1 ++ LTake e :: ls2 /\ sys_run ls1 sys_new = Some y1 /\ y_queue y1 = Ranging h id :: q
      /\ round_of e (y_pica y1) h id (SessionInfoNtf seq id a b ms v))).
  - intros outs h seq id a b ms v R. cbn in R. injection R as <-. done.
  - intros ls y l y' Ex IH Wl _ Mv St outs h seq id a b ms v R Hi. destruct (executed_sinv _ _ Ex) as (outs0 & I). pose proof (si_reach _ _ _ I) as Re. pose proof Re as [_ R0].
    rewrite (processed_snoc ls l sys_new y y' (proj2 Ex) St) in R.
    assert (In (SessionInfoNtf seq id a b ms v) (messages h outs0) -> exists ls1 ls2 e y1 q, ls ++ [l] = ls1 ++ LTake e :: ls2 /\ sys_run ls1 sys_new = Some y1 /\ y_queue y1 = Ranging h id :: q
      /\ round_of e (y_pica y1) h id (SessionInfoNtf seq id a b ms v)) as Old.
    { intros Hi0. destruct (IH _ _ _ _ _ _ _ _ R0 Hi0) as (ls1 & ls2 & e & y1 & q & -> & ?). exists ls1, (ls2 ++ [l]), e, y1, q. by rewrite <- app_assoc. }
    rewrite run_app, R0 in R. cbn [obind] in R.
    destruct (decide (taken l y = [])) as [En|Nn].
    + rewrite En in R. cbn in R. injection R as _ <-. rewrite app_nil_r in Hi. by apply Old.
    + inversion Mv as [e o q p o2 T Q S|e o q s T Q S|o td T|i t T D Q Lv|i t T D Q Lv|i t T Lv|i n T D|i k T L Q|k pk C Q|k C|k C Q|k C|Q|m Q|m Q|]; subst l; cbn [taken] in Nn, R; try done.
      * rewrite Q, S in R. cbn in R. rewrite S in R. cbn in R. injection R as _ <-. rewrite app_nil_r, messages_app in Hi. apply in_app_iff in Hi as [Hi|Hi]; [by apply Old|].
        assert (wf_op o) as Wo. { pose proof (si_queue _ _ _ I) as F. rewrite Q in F. by inversion F. }
        destruct (round_report _ _ _ _ _ _ _ _ _ _ _ _ (ex_intro _ _ (ex_intro _ _ Re)) Wl Wo S Hi) as [-> Ro].
        exists ls, [], e, y, q. split_and!; try done. apply Ex.
      * rewrite Q, S in Nn. done.
      * cbn in R. injection R as _ <-. rewrite app_nil_r in Hi. by apply Old.
      * cbn in R. injection R as _ <-. rewrite app_nil_r in Hi. by apply Old.
Qed.

(** ** C39, for executions of the whole system *)
(** Every session information notification that a host receives is the report of a round of its session: a command of the
    ranging task was taken, and the measurements are those of the anchors and of the compatible sessions at that time. *)
Theorem C39_delivered : forall ls y h seq id a b ms v, executed ls y -> In (SessionInfoNtf seq id a b ms v) (delivered h y) ->
  exists ls1 ls2 e y1 q s anchors peers ks,
    ls = ls1 ++ LTake e :: ls2 /\ sys_run ls1 sys_new = Some y1 /\ y_queue y1 = Ranging h id :: q /\ session_at (y_pica y1) h id = Some s
    /\ seq = s_seq s /\ a = 0 /\ b = 0 /\ ms = anchors ++ peers /\ v = []
    /\ Forall2 (fun t x => measures t.1.1 t.1.2 t.2 x) (anchors_measured e (y_pica y1) h (dst_mac_address (s_cfg s))) anchors
    /\ Forall2 (fun k x => exists t, measured e (y_pica y1) h id s k t /\ measures t.1.1 t.1.2 t.2 x) ks peers
    /\ NoDup ks /\ (forall k, k ∈ ks <-> exists t, measured e (y_pica y1) h id s k t).
Proof.
  intros ls y h seq id a b ms v Ex Hd. destruct (executed_sinv _ _ Ex) as (outs & I).
  destruct (si_msgs _ _ _ I h) as (lost & P & _).
  assert (In (SessionInfoNtf seq id a b ms v) (messages h outs)) as Hm.
  { apply elem_of_list_In. rewrite <- P. apply elem_of_app. left. by apply elem_of_list_In. }
  destruct (reported ls y Ex outs h seq id a b ms v (proj2 (si_reach _ _ _ I)) Hm) as (ls1 & ls2 & e & y1 & q & E & R & Q & s & xa & xp & ks & S & M & F1 & F2 & Nd & Ks).
  injection M as -> -> -> -> ->. exists ls1, ls2, e, y1, q, s, xa, xp, ks. by split_and!.
Qed.
Print Assumptions C39_delivered.

Definition no_anchor_op (o : op) : Prop := match o with CreateAnchor _ | DestroyAnchor _ => False | _ => True end.
Lemma default_step y l y' outs : sinv y outs.1 outs.2 -> default_label l -> moved y l y' -> p_anchors (y_pica y) = ∅ -> Forall no_anchor_op (y_queue y) ->
  p_anchors (y_pica y') = ∅ /\ Forall no_anchor_op (y_queue y').
Proof.
  intros I D M A F. inversion M as [e o q p o2 T Q S|e o q s T Q S|o td T|i t T Dl Q Lv|i t T Dl Q Lv|i t T Lv|i n T Dl|i k T L Q|k pk C Q|k C|k C Q|k C|Q|m Q|m Q|]; subst l y'; try done;
    try (cbn; split; [done|]; apply Forall_app; split; [done|by repeat constructor]).
  - cbn. rewrite Q in F. apply Forall_cons in F as [Fo F]. split; [|done]. assert (pinv (fun _ => false) (y_pica y)) as Pi by (apply reachable_pinv; eexists _, _; apply (si_reach _ _ _ I)).
    destruct o; try done.
    + destruct (step_connect e (y_pica y)) as (p2 & o3 & S2 & _ & E). rewrite S in S2. apply Ret_inj in S2. injection S2 as -> _. by rewrite E.
    + destruct (step_disconnect e (y_pica y) h Pi) as (p2 & o3 & S2 & E & _). rewrite S in S2. apply Ret_inj in S2. injection S2 as -> _. by rewrite E.
    + destruct (step_quiet _ _ _ _ _ Pi S) as (_ & E). by rewrite E.
    + destruct (step_quiet _ _ _ _ _ Pi S) as (_ & E). by rewrite E.
    + destruct (step_quiet _ _ _ _ _ Pi S) as (_ & E). by rewrite E.
    + destruct (step_quiet _ _ _ _ _ Pi S) as (_ & E). by rewrite E.
  - cbn. rewrite Q in F. apply Forall_cons in F as [_ F]. done.
  - destruct (perform_fields o (y_set_todo td y)) as (-> & _ & -> & _). done.
  - destruct (deliver_fields (n_host n) (n_msg n) (y_set_delayed (delete i (y_delayed y)) y)) as (-> & _ & -> & _). done.
Qed.
Lemma default_anchors ls y : executed ls y -> Forall default_label ls -> p_anchors (y_pica y) = ∅ /\ Forall no_anchor_op (y_queue y).
Proof.
  revert ls y. apply (executed_ind (fun ls y => Forall default_label ls -> p_anchors (y_pica y) = ∅ /\ Forall no_anchor_op (y_queue y))).
  - intros _. split; [reflexivity|constructor].
  - intros ls y l y' Ex IH _ _ M _ F. apply Forall_app in F as [F Fl]. inversion Fl; subst. destruct (IH F) as [A Q].
    destruct (executed_sinv _ _ Ex) as (outs & I). by eapply (default_step y l y' (_, _)).
Qed.

(** ** C86. The default binary *)
(** The devices with which a round of session [s] of [h] measures. *)
Definition ranges_with (p : pica) (h id : N) (s : session) (k : N) (m : mac_address) : Prop :=
  k <> h /\ exists ps, session_at p k id = Some ps /\ s_state ps = SsActive /\ compatible s ps /\ device_mac_address (s_cfg ps) = Some m.
(** A valid measurement of the device with the short address [m]: distance and angles are 0. *)
Definition at_zero (m : mac_address) (x : measurement) : Prop :=
  exists a, m = MShort a /\ m_mac_address x = le_nat a /\ m_status x = 0x00 /\ m_nlos x = 0 /\ m_distance x = 0
  /\ m_aoa_azimuth x = 0 /\ m_aoa_elevation x = 0 /\ m_aoa_destination_azimuth x = 0 /\ m_aoa_destination_elevation x = 0
  /\ m_aoa_azimuth_fom x = 100 /\ m_aoa_elevation_fom x = 100 /\ m_aoa_destination_azimuth_fom x = 100 /\ m_aoa_destination_elevation_fom x = 100
  /\ m_slot_index x = 0 /\ m_rssi x = 255.
(** Every notification that a host receives from the default binary lists exactly the devices which had, at some earlier time,
    an active session compatible with its own, each once, all at distance 0 and in direction 0. *)
Theorem C86_measurements : forall ls y h seq id a b ms v, executed ls y -> Forall default_label ls -> In (SessionInfoNtf seq id a b ms v) (delivered h y) ->
  exists ls1 ls2 y1 s ks, ls = ls1 ++ ls2 /\ sys_run ls1 sys_new = Some y1 /\ session_at (y_pica y1) h id = Some s /\ seq = s_seq s
    /\ Forall2 (fun k x => exists m, ranges_with (y_pica y1) h id s k m /\ at_zero m x) ks ms
    /\ NoDup ks /\ (forall k, k ∈ ks <-> exists m, ranges_with (y_pica y1) h id s k m).
Proof.
  intros ls y h seq id a b ms v Ex D Hd.
  destruct (C39_delivered ls y h seq id a b ms v Ex Hd) as (ls1 & ls2 & e & y1 & q & s & xa & xp & ks & -> & R & Q & S & -> & _ & _ & -> & _ & F1 & F2 & Nd & Ks).
  destruct Ex as [Wf _]. apply Forall_app in Wf as [Wf _]. apply Forall_app in D as [D1 D2]. inversion D2 as [|? ? De _]; subst. cbn in De.
  destruct (default_anchors ls1 y1 (conj Wf R) D1) as [A _].
  assert (anchors_measured e (y_pica y1) h (dst_mac_address (s_cfg s)) = []) as An.
  { unfold anchors_measured. rewrite A. clear. induction (dst_mac_address (s_cfg s)) as [|m l IH]; [done|]. cbn. rewrite lookup_empty. exact IH. }
  rewrite An in F1. inversion F1; subst. cbn [app].
  assert (forall k t, measured e (y_pica y1) h id s k t <-> ranges_with (y_pica y1) h id s k t.1.1 /\ t.1.2 = RangingMeasurement 0 0 0 /\ t.2 = RangingMeasurement 0 0 0) as Eq.
  { intros k t. unfold measured, ranges_with. rewrite De. unfold mock_estimate. split.
    - intros (Ne & ps & P1 & P2 & P3 & P4 & P5 & P6). injection P5 as <-. injection P6 as <-. split; [|done]. split; [done|]. by exists ps.
    - intros ((Ne & ps & P1 & P2 & P3 & P4) & -> & ->). split; [done|]. exists ps. by split_and!. }
  exists ls1, (LTake e :: ls2), y1, s, ks. split; [done|]. split; [done|]. split; [done|]. split; [done|]. split; [|split; [done|]].
  - eapply Forall2_impl; [exact F2|]. intros k x (t & Mt & Me). apply Eq in Mt as (Rw & E1 & E2). exists t.1.1. split; [done|].
    rewrite E1, E2 in Me. destruct Me as (c & M1 & M2 & M3 & M4 & M5 & M6 & M7 & M8 & M9 & M10). exists c. cbn in M5, M6, M7, M8, M9.
    split; [done|]. split; [done|]. split; [done|]. split; [done|]. split; [done|]. split; [lia|]. split; [lia|]. split; [lia|]. split; [lia|]. done.
  - intros k. rewrite Ks. split.
    + intros (t & Mt). apply Eq in Mt as (Rw & _). by exists t.1.1.
    + intros (m & Rw). exists (m, RangingMeasurement 0 0 0, RangingMeasurement 0 0 0). by apply Eq.
Qed.
Print Assumptions C86_measurements.

(** In particular the receiving program of tests/data_transfer.py (C85), which is run with the default binary. *)
Theorem C85_default_partial : forall a b id la lb ca cb mac dst file na nb ls y,
  accepted id la ca -> accepted id lb cb -> transfers ca cb mac -> word64 dst -> wf_bytes file -> a <> b -> (1 <= na)%nat -> (1 <= nb)%nat ->
  executed ls y -> Forall default_label ls -> runs_at (sender_program id 1 la dst file na) a id ca ls -> runs_at (receiver_program id 1 lb (le_nat mac) file nb) b id cb ls ->
  joins a b id (ranging_duration ca) ls -> joins b a id (ranging_duration ca) ls -> only_sender a b id ls -> ~ gone a y ->
  outcome_of (receiver_program id 1 lb (le_nat mac) file nb) b y <> Raised
  /\ (outcome_of (receiver_program id 1 lb (le_nat mac) file nb) b y = Finished ->
        head (data_messages (delivered b y)) = Some (DataMessageRcv id 0x00 (le_nat mac) 0x01 file)).
Proof.
  intros * Aa Ab Tr Wd Wf Ne Na Nb Ex D Oa Ob Ja Jb On G.
  assert (estimated a b ls) as Es.
  { intros e I. rewrite Forall_forall in D. apply elem_of_list_In, D in I. cbn in I. by rewrite I. }
  split; [exact (C85_receiver_partial a b id la lb ca cb mac dst file na nb ls y Aa Ab Tr Wd Wf Ne Na Nb Ex Oa Ob Ja Jb Es On G)|].
  intros F. exact (proj1 (C85_received_partial a b id la lb ca cb mac dst file na nb ls y Aa Ab Tr Wd Wf Ne Na Nb Ex Oa Ob Ja Jb Es On G F)).
Qed.
Print Assumptions C85_default_partial.

(** The run of C85_example, with the default binary: the first notification of the host of device 0 measures device 1. *)
Definition mock_env : env := est_env mock_estimate.
Lemma mock_env_wf : wf_env mock_env.
Proof. intros a b r H. injection H as <-. done. Qed.
Definition mocked (l : label) : label := match l with LTake _ => LTake mock_env | l => l end.
Definition default_run : list label := map mocked transfer_run.
Definition no_anchorb (l : label) : bool := match l with LCreateAnchor _ | LDestroyAnchor _ => false | _ => true end.
Lemma mocked_executed ls : forallb no_anchorb ls = true -> forallb wf_labelb ls = true -> match sys_run (map mocked ls) sys_new with Some _ => true | None => false end = true ->
  executed (map mocked ls) (at_end (map mocked ls)) /\ Forall default_label (map mocked ls).
Proof.
  intros A W R. rewrite forallb_forall in A, W. split; [split|].
  - apply Forall_forall. intros l Hl. apply elem_of_list_In, in_map_iff in Hl as (l0 & <- & Hl). specialize (W _ Hl). specialize (A _ Hl).
    destruct l0; cbn in *; try done; [apply mock_env_wf|by apply wf_bytesb].
  - unfold at_end, after. by destruct (sys_run (map mocked ls) sys_new).
  - apply Forall_forall. intros l Hl. apply elem_of_list_In, in_map_iff in Hl as (l0 & <- & Hl). specialize (A _ Hl). by destruct l0.
Qed.
Definition is_infob (m : msg) : bool := match m with SessionInfoNtf _ _ _ _ _ _ => true | _ => false end.
Lemma default_run_first : find is_infob (delivered 0 (at_end default_run)) = Some (SessionInfoNtf 0 7 0 0 [Measurement 2 0 0 0 0 100 0 100 0 100 0 100 0 255] []).
Proof. vm_compute. reflexivity. Qed.
Example C86_example : executed default_run (at_end default_run) /\ Forall default_label default_run
  /\ In (SessionInfoNtf 0 7 0 0 [Measurement 2 0 0 0 0 100 0 100 0 100 0 100 0 255] []) (delivered 0 (at_end default_run)).
Proof.
  destruct (mocked_executed transfer_run) as [E D]; [vm_compute; reflexivity|vm_compute; reflexivity|vm_compute; reflexivity|].
  split; [exact E|]. split; [exact D|]. pose proof default_run_first as F. apply find_some in F as [F _]. exact F.
Qed.
