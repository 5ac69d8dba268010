(** C100: who is measured in a ranging round follows from what the hosts asked and were told. *)
From Verif Require Import Base Uci MacAddress AppConfig Codec Session Device Pica.
From Verif Require Import BaseFacts CodecSpec ContextSpec HistorySpec InvFacts StepFacts CommandFacts RangingSpec RangingFacts Demo
  TransferFacts PropsContext PropsRanging ReadSpec ReadFacts ControleeSpec ControleeFacts MeasureSpec MeasureFacts.

(** The notification of a round, after any history: first the anchors of the list of controlees, in the order of this list, then the
    peers, each once. Who is not in the list, or is a peer without an estimate, is not reported; everyone else is. *)
Theorem C100_round : forall e p tr h id p' outs seq tok period tick ms vendor,
  executes p tr -> wf_env e -> step e p (Ranging h id) = Ret (p', outs) -> SessionInfoNtf seq tok period tick ms vendor ∈ sent h outs ->
  tok = id /\ exists dst anchors peers ks, listed h id tr dst /\ ms = anchors ++ peers
  /\ found (fun a x => exists k, anchored a tr k /\ estimated e h k a x) (fun a => exists k, anchored a tr k /\ seen e h k) dst anchors
  /\ Forall2 (fun k x => exists a, peer h id tr k a /\ estimated e h k a x) ks peers
  /\ NoDup ks /\ (forall k, k ∈ ks <-> (exists a, peer h id tr k a) /\ seen e h k).
Proof.
  intros e p tr h id p' outs seq tok period tick ms vendor X We S Hm.
  assert (reachable p) as R by (apply executes_reaches in X as (l & R & _); by eexists _, _).
  destruct (round_spec _ _ _ _ _ _ _ (reachable_pinv _ R) S) as (s & _ & _ & _ & _ & Hs & _).
  destruct (decide (app_config_get (s_cfg s) T_SESSION_INFO_NTF_CONFIG = Some [0])) as [D|D].
  { destruct (C42_disabled _ _ _ _ _ _ _ R Hs D S) as [H _]. specialize (H h).
    assert (SessionInfoNtf seq tok period tick ms vendor ∈ filter is_info (messages h outs)) as B; [|rewrite H in B; by apply elem_of_nil in B].
    apply elem_of_list_filter. split; [done|]. apply elem_of_list_In, sent_messages, elem_of_list_In, Hm. }
  destruct (C39_measurements _ _ _ _ _ _ _ R We Hs D S) as (anchors & peers & ks & Es & Fa & Fp & Nd & Ck).
  rewrite Es in Hm. apply elem_of_list_singleton in Hm. injection Hm as -> -> -> -> -> ->. split; [done|].
  pose proof (session_cfg_ok _ _ _ _ _ X Hs) as Ok.
  assert (forall k t, measured e p h id s k t -> exists m, peer h id tr k (mac_to_vec m) /\ t.1.1 = m /\ env_estimate e h k = Some t.1.2 /\ env_estimate e k h = Some t.2) as M1.
  { intros k [[m l] r] (Nk & ps & Ps & St & C & Em & E1 & E2). cbn in *. exists m. split; [|done]. apply (peer_iff p tr h id s); try done. split; [done|]. by exists ps, m. }
  exists (dsts (s_cfg s)), anchors, peers, ks. split_and!.
  - apply (listed_iff p tr h id executes_pinv X). exists (s_cfg s). unfold cfg_at. by rewrite Hs.
  - done.
  - apply (found_anchors e p tr); try done. apply (co_dst _ Ok).
  - eapply Forall2_impl; [exact Fp|]. intros k x (t & Mt & Mx). apply M1 in Mt as (m & Pe & Et & E1 & E2). rewrite Et in Mx. pose proof Mx as (a & -> & _). exists a. split; [exact Pe|]. by exists t.1.2, t.2.
  - done.
  - intros k. rewrite Ck. split.
    + intros (t & Mt). apply M1 in Mt as (m & Pe & _ & E1 & E2). split; [by eexists|]. unfold seen. by rewrite E1, E2.
    + intros [(a & Pe) [S1 S2]]. apply (peer_iff p tr h id s) in Pe as (Nk & ps & m & Ps & St & C & Em & ->); try done.
      destruct (env_estimate e h k) as [l|] eqn:E1; [|done]. destruct (env_estimate e k h) as [r|] eqn:E2; [|done].
      exists (m, l, r). split; [done|]. by exists ps.
Qed.
Print Assumptions C100_round.
(** There is exactly one notification, unless the host asked for none. *)
Theorem C100_notified : forall e p tr h id p' outs,
  executes p tr -> wf_env e -> step e p (Ranging h id) = Ret (p', outs) ->
  (holds h id T_SESSION_INFO_NTF_CONFIG tr [0x00 (* DISABLE *)] /\ forall seq tok period tick ms vendor, SessionInfoNtf seq tok period tick ms vendor ∉ messages h outs)
  \/ (~ holds h id T_SESSION_INFO_NTF_CONFIG tr [0x00] /\ exists seq ms, sent h outs = [SessionInfoNtf seq id 0 0 ms []]).
Proof.
  intros e p tr h id p' outs X We S.
  assert (reachable p) as R by (apply executes_reaches in X as (l & R & _); by eexists _, _).
  destruct (round_spec _ _ _ _ _ _ _ (reachable_pinv _ R) S) as (s & _ & _ & _ & _ & Hs & _).
  assert (holds h id T_SESSION_INFO_NTF_CONFIG tr [0x00] <-> app_config_get (s_cfg s) T_SESSION_INFO_NTF_CONFIG = Some [0]) as Ho.
  { rewrite (holds_iff p tr) by (done || by intros [?|?]). unfold cfg_at. rewrite Hs. split; [|by eexists]. by intros (k & [= <-] & ?). }
  destruct (decide (app_config_get (s_cfg s) T_SESSION_INFO_NTF_CONFIG = Some [0])) as [D|D].
  - left. split; [by apply Ho|]. destruct (C42_disabled _ _ _ _ _ _ _ R Hs D S) as [H _]. intros seq tok pe ti ms v Hm.
    assert (SessionInfoNtf seq tok pe ti ms v ∈ filter is_info (messages h outs)) as B; [|rewrite H in B; by apply elem_of_nil in B]. by apply elem_of_list_filter.
  - right. split; [by rewrite Ho|]. destruct (C39_measurements _ _ _ _ _ _ _ R We Hs D S) as (anchors & peers & ks & Es & _). eauto.
Qed.
Print Assumptions C100_notified.
(** Three hosts and the anchor 09:09; the host 0 removes the controlee 3 and creates the anchor 07:07, which it adds. *)
Definition relinked : list op := linked ++ [CreateAnchor (MShort [7; 7]);
  cmd 0 (CmdMulticast 7 RemoveControlee [1; 3; 0; 0; 0; 0; 0]); cmd 0 (CmdMulticast 7 AddControlee [1; 7; 7; 0; 0; 0; 0])].
Example C100_example :
  let r := round_result demo_env (state_after relinked) 0 7 in
  executes (state_after relinked) (trace pica_new relinked) /\ wf_env demo_env /\ step demo_env (state_after relinked) (Ranging 0 7) = Ret (r.1, r.2)
  /\ (exists x y z, sent 0 r.2 = [SessionInfoNtf 0 7 0 0 [x; y; z] []] /\ m_mac_address x = 0x0909 /\ m_mac_address y = 0x0707 /\ m_mac_address z = 2)
  /\ exists k, peer 0 7 (trace pica_new relinked) k [2; 0].
Proof.
  assert (executes (state_after relinked) (trace pica_new relinked)) as X by (apply history_executes; vm_compute; reflexivity).
  assert (crashed (step demo_env (state_after relinked) (Ranging 0 7)) = false) as Nc by (vm_compute; reflexivity).
  pose proof (round_result_eq _ _ _ _ Nc) as S.
  split; [exact X|]. split; [exact demo_env_wf|]. split; [exact S|].
  assert (exists x y z, sent 0 (round_result demo_env (state_after relinked) 0 7).2 = [SessionInfoNtf 0 7 0 0 [x; y; z] []]
    /\ m_mac_address x = 0x0909 /\ m_mac_address y = 0x0707 /\ m_mac_address z = 2) as M.
  { eexists _, _, _. split; [vm_compute; reflexivity|]. split; [vm_compute; reflexivity|]. split; vm_compute; reflexivity. }
  split; [exact M|]. exists 1.
  assert (exists s ps, session_at (state_after relinked) 0 7 = Some s /\ session_at (state_after relinked) 1 7 = Some ps /\ s_state ps = SsActive /\ compatible s ps
    /\ device_mac_address (s_cfg ps) = Some (MShort [2; 0])) as (s & ps & Hs & Hp & St & C & Em).
  { eexists _, _. split; [vm_compute; reflexivity|]. split; [vm_compute; reflexivity|]. split; [vm_compute; reflexivity|]. split; [|vm_compute; reflexivity].
    split; [by vm_compute|]. split; [by vm_compute|]. exists (MShort [1; 0]), (MShort [2; 0]). split; [by vm_compute|]. split; [by vm_compute|]. split; left. }
  apply (peer_iff _ _ _ _ s _ _ X Hs). split; [done|]. exists ps, (MShort [2; 0]). split; [exact Hp|]. split; [exact St|]. split; [exact C|]. split; [exact Em|reflexivity].
Qed.
