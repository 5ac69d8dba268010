(** C31-C34 and C45: the multicast list of a controller. *)
From Verif Require Import Base Uci MacAddress AppConfig Codec Session Device Pica.
From Verif Require Import BaseFacts AppConfigSpec AppConfigFacts CodecSpec CodecFacts ContextSpec InvFacts StepFacts CommandFacts Demo SessionSpec SessionFacts MulticastSpec MulticastFacts EvolveFacts PropsSession.

(** The new session [s'] differs from [s] by its list and the number of controlees only; if the list is not
    empty its state is the same. *)
Definition only_list (s s' : session) : Prop :=
  same_session s s' /\ s_task s' = s_task s
  /\ app_config_get (s_cfg s') T_NUMBER_OF_CONTROLEES = Some [N.of_nat (length (dst_mac_address (s_cfg s')))]
  /\ (forall i, i <> T_NUMBER_OF_CONTROLEES -> i <> T_DST_MAC_ADDRESS -> app_config_get (s_cfg s') i = app_config_get (s_cfg s) i)
  /\ (dst_mac_address (s_cfg s') <> [] -> s_state s' = s_state s).
Lemma only_list_finish s dst : (length dst < 256)%nat ->
  only_list s (s_set_state (match dst with [] => SsIdle | _ => s_state s end)
     (s_set_cfg (set_dst_mac_address dst (set_number_of_controlees (N.of_nat (length dst) mod 256) (s_cfg s))) s)).
Proof.
  intros L. split; [done|]. split; [done|]. split; [|split].
  - cbn. by rewrite N.mod_small by lia.
  - intros i. cbn [s_cfg s_set_state s_set_cfg]. apply dst_get_other.
  - cbn. by destruct dst.
Qed.

(** ** C31. *)
Theorem C31_add : forall p h id a payload p' outs s cs,
  commanded p h (CmdMulticast id a payload) p' outs -> a <> RemoveControlee ->
  session_at p h id = Some s -> updatable s -> key_allowed a s -> controlees a cs payload ->
  (length (dst_mac_address (s_cfg s)) <= 8)%nat ->
  exists status statuses s',
    sent h outs = [SessionUpdateControllerMulticastListRsp status (zip (addresses cs) statuses)]
    /\ length statuses = length cs /\ (status = 0x00 <-> Forall (eq UPDATED) statuses)
    /\ session_at p' h id = Some s'
    /\ added (dst_mac_address (s_cfg s)) (addresses cs) statuses (dst_mac_address (s_cfg s'))
    /\ only_list s s' /\ same_but_session h id p p' /\ device_state_at p' h = device_state_at p h
    /\ stop_requests h outs = [] /\ (length (dst_mac_address (s_cfg s')) <= 8)%nat.
Proof.
  intros p h id a payload p' outs s cs C Na Ls U K Cs L8. pose proof C as (_ & _ & (_ & Wp) & _).
  destruct (commanded_inv _ _ _ _ _ C) as (d & d' & e & m & R).
  pose proof (cr_frame id R eq_refl) as Fr.
  rewrite (cr_session R) in Ls. rewrite (cr_sent R), (cr_session' R), (cr_devstate R), (cr_devstate' R), (cr_outs R).
  pose proof (cr_handle R) as H. cbn [handle_command] in H. unfold session_update_controller_multicast_list in H.
  rewrite Ls in H. apply updatable_spec in U. rewrite U, (controlees_decode _ _ _ Cs) in H. cbn match in H.
  assert (forall kr, kr = false -> (let! (dst, status, rsp) := add_controlees kr (map MShort (addresses cs)) (dst_mac_address (s_cfg s)) STATUS_OK [] in
      let '(d0, e3) := multicast_finish d id s dst in Ret (d0, e3, SessionUpdateControllerMulticastListRsp status rsp)) = Ret (d', e, m) ->
      exists status statuses s',
    [m] = [SessionUpdateControllerMulticastListRsp status (zip (addresses cs) statuses)]
    /\ length statuses = length cs /\ (status = 0x00 <-> Forall (eq UPDATED) statuses)
    /\ d_sessions d' !! id = Some s'
    /\ added (dst_mac_address (s_cfg s)) (addresses cs) statuses (dst_mac_address (s_cfg s'))
    /\ only_list s s' /\ same_but_session h id p p' /\ Some (d_state d') = Some (d_state d)
    /\ stop_requests h (map (OEff h) (e ++ [Send m])) = [] /\ (length (dst_mac_address (s_cfg s')) <= 8)%nat) as G.
  { clear H. intros kr -> G. destruct (add_controlees _ _ _ _ _) as [[[dst' st'] rsp']|] eqn:A; [|discriminate]. cbn [obind] in G.
    apply add_spec in A as (sts & E & -> & A & L' & S); [|done]. rewrite multicast_finish_eq in G.
    apply Ret_inj in G. injection G as <- <- <-. exists st', sts. eexists. split; [done|].
    split. { by rewrite E; unfold addresses; rewrite map_length. }
    split. { rewrite S. split; [tauto|]. intros F. by split. }
    split; [apply lookup_insert|]. cbn [s_cfg s_set_state s_set_cfg dst_mac_address set_dst_mac_address].
    split; [exact A|]. split; [apply only_list_finish; lia|]. split; [done|]. split; [done|].
    split; [|done]. rewrite stop_requests_effs, eff_stop_requests_app. destruct dst'; [|done]. by destruct (bool_decide (SsIdle = s_state s)). }
  assert (bool_decide (a <> AddControlee) && negb (sts_config (s_cfg s) =? STS_PROVISIONED_FOR_RESPONDER_SUB_SESSION_KEY) = false) as Kr.
  { destruct K as [->|K]; [by rewrite bool_decide_false by tauto|]. cbn in K. injection K as K. rewrite K. apply andb_false_r. }
  destruct a; [|done|..]; by eapply G.
Qed.
Print Assumptions C31_add.
(** The list is the old list followed by the controlees that were added, in order. *)
Theorem C31_add_appends : forall dst l statuses dst',
  added dst l statuses dst' -> dst' = dst ++ map MShort (updated l statuses).
Proof. exact added_appends. Qed.
Print Assumptions C31_add_appends.

Theorem C31_remove : forall p h id payload p' outs s cs,
  commanded p h (CmdMulticast id RemoveControlee payload) p' outs ->
  session_at p h id = Some s -> updatable s -> controlees RemoveControlee cs payload ->
  (length (dst_mac_address (s_cfg s)) < 256)%nat ->
  exists status statuses s',
    sent h outs = [SessionUpdateControllerMulticastListRsp status (zip (addresses cs) statuses)]
    /\ length statuses = length cs /\ (status = 0x00 <-> Forall (eq UPDATED) statuses)
    /\ session_at p' h id = Some s'
    /\ removed (dst_mac_address (s_cfg s)) (addresses cs) statuses (dst_mac_address (s_cfg s'))
    /\ only_list s s' /\ same_but_session h id p p' /\ device_state_at p' h = device_state_at p h
    (* the host of an active session is notified of the removed controlees *)
    /\ concat (map (fun m => match m with SessionUpdateControllerMulticastListNtf i l => [(i, l)] | _ => [] end) (messages h outs))
       = (if bool_decide (s_state s = SsActive) then [(id, map (fun a => (a, UPDATED)) (updated (addresses cs) statuses))] else [])
    (* and in-band stops are requested (C45) *)
    /\ stop_requests h outs =
       (let n := in_band_termination_attempt_count (s_cfg s) in
        if n =? 0 then [] else map (fun a => (MShort a, id, n)) (updated (addresses cs) statuses)).
Proof.
  intros p h id payload p' outs s cs C Ls U Cs L8. pose proof C as (_ & _ & (_ & Wp) & _).
  destruct (commanded_inv _ _ _ _ _ C) as (d & d' & e & m & R).
  pose proof (cr_frame id R eq_refl) as Fr.
  rewrite (cr_session R) in Ls. rewrite (cr_sent R), (cr_session' R), (cr_devstate R), (cr_devstate' R), (cr_outs R).
  pose proof (cr_handle R) as H. cbn [handle_command] in H. unfold session_update_controller_multicast_list in H.
  rewrite Ls in H. apply updatable_spec in U. rewrite U, (controlees_decode _ _ _ Cs) in H.
  destruct (remove_controlees _ _ _ _ _ _ _ _) as [[[[[dst' st'] rsp'] ntf'] e']|] eqn:A; [|discriminate]. cbn [obind] in H.
  apply remove_spec in A as (sts & E & -> & A & -> & -> & L' & S). rewrite multicast_finish_eq in H.
  apply Ret_inj in H. injection H as <- <- <-. exists st', sts. eexists. split; [done|].
  split. { by rewrite E; unfold addresses; rewrite map_length. }
  split. { rewrite S. split; [tauto|]. intros F. by split. }
  split; [apply lookup_insert|]. cbn [s_cfg s_set_state s_set_cfg dst_mac_address set_dst_mac_address].
  split; [exact A|]. split; [apply only_list_finish; lia|]. split; [done|]. split; [done|]. split.
  - assert (forall l, messages h (map (OEff h) l) = concat (map (fun x => match x with Send m | After _ m => [m] | _ => [] end) l)) as Me.
    { intros l. unfold messages. rewrite map_map. f_equal. apply map_ext. intros []; cbn; rewrite ?N.eqb_refl; done. }
    rewrite Me. rewrite !map_app, !concat_app, !map_app, !concat_app.
    match goal with |- (?x ++ _ ++ ?z) ++ _ = _ => assert (x = []) as ->; [|assert (z = []) as ->] end.
    { cbn [app]. destruct (_ =? 0); [done|]. clear. induction (updated _ _) as [|y l IH]; [done|]. cbn. exact IH. }
    { destruct dst'; [|done]. by destruct (bool_decide (SsIdle = _)). }
    destruct (bool_decide (s_state s = SsActive)); done.
  - rewrite stop_requests_effs, !eff_stop_requests_app.
    assert (forall b : bool, eff_stop_requests (if b then [After 5 (SessionUpdateControllerMulticastListNtf id (map (fun a => (a, UPDATED)) (updated (addresses cs) sts)))] else []) = []) as E2 by by intros [].
    rewrite E2. match goal with |- (_ ++ _ ++ ?x) ++ _ = _ => assert (x = []) as -> end.
    { destruct dst'; [|done]. by destruct (bool_decide (SsIdle = _)). }
    cbn [app]. rewrite !app_nil_r. destruct (_ =? 0); [done|]. clear. induction (updated _ _) as [|y l IH]; [done|]. cbn. by f_equal.
Qed.
Print Assumptions C31_remove.
(** The list is the old list without the requested controlees. *)
Theorem C31_remove_filters : forall dst l statuses dst',
  removed dst l statuses dst' -> dst' = filter (fun x => x ∉ map MShort l) dst.
Proof. exact removed_filter. Qed.
Print Assumptions C31_remove_filters.
Definition two_more : bytes := [2; 3; 0; 0; 0; 0; 0; 2; 0; 0; 0; 0; 0].
Example C31_example :
  commanded (state_after active) 0 (CmdMulticast 7 AddControlee two_more)
    (state_after (active ++ [cmd 0 (CmdMulticast 7 AddControlee two_more)])) (outs_of active (cmd 0 (CmdMulticast 7 AddControlee two_more)))
  /\ controlees AddControlee [([3; 0], 0, []); ([2; 0], 0, [])] two_more
  /\ (exists s, session_at (state_after active) 0 7 = Some s /\ updatable s /\ dst_mac_address (s_cfg s) = [MShort [2; 0]])
  /\ sent 0 (outs_of active (cmd 0 (CmdMulticast 7 AddControlee two_more)))
     = [SessionUpdateControllerMulticastListRsp 0x02 [([3; 0], UPDATED); ([2; 0], ALREADY_PRESENT)]]
  /\ sent 0 (outs_of active (cmd 0 (CmdMulticast 7 RemoveControlee two_more)))
     = [SessionUpdateControllerMulticastListRsp 0x02 [([3; 0], NOT_FOUND); ([2; 0], UPDATED)]]
  /\ stop_requests 0 (outs_of active (cmd 0 (CmdMulticast 7 RemoveControlee two_more))) = [(MShort [2; 0], 7, 1)].
Proof.
  split; [apply history_commanded; [split; [done|by repeat constructor]|by vm_compute..]|].
  split; [split_and!; [unfold short_list; cbn; lia|by repeat constructor|done]|].
  split.
  { destruct (session_at (state_after active) 0 7) as [s|] eqn:E; [|by vm_compute in E]. exists s. split; [done|].
    vm_compute in E. injection E as <-. split; [|done]. split; [by right|done]. }
  by vm_compute.
Qed.

(** ** C32. *)
(** No SET_APP_CONFIG command sets NUMBER_OF_CONTROLEES above 8. *)
Definition few_controlees (o : op) : Prop :=
  forall h packet id l n, o = UciPacket h packet -> wf_cmd (CmdSetAppConfig id l) -> encodes (CmdSetAppConfig id l) packet ->
    In (T_NUMBER_OF_CONTROLEES, [n]) l -> n <= 8.
Definition few (c : app_config) : Prop := number_of_controlees c <= 8 /\ (length (dst_mac_address c) <= 8)%nat.
Lemma set_few c id v c' b : app_config_set c id v = Ret (c', b) -> (id = T_NUMBER_OF_CONTROLEES -> forall n, v = [n] -> n <= 8) ->
  few c -> few c'.
Proof.
  intros H N [F1 F2]. destruct b; [|by apply set_refused in H as ->].
  destruct (bool_decide_reflect (id = T_NUMBER_OF_CONTROLEES)) as [->|Ne].
  { cbn [app_config_set] in H. unfold assign in H. destruct (try_parse_uint 1 v) as [x|] eqn:T; [|discriminate].
    apply Ret_inj in H. injection H as <-. split; [|done]. cbn.
    unfold try_parse_uint in T. destruct (Nat.eqb_spec (length v) 1) as [L|]; [|discriminate]. injection T as <-.
    destruct v as [|y [|]]; try discriminate. specialize (N eq_refl _ eq_refl). cbn. lia. }
  destruct (bool_decide_reflect (id = T_DST_MAC_ADDRESS)) as [->|Ne'].
  { cbn [app_config_set] in H. destruct (_ =? _); [discriminate|].
    match type of H with (if negb (Nat.eqb ?a ?b) then _ else _) = _ => destruct (Nat.eqb_spec a b) as [L|]; cbn [negb] in H; [|discriminate] end.
    apply Ret_inj in H. injection H as <-. split; [done|]. cbn. rewrite map_length.
    destruct (chunks_length (if mac_address_mode c =? MAC_MODE_0 then 2%nat else 8%nat) v (N.to_nat (number_of_controlees c))) as [-> _]; [by destruct (_ =? _); lia|done|].
    lia. }
  pose proof (set_other _ _ _ _ _ T_NUMBER_OF_CONTROLEES H Ne) as E1. cbn in E1. injection E1 as E1.
  assert (dst_mac_address c' = dst_mac_address c) as E2.
  { destruct id; try done; cbn [app_config_set] in H; unfold assign in H;
      repeat match type of H with context [match ?x with _ => _ end] => destruct x end; try discriminate; apply Ret_inj in H; by injection H as <-. }
  split; [by rewrite E1|by rewrite E2].
Qed.
Lemma sets_all_few c l c' r : sets_all c l c' r -> (forall n, In (T_NUMBER_OF_CONTROLEES, [n]) l -> n <= 8) -> few c -> few c'.
Proof.
  induction 1 as [|c id v c1 l c2 r E H IH|c id v l c2 r E H IH]; intros N F; [done|..].
  - apply IH; [intros; apply N; by right|]. eapply set_few; [done| |done]. intros -> n ->. apply N. by left.
  - apply IH; [intros; apply N; by right|done].
Qed.
Theorem C32_partial : forall l p outs h id s,
  reaches l p outs -> (forall e o, In (e, o) l -> few_controlees o) -> session_at p h id = Some s ->
  (length (dst_mac_address (s_cfg s)) <= 8)%nat.
Proof.
  intros l p outs h id s R Fl Ls.
  assert (forall h id s, session_at p h id = Some s -> few (s_cfg s)) as G; [|by destruct (G _ _ _ Ls)]. clear h id s Ls.
  revert l p outs R Fl. apply (reaches_ind (fun l p outs => (forall e o, In (e, o) l -> few_controlees o) ->
    forall h id s, session_at p h id = Some s -> few (s_cfg s))).
  { intros _ h id s Ls. unfold session_at in Ls. cbn in Ls. by rewrite lookup_empty in Ls. }
  intros l p outs e o p' outs' R IH _ Wo S Fl h id s Ls.
  assert (few_controlees o) as Fo. { apply (Fl e). apply in_or_app. right. by left. }
  assert (forall h id s, session_at p h id = Some s -> few (s_cfg s)) as IHp. { apply IH. intros e0 o0 Ho. apply (Fl e0). apply in_or_app. by left. }
  assert (reachable p) as Rp by by eexists _, _.
  pose proof (step_evolves _ _ _ _ _ _ h id (reachable_pinv _ Rp) Wo S) as Ev. rewrite Ls in Ev.
  remember (session_at p h id) as so eqn:Es. symmetry in Es. remember (Some s) as so' eqn:Es'.
  destruct Ev as [so|s0|old packet ty s'|s0 st t|packet s0 k c st Eo Wc En Sa|packet s0 a payload cs dst st Eo En Cs U L8|s0 s' Eo D|packet s0 dst seq data]; try discriminate Es';
    try injection Es' as <-; subst; cbn [s_cfg s_set_task s_set_state s_set_cfg s_set_data clear_data].
  - by eapply IHp.
  - assert (few default_app_config) as Fd by (split; [by vm_compute|cbn; lia]). by destruct H2 as [-> | ->].
  - by eapply IHp.
  - eapply sets_all_few; [done| |by eapply IHp]. intros n Hn. by eapply Fo.
  - specialize (IHp _ _ _ Es). destruct IHp as [F1 F2]. specialize (L8 F2). split; cbn; [|done]. rewrite N.mod_small by lia. lia.
  - destruct D as [-> | ->]; exact (IHp _ _ _ Es).
  - by eapply IHp.
Qed.
Print Assumptions C32_partial.
Example C32_example :
  reaches (history active) (state_after active) (outs_after active)
  /\ (forall e o, In (e, o) (history active) -> few_controlees o)
  /\ (exists s, session_at (state_after active) 0 7 = Some s).
Proof.
  split; [apply history_reaches; by vm_compute|]. split.
  2:{ destruct (session_at (state_after active) 0 7) as [s|] eqn:E; [by exists s|by vm_compute in E]. }
  intros e o Ho. apply in_map_iff in Ho as (o' & E & Ho). injection E as _ <-.
  assert (forall c, wf_cmd c -> wf_bytes (cmd_packet c) -> (forall id l n, c = CmdSetAppConfig id l -> In (T_NUMBER_OF_CONTROLEES, [n]) l -> n <= 8) ->
    few_controlees (cmd 0 c)) as K.
  { intros c W Wp N h packet id l n E Wc En Hn. injection E as <- <-.
    assert (c = CmdSetAppConfig id l) as -> by (eapply encodes_inj; [exact Wp|done|done|apply cmd_packet_encodes|done]). by eapply N. }
  cbn [active idle inited ready app In] in Ho. repeat destruct Ho as [<-|Ho]; try (by intros h packet id l n E); try done;
    (apply K; [..|try done]); try by repeat constructor.
  all: try (apply wf_bytesb; by vm_compute).
  intros id l n E. injection E as <- <-. unfold controller_config. cbn [In]. intros Hn.
  repeat destruct Hn as [Hn|Hn]; try discriminate Hn; try done. injection Hn as <-. lia.
Qed.

(** The limit is not enforced by SET_APP_CONFIG: here the list has 9 entries, and a tenth is added. *)
Definition nine : bytes := [2; 0; 3; 0; 4; 0; 5; 0; 6; 0; 7; 0; 8; 0; 9; 0; 10; 0].
Definition nine_idle : list op := inited ++
  [cmd 0 (CmdSetAppConfig 7 (controller_config [1; 0] [2; 0] ++ [(T_NUMBER_OF_CONTROLEES, [9]); (T_DST_MAC_ADDRESS, nine)]))].
Definition ten_idle : list op := nine_idle ++ [cmd 0 (CmdMulticast 7 AddControlee [1; 11; 0; 0; 0; 0; 0])].
Theorem C32_refuted : exists l p outs h id s,
  reaches l p outs /\ session_at p h id = Some s /\ length (dst_mac_address (s_cfg s)) = 10%nat.
Proof.
  assert (ok_history ten_idle = true) as H by by vm_compute. apply history_reaches in H.
  destruct (session_at (state_after ten_idle) 0 7) as [s|] eqn:E; [|by vm_compute in E].
  exists (history ten_idle), (state_after ten_idle), (outs_after ten_idle), 0, 7, s. split; [done|]. split; [done|].
  vm_compute in E. by injection E as <-.
Qed.
Print Assumptions C32_refuted.

(** ** C33. *)
Theorem C33_refused : forall p h id a payload p' outs,
  commanded p h (CmdMulticast id a payload) p' outs ->
  (session_at p h id = None ->
     p' = p /\ outs = [OEff h (Send (SessionUpdateControllerMulticastListRsp 0x11 (* ERROR_SESSION_NOT_EXIST *) []))])
  /\ (forall s, session_at p h id = Some s -> ~ updatable s ->
     p' = p /\ outs = [OEff h (Send (SessionUpdateControllerMulticastListRsp 0x01 (* REJECTED *) []))])
  /\ (forall s, session_at p h id = Some s -> updatable s -> ~ (exists cs, controlees a cs payload) ->
     p' = p /\ outs = [OEff h (Send (SessionUpdateControllerMulticastListRsp 0x03 (* SYNTAX_ERROR *) []))]).
Proof.
  intros p h id a payload p' outs C. pose proof C as (_ & _ & (_ & Wp) & _).
  destruct (commanded_inv _ _ _ _ _ C) as (d & d' & e & m & R). pose proof (cr_same R) as Sm.
  rewrite (cr_session R), (cr_outs R).
  pose proof (cr_handle R) as H. cbn [handle_command] in H. unfold session_update_controller_multicast_list in H.
  destruct (d_sessions d !! id) as [s|] eqn:Ls.
  2:{ apply Ret_inj in H. injection H as <- <- <-. split; [auto|]. split; intros s E; discriminate E. }
  split; [done|].
  split; intros s0 E; injection E as <-.
  - intros Nu. destruct (_ || _) eqn:U; [|destruct Nu; by apply updatable_spec].
    apply Ret_inj in H. injection H as <- <- <-. auto.
  - intros U Nc. apply updatable_spec in U. rewrite U in H.
    destruct (multicast_controlees a payload) as [l|] eqn:Mc.
    + apply decode_controlees_inv in Mc as (cs & Cs & _); [|done]. destruct Nc. by exists cs.
    + apply Ret_inj in H. injection H as <- <- <-. auto.
Qed.
Print Assumptions C33_refused.
(** Keys are refused unless STS_CONFIG allows them: nothing is added. *)
Theorem C33_keys : forall p h id a payload p' outs s cs,
  commanded p h (CmdMulticast id a payload) p' outs -> a <> RemoveControlee ->
  session_at p h id = Some s -> updatable s -> ~ key_allowed a s -> controlees a cs payload -> cs <> [] ->
  (length (dst_mac_address (s_cfg s)) < 256)%nat ->
  sent h outs = [SessionUpdateControllerMulticastListRsp 0x02 (* FAILED *) []]
  /\ exists s', session_at p' h id = Some s' /\ dst_mac_address (s_cfg s') = dst_mac_address (s_cfg s)
     /\ only_list s s' /\ same_but_session h id p p'.
Proof.
  intros p h id a payload p' outs s cs C Na Ls U K Cs Ne L8.
  destruct (commanded_inv _ _ _ _ _ C) as (d & d' & e & m & R). pose proof (cr_frame id R eq_refl) as Fr.
  rewrite (cr_session R) in Ls. rewrite (cr_sent R), (cr_session' R).
  pose proof (cr_handle R) as H. cbn [handle_command] in H. unfold session_update_controller_multicast_list in H.
  rewrite Ls in H. apply updatable_spec in U. rewrite U, (controlees_decode _ _ _ Cs) in H. cbn match in H.
  assert (bool_decide (a <> AddControlee) && negb (sts_config (s_cfg s) =? STS_PROVISIONED_FOR_RESPONDER_SUB_SESSION_KEY) = true) as Kr.
  { rewrite bool_decide_true by (intros ->; apply K; by left). cbn [andb]. apply negb_true_iff, N.eqb_neq.
    intros E. apply K. right. cbn. by rewrite E. }
  assert (forall kr, kr = true -> (let! (dst, status, rsp) := add_controlees kr (map MShort (addresses cs)) (dst_mac_address (s_cfg s)) STATUS_OK [] in
      let '(d0, e3) := multicast_finish d id s dst in Ret (d0, e3, SessionUpdateControllerMulticastListRsp status rsp)) = Ret (d', e, m) ->
    [m] = [SessionUpdateControllerMulticastListRsp 0x02 []]
    /\ exists s', d_sessions d' !! id = Some s' /\ dst_mac_address (s_cfg s') = dst_mac_address (s_cfg s)
     /\ only_list s s' /\ same_but_session h id p p') as G.
  { clear H. intros kr -> H. destruct (add_controlees _ _ _ _ _) as [[[dst' st'] rsp']|] eqn:A; [|discriminate]. cbn [obind] in H.
    apply add_keys in A as (-> & -> & ->). rewrite multicast_finish_eq in H. apply Ret_inj in H. injection H as <- <- <-.
    destruct cs as [|c cs]; [done|]. split; [done|]. eexists. split; [apply lookup_insert|]. split; [done|]. split; [|done].
    by apply only_list_finish. }
  destruct a; [| |by apply (G _ Kr)..].
  - discriminate Kr.
  - done.
Qed.
Print Assumptions C33_keys.
Definition one_key : bytes := [1; 3; 0; 0; 0; 0; 0] ++ repeat 0 16.
Example C33_example :
  let c1 := CmdMulticast 7 AddControlee two_more in
  let c2 := CmdMulticast 7 AddControlee [2; 0] in
  let c3 := CmdMulticast 7 AddControleeWithShortSubSessionKey one_key in
  commanded (state_after ready) 0 c1 (state_after (ready ++ [cmd 0 c1])) (outs_of ready (cmd 0 c1))
  /\ commanded (state_after inited) 0 c1 (state_after (inited ++ [cmd 0 c1])) (outs_of inited (cmd 0 c1))
  /\ commanded (state_after active) 0 c2 (state_after (active ++ [cmd 0 c2])) (outs_of active (cmd 0 c2))
  /\ commanded (state_after active) 0 c3 (state_after (active ++ [cmd 0 c3])) (outs_of active (cmd 0 c3))
  /\ controlees AddControleeWithShortSubSessionKey [([3; 0], 0, repeat 0 16)] one_key
  /\ sent 0 (outs_of active (cmd 0 c3)) = [SessionUpdateControllerMulticastListRsp 0x02 []].
Proof.
  cbv zeta. split_and!.
  1-4: apply history_commanded; [split; [done|]; by apply wf_bytesb; vm_compute|by vm_compute..].
  - split_and!; [unfold short_list; cbn; lia| |done]. repeat constructor. all: cbn; try done.
  - by vm_compute.
Qed.

(** ** C34. The session does become IDLE, with the reason. *)
Theorem C34_partial : forall p h id a payload p' outs s s',
  commanded p h (CmdMulticast id a payload) p' outs ->
  session_at p h id = Some s -> s_state s = SsActive ->
  session_at p' h id = Some s' -> dst_mac_address (s_cfg s') = [] -> p' <> p ->
  s_state s' = SsIdle /\ status_ntfs h id outs = [(SsIdle, 0x33 (* ERROR_INVALID_NUM_OF_CONTROLEES *))]
  /\ same_but_session h id p p'.
Proof.
  intros p h id a payload p' outs s s' C Ls A Ls' E Np.
  destruct (commanded_inv _ _ _ _ _ C) as (d & d' & e & m & R). pose proof (cr_frame id R eq_refl) as Fr.
  pose proof (so_id _ _ (di_session _ _ (cr_dinv R) id s ltac:(by rewrite <- (cr_session R)))) as Hid.
  rewrite (cr_session R) in Ls. rewrite (cr_session' R) in Ls'. rewrite (cr_status R). pose proof (cr_same R) as Sm.
  pose proof (cr_handle R) as H. cbn [handle_command] in H. unfold session_update_controller_multicast_list in H.
  rewrite Ls in H. assert (forall m', Ret (d, [], m') <> Ret (d', e, m)) as NS.
  { intros m' F. apply Ret_inj in F. injection F as <- _ _. auto. }
  destruct (_ || _); [by destruct (NS _ H)|].
  destruct (multicast_controlees a payload) as [l|] eqn:Mc; [|by destruct (NS _ H)].
  assert (forall dst e1, (forall i, eff_status i e1 = []) -> d' = (multicast_finish d id s dst).1 -> e = e1 ++ (multicast_finish d id s dst).2 ->
    s_state s' = SsIdle /\ eff_status id e = [(SsIdle, 0x33)] /\ same_but_session h id p p') as G.
  { intros dst e1 Q -> ->. rewrite multicast_finish_eq in Ls' |- *. cbn in Ls' |- *. rewrite lookup_insert in Ls'. injection Ls' as <-.
    cbn in E. subst dst. split; [done|]. split; [|done]. rewrite eff_status_app, Q, A. rewrite bool_decide_false by done. rewrite Hid. cbn. by rewrite N.eqb_refl. }
  assert (forall kr, (let! (dst, status, rsp) := add_controlees kr l (dst_mac_address (s_cfg s)) STATUS_OK [] in
      let '(d0, e3) := multicast_finish d id s dst in Ret (d0, e3, SessionUpdateControllerMulticastListRsp status rsp)) = Ret (d', e, m) ->
    s_state s' = SsIdle /\ eff_status id e = [(SsIdle, 0x33)] /\ same_but_session h id p p') as Ga.
  { clear H. intros kr H. destruct (add_controlees _ _ _ _ _) as [[[dst' st'] rsp']|] eqn:Ad; [|discriminate]. cbn [obind] in H.
    destruct (multicast_finish d id s dst') as [d0 e3] eqn:F. apply Ret_inj in H. injection H as <- <- _.
    apply (G dst' []); [done|by rewrite F..]. }
  destruct a; [by eapply Ga| |by eapply Ga..].
  destruct (remove_controlees _ _ _ _ _ _ _ _) as [[[[[dst st] rsp] ntf] e1]|] eqn:Rc; [|discriminate]. cbn [obind] in H.
  destruct (multicast_finish d id s dst) as [d0 e3] eqn:F. apply Ret_inj in H. injection H as <- <- _.
  pose proof C as (_ & _ & (_ & Wp) & _).
  apply (G dst (e1 ++ if bool_decide (s_state s = SsActive) then [After 5 (SessionUpdateControllerMulticastListNtf id ntf)] else [])).
  - intros i. rewrite eff_status_app.
    apply decode_controlees_inv in Mc as (cs & _ & ->); [|done].
    apply remove_spec in Rc as (sts & _ & _ & _ & _ & -> & _). cbn [app].
    assert (forall b : bool, eff_status i (if b then [After 5 (SessionUpdateControllerMulticastListNtf id ntf)] else []) = []) as -> by by intros [].
    rewrite app_nil_r. destruct (_ =? 0); [done|]. clear. induction (updated _ _) as [|x k IH]; [done|]. exact IH.
  - by rewrite F.
  - by rewrite F, <- app_assoc.
Qed.
Print Assumptions C34_partial.
(** But its ranging timer is not stopped, the device remains ACTIVE without active session, and starting
    the session again panics. *)
Theorem C34_refuted : exists p h id a payload p' outs,
  commanded p h (CmdMulticast id a payload) p' outs
  /\ state_at p h id = SsActive /\ state_at p' h id = SsIdle
  /\ timers_stopped h id outs = 0%nat
  /\ device_state_at p' h = Some DsActive /\ (forall id', state_at p' h id' <> SsActive)
  /\ forall e, step e p' (cmd h (CmdStart id)) = Crash AssertTaskNone.
Proof.
  exists (state_after active), 0, 7, RemoveControlee, [1; 2; 0; 0; 0; 0; 0], (state_after emptied), (outs_of active (cmd 0 (CmdMulticast 7 RemoveControlee [1; 2; 0; 0; 0; 0; 0]))).
  split; [apply history_commanded; [split; [done|by repeat constructor]|by vm_compute..]|].
  split_and!; try by vm_compute.
  intros id. unfold state_at, session_at.
  assert (forallb (fun x => negb (bool_decide (s_state x.2 = SsActive))) (match p_devices (state_after emptied) !! 0 with Some d => map_to_list (d_sessions d) | None => [] end) = true) as E by by vm_compute.
  destruct (p_devices (state_after emptied) !! 0) as [d|]; [|done]. cbn [mbind option_bind]. destruct (d_sessions d !! id) as [s|] eqn:L; [|done].
  rewrite forallb_forall in E. specialize (E (id, s)). cbn in E. intros S. rewrite bool_decide_true in E by done.
  discriminate E. by apply elem_of_list_In, elem_of_map_to_list.
Qed.
Print Assumptions C34_refuted.

(** ** C45. The requests made are in [C31_remove]; they are carried by the command [StopRanging]. *)
(** The sessions of [p] stopped by the request. *)
Definition stopped_by (p : pica) (m : mac_address) (id h : N) (s : session) : Prop :=
  session_at p h id = Some s /\ s_state s = SsActive /\ device_mac_address (s_cfg s) = Some m.
Lemma stop_controlee_eq c m id d s : dinv c d -> d_sessions d !! id = Some s -> s_state s = SsActive -> device_mac_address (s_cfg s) = Some m ->
  exists st e3, stop_controlee m id d =
    (d_set_state st (d_set_active (d_active d - 1) (d_set_sessions (<[id := s_set_state SsIdle (s_set_task false s)]> (d_sessions d)) d)),
     [AbortRanging id; After 1 (SessionStatusNtf id SsIdle 0x05)] ++ e3)
    /\ (e3 = [] \/ e3 = [After 5 (CoreDeviceStatusNtf DsReady)]).
Proof.
  intros I L A M. unfold stop_controlee. rewrite L, M, bool_decide_true by done. cbn [negb]. rewrite bool_decide_true by done.
  pose proof (di_session _ _ I _ _ L) as O. pose proof (so_id _ _ O) as K. pose proof (so_active _ _ O A) as T.
  rewrite stop_ranging_task_eq, session_set_state_eq. cbn [s_state s_set_task s_id d_active d_set_active d_set_sessions].
  rewrite A, T, K, bool_decide_false by done. rewrite device_set_state_eq.
  destruct (_ =? 0); cbn [fst snd].
  - eexists _, _. split; [done|]. destruct (bool_decide _); auto.
  - exists (d_state d), []. split; [|by left]. cbn. by destruct d.
Qed.
Lemma stop_controlee_none m id d : (forall s, d_sessions d !! id = Some s -> ~ (s_state s = SsActive /\ device_mac_address (s_cfg s) = Some m)) ->
  stop_controlee m id d = (d, []).
Proof.
  intros N. unfold stop_controlee. destruct (d_sessions d !! id) as [s|]; [|done].
  case_bool_decide as M; cbn [negb]; [|done]. case_bool_decide as A; [|done]. by destruct (N s).
Qed.
Lemma stop_effs e p m id h : effs_at h (stop_controlee_ranging e p m id).2 =
  match p_devices p !! h with Some d => (stop_controlee m id d).2 | None => [] end.
Proof.
  cbn [stop_controlee_ranging snd].
  assert (forall k, match p_devices p !! k with Some d => map (OEff k) (stop_controlee m id d).2 | None => [] end =
      map (OEff k) (match p_devices p !! k with Some d => (stop_controlee m id d).2 | None => [] end)) as E.
  { intros k. by destruct (p_devices p !! k). }
  rewrite (map_ext _ _ E), effs_at_concat.
  2:{ rewrite (env_order_perm e). apply NoDup_fst_map_to_list. }
  destruct (p_devices p !! h) as [d|] eqn:L; [|by destruct (bool_decide _)].
  rewrite bool_decide_true; [done|].
  rewrite (env_order_perm e). apply elem_of_list_fmap. exists (h, d). split; [done|]. by apply elem_of_map_to_list.
Qed.
Theorem C45_in_band_stop : forall e p m id,
  reachable p ->
  exists p' outs, step e p (StopRanging m id) = Ret (p', outs)
  (* every matching session is stopped, with the reason, and its timer cancelled *)
  /\ (forall h s, stopped_by p m id h s ->
        (exists s', session_at p' h id = Some s' /\ s_state s' = SsIdle /\ same_session s s' /\ s_cfg s' = s_cfg s)
        /\ status_ntfs h id outs = [(SsIdle, 0x05 (* SESSION_STOPPED_DUE_TO_INBAND_SIGNAL *))]
        /\ timers_stopped h id outs = 1%nat /\ timers_started h id outs = 0%nat /\ sent h outs = []
        /\ (forall id', id' <> id -> session_at p' h id' = session_at p h id' /\ status_ntfs h id' outs = []
            /\ timers_stopped h id' outs = 0%nat /\ timers_started h id' outs = 0%nat))
  (* no other device is affected *)
  /\ (forall h, ~ (exists s, stopped_by p m id h s) ->
        p_devices p' !! h = p_devices p !! h /\ forall x, ~ In (OEff h x) outs)
  /\ p_anchors p' = p_anchors p /\ p_counter p' = p_counter p /\ p_closed p' = p_closed p.
Proof.
  intros e p m id R. exists (stop_controlee_ranging e p m id).1, (stop_controlee_ranging e p m id).2. split; [done|].
  split; [|split; [|done]].
  - intros h s (Ls & A & M). unfold session_at in Ls. destruct (p_devices p !! h) as [d|] eqn:L; [|discriminate]. cbn in Ls.
    pose proof (reachable_dinv _ _ _ R L) as I.
    destruct (stop_controlee_eq _ _ _ _ _ I Ls A M) as (st & e3 & E & E3).
    pose proof (stop_effs e p m id h) as Ef. rewrite L, E in Ef. cbn [snd] in Ef.
    assert (forall i, session_at (stop_controlee_ranging e p m id).1 h i
      = <[id := s_set_state SsIdle (s_set_task false s)]> (d_sessions d) !! i) as Sa.
    { intros i. unfold session_at. cbn [stop_controlee_ranging fst p_devices p_set_devices]. rewrite lookup_fmap, L.
      cbn [fmap option_fmap option_map mbind option_bind]. by rewrite E. }
    assert (forall i, eff_status i e3 = [] /\ eff_starts i e3 = 0%nat /\ eff_stops i e3 = 0%nat /\ eff_sent e3 = []) as Q
      by by destruct E3 as [-> | ->].
    destruct (Q id) as (Q1 & Q2 & Q3 & Q4).
    split_and!.
    + rewrite Sa, lookup_insert. eexists. by split_and!.
    + rewrite status_ntfs_effs, Ef, eff_status_app, Q1. cbn. by rewrite N.eqb_refl.
    + rewrite stopped_effs, Ef, eff_stops_app, Q3. cbn. by rewrite N.eqb_refl.
    + rewrite started_effs, Ef, eff_starts_app, Q2. done.
    + rewrite sent_effs, Ef, eff_sent_app, Q4. done.
    + intros id' Ne. destruct (Q id') as (Q1' & Q2' & Q3' & _). rewrite Sa, lookup_insert_ne by done.
      rewrite stopped_effs, status_ntfs_effs, started_effs, Ef, eff_status_app, eff_stops_app, eff_starts_app, Q1', Q2', Q3'.
      split; [unfold session_at; by rewrite L|]. apply N.eqb_neq in Ne. rewrite N.eqb_sym in Ne.
      unfold eff_status, eff_stops, eff_starts. cbn. by rewrite Ne.
  - intros h N.
    assert (forall d, p_devices p !! h = Some d -> stop_controlee m id d = (d, [])) as E.
    { intros d L. apply stop_controlee_none. intros s Ls [A M]. apply N. exists s. split; [|done]. unfold session_at. by rewrite L. }
    split.
    + cbn [stop_controlee_ranging fst p_devices p_set_devices]. rewrite lookup_fmap.
      destruct (p_devices p !! h) as [d|] eqn:L; [|done]. cbn. by rewrite E.
    + intros x Hx.
      assert (In x (effs_at h (stop_controlee_ranging e p m id).2)) as Hi.
      { unfold effs_at. apply in_concat. exists [x]. split; [|by left]. apply in_map_iff. exists (OEff h x). split; [|done].
        unfold effs_of. by rewrite N.eqb_refl. }
      rewrite stop_effs in Hi. destruct (p_devices p !! h) as [d|] eqn:L; [|done]. by rewrite E in Hi.
Qed.
Print Assumptions C45_in_band_stop.
(** Further requests change nothing and send nothing. *)
Theorem C45_repeated : forall e e' p m id p1 outs1,
  reachable p -> step e p (StopRanging m id) = Ret (p1, outs1) ->
  step e' p1 (StopRanging m id) = Ret (p1, []).
Proof.
  intros e e' p m id p1 outs1 R S. cbn [step] in *. apply Ret_inj in S. injection S as <- _.
  assert (forall h d, p_devices p !! h = Some d -> stop_controlee m id (stop_controlee m id d).1 = ((stop_controlee m id d).1, [])) as E.
  { intros h d L. pose proof (reachable_dinv _ _ _ R L) as I.
    destruct (d_sessions d !! id) as [s|] eqn:Ls.
    - destruct (decide (s_state s = SsActive /\ device_mac_address (s_cfg s) = Some m)) as [[A M]|N].
      + destruct (stop_controlee_eq _ _ _ _ _ I Ls A M) as (st & e3 & -> & _). cbn [fst]. apply stop_controlee_none.
        intros s'. cbn. rewrite lookup_insert. intros E. injection E as <-. cbn. by intros [? _].
      + rewrite (stop_controlee_none m id d); [|intros s' E; rewrite Ls in E; by injection E as <-]. cbn [fst].
        apply stop_controlee_none. intros s' E; rewrite Ls in E; by injection E as <-.
    - rewrite (stop_controlee_none m id d); [|intros s' E; congruence]. cbn [fst].
      apply stop_controlee_none. intros s' E; congruence. }
  f_equal. unfold stop_controlee_ranging. cbn [p_devices p_set_devices].
  f_equal.
  - unfold p_set_devices. cbn. f_equal. apply map_eq. intros h. rewrite !lookup_fmap. destruct (p_devices p !! h) as [d|] eqn:L; [|done].
    cbn. by rewrite (E _ _ L).
  - match goal with |- concat (map ?f ?l) = [] => assert (forall h, f h = []) as N end.
    { intros h. rewrite lookup_fmap. destruct (p_devices p !! h) as [d|] eqn:L; [|done]. cbn. by rewrite (E _ _ L). }
    match goal with |- concat (map ?f ?l) = [] => induction l as [|x k IH]; [done|]; cbn [map concat]; rewrite N end. exact IH.
Qed.
Print Assumptions C45_repeated.
(** The device leaves ACTIVE if it was its last active session. *)
Theorem C45_device_ready : forall l e p m id p' outs outs' h s,
  reaches l p outs -> wf_env e -> wf_mac m -> step e p (StopRanging m id) = Ret (p', outs') ->
  stopped_by p m id h s -> clean h outs -> (forall id', id' <> id -> state_at p h id' <> SsActive) ->
  device_state_at p h = Some DsActive /\ device_state_at p' h = Some DsReady /\ device_ntfs h outs' = [DsReady].
Proof.
  intros l e p m id p' outs outs' h s R We Wm S St C N. pose proof St as (Ls & A & _).
  assert (reachable p) as Rp by by eexists _, _.
  assert (device_state_at p h = Some DsActive) as Da. { apply (C27_active p h id Rp). unfold state_at. by rewrite Ls. }
  split; [done|].
  pose proof (reaches_snoc _ _ _ _ _ _ _ R We (Wm : wf_op (StopRanging m id)) S) as R'.
  destruct (C45_in_band_stop e p m id Rp) as (p2 & outs2 & S2 & G & _). rewrite S in S2. apply Ret_inj in S2. injection S2 as <- <-.
  destruct (G _ _ St) as ((s' & Ls' & Si & _) & Sn & _ & _ & Se & Ot).
  assert (connected p' h) as (d' & L').
  { unfold session_at in Ls'. destruct (p_devices p' !! h) as [d'|] eqn:L'; [by exists d'|discriminate]. }
  assert (clean h (outs ++ outs')) as C'.
  { apply clean_bad. rewrite bad_out_app. apply clean_bad in C. rewrite C. cbn [orb].
    cbn [step] in S. apply Ret_inj in S. assert (outs' = (stop_controlee_ranging e p m id).2) as -> by by rewrite S.
    unfold session_at in Ls. destruct (p_devices p !! h) as [d|] eqn:L; [|discriminate]. cbn in Ls.
    pose proof (stop_effs e p m id h) as Ef. rewrite L in Ef.
    destruct (stop_controlee_eq _ _ _ _ _ (reachable_dinv _ _ _ Rp L) Ls A ltac:(by destruct St as (_ & _ & ?))) as (st & e3 & E & E3).
    rewrite E in Ef. cbn [snd] in Ef. clear -Ef E3.
    assert (forall outs, bad_out h outs = bad_effs (effs_at h outs)) as B.
    { intros o. rewrite <- (bad_out_eff h). unfold bad_out. f_equal. unfold messages, effs_at. induction o as [|x o IH]; [done|].
      cbn [map concat]. rewrite map_app, map_app, concat_app, <- IH. f_equal.
      destruct x as [h' x| | |]; try done. unfold messages_to, effs_of, sent_to, scheduled_to. destruct (N.eqb_spec h' h) as [->|Ne]; cbn.
      - destruct x; cbn; rewrite ?N.eqb_refl; done.
      - apply N.eqb_neq in Ne. by destruct x; rewrite ?Ne. }
    rewrite B, Ef. by destruct E3 as [-> | ->]. }
  assert (device_state_at p' h = Some DsReady) as Dr.
  { apply (C27_device_state_partial _ _ _ _ R' (ex_intro _ _ L') C'). intros id'. destruct (N.eq_dec id' id) as [->|Ne].
    - unfold state_at. by rewrite Ls', Si.
    - unfold state_at. destruct (Ot _ Ne) as (-> & _). by apply N. }
  split; [done|].
  destruct (C27_notified e p (StopRanging m id) p' outs' h Rp Wm S (ex_intro _ _ L')) as (st & E & ->).
  { by intros (pk & Ep & _). }
  rewrite Dr in E. injection E as <-. rewrite Da. by rewrite bool_decide_false.
Qed.
Print Assumptions C45_device_ready.
Example C45_example :
  exists s, stopped_by (state_after active) (MShort [1; 0]) 7 0 s /\ clean 0 (outs_after active)
  /\ (forall id', id' <> 7 -> state_at (state_after active) 0 id' <> SsActive)
  /\ status_ntfs 0 7 (outs_of active (StopRanging (MShort [1; 0]) 7)) = [(SsIdle, 0x05)].
Proof.
  destruct (session_at (state_after active) 0 7) as [s|] eqn:E; [|by vm_compute in E]. exists s.
  split; [split; [done|]; vm_compute in E; by injection E as <-|]. split; [apply clean_b; by vm_compute|].
  split; [|by vm_compute].
  intros id Ne. unfold state_at, session_at.
  assert (forallb (fun x => x.1 =? 7) (match p_devices (state_after active) !! 0 with Some d => map_to_list (d_sessions d) | None => [] end) = true) as F by by vm_compute.
  destruct (p_devices (state_after active) !! 0) as [d|]; [|done]. cbn [mbind option_bind]. destruct (d_sessions d !! id) as [s'|] eqn:L; [|done].
  rewrite forallb_forall in F. specialize (F (id, s')). cbn in F. apply N.eqb_neq in Ne. rewrite Ne in F.
  discriminate F. by apply elem_of_list_In, elem_of_map_to_list.
Qed.
