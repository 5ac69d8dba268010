(** How one command changes one session. *)
From Verif Require Import Base Uci MacAddress AppConfig Codec Session Device Pica.
From Verif Require Import BaseFacts AppConfigSpec AppConfigFacts CodecSpec CodecFacts ContextSpec InvFacts StepFacts CommandFacts SessionSpec SessionFacts MulticastSpec MulticastFacts.

Inductive evolves (o : op) (h id : N) : option session -> option session -> Prop :=
  | EvSame s : evolves o h id s s
  | EvGone s : (forall id', o <> Ranging h id') -> evolves o h id (Some s) None
  | EvInit old packet ty s' : o = UciPacket h packet -> wf_cmd (CmdSessionInit id ty) -> encodes (CmdSessionInit id ty) packet ->
      s' = session_new id ty \/ s' = s_set_state SsInit (session_new id ty) -> evolves o h id old (Some s')
  | EvState s st t : (forall id', o <> Ranging h id') -> evolves o h id (Some s) (Some (s_set_task t (s_set_state st s)))
  | EvConfig packet s l c st : o = UciPacket h packet -> wf_cmd (CmdSetAppConfig id l) -> encodes (CmdSetAppConfig id l) packet ->
      sets_all (s_cfg s) l c [] -> evolves o h id (Some s) (Some (s_set_state st (s_set_cfg c s)))
  | EvMulticast packet s a payload cs dst st : o = UciPacket h packet -> encodes (CmdMulticast id a payload) packet ->
      controlees a cs payload -> updatable s -> ((length (dst_mac_address (s_cfg s)) <= 8)%nat -> (length dst <= 8)%nat) ->
      evolves o h id (Some s)
        (Some (s_set_state st (s_set_cfg (set_dst_mac_address dst (set_number_of_controlees (N.of_nat (length dst) mod 256) (s_cfg s))) s)))
  | EvRanging s s' : o = Ranging h id -> s' = s \/ s' = s_set_seq (s_seq s + 1) s -> evolves o h id (Some s) (Some (clear_data s'))
  | EvData packet s dst seq data : o = UciPacket h packet -> wf_bytes data -> encodes_data_snd id dst seq data packet -> s_type s = 1 ->
      evolves o h id (Some s) (Some (s_set_data (s_data s ++ data) s)).

Lemma s_set_same s : s_set_task (s_task s) (s_set_state (s_state s) s) = s.
Proof. by destruct s. Qed.

Lemma handle_command_evolves d c d' e m h packet id : dinv false d -> wf_cmd c -> encodes c packet -> handle_command d c = Ret (d', e, m) ->
  evolves (UciPacket h packet) h id (d_sessions d !! id) (d_sessions d' !! id).
Proof.
  intros I W E H. assert (forall id', UciPacket h packet <> Ranging h id') as NR by done.
  destruct (is_reset c) eqn:Rs.
  { destruct c; try discriminate Rs. cbn [handle_command] in H. rewrite core_reset_eq in H. injection H as <- _ _.
    cbn. rewrite lookup_empty. destruct (d_sessions d !! id); constructor. done. }
  destruct (decide (target c = Some id)) as [T|T].
  2:{ rewrite (fr_sessions _ _ _ (handle_frame _ _ _ _ _ Rs H) id T). constructor. }
  destruct c; cbn [target] in T; try discriminate T; injection T as ->; cbn [handle_command] in H.
  - (* init *) apply Ret_inj in H. unfold session_init in H. destruct (Nat.leb _ _); [injection H as <- _ _; constructor|].
    destruct (d_sessions d !! id) eqn:L.
    + injection H as <- _ _. cbn. rewrite lookup_insert. eapply EvInit; eauto.
    + unfold session_init_state in H. rewrite session_set_state_eq in H. injection H as <- _ _. cbn. rewrite lookup_insert. eapply EvInit; eauto.
  - (* deinit *) unfold session_deinit in H. destruct (d_sessions d !! id) as [s|] eqn:L.
    2:{ apply Ret_inj in H. injection H as <- _ _. rewrite L. constructor. }
    destruct (if bool_decide _ then _ else _) as [[d1 e1]|]; [|discriminate]. apply Ret_inj in H. injection H as <- _ _.
    cbn. rewrite lookup_delete. by constructor.
  - (* set app config *) unfold session_set_app_config in H. destruct (d_sessions d !! id) as [s|] eqn:L.
    2:{ apply Ret_inj in H. injection H as <- _ _. rewrite L. constructor. }
    assert (forall m0, Ret (d, [], m0) = Ret (d', e, m) -> evolves (UciPacket h packet) h id (Some s) (d_sessions d' !! id)) as Sm.
    { intros m0 Em. apply Ret_inj in Em. injection Em as <- _ _. rewrite L. constructor. }
    destruct (negb _); [discriminate|]. destruct (bool_decide (s_state s = SsActive) && _); [by eapply Sm|].
    destruct (negb (bool_decide (s_state s = SsInit)) && _); [by eapply Sm|].
    destruct (set_tlvs _ _ _) as [[c r]|] eqn:St; [|discriminate]. cbn [obind] in H.
    destruct (missing_mandatory c); [by eapply Sm|]. apply sets_all_spec in St as (r' & -> & Sa). cbn [app] in H.
    destruct r'; [|by eapply Sm]. rewrite session_set_state_eq in H.
    destruct (bool_decide (s_state (s_set_cfg c s) = SsInit)); apply Ret_inj in H; injection H as <- _ _;
      cbn [d_sessions d_set_sessions]; rewrite lookup_insert.
    + by eapply EvConfig.
    + rewrite <- (s_set_state_same (s_set_cfg c s)). by eapply EvConfig.
  - (* multicast *) unfold session_update_controller_multicast_list in H. destruct (d_sessions d !! id) as [s|] eqn:L.
    2:{ apply Ret_inj in H. injection H as <- _ _. rewrite L. constructor. }
    assert (forall m0, Ret (d, [], m0) = Ret (d', e, m) -> evolves (UciPacket h packet) h id (Some s) (d_sessions d' !! id)) as Sm.
    { intros m0 Em. apply Ret_inj in Em. injection Em as <- _ _. rewrite L. constructor. }
    match type of H with (if ?b then _ else _) = _ => destruct b eqn:U; [by eapply Sm|] end.
    apply updatable_spec in U. destruct W as [_ Wp].
    destruct (multicast_controlees action payload) as [l|] eqn:Mc; [|by eapply Sm].
    apply decode_controlees_inv in Mc as (cs & Cs & ->); [|done].
    assert (forall dst, ((length (dst_mac_address (s_cfg s)) <= 8)%nat -> (length dst <= 8)%nat) -> d' = (multicast_finish d id s dst).1 ->
      evolves (UciPacket h packet) h id (Some s) (d_sessions d' !! id)) as G.
    { intros dst L8 ->. rewrite multicast_finish_eq. cbn [fst d_sessions d_set_sessions]. rewrite lookup_insert. by eapply EvMulticast. }
    assert (forall kr, (let! (dst, status, rsp) := add_controlees kr (map MShort (addresses cs)) (dst_mac_address (s_cfg s)) STATUS_OK [] in
      let '(d0, e3) := multicast_finish d id s dst in Ret (d0, e3, SessionUpdateControllerMulticastListRsp status rsp)) = Ret (d', e, m) ->
      evolves (UciPacket h packet) h id (Some s) (d_sessions d' !! id)) as Ga.
    { clear H. intros kr H. destruct (add_controlees _ _ _ _ _) as [[[dst st] rsp]|] eqn:A; [|discriminate]. cbn [obind] in H.
      destruct (multicast_finish _ _ _ _) as [d0 e3] eqn:F. apply Ret_inj in H. injection H as <- _ _.
      eapply G; [|by rewrite F]. destruct kr.
      - apply add_keys in A as (-> & _). done.
      - intros L8. apply add_spec in A as (? & _ & _ & _ & L' & _); done. }
    destruct action; [by eapply Ga| |by eapply Ga..].
    destruct (remove_controlees _ _ _ _ _ _ _ _) as [[[[[dst st] rsp] ntf] e1]|] eqn:A; [|discriminate]. cbn [obind] in H.
    destruct (multicast_finish _ _ _ _) as [d0 e3] eqn:F. apply Ret_inj in H. injection H as <- _ _.
    eapply G; [|by rewrite F]. apply remove_spec in A as (? & _ & _ & _ & _ & _ & L' & _). lia.
  - (* start *) unfold session_start in H. destruct (d_sessions d !! id) as [s|] eqn:L.
    2:{ apply Ret_inj in H. injection H as <- _ _. rewrite L. constructor. }
    destruct (negb _). { apply Ret_inj in H. injection H as <- _ _. rewrite L. constructor. }
    destruct (s_task s); [discriminate|]. rewrite session_set_state_eq, device_set_state_eq in H. apply Ret_inj in H. injection H as <- _ _.
    cbn. rewrite lookup_insert. by apply (EvState _ _ _ s SsActive true).
  - (* stop *) unfold session_stop in H. destruct (d_sessions d !! id) as [s|] eqn:L.
    2:{ apply Ret_inj in H. injection H as <- _ _. rewrite L. constructor. }
    destruct (negb _). { apply Ret_inj in H. injection H as <- _ _. rewrite L. constructor. }
    rewrite stop_ranging_task_eq, session_set_state_eq in H. destruct (device_dec_active _) as [[d1 e1]|] eqn:Da; [|discriminate].
    apply dec_active_inv in Da as (_ & -> & _). apply Ret_inj in H. injection H as <- _ _.
    cbn. rewrite lookup_insert. by apply (EvState _ _ _ s SsIdle false).
Qed.

Lemma step_evolves cl e p o p' outs h id : pinv cl p -> wf_op o -> step e p o = Ret (p', outs) ->
  evolves o h id (session_at p h id) (session_at p' h id).
Proof.
  intros I W H. pose proof I as [D A U]. unfold session_at.
  assert (forall d s (id' : N), mbind (M := option) (fun d => d_sessions d !! id) (Some d) = Some s -> d_sessions d !! id = Some s) as _ by done.
  destruct o; cbn [step] in H.
  - apply Ret_inj in H. unfold add_device, device_init in H. rewrite device_set_state_eq in H. injection H as <- _.
    cbn [p_devices]. destruct (N.eq_dec (p_counter p) h) as [<-|Hne].
    + rewrite lookup_insert. cbn. rewrite lookup_empty.
      replace (p_devices p !! p_counter p) with (@None device) by
        (destruct (p_devices p !! p_counter p) eqn:E; [destruct (D _ _ E) as (_ & _ & _ & ?); lia|done]). constructor.
    + rewrite lookup_insert_ne by done. constructor.
  - apply Ret_inj in H. unfold disconnect in H. destruct (p_devices p !! h0) as [d|] eqn:L; injection H as <- _; [|constructor].
    cbn. destruct (N.eq_dec h0 h) as [->|Hne].
    + rewrite lookup_delete, L. cbn. destruct (d_sessions d !! id); by constructor.
    + rewrite lookup_delete_ne by done. constructor.
  - apply ranging_inv in H as (d & s & ms1 & ms2 & peers & o1 & o2 & s' & L & Ls & _ & _ & _ & Si & -> & _).
    cbn. destruct (N.eq_dec h0 h) as [->|Hne]; [|rewrite lookup_insert_ne by done; constructor].
    rewrite lookup_insert, L. cbn. destruct (N.eq_dec id0 id) as [->|Hne]; [|rewrite lookup_insert_ne by done; constructor].
    rewrite lookup_insert, Ls. apply EvRanging; [done|]. apply send_info_session in Si as [(_ & -> & _)|(_ & _ & -> & _)]; auto.
  - apply Ret_inj in H. unfold stop_controlee_ranging in H. injection H as <- _. cbn. rewrite lookup_fmap.
    destruct (p_devices p !! h) as [d|] eqn:L; cbn; [|constructor].
    unfold stop_controlee. destruct (d_sessions d !! id0) as [s|] eqn:Ls; [|constructor].
    destruct (negb _); [constructor|]. destruct (bool_decide _); [|constructor].
    rewrite stop_ranging_task_eq, session_set_state_eq.
    match goal with |- context [if ?b then device_set_state ?x ?y else _] =>
      assert (d_sessions (if b then device_set_state x y else (y, [])).1 = d_sessions y) as G by (destruct b; [by rewrite device_set_state_eq|done]);
      destruct (if b then device_set_state x y else (y, [])) as [d1 e1] end.
    cbn [fst d_sessions d_set_active d_set_sessions] in *. rewrite G. destruct (N.eq_dec id0 id) as [->|Hne].
    + rewrite lookup_insert, Ls. by apply (EvState _ _ _ s SsIdle false).
    + rewrite lookup_insert_ne by done. constructor.
  - unfold uci_packet in H. destruct (p_devices p !! h0) as [d|] eqn:L; [|injection H as <- _; constructor].
    destruct (receive_packet d packet) as [[d1 e1]|] eqn:R; [|discriminate]. cbn [obind] in H. injection H as <- _.
    apply receive_received in R; [|done]. cbn. destruct (N.eq_dec h0 h) as [->|Hne]; [|rewrite lookup_insert_ne by done; constructor].
    rewrite lookup_insert, L. cbn. destruct (D _ _ L) as (Id & _). apply dinv_weaken in Id.
    destruct R as [Hh|Hh Hd|pp d' m b Hh Hd Hs Hw|h1 o1 rest -> Hc|Hh Hv Hr Hl|c d' e2 m b Wc Ec Hr Hc Hw|h1 b1 b2 rest -> Hh Hr Hv Hg]; try constructor.
    + destruct pp as [handle dst seq data|]; cbn [device_data_message_snd] in Hs; [|injection Hs as <- _; constructor].
      destruct (d_sessions d !! handle) as [s|] eqn:Ls; [|injection Hs as <- _; constructor].
      destruct (session_data_message_snd _ _ _ _) as [[s' m']|] eqn:S; [|discriminate]. cbn [obind] in Hs. injection Hs as <- _. cbn.
      destruct (N.eq_dec handle id) as [->|Hne]; [|rewrite lookup_insert_ne by done; constructor]. rewrite lookup_insert, Ls.
      unfold session_data_message_snd in S. unfold FIRA_RANGING_AND_IN_BAND_DATA_SESSION in S.
      destruct (N.eqb_spec (s_type s) 1); cbn [negb] in S; [|apply Ret_inj in S; injection S as <- _; constructor].
      destruct (negb _); [discriminate|]. apply Ret_inj in S. injection S as <- _.
      apply decode_data_snd_iff in Hd as (_ & _ & _ & _ & Wd & Ed); [|done|]. 2:{ destruct packet as [|x pk]; [discriminate|]. by exists x. }
      by eapply EvData.
    + by eapply handle_command_evolves.
  - unfold create_anchor in H. destruct (get_category p m); [injection H as <- _; constructor|].
    destruct (p_anchors p !! m); [discriminate|]. injection H as <- _. constructor.
  - apply Ret_inj in H. unfold destroy_anchor in H. destruct (p_anchors p !! m); injection H as <- _; constructor.
  - apply Ret_inj in H. injection H as <- _. constructor.
Qed.
