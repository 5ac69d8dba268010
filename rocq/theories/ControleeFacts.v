(** Proofs about ControleeSpec.v. *)
From Verif Require Import Base Uci MacAddress AppConfig Codec Session Device Pica.
From Verif Require Import BaseFacts AppConfigSpec AppConfigFacts CodecSpec CodecFacts ContextSpec HistorySpec InvFacts StepFacts CommandFacts
  SessionSpec SessionFacts MulticastSpec MulticastFacts EvolveFacts ReadSpec ReadFacts ControleeSpec.

(** ** What one command does to the configuration of a session *)
Inductive cmd_step (id : N) (c : command) (m : msg) : option app_config -> option app_config -> Prop :=
  | CcSame k : ~ says_created id c m -> (says_deleted id c m -> k = None) -> (forall i w, ~ says_accepted id i w c m) -> ~ says_list id c m -> cmd_step id c m k k
  | CcInit k : says_created id c m -> cmd_step id c m k (Some default_app_config)
  | CcGone k : says_deleted id c m -> cmd_step id c m k None
  | CcSet k k' l : c = CmdSetAppConfig id l -> m = SessionSetAppConfigRsp 0 [] -> sets_all k l k' [] -> cmd_step id c m (Some k) (Some k')
  | CcList k a payload st r dst : c = CmdMulticast id a payload -> m = SessionUpdateControllerMulticastListRsp st r ->
      st <> 0x11 -> st <> 0x01 -> st <> 0x03 ->
      map mac_to_vec dst = match a with RemoveControlee => filter (fun b => b ∉ said_updated r) (map mac_to_vec (dst_mac_address k))
                           | _ => map mac_to_vec (dst_mac_address k) ++ said_updated r end ->
      cmd_step id c m (Some k) (Some (set_dst_mac_address dst (set_number_of_controlees (N.of_nat (length dst) mod 256) k))).

Lemma said_app r r' : said_updated (r ++ r') = said_updated r ++ said_updated r'.
Proof. unfold said_updated. by rewrite filter_app, fmap_app. Qed.
Lemma add_said k l : forall dst st rsp dst' st' rsp', Forall wf_short l -> add_controlees k l dst st rsp = Ret (dst', st', rsp') ->
  exists r, rsp' = rsp ++ r /\ map mac_to_vec dst' = map mac_to_vec dst ++ said_updated r.
Proof.
  induction l as [|a l IH]; intros dst st rsp dst' st' rsp' W H; cbn [add_controlees] in H.
  - apply Ret_inj in H. injection H as <- _ <-. exists []. by rewrite !app_nil_r.
  - inversion W as [|? ? (b & -> & _) W']; subst. cbn [short_bytes obind] in H.
    destruct k; [by eapply IH|]. destruct (negb _); [destruct (Nat.eqb _ _)|]; apply IH in H as (r & -> & E); try done; rewrite E, <- app_assoc;
      eexists; (split; [reflexivity|]); rewrite said_app; try reflexivity.
    rewrite map_app, <- app_assoc. reflexivity.
Qed.
Lemma filter_ext_in {A} (P Q : A -> Prop) `{!forall x, Decision (P x), !forall x, Decision (Q x)} (l : list A) :
  (forall x, x ∈ l -> (P x <-> Q x)) -> filter P l = filter Q l.
Proof.
  intros Eq. induction l as [|x l IH]; [done|]. rewrite !filter_cons. assert (P x <-> Q x) as E by (apply Eq; left).
  rewrite IH by (intros; apply Eq; by right). destruct (decide (P x)), (decide (Q x)); tauto.
Qed.
Lemma filter_macs b dst : Forall wf_mac dst -> length b = 2%nat ->
  map mac_to_vec (filter (fun x => x <> MShort b) dst) = filter (fun v => v ∉ [b]) (map mac_to_vec dst).
Proof.
  intros W Lb. induction W as [|x dst Wx W IH]; [done|]. cbn [map]. rewrite !filter_cons.
  assert (x = MShort b <-> mac_to_vec x = b) as E.
  { split; [by intros ->|]. destruct x as [y|y]; cbn; [by intros ->|]. intros ->. destruct Wx as [Wx _]. rewrite Lb in Wx. discriminate Wx. }
  destruct (decide (x <> MShort b)) as [N|N], (decide (mac_to_vec x ∉ [b])) as [N'|N'].
  - cbn [map]. by rewrite IH.
  - destruct N'. intros Hx. apply elem_of_list_singleton in Hx. tauto.
  - destruct N. intros Hx. apply N'. apply elem_of_list_singleton. tauto.
  - exact IH.
Qed.
Lemma remove_said id att l : forall dst st rsp ntf e dst' st' rsp' ntf' e', Forall wf_short l -> Forall wf_mac dst ->
  remove_controlees id att l dst st rsp ntf e = Ret (dst', st', rsp', ntf', e') ->
  exists r, rsp' = rsp ++ r /\ map mac_to_vec dst' = filter (fun v => v ∉ said_updated r) (map mac_to_vec dst).
Proof.
  induction l as [|a l IH]; intros dst st rsp ntf e dst' st' rsp' ntf' e' W Wd H; cbn [remove_controlees] in H.
  - apply Ret_inj in H. injection H as <- _ <- _ _. exists []. split; [by rewrite app_nil_r|].
    assert (forall k : list bytes, filter (fun v => v ∉ said_updated []) k = k) as F; [|by rewrite F].
    intros k. induction k as [|v k IH]; [done|]. rewrite filter_cons, decide_True by apply not_elem_of_nil. by rewrite IH.
  - inversion W as [|? ? (b & -> & Lb & Wb) W']; subst. cbn [short_bytes obind] in H.
    destruct (negb _); apply IH in H as (r & -> & E); try done; try (by apply Forall_filter'); rewrite E, <- app_assoc.
    + eexists. split; [reflexivity|]. rewrite said_app. reflexivity.
    + eexists. split; [reflexivity|]. rewrite said_app, filter_macs by done. rewrite list_filter_filter. apply filter_ext_in.
      intros v _. change (said_updated [(b, OK_MULTICAST_LIST_UPDATE)]) with [b]. rewrite !elem_of_app. tauto.
Qed.

Ltac other := first [by intros (? & ? & ? & _)|by intros [?|[? _]]|by intros ? ? (? & ? & ? & _)|by intros (? & ? & ? & ? & ? & _)].
Lemma handle_cfg d c d' e m id : dinv false d -> wf_cmd c -> handle_command d c = Ret (d', e, m) ->
  cmd_step id c m (s_cfg <$> d_sessions d !! id) (s_cfg <$> d_sessions d' !! id).
Proof.
  intros I W H. destruct (is_reset c) eqn:Rs.
  { destruct c; try discriminate Rs. cbn [handle_command] in H. rewrite core_reset_eq in H. injection H as <- _ _.
    cbn. rewrite lookup_empty. cbn in W. subst. apply CcGone. by left. }
  destruct (decide (target c = Some id)) as [T|T].
  2:{ rewrite (fr_sessions _ _ _ (handle_frame _ _ _ _ _ Rs H) id T). apply CcSame.
      - intros (ty & st & -> & _). done.
      - intros [->|[-> _]]; done.
      - intros i w (l1 & l2 & -> & _). done.
      - intros (a & pl & st & l & -> & _). done. }
  destruct c; cbn [target] in T; try discriminate T; injection T as ->; cbn [handle_command] in H.
  - (* init *) apply Ret_inj in H. unfold session_init in H. destruct (Nat.leb _ _).
    { injection H as <- _ <-. apply CcSame; try other. intros (ty' & st & _ & Es & Hs). injection Es as <-. destruct Hs; discriminate. }
    destruct (d_sessions d !! id) eqn:L.
    + injection H as <- _ <-. cbn [d_sessions d_set_sessions]. rewrite lookup_insert. apply CcInit. eexists _, _. auto.
    + unfold session_init_state in H. rewrite session_set_state_eq in H. injection H as <- _ <-. cbn [d_sessions d_set_sessions]. rewrite lookup_insert.
      apply CcInit. eexists _, _. auto.
  - (* deinit *) unfold session_deinit in H. destruct (d_sessions d !! id) as [s|] eqn:L.
    2:{ apply Ret_inj in H. injection H as <- _ <-. rewrite L. apply CcSame; other || done. }
    destruct (if bool_decide _ then _ else _) as [[d1 e1]|]; [|discriminate]. apply Ret_inj in H. injection H as <- _ <-.
    cbn [d_sessions d_set_sessions]. rewrite lookup_delete. apply CcGone. by right.
  - (* set app config *) unfold session_set_app_config in H.
    assert (forall k st r, st <> 0 -> cmd_step id (CmdSetAppConfig id tlvs) (SessionSetAppConfigRsp st r) k k) as Sm.
    { intros s st r Hst. apply CcSame; try other. intros i w (l1 & l2 & _ & _ & Es). by injection Es. }
    destruct (d_sessions d !! id) as [s|] eqn:L.
    2:{ apply Ret_inj in H. injection H as <- _ <-. rewrite L. by apply Sm. }
    destruct (negb _); [discriminate|].
    destruct (bool_decide (s_state s = SsActive) && _); [apply Ret_inj in H; injection H as <- _ <-; rewrite L; by apply Sm|].
    destruct (negb (bool_decide (s_state s = SsInit)) && _); [apply Ret_inj in H; injection H as <- _ <-; rewrite L; by apply Sm|].
    destruct (set_tlvs _ _ _) as [[c r]|] eqn:St; [|discriminate]. cbn [obind] in H.
    destruct (missing_mandatory c); [apply Ret_inj in H; injection H as <- _ <-; rewrite L; by apply Sm|].
    apply sets_all_spec in St as (r' & -> & Sa). cbn [app] in H.
    destruct r'; [|apply Ret_inj in H; injection H as <- _ <-; rewrite L; by apply Sm].
    assert (exists s', d_sessions d' !! id = Some s' /\ s_cfg s' = c /\ m = SessionSetAppConfigRsp 0 []) as (s' & L' & Hc & ->).
    { rewrite session_set_state_eq in H. destruct (bool_decide (s_state (s_set_cfg c s) = SsInit)); apply Ret_inj in H; injection H as <- _ <-;
        cbn [d_sessions d_set_sessions]; rewrite lookup_insert; by eexists. }
    rewrite L'. cbn. rewrite Hc. by eapply CcSet.
  - (* multicast *) unfold session_update_controller_multicast_list in H. destruct W as [_ Wp].
    assert (forall k st r, st = 0x11 \/ st = 1 \/ st = 3 -> cmd_step id (CmdMulticast id action payload) (SessionUpdateControllerMulticastListRsp st r) k k) as Sm.
    { intros s st r Hst. apply CcSame; try other.
      intros (? & ? & ? & ? & _ & Es & N1 & N2 & N3). injection Es as <- <-. destruct Hst as [Hst|[Hst|Hst]]; congruence. }
    destruct (d_sessions d !! id) as [s|] eqn:L.
    2:{ apply Ret_inj in H. injection H as <- _ <-. rewrite L. apply Sm; auto. }
    match type of H with (if ?b then _ else _) = _ => destruct b eqn:U; [apply Ret_inj in H; injection H as <- _ <-; rewrite L; apply Sm; auto|] end.
    destruct (multicast_controlees _ _) as [cs|] eqn:Mc; [|apply Ret_inj in H; injection H as <- _ <-; rewrite L; apply Sm; auto].
    apply multicast_controlees_short in Mc as [Ws _]; [|done]. pose proof (co_dst _ (so_cfg _ _ (di_session _ _ I _ _ L))) as Wd.
    assert (forall dst st r, (st = 0 \/ st = 2 \/ st = 0x17) -> d' = (multicast_finish d id s dst).1 -> m = SessionUpdateControllerMulticastListRsp st r ->
      map mac_to_vec dst = match action with RemoveControlee => filter (fun b => b ∉ said_updated r) (map mac_to_vec (dst_mac_address (s_cfg s)))
                           | _ => map mac_to_vec (dst_mac_address (s_cfg s)) ++ said_updated r end ->
      cmd_step id (CmdMulticast id action payload) m (Some (s_cfg s)) (s_cfg <$> d_sessions d' !! id)) as G.
    { intros dst st r Hst -> -> Ed. rewrite multicast_finish_eq. cbn [fst d_sessions d_set_sessions]. rewrite lookup_insert. cbn.
      eapply CcList; [reflexivity|reflexivity|..|exact Ed]; intros ->; by repeat destruct Hst as [Hst|Hst]. }
    assert (forall kr, action <> RemoveControlee -> (let! (dst, status, rsp) := add_controlees kr cs (dst_mac_address (s_cfg s)) STATUS_OK [] in
      let '(d0, e3) := multicast_finish d id s dst in Ret (d0, e3, SessionUpdateControllerMulticastListRsp status rsp)) = Ret (d', e, m) ->
      cmd_step id (CmdMulticast id action payload) m (Some (s_cfg s)) (s_cfg <$> d_sessions d' !! id)) as Ga.
    { clear H. intros kr Na H. destruct (add_controlees _ _ _ _ _) as [[[dst st] rsp]|] eqn:A; [|discriminate]. cbn [obind] in H.
      destruct (multicast_finish _ _ _ _) as [d0 e3] eqn:F. apply Ret_inj in H. injection H as <- _ <-.
      eapply G; [|by rewrite F|reflexivity|]; [by apply add_status in A|]. apply add_said in A as (r & -> & A); [|done]. cbn [app]. by destruct action. }
    destruct action; [by eapply Ga| |by eapply Ga..].
    destruct (remove_controlees _ _ _ _ _ _ _ _) as [[[[[dst st] rsp] ntf] e1]|] eqn:A; [|discriminate]. cbn [obind] in H.
    destruct (multicast_finish _ _ _ _) as [d0 e3] eqn:F. apply Ret_inj in H. injection H as <- _ <-.
    eapply G; [|by rewrite F|reflexivity|]; [apply remove_status in A; tauto|]. by apply remove_said in A as (r & -> & A).
  - (* start *)
    assert (forall k m', cmd_step id (CmdStart id) m' k k) as G by (intros; apply CcSame; other).
    unfold session_start in H. destruct (d_sessions d !! id) as [s|] eqn:L.
    2:{ apply Ret_inj in H. injection H as <- _ _. rewrite L. by apply G. }
    destruct (negb _). { apply Ret_inj in H. injection H as <- _ _. rewrite L. by apply G. }
    destruct (s_task s); [discriminate|]. rewrite session_set_state_eq, device_set_state_eq in H. apply Ret_inj in H. injection H as <- _ _.
    cbn. rewrite lookup_insert. apply G.
  - (* stop *)
    assert (forall k m', cmd_step id (CmdStop id) m' k k) as G by (intros; apply CcSame; other).
    unfold session_stop in H. destruct (d_sessions d !! id) as [s|] eqn:L.
    2:{ apply Ret_inj in H. injection H as <- _ _. rewrite L. by apply G. }
    destruct (negb _). { apply Ret_inj in H. injection H as <- _ _. rewrite L. by apply G. }
    rewrite stop_ranging_task_eq, session_set_state_eq in H. destruct (device_dec_active _) as [[d1 e1]|] eqn:Da; [|discriminate].
    apply dec_active_inv in Da as (_ & -> & _). apply Ret_inj in H. injection H as <- _ _.
    cbn. rewrite lookup_insert. apply G.
Qed.

(** ** What one command of the context does to it *)
Definition cfg_at (p : pica) (h id : N) : option app_config := s_cfg <$> session_at p h id.
Inductive op_step (h id : N) (x : op * list out) : option app_config -> option app_config -> Prop :=
  | OsQuiet k : ~ created h id x -> (deleted h id x -> k = None) -> (forall i w, ~ accepted h id i w x) -> ~ list_updated h id x -> op_step h id x k k
  | OsGone k : x.1 = Disconnect h -> op_step h id x k None
  | OsCmd k k' packet c m : x.1 = UciPacket h packet -> wf_bytes packet -> wf_cmd c -> encodes c packet -> sent h x.2 = [m] -> cmd_step id c m k k' ->
      op_step h id x k k'.
Lemma op_quiet h id o outs k :
  (forall packet, o = UciPacket h packet -> (forall c, wf_cmd c -> ~ encodes c packet)
     \/ (encodes (CmdDeviceReset 0) packet -> k = None) /\ (forall m, m ∈ sent h outs -> exists st, m = CoreDeviceStatusNtf st)) ->
  o <> Disconnect h -> op_step h id (o, outs) k k.
Proof.
  intros Hp Hd.
  assert (forall c m, asks h c o -> sent h outs = [m] -> (forall st, m <> CoreDeviceStatusNtf st) -> False) as B.
  { intros c m (packet & -> & Wc & E) Hm N. destruct (Hp packet eq_refl) as [N'|[_ H1]]; [by destruct (N' c Wc)|].
    destruct (H1 m) as [st ->]; [rewrite Hm; left|]. by apply (N st). }
  apply OsQuiet.
  - intros (ty & st & Ha & Hm & _). by eapply B.
  - intros [H1|[H1|[H1 H2]]]; [done| |by destruct (B _ _ H1 H2)]. cbn [fst snd] in *.
    destruct H1 as (packet & -> & Wc & E). destruct (Hp packet eq_refl) as [N'|[H1 _]]; [by destruct (N' _ Wc E)|auto].
  - intros i w (l1 & l2 & Ha & _ & Hm). by eapply B.
  - intros (a & pl & st & l & Ha & Hm & _). by eapply B.
Qed.
Lemma step_cfg e p o p' outs h id : pinv (fun _ => false) p -> wf_op o -> step e p o = Ret (p', outs) ->
  op_step h id (o, outs) (cfg_at p h id) (cfg_at p' h id).
Proof.
  intros I W H. pose proof I as [D A U]. unfold cfg_at, session_at.
  assert (forall k, (forall packet, o <> UciPacket h packet) -> o <> Disconnect h -> op_step h id (o, outs) k k) as Q.
  { intros k Ho Hd. apply op_quiet; try done. intros packet E. by destruct (Ho packet). }
  destruct o; cbn [step] in H.
  - apply Ret_inj in H. unfold add_device, device_init in H. rewrite device_set_state_eq in H. injection H as <- <-.
    cbn [p_devices]. destruct (N.eq_dec (p_counter p) h) as [<-|Hne].
    + rewrite lookup_insert. cbn. rewrite lookup_empty.
      replace (p_devices p !! p_counter p) with (@None device) by
        (destruct (p_devices p !! p_counter p) eqn:E; [destruct (D _ _ E) as (_ & _ & _ & ?); lia|done]). by apply Q.
    + rewrite lookup_insert_ne by done. by apply Q.
  - apply Ret_inj in H. unfold disconnect in H. destruct (N.eq_dec h0 h) as [->|Hne].
    + assert (p_devices p' !! h = None) as ->.
      { destruct (p_devices p !! h) eqn:L; injection H as <- _; [by apply lookup_delete|done]. }
      by apply OsGone.
    + assert (p_devices p' !! h = p_devices p !! h) as ->.
      { destruct (p_devices p !! h0) eqn:L; injection H as <- _; [by apply lookup_delete_ne|done]. }
      apply Q; try done. intros Ed. congruence.
  - apply ranging_inv in H as (d & s & ms1 & ms2 & peers & o1 & o2 & s' & L & Ls & _ & _ & _ & Si & -> & _).
    cbn. destruct (N.eq_dec h0 h) as [->|Hne]; [|rewrite lookup_insert_ne by done; by apply Q].
    rewrite lookup_insert, L. cbn. destruct (N.eq_dec id0 id) as [->|Hne]; [|rewrite lookup_insert_ne by done; by apply Q].
    rewrite lookup_insert, Ls. apply send_info_session in Si as [(_ & -> & _)|(_ & _ & -> & _)]; by apply Q.
  - apply Ret_inj in H. unfold stop_controlee_ranging in H. injection H as <- <-. cbn. rewrite lookup_fmap.
    destruct (p_devices p !! h) as [d|] eqn:L; cbn; [|by apply Q].
    unfold stop_controlee. destruct (d_sessions d !! id0) as [s|] eqn:Ls; [|by apply Q].
    destruct (negb _); [by apply Q|]. destruct (bool_decide (s_state s = _)); [|by apply Q].
    rewrite stop_ranging_task_eq, session_set_state_eq.
    match goal with |- context [if ?b then device_set_state ?x ?y else _] =>
      assert (d_sessions (if b then device_set_state x y else (y, [])).1 = d_sessions y) as G by (destruct b; [by rewrite device_set_state_eq|done]);
      destruct (if b then device_set_state x y else (y, [])) as [d1 e1] end.
    cbn [fst d_sessions d_set_active d_set_sessions] in *. rewrite G. destruct (N.eq_dec id0 id) as [->|Hne].
    + rewrite lookup_insert, Ls. by apply Q.
    + rewrite lookup_insert_ne by done. by apply Q.
  - unfold uci_packet in H. destruct (N.eq_dec h0 h) as [->|Hne].
    2:{ assert (p_devices p' !! h = p_devices p !! h) as ->.
        { destruct (p_devices p !! h0) as [d|]; [|by injection H as <- _].
          destruct (receive_packet d packet) as [[d1 e1]|]; [|discriminate]. cbn [obind] in H. injection H as <- _. by apply lookup_insert_ne. }
        apply Q; try done. intros pk Ep. congruence. }
    destruct (p_devices p !! h) as [d|] eqn:L.
    2:{ injection H as <- <-. rewrite L. apply op_quiet; try done. intros pk _. right. split; [done|]. by intros m ?%elem_of_nil. }
    destruct (receive_packet d packet) as [[d1 e1]|] eqn:R; [|discriminate]. cbn [obind] in H. injection H as <- <-.
    apply receive_received in R; [|done]. cbn. rewrite lookup_insert. cbn. destruct (D _ _ L) as (Id & _).
    assert (forall c, encodes c packet -> hd 0 packet / 32 = 1 /\ defined_group (hd 0 packet mod 16) = true) as Mt.
    { intros c (h1 & o1 & r1 & r2 & -> & Hm & Hg & _). cbn. split; [done|]. rewrite Hg. by destruct c. }
    assert (forall k e', (forall c, wf_cmd c -> ~ encodes c packet) -> op_step h id (UciPacket h packet, map (OEff h) e') k k) as N0.
    { intros k e' N. apply op_quiet; try done. intros pk Ep. injection Ep as <-. by left. }
    destruct R as [Hh|Hh Hd|pp d' m b Hh Hd Hs Hw|h1 o1 rest -> Hc|Hh Hv Hr Hl|c d' e2 m b Wc Ec Hr Hc Hw|h1 b1 b2 rest -> Hh Hr Hv Hg].
    + apply N0. intros c _ E. apply Mt in E as [E _]. lia.
    + apply N0. intros c _ E. apply Mt in E as [E _]. lia.
    + assert (s_cfg <$> d_sessions d' !! id = s_cfg <$> d_sessions d !! id) as ->.
      { destruct pp as [handle dst seq data|]; cbn [device_data_message_snd] in Hs; [|by injection Hs as <- _].
        destruct (d_sessions d !! handle) as [s|] eqn:Ls; [|by injection Hs as <- _].
        destruct (session_data_message_snd _ _ _ _) as [[s' m']|] eqn:S; [|discriminate]. cbn [obind] in Hs. injection Hs as <- _. cbn.
        destruct (N.eq_dec handle id) as [->|Hne]; [|by rewrite lookup_insert_ne by done]. rewrite lookup_insert, Ls.
        unfold session_data_message_snd in S. destruct (negb _); [apply Ret_inj in S; by injection S as <- _|].
        destruct (negb _); [discriminate|]. apply Ret_inj in S. by injection S as <- _. }
      apply N0. intros c _ E. apply Mt in E as [E _]. lia.
    + apply N0. intros c _ E. apply Mt in E as [E E'].
      cbn in E, E'. destruct Hc as [[_ Hc]|Hc]; [|lia].
      assert (forall g, defined_group g = true -> valid_gid g = true) as G; [|rewrite G in Hc; done].
      intros g Hg. unfold defined_group in Hg. apply existsb_In in Hg.
      repeat (destruct Hg as [<-|Hg]; [reflexivity|]). destruct Hg.
    + apply op_quiet; try done. intros pk Ep. injection Ep as <-. right. split.
      * intros E. rewrite (encodes_reset_like packet W E) in Hl. done.
      * pose proof (sent_one h [] (CoreDeviceStatusNtf DsError) eq_refl) as E1. cbn [app] in E1. rewrite E1.
        intros m ->%elem_of_list_singleton. by eexists.
    + eapply (OsCmd _ _ _ _ _ packet c m); try done.
      * apply sent_one. eapply handle_no_send; [|exact Wc|exact Hc]. by eapply dinv_weaken.
      * eapply handle_cfg; [|exact Wc|exact Hc]. by eapply dinv_weaken.
    + apply N0. intros c _ E. apply Mt in E as [_ E]. cbn [hd] in E. congruence.
  - unfold create_anchor in H. destruct (get_category p m); [injection H as <- <-; by apply Q|].
    destruct (p_anchors p !! m); [discriminate|]. injection H as <- <-. by apply Q.
  - apply Ret_inj in H. unfold destroy_anchor in H. destruct (p_anchors p !! m); injection H as <- <-; by apply Q.
  - apply Ret_inj in H. injection H as <- <-. by apply Q.
Qed.

(** ** The parameters of one command *)
Lemma set_keeps_dst c i v c' b : app_config_set c i v = Ret (c', b) -> i <> T_DST_MAC_ADDRESS -> dst_mac_address c' = dst_mac_address c.
Proof.
  intros H Hne. destruct i; cbn [app_config_set] in H; unfold assign in H;
    repeat match type of H with
      | context [match ?x with _ => _ end] => destruct x
      end; try discriminate; injection H as <- <-; first [reflexivity|congruence].
Qed.
Lemma sets_keeps_dst c l c' : sets_all c l c' [] -> T_DST_MAC_ADDRESS ∉ l.*1 -> dst_mac_address c' = dst_mac_address c.
Proof.
  revert c. induction l as [|[i v] l IH]; intros c H Ni; inversion H as [|? ? ? c1 ? ? ? E H'|]; subst; [done|].
  cbn in Ni. apply not_elem_of_cons in Ni as [Ne Ni]. rewrite (IH c1) by done. eapply set_keeps_dst; [exact E|congruence].
Qed.
Lemma sets_split c l1 l2 c' : sets_all c (l1 ++ l2) c' [] -> exists c1, sets_all c l1 c1 [] /\ sets_all c1 l2 c' [].
Proof.
  revert c. induction l1 as [|[i v] l1 IH]; intros c H; [exists c; split; [constructor|done]|].
  inversion H as [|? ? ? c1 ? ? ? E H'|]; subst. apply IH in H' as (c2 & H1 & H2). exists c2. split; [by econstructor|done].
Qed.
Lemma sets_dst c l1 v l2 c' : sets_all c (l1 ++ (T_DST_MAC_ADDRESS, v) :: l2) c' [] -> T_DST_MAC_ADDRESS ∉ l2.*1 ->
  exists c1, sets_all c l1 c1 [] /\ let k := address_size (mac_address_mode c1) in
    map mac_to_vec (dst_mac_address c') = chunks k v /\ concat (chunks k v) = v /\ Forall (fun a => length a = k) (chunks k v).
Proof.
  intros H Ni. apply sets_split in H as (c1 & H1 & H2). exists c1. split; [done|]. inversion H2 as [|? ? ? c2 ? ? ? E H'|]; subst.
  rewrite (sets_keeps_dst _ _ _ H' Ni). cbn [app_config_set] in E. unfold address_size. change MAC_MODE_0 with 0 in E.
  destruct (mac_address_mode c1 =? MAC_MODE_1); [discriminate|].
  destruct (mac_address_mode c1 =? 0).
  - destruct (Nat.eqb_spec (length v) (N.to_nat (number_of_controlees c1) * 2)) as [El|]; cbn [negb] in E; [|discriminate].
    apply Ret_inj in E. injection E as <-. cbn [dst_mac_address set_dst_mac_address]. rewrite map_map.
    split; [apply map_id|]. split; [apply concat_chunks; lia|]. eapply chunks_length; [lia|exact El].
  - destruct (Nat.eqb_spec (length v) (N.to_nat (number_of_controlees c1) * 8)) as [El|]; cbn [negb] in E; [|discriminate].
    apply Ret_inj in E. injection E as <-. cbn [dst_mac_address set_dst_mac_address]. rewrite map_map.
    split; [apply map_id|]. split; [apply concat_chunks; lia|]. eapply chunks_length; [lia|exact El].
Qed.
Lemma concat_sized {A} (k : nat) (l l' : list (list A)) : (0 < k)%nat -> Forall (fun a => length a = k) l -> Forall (fun a => length a = k) l' ->
  concat l = concat l' -> l = l'.
Proof.
  intros K F. revert l'. induction F as [|a l La F IH]; intros l' F' E; inversion F' as [|b l0 Lb F0]; subst; cbn in E; try done.
  - symmetry in E. apply app_nil in E as [-> _]. cbn in K. lia.
  - apply app_nil in E as [-> _]. cbn in K. lia.
  - apply app_inj_1 in E as [-> E]; [|done]. f_equal. by apply IH.
Qed.

Lemma last_unique (l1 l1' l2 l2' : list (tlv_id * bytes)) i v v' : l1 ++ (i, v) :: l2 = l1' ++ (i, v') :: l2' -> i ∉ l2.*1 -> i ∉ l2'.*1 -> l1 = l1' /\ v = v' /\ l2 = l2'.
Proof.
  intros Eq Hn Hn'. revert l1' Eq. induction l1 as [|[j u] l1 IH]; intros [|[j' u'] m1] Eq; cbn in Eq.
  - by injection Eq as -> ->.
  - injection Eq as <- <- ->. destruct Hn. rewrite fmap_app, elem_of_app. right. left.
  - injection Eq as -> -> <-. destruct Hn'. rewrite fmap_app, elem_of_app. right. left.
  - injection Eq as -> -> Eq. destruct (IH _ Eq) as (-> & -> & ->). done.
Qed.
(** The mode in force when DST_MAC_ADDRESS is set. *)
Lemma mode_after_iff p tr h id k l1 c1 mode : (forall p' tr', executes p' tr' -> pinv (fun _ => false) p') -> executes p tr ->
  cfg_at p h id = Some k -> sets_all k l1 c1 [] -> Forall (fun x => wf_bytes x.2) l1 ->
  mode_after h id tr l1 mode <-> mode = mac_address_mode c1.
Proof.
  intros P X Ek Sa W.
  assert (known_id T_MAC_ADDRESS_MODE) as K by done.
  assert (rd (session_at p h id) T_MAC_ADDRESS_MODE = Some [mac_address_mode k]) as Rd.
  { unfold cfg_at in Ek. unfold rd. destruct (session_at p h id) as [s|]; [|done]. cbn in Ek. by injection Ek as <-. }
  destruct (decide (T_MAC_ADDRESS_MODE ∈ l1.*1)) as [Hi|Hi].
  - destruct (last_occurrence _ _ Hi) as (l & v & l' & -> & Hn).
    assert (wf_bytes v) as Wv by (apply Forall_app in W as [_ W]; apply Forall_cons in W as [W _]; done).
    pose proof (sets_all_last _ _ _ _ _ _ Sa Wv ltac:(by rewrite <- elem_of_list_In)) as G.
    assert (readback T_MAC_ADDRESS_MODE v = v) as Rb by done. rewrite Rb in G. cbn in G. injection G as G. subst v.
    split.
    + intros [(m & m' & E & Hn')|[N _]]; [|done]. apply last_unique in E as (_ & E & _); try done. by injection E as <-.
    + intros ->. left. by exists l, l'.
  - pose proof (sets_all_other _ _ _ _ T_MAC_ADDRESS_MODE Sa ltac:(by rewrite <- elem_of_list_In)) as G. cbn in G. injection G as G. rewrite G.
    split.
    + intros [(m & m' & -> & _)|[_ H]]; [destruct Hi; rewrite fmap_app, elem_of_app; right; left|].
      apply (holds_sound p tr) in H; try done. rewrite Rd in H. by injection H as <-.
    + intros ->. right. split; [done|]. apply (holds_complete p tr); try done. by intros [?|?].
Qed.

(** ** Histories *)
Lemma listed_snoc h id tr x dst : listed h id (tr ++ [x]) dst <->
  (created h id x /\ dst = []) \/ list_set h id tr x dst \/ (exists d0, listed h id tr d0 /\ list_changed h id x d0 dst)
  \/ listed h id tr dst /\ ~ created h id x /\ ~ deleted h id x /\ (forall v, ~ accepted h id T_DST_MAC_ADDRESS v x) /\ ~ list_updated h id x.
Proof.
  split.
  - intros H. inversion H as [tr0 x0 ? Et|tr0 x0 w ? Et|tr0 x0 d0 d1 ? ? Et|tr0 x0 v0 ? ? ? ? ? Et]; apply app_inj_tail in Et as [-> ->]; subst; eauto 10.
  - intros [[? ->]|[?|[(d0 & ? & ?)|(? & ? & ? & ? & ?)]]]; [by apply ListedNew|by apply ListedSet|by eapply ListedChanged|by apply ListedStill].
Qed.
Lemma changed_updated h id x d0 d1 : list_changed h id x d0 d1 -> list_updated h id x.
Proof. intros (a & pl & st & l & ? & ? & ? & ? & ? & _). by exists a, pl, st, l. Qed.
Lemma set_accepted h id tr x dst : list_set h id tr x dst -> accepted h id T_DST_MAC_ADDRESS (concat dst) x.
Proof. intros (l1 & l2 & mode & ? & ? & ? & _). by exists l1, l2. Qed.
Definition dsts (k : app_config) : list bytes := map mac_to_vec (dst_mac_address k).
Section Command.
  Context (h id : N) (packet : bytes) (outs : list out) (c : command) (m : msg).
  Context (W : wf_bytes packet) (Wc : wf_cmd c) (E : encodes c packet) (S : sent h outs = [m]).
  Lemma set_iff tr dst : list_set h id tr (UciPacket h packet, outs) dst <->
    exists l1 l2 mode, c = CmdSetAppConfig id (l1 ++ (T_DST_MAC_ADDRESS, concat dst) :: l2) /\ T_DST_MAC_ADDRESS ∉ l2.*1
      /\ m = SessionSetAppConfigRsp 0 [] /\ mode_after h id tr l1 mode /\ Forall (fun a => length a = address_size mode) dst.
  Proof.
    unfold list_set. cbn [fst snd]. rewrite S. split.
    - intros (l1 & l2 & mode & A & N & Es & H). apply (asks_iff h packet c W Wc E) in A. injection Es as ->. by exists l1, l2, mode.
    - intros (l1 & l2 & mode & A & N & -> & H). exists l1, l2, mode. split; [by apply (asks_iff h packet c W Wc E)|done].
  Qed.
  Lemma changed_iff d0 d1 : list_changed h id (UciPacket h packet, outs) d0 d1 <->
    exists a payload status l, c = CmdMulticast id a payload /\ m = SessionUpdateControllerMulticastListRsp status l /\ status <> 0x11 /\ status <> 0x01 /\ status <> 0x03
      /\ d1 = match a with RemoveControlee => filter (fun b => b ∉ said_updated l) d0 | _ => d0 ++ said_updated l end.
  Proof.
    unfold list_changed. cbn [fst snd]. rewrite S. split.
    - intros (a & pl & st & l & A & Es & H). apply (asks_iff h packet c W Wc E) in A. injection Es as ->. by exists a, pl, st, l.
    - intros (a & pl & st & l & A & -> & H). exists a, pl, st, l. split; [by apply (asks_iff h packet c W Wc E)|done].
  Qed.
End Command.
Lemma wf_tlvs id l : wf_cmd (CmdSetAppConfig id l) -> Forall (fun x => wf_bytes x.2) l.
Proof. intros (_ & _ & W). eapply Forall_impl; [exact W|]. by intros [i v] (_ & _ & ?). Qed.
Lemma listed_iff p tr h id : (forall p' tr', executes p' tr' -> pinv (fun _ => false) p') -> executes p tr ->
  forall dst, listed h id tr dst <-> exists k, cfg_at p h id = Some k /\ dst = dsts k.
Proof.
  intros P X. induction X as [|p tr e o p' outs X IH We Wo S]; intros dst.
  { split; [intros H; inversion H; by destruct tr|]. intros (k & Hk & _). done. }
  pose proof (step_cfg _ _ _ _ _ h id (P _ _ X) Wo S) as R. rewrite listed_snoc. remember (cfg_at p h id) as k0 eqn:E0. remember (cfg_at p' h id) as k' eqn:E'. symmetry in E0. clear E'.
  destruct R as [k Nc Nd Na Nl|k Ed|k k' packet c m Eo Wp Wc Ec Sm Cs]; cbn [fst snd] in *.
  - split.
    + intros [[? _]|[H|[(d0 & _ & H)|(H & _ & Nd' & _)]]]; [done| | |].
      * by destruct (Na _ _ (set_accepted _ _ _ _ _ H)).
      * by destruct (Nl (changed_updated _ _ _ _ _ H)).
      * by apply IH.
    + intros (k1 & Hk & ->). do 3 right. split; [apply IH; by exists k1|]. split; [done|]. split; [intros Hd; by rewrite (Nd Hd) in Hk|]. split; [intros v; apply Na|done].
  - subst o. split; [|by intros (k1 & ? & _)].
    intros [[(? & ? & (? & ? & _) & _) _]|[(? & ? & ? & (? & ? & _) & _)|[(d0 & _ & (? & ? & ? & ? & (? & ? & _) & _))|(_ & _ & Nd & _)]]]; try done.
    destruct Nd. by left.
  - subst o.
    rewrite (created_iff h id packet outs c m), (deleted_iff h id packet outs c m), (list_iff h id packet outs c m) by done.
    rewrite (set_iff h id packet outs c m) by done.
    assert ((exists d0, listed h id tr d0 /\ list_changed h id (UciPacket h packet, outs) d0 dst) <->
      exists d0, listed h id tr d0 /\ exists a payload status l, c = CmdMulticast id a payload /\ m = SessionUpdateControllerMulticastListRsp status l /\ status <> 0x11 /\ status <> 0x01 /\ status <> 0x03
      /\ dst = match a with RemoveControlee => filter (fun b => b ∉ said_updated l) d0 | _ => d0 ++ said_updated l end) as ->.
    { split; intros (d0 & H0 & H); exists d0; (split; [done|]); by apply (changed_iff h id packet outs c m Wp Wc Ec Sm). }
    assert ((forall v, ~ accepted h id T_DST_MAC_ADDRESS v (UciPacket h packet, outs)) <-> forall v, ~ says_accepted id T_DST_MAC_ADDRESS v c m) as ->.
    { split; intros H v; specialize (H v); by rewrite (accepted_iff h id packet outs c m Wp Wc Ec Sm) in *. }
    destruct Cs as [k Nc Nd Na Nl|k Hc|k Hd|k k' l -> -> Sa|k a payload st r d1 -> -> N1 N2 N3 Ed].
    + split.
      * intros [[? _]|[(l1 & l2 & mode & Hc & Hn & Hm & _)|[(d0 & _ & (a & pl & st & l & Hc & Hm & N1 & N2 & N3 & _))|(H & _)]]]; [done| | |].
        -- destruct (Na T_DST_MAC_ADDRESS (concat dst)). by exists l1, l2.
        -- destruct Nl. by exists a, pl, st, l.
        -- by apply IH.
      * intros (k1 & Hk & ->). do 3 right. split; [apply IH; by exists k1|]. split; [done|]. split; [intros Hd; by rewrite (Nd Hd) in Hk|]. split; [intros v; apply Na|done].
    + split.
      * intros [[_ ->]|[(l1 & l2 & mode & Hc' & _)|[(d0 & _ & (a & pl & st & l & Hc' & _))|(_ & ? & _)]]]; [by eexists| | |done].
        all: destruct Hc as (ty & st' & -> & _); done.
      * intros (k1 & [= <-] & ->). by left.
    + split; [|by intros (k1 & ? & _)].
      intros [[(ty & st & -> & _) _]|[(l1 & l2 & mode & -> & _)|[(d0 & _ & (a & pl & st & l & -> & _))|(_ & _ & ? & _)]]]; [..|done].
      all: by destruct Hd as [?|[? _]].
    + pose proof (wf_tlvs _ _ Wc) as Wl. split.
      * intros [[(ty & st & ? & _) _]|[(l1 & l2 & mode & Hc & Hn & _ & Hm & F)|[(d0 & _ & (a & pl & st & r & ? & _))|(H & _ & _ & Na & _)]]]; [done| |done|].
        -- injection Hc as ->. exists k'. split; [done|]. apply sets_dst in Sa as (c1 & S1 & Ed & Ec1 & F1); [|done]. unfold dsts. rewrite Ed.
           apply Forall_app in Wl as [Wl _]. apply (mode_after_iff p tr h id k l1 c1 mode) in Hm; try done. subst mode.
           eapply concat_sized; [|exact F|exact F1|by rewrite Ec1]. unfold address_size. destruct (_ =? 0); lia.
        -- exists k'. split; [done|]. apply IH in H as (k1 & Hk & ->). injection Hk as <-. unfold dsts. f_equal. symmetry. eapply sets_keeps_dst; [exact Sa|].
           intros Hi. destruct (last_occurrence _ _ Hi) as (l1 & v & l2 & -> & Hn). destruct (Na v). by exists l1, l2.
      * intros (k1 & [= <-] & ->). destruct (decide (T_DST_MAC_ADDRESS ∈ l.*1)) as [Hi|Hi].
        -- right. left. destruct (last_occurrence _ _ Hi) as (l1 & v & l2 & -> & Hn). destruct (sets_dst _ _ _ _ _ Sa Hn) as (c1 & S1 & Ed & Ec1 & F1).
           unfold dsts. rewrite Ed. exists l1, l2, (mac_address_mode c1). rewrite Ec1. split; [done|]. split; [done|]. split; [done|]. split; [|done].
           apply Forall_app in Wl as [Wl _]. by apply (mode_after_iff p tr h id k l1 c1).
        -- do 3 right. split; [apply IH; exists k; split; [done|]; unfold dsts; f_equal; by eapply sets_keeps_dst|].
           split; [by intros (? & ? & ? & _)|]. split; [by intros [?|[? _]]|]. split; [|by intros (? & ? & ? & ? & ? & _)].
           intros v (l1 & l2 & El & _). injection El as ->. apply Hi. rewrite fmap_app, elem_of_app. right. left.
    + split.
      * intros [[(ty & st' & ? & _) _]|[(l1 & l2 & mode & ? & _)|[(d0 & H0 & (a' & pl & st' & r' & Hc & Hm & _ & _ & _ & ->))|(_ & _ & _ & _ & Nl)]]]; [done|done| |].
        -- injection Hc as <- <-. injection Hm as <- <-. apply IH in H0 as (k1 & Hk & ->). injection Hk as <-. eexists. split; [done|]. symmetry. exact Ed.
        -- destruct Nl. by exists a, payload, st, r.
      * intros (k1 & [= <-] & ->). right. right. left. exists (dsts k). split; [apply IH; by exists k|]. exists a, payload, st, r. by split_and!.
Qed.
Lemma counted_snoc h id tr x n : counted h id (tr ++ [x]) n <->
  (created h id x /\ n = 1) \/ accepted h id T_NUMBER_OF_CONTROLEES [n] x \/ (list_updated h id x /\ exists dst, listed h id (tr ++ [x]) dst /\ n = N.of_nat (length dst) mod 256)
  \/ counted h id tr n /\ ~ created h id x /\ ~ deleted h id x /\ (forall v, ~ accepted h id T_NUMBER_OF_CONTROLEES v x) /\ ~ list_updated h id x.
Proof.
  split.
  - intros H. inversion H as [tr0 x0 ? Et|tr0 x0 w ? Et|tr0 x0 d0 ? ? Et|tr0 x0 v0 ? ? ? ? ? Et]; apply app_inj_tail in Et as [-> ->]; subst; eauto 10.
  - intros [[? ->]|[?|[(? & d0 & ? & ->)|(? & ? & ? & ? & ?)]]]; [by apply CountedNew|by apply CountedSet|by apply CountedChanged|by apply CountedStill].
Qed.
Lemma counted_iff p tr h id : (forall p' tr', executes p' tr' -> pinv (fun _ => false) p') -> executes p tr ->
  forall n, counted h id tr n <-> exists k, cfg_at p h id = Some k /\ n = number_of_controlees k.
Proof.
  intros P X. induction X as [|p tr e o p' outs X IH We Wo S]; intros n.
  { split; [intros H; inversion H; by destruct tr|]. intros (k & Hk & _). done. }
  assert (executes p' (tr ++ [(o, outs)])) as X' by (by econstructor).
  pose proof (listed_iff _ _ h id P X') as Li.
  pose proof (step_cfg _ _ _ _ _ h id (P _ _ X) Wo S) as R. rewrite counted_snoc.
  remember (cfg_at p h id) as k0 eqn:E0. remember (cfg_at p' h id) as k' eqn:E'. symmetry in E0. clear E'.
  destruct R as [k Nc Nd Na Nl|k Ed|k k' packet c m Eo Wp Wc Ec Sm Cs]; cbn [fst snd] in *.
  - split.
    + intros [[? _]|[H|[(H & _)|(H & _)]]]; [done| |done|].
      * by destruct (Na _ _ H).
      * by apply IH.
    + intros (k1 & Hk & ->). do 3 right. split; [apply IH; by exists k1|]. split; [done|]. split; [intros Hd; by rewrite (Nd Hd) in Hk|]. split; [intros v; apply Na|done].
  - subst o. split; [|by intros (k1 & ? & _)].
    intros [[(? & ? & (? & ? & _) & _) _]|[(? & ? & (? & ? & _) & _)|[((? & ? & ? & ? & (? & ? & _) & _) & _)|(_ & _ & Nd & _)]]]; try done.
    destruct Nd. by left.
  - subst o.
    rewrite (created_iff h id packet outs c m), (deleted_iff h id packet outs c m), (list_iff h id packet outs c m) by done.
    rewrite (accepted_iff h id packet outs c m) by done.
    assert ((forall v, ~ accepted h id T_NUMBER_OF_CONTROLEES v (UciPacket h packet, outs)) <-> forall v, ~ says_accepted id T_NUMBER_OF_CONTROLEES v c m) as ->.
    { split; intros H v; specialize (H v); by rewrite (accepted_iff h id packet outs c m Wp Wc Ec Sm) in *. }
    destruct Cs as [k Nc Nd Na Nl|k Hc|k Hd|k k' l -> -> Sa|k a payload st r d1 -> -> N1 N2 N3 Ed].
    + split.
      * intros [[? _]|[H|[(H & _)|(H & _)]]]; [done| |done|].
        -- by destruct (Na _ _ H).
        -- by apply IH.
      * intros (k1 & Hk & ->). do 3 right. split; [apply IH; by exists k1|]. split; [done|]. split; [intros Hd; by rewrite (Nd Hd) in Hk|]. split; [intros v; apply Na|done].
    + split.
      * intros [[_ ->]|[(l1 & l2 & Hc' & _)|[((a & pl & st & l & Hc' & _) & _)|(_ & ? & _)]]]; [by eexists| | |done].
        all: destruct Hc as (ty & st' & -> & _); done.
      * intros (k1 & [= <-] & ->). by left.
    + split; [|by intros (k1 & ? & _)].
      intros [[(ty & st & -> & _) _]|[(l1 & l2 & -> & _)|[((a & pl & st & l & -> & _) & _)|(_ & _ & ? & _)]]]; [..|done].
      all: by destruct Hd as [?|[? _]].
    + pose proof (wf_tlvs _ _ Wc) as Wl.
      assert (forall l1 v l2, l = l1 ++ (T_NUMBER_OF_CONTROLEES, v) :: l2 -> T_NUMBER_OF_CONTROLEES ∉ l2.*1 -> v = [number_of_controlees k']) as Gl.
      { intros l1 v l2 -> Hn. assert (wf_bytes v) as Wv by (apply Forall_app in Wl as [_ Wl]; by apply Forall_cons in Wl as [? _]).
        pose proof (sets_all_last _ _ _ _ _ _ Sa Wv ltac:(by rewrite <- elem_of_list_In)) as G.
        assert (readback T_NUMBER_OF_CONTROLEES v = v) as Rb by done. rewrite Rb in G. cbn in G. by injection G as <-. }
      assert (T_NUMBER_OF_CONTROLEES ∉ l.*1 -> number_of_controlees k' = number_of_controlees k) as Go.
      { intros Hn. pose proof (sets_all_other _ _ _ _ T_NUMBER_OF_CONTROLEES Sa ltac:(by rewrite <- elem_of_list_In)) as G. cbn in G. by injection G. }
      split.
      * intros [[(ty & st & ? & _) _]|[(l1 & l2 & Hc & Hn & _)|[((a & pl & st & r & ? & _) & _)|(H & _ & _ & Na & _)]]]; [done| |done|].
        -- injection Hc as Hc. exists k'. split; [done|]. pose proof (Gl _ _ _ Hc Hn) as G. by injection G.
        -- exists k'. split; [done|]. apply IH in H as (k1 & Hk & ->). injection Hk as <-. symmetry. apply Go.
           intros Hi. destruct (last_occurrence _ _ Hi) as (l1 & v & l2 & -> & Hn). destruct (Na v). by exists l1, l2.
      * intros (k1 & [= <-] & ->). destruct (decide (T_NUMBER_OF_CONTROLEES ∈ l.*1)) as [Hi|Hi].
        -- right. left. destruct (last_occurrence _ _ Hi) as (l1 & v & l2 & El & Hn). rewrite <- (Gl _ _ _ El Hn). exists l1, l2. by rewrite El.
        -- do 3 right. split; [apply IH; exists k; split; [done|]; by apply Go|].
           split; [by intros (? & ? & ? & _)|]. split; [by intros [?|[? _]]|]. split; [|by intros (? & ? & ? & ? & ? & _)].
           intros v (l1 & l2 & El & _). injection El as ->. apply Hi. rewrite fmap_app, elem_of_app. right. left.
    + assert (says_list id (CmdMulticast id a payload) (SessionUpdateControllerMulticastListRsp st r)) as Sl by (by exists a, payload, st, r).
      split.
      * intros [[(ty & st' & ? & _) _]|[(l1 & l2 & ? & _)|[(_ & d0 & H0 & ->)|(_ & _ & _ & _ & Nl)]]]; [done|done| |done].
        apply Li in H0 as (k1 & Hk & ->). injection Hk as <-. eexists. split; [done|]. unfold dsts. by rewrite map_length.
      * intros (k1 & [= <-] & ->). right. right. left. split; [done|]. eexists. split; [apply Li; eexists; by split|].
        cbn [number_of_controlees set_dst_mac_address set_number_of_controlees]. by rewrite <- Ed, map_length.
Qed.
