(** Proofs about ReadSpec.v. *)
From Verif Require Import Base Uci MacAddress AppConfig Codec Session Device Pica.
From Verif Require Import BaseFacts AppConfigSpec AppConfigFacts CodecSpec CodecFacts ContextSpec HistorySpec InvFacts StepFacts CommandFacts
  SessionSpec SessionFacts MulticastSpec MulticastFacts EvolveFacts ReadSpec.

Definition rd (s : option session) (i : tlv_id) : option bytes := s ← s; app_config_get (s_cfg s) i.

(** What one step does to a parameter. *)
Inductive reads_step (h id : N) (i : tlv_id) (x : op * list out) : option session -> option session -> Prop :=
  | RsSame s s' : rd s i = rd s' i -> (is_Some s <-> is_Some s') -> ~ created h id x -> (deleted h id x -> s = None) -> (forall w, ~ accepted h id i w x) ->
      ~ (of_list i /\ list_updated h id x) -> reads_step h id i x s s'
  | RsInit s s' : created h id x -> s_cfg s' = default_app_config -> ~ deleted h id x -> (forall w, ~ accepted h id i w x) ->
      reads_step h id i x s (Some s')
  | RsGone s : deleted h id x -> ~ created h id x -> (forall w, ~ accepted h id i w x) -> reads_step h id i x s None
  | RsSet s s' v : accepted h id i v x -> app_config_get (s_cfg s') i = Some (as_read i v) -> ~ created h id x -> ~ deleted h id x ->
      reads_step h id i x (Some s) (Some s')
  | RsList s s' : of_list i -> list_updated h id x -> ~ created h id x -> ~ deleted h id x -> (forall w, ~ accepted h id i w x) ->
      reads_step h id i x (Some s) (Some s').

(** The cases of the specification, for the packet of a given command. *)
Definition says_created (id : N) (c : command) (m : msg) : Prop :=
  exists ty st, c = CmdSessionInit id ty /\ m = SessionInitRsp st /\ (st = 0 \/ st = 0x12).
Definition says_deleted (id : N) (c : command) (m : msg) : Prop :=
  c = CmdDeviceReset 0 \/ c = CmdSessionDeinit id /\ m = SessionDeinitRsp 0.
Definition says_accepted (id : N) (i : tlv_id) (v : bytes) (c : command) (m : msg) : Prop :=
  exists l1 l2, c = CmdSetAppConfig id (l1 ++ (i, v) :: l2) /\ i ∉ l2.*1 /\ m = SessionSetAppConfigRsp 0 [].
Definition says_list (id : N) (c : command) (m : msg) : Prop :=
  exists a payload st l, c = CmdMulticast id a payload /\ m = SessionUpdateControllerMulticastListRsp st l /\ st <> 0x11 /\ st <> 0x01 /\ st <> 0x03.
Section Says.
  Context (h id : N) (packet : bytes) (outs : list out) (c : command) (m : msg).
  Context (W : wf_bytes packet) (Wc : wf_cmd c) (E : encodes c packet) (S : sent h outs = [m]).
  Lemma asks_iff c' : asks h c' (UciPacket h packet) <-> c' = c.
  Proof.
    split; [|intros ->; by exists packet]. intros (pk & Hp & Wc' & E'). injection Hp as <-. by eapply encodes_inj.
  Qed.
  Lemma created_iff : created h id (UciPacket h packet, outs) <-> says_created id c m.
  Proof.
    unfold created, says_created. cbn [fst snd]. rewrite S. split.
    - intros (ty & st & A & Es & H). apply asks_iff in A. injection Es as ->. by exists ty, st.
    - intros (ty & st & A & -> & H). exists ty, st. split; [by apply asks_iff|done].
  Qed.
  Lemma deleted_iff : deleted h id (UciPacket h packet, outs) <-> says_deleted id c m.
  Proof.
    unfold deleted, says_deleted. cbn [fst snd]. rewrite S, !asks_iff. split.
    - intros [?|[<-|[<- Es]]]; [done|by left|]. injection Es as ->. by right.
    - intros [->|[-> ->]]; auto.
  Qed.
  Lemma accepted_iff i v : accepted h id i v (UciPacket h packet, outs) <-> says_accepted id i v c m.
  Proof.
    unfold accepted, says_accepted. cbn [fst snd]. rewrite S. split.
    - intros (l1 & l2 & A & N & Es). apply asks_iff in A. injection Es as ->. by exists l1, l2.
    - intros (l1 & l2 & A & N & ->). exists l1, l2. split; [by apply asks_iff|done].
  Qed.
  Lemma list_iff : list_updated h id (UciPacket h packet, outs) <-> says_list id c m.
  Proof.
    unfold list_updated, says_list. cbn [fst snd]. rewrite S. split.
    - intros (a & pl & st & l & A & Es & H). apply asks_iff in A. injection Es as ->. by exists a, pl, st, l.
    - intros (a & pl & st & l & A & -> & H). exists a, pl, st, l. split; [by apply asks_iff|done].
  Qed.
  (** The same relation, in terms of the command and the answer. *)
  Inductive says_step (i : tlv_id) : option session -> option session -> Prop :=
    | SaySame s s' : rd s i = rd s' i -> (is_Some s <-> is_Some s') -> ~ says_created id c m -> (says_deleted id c m -> s = None) ->
        (forall w, ~ says_accepted id i w c m) -> ~ (of_list i /\ says_list id c m) -> says_step i s s'
    | SayInit s s' : says_created id c m -> s_cfg s' = default_app_config -> ~ says_deleted id c m -> (forall w, ~ says_accepted id i w c m) ->
        says_step i s (Some s')
    | SayGone s : says_deleted id c m -> ~ says_created id c m -> (forall w, ~ says_accepted id i w c m) -> says_step i s None
    | SaySet s s' v : says_accepted id i v c m -> app_config_get (s_cfg s') i = Some (as_read i v) -> ~ says_created id c m -> ~ says_deleted id c m ->
        says_step i (Some s) (Some s')
    | SayList s s' : of_list i -> says_list id c m -> ~ says_created id c m -> ~ says_deleted id c m -> (forall w, ~ says_accepted id i w c m) ->
        says_step i (Some s) (Some s').
  Lemma says_reads i s s' : says_step i s s' -> reads_step h id i (UciPacket h packet, outs) s s'.
  Proof.
    intros [? ? ? ? ? ? ? ?|? ? ? ? ? ?|? ? ? ?|? ? ? ? ? ? ?|? ? ? ? ? ? ?].
    - apply RsSame; rewrite ?created_iff, ?deleted_iff, ?list_iff; try done. intros w. by rewrite accepted_iff.
    - apply RsInit; rewrite ?created_iff, ?deleted_iff; try done. intros w. by rewrite accepted_iff.
    - apply RsGone; rewrite ?created_iff, ?deleted_iff; try done. intros w. by rewrite accepted_iff.
    - eapply RsSet; rewrite ?created_iff, ?deleted_iff, ?accepted_iff; done.
    - apply RsList; rewrite ?created_iff, ?deleted_iff, ?list_iff; try done. intros w. by rewrite accepted_iff.
  Qed.
End Says.

Lemma as_read_ok i v : tlv_of_byte (tlv_byte i) = Some i ->
  (if bool_decide (i = T_UWB_INITIATION_TIME) && Nat.eqb (length v) 4 then v ++ [0; 0; 0; 0] else v) = as_read i v.
Proof.
  intros Hi. unfold as_read. case_bool_decide as Hb; [by subst|].
  destruct (N.eqb_spec (tlv_byte i) 0x2B) as [E|]; [|done]. destruct Hb. rewrite E in Hi. by injection Hi.
Qed.
Lemma last_occurrence (l : list (tlv_id * bytes)) i : i ∈ l.*1 -> exists l1 v l2, l = l1 ++ (i, v) :: l2 /\ i ∉ l2.*1.
Proof.
  induction l as [|[j v] l IH]; simpl; [by intros ?%elem_of_nil|].
  intros H. destruct (decide (i ∈ l.*1)) as [Hl|Hl].
  - destruct (IH Hl) as (l1 & w & l2 & -> & Hn). by exists ((j, v) :: l1), w, l2.
  - apply elem_of_cons in H as [->|H]; [|done]. by exists [], v, l.
Qed.
Lemma add_status k l : forall dst st rsp dst' st' rsp', add_controlees k l dst st rsp = Ret (dst', st', rsp') ->
  st' = st \/ st' = STATUS_FAILED \/ st' = STATUS_ERROR_MULTICAST_LIST_FULL.
Proof.
  induction l as [|a l IH]; intros dst st rsp dst' st' rsp' H; cbn [add_controlees] in H.
  - apply Ret_inj in H. injection H as _ <- _. auto.
  - destruct (short_bytes a); [|discriminate]. cbn [obind] in H.
    destruct k; [apply IH in H; tauto|]. destruct (negb _); [destruct (Nat.eqb _ _)|]; apply IH in H; tauto.
Qed.
Lemma remove_status id att l : forall dst st rsp ntf e dst' st' rsp' ntf' e', remove_controlees id att l dst st rsp ntf e = Ret (dst', st', rsp', ntf', e') ->
  st' = st \/ st' = STATUS_FAILED.
Proof.
  induction l as [|a l IH]; intros dst st rsp ntf e dst' st' rsp' ntf' e' H; cbn [remove_controlees] in H.
  - apply Ret_inj in H. injection H as _ <- _ _ _. auto.
  - destruct (short_bytes a); [|discriminate]. cbn [obind] in H. destruct (negb _); apply IH in H; tauto.
Qed.
(** The commands which concern neither the session nor all of them. *)
Lemma not_target id i c m s s' : is_reset c = false -> target c <> Some id -> rd s i = rd s' i -> (is_Some s <-> is_Some s') -> says_step id c m i s s'.
Proof.
  intros R T Hr Hs. apply SaySame; try done.
  - intros (ty & st & -> & _). done.
  - intros [->|[-> _]]; done.
  - intros w (l1 & l2 & -> & _). done.
  - intros [_ (a & pl & st & l & -> & _)]. done.
Qed.
Lemma says_refl id i c m s : is_reset c = false -> ~ says_created id c m -> (c = CmdSessionDeinit id -> m <> SessionDeinitRsp 0) ->
  (forall l, c = CmdSetAppConfig id l -> m = SessionSetAppConfigRsp 0 [] -> i ∉ l.*1) -> ~ (of_list i /\ says_list id c m) -> says_step id c m i s s.
Proof.
  intros R H1 H2 H3 H4. apply SaySame; try done.
  - intros [->|[-> ->]]; [done|]. by destruct (H2 eq_refl).
  - intros w (l1 & l2 & -> & _ & ->). apply (H3 _ eq_refl eq_refl). rewrite fmap_app, elem_of_app. right. left.
Qed.
Lemma handle_says d c d' e m id i : dinv false d -> wf_cmd c -> handle_command d c = Ret (d', e, m) ->
  says_step id c m i (d_sessions d !! id) (d_sessions d' !! id).
Proof.
  intros I W H. destruct (is_reset c) eqn:Rs.
  { destruct c; try discriminate Rs. cbn [handle_command] in H. rewrite core_reset_eq in H. injection H as <- _ _.
    cbn. rewrite lookup_empty. cbn in W. subst. apply SayGone; [by left| |].
    - by intros (? & ? & ? & _).
    - by intros w (? & ? & ? & _). }
  destruct (decide (target c = Some id)) as [T|T].
  2:{ apply not_target; try done; by rewrite (fr_sessions _ _ _ (handle_frame _ _ _ _ _ Rs H) id T). }
  destruct c; cbn [target] in T; try discriminate T; injection T as ->; cbn [handle_command] in H.
  - (* init *) apply Ret_inj in H. unfold session_init in H. destruct (Nat.leb _ _).
    { injection H as <- _ <-. apply says_refl; try done; [|by intros [_ (? & ? & ? & ? & ? & _)]].
      intros (ty' & st & _ & Es & Hs). injection Es as <-. destruct Hs; discriminate. }
    assert (forall st s', st = 0 \/ st = 0x12 -> s_cfg s' = default_app_config -> says_step id (CmdSessionInit id session_type) (SessionInitRsp st) i (d_sessions d !! id) (Some s')) as G.
    { intros st s' Hst Hs. apply SayInit; [by exists session_type, st|done| |].
      - intros [?|[? _]]; done.
      - by intros w (? & ? & ? & _). }
    destruct (d_sessions d !! id) eqn:L.
    + injection H as <- _ <-. cbn [d_sessions d_set_sessions]. rewrite lookup_insert. apply G; auto.
    + unfold session_init_state in H. rewrite session_set_state_eq in H. injection H as <- _ <-. cbn [d_sessions d_set_sessions]. rewrite lookup_insert. apply G; auto.
  - (* deinit *) unfold session_deinit in H. destruct (d_sessions d !! id) as [s|] eqn:L.
    2:{ apply Ret_inj in H. injection H as <- _ <-. rewrite L. apply says_refl; try done.
        - by intros (? & ? & ? & _).
        - by intros [_ (? & ? & ? & ? & ? & _)]. }
    destruct (if bool_decide _ then _ else _) as [[d1 e1]|]; [|discriminate]. apply Ret_inj in H. injection H as <- _ <-.
    cbn [d_sessions d_set_sessions]. rewrite lookup_delete. apply SayGone; [by right| |].
    + by intros (? & ? & ? & _).
    + by intros w (? & ? & ? & _).
  - (* set app config *) unfold session_set_app_config in H.
    assert (forall s st r, st <> 0 -> says_step id (CmdSetAppConfig id tlvs) (SessionSetAppConfigRsp st r) i s s) as Sm.
    { intros s st r Hst. apply says_refl; try done.
      - by intros (? & ? & ? & _).
      - intros l _ Es. injection Es as -> _. done.
      - by intros [_ (? & ? & ? & ? & ? & _)]. }
    destruct (d_sessions d !! id) as [s|] eqn:L.
    2:{ apply Ret_inj in H. injection H as <- _ <-. rewrite L. by apply Sm. }
    destruct (negb _); [discriminate|].
    destruct (bool_decide (s_state s = SsActive) && _); [apply Ret_inj in H; injection H as <- _ <-; rewrite L; by apply Sm|].
    destruct (negb (bool_decide (s_state s = SsInit)) && _); [apply Ret_inj in H; injection H as <- _ <-; rewrite L; by apply Sm|].
    destruct (set_tlvs _ _ _) as [[c r]|] eqn:St; [|discriminate]. cbn [obind] in H.
    destruct (missing_mandatory c); [apply Ret_inj in H; injection H as <- _ <-; rewrite L; by apply Sm|].
    apply sets_all_spec in St as (r' & -> & Sa). cbn [app] in H.
    destruct r'; [|apply Ret_inj in H; injection H as <- _ <-; rewrite L; by apply Sm].
    assert (exists s', d_sessions d' !! id = Some s' /\ s_cfg s' = c /\ m = SessionSetAppConfigRsp 0 []) as (s' & L' & Hc & ->).
    { rewrite session_set_state_eq in H. destruct (bool_decide (s_state (s_set_cfg c s) = SsInit)); apply Ret_inj in H; injection H as <- _ <-;
        cbn [d_sessions d_set_sessions]; rewrite lookup_insert; by eexists. }
    rewrite L'. destruct (decide (i ∈ tlvs.*1)) as [Hi|Hi].
    + destruct (last_occurrence _ _ Hi) as (l1 & v & l2 & -> & Hn). destruct W as (_ & _ & Wl).
      apply Forall_app in Wl as [_ Wl]. apply Forall_cons in Wl as [(Ki & _ & Wv) _].
      eapply (SaySet _ _ _ _ _ _ v).
      * by exists l1, l2.
      * rewrite Hc, (sets_all_last _ _ _ _ _ _ Sa); [|done|by rewrite <- elem_of_list_In]. f_equal. apply as_read_ok. by apply Ki.
      * by intros (? & ? & ? & _).
      * intros [?|[? _]]; done.
    + apply SaySame.
      * cbn. rewrite Hc. symmetry. eapply sets_all_other; [exact Sa|]. by rewrite <- elem_of_list_In.
      * split; by eexists.
      * by intros (? & ? & ? & _).
      * intros [?|[? _]]; done.
      * intros w (l1 & l2 & El & _). injection El as ->. apply Hi. rewrite fmap_app, elem_of_app. right. left.
      * by intros [_ (? & ? & ? & ? & ? & _)].
  - (* multicast *) unfold session_update_controller_multicast_list in H.
    assert (forall s st r, st = 0x11 \/ st = 1 \/ st = 3 -> says_step id (CmdMulticast id action payload) (SessionUpdateControllerMulticastListRsp st r) i s s) as Sm.
    { intros s st r Hst. apply says_refl; try done.
      - by intros (? & ? & ? & _).
      - intros [_ (? & ? & ? & ? & _ & Es & N1 & N2 & N3)]. injection Es as <- <-. destruct Hst as [Hst|[Hst|Hst]]; congruence. }
    destruct (d_sessions d !! id) as [s|] eqn:L.
    2:{ apply Ret_inj in H. injection H as <- _ <-. rewrite L. apply Sm; auto. }
    match type of H with (if ?b then _ else _) = _ => destruct b eqn:U; [apply Ret_inj in H; injection H as <- _ <-; rewrite L; apply Sm; auto|] end.
    destruct (multicast_controlees _ _) as [cs|]; [|apply Ret_inj in H; injection H as <- _ <-; rewrite L; apply Sm; auto].
    assert (forall dst st r, (st = 0 \/ st = 2 \/ st = 0x17) -> d' = (multicast_finish d id s dst).1 -> m = SessionUpdateControllerMulticastListRsp st r ->
      says_step id (CmdMulticast id action payload) m i (Some s) (d_sessions d' !! id)) as G.
    { intros dst st r Hst -> ->. rewrite multicast_finish_eq. cbn [fst d_sessions d_set_sessions]. rewrite lookup_insert.
      assert (says_list id (CmdMulticast id action payload) (SessionUpdateControllerMulticastListRsp st r)) as Sl.
      { exists action, payload, st, r. split_and!; try done; intros ->; by repeat destruct Hst as [Hst|Hst]. }
      destruct (decide (tlv_byte i = 0x05 \/ tlv_byte i = 0x07)) as [Ho|Ho].
      - apply SayList; try done.
        + by intros (? & ? & ? & _).
        + intros [?|[? _]]; done.
        + by intros w (? & ? & ? & _).
      - apply SaySame.
        + cbn. symmetry. apply dst_get_other; intros ->; apply Ho; auto.
        + split; by eexists.
        + by intros (? & ? & ? & _).
        + intros [?|[? _]]; done.
        + by intros w (? & ? & ? & _).
        + intros [? _]. done. }
    assert (forall kr, (let! (dst, status, rsp) := add_controlees kr cs (dst_mac_address (s_cfg s)) STATUS_OK [] in
      let '(d0, e3) := multicast_finish d id s dst in Ret (d0, e3, SessionUpdateControllerMulticastListRsp status rsp)) = Ret (d', e, m) ->
      says_step id (CmdMulticast id action payload) m i (Some s) (d_sessions d' !! id)) as Ga.
    { clear H. intros kr H. destruct (add_controlees _ _ _ _ _) as [[[dst st] rsp]|] eqn:A; [|discriminate]. cbn [obind] in H.
      destruct (multicast_finish _ _ _ _) as [d0 e3] eqn:F. apply Ret_inj in H. injection H as <- _ <-.
      eapply G; [|by rewrite F|reflexivity]. by apply add_status in A. }
    destruct action; [by eapply Ga| |by eapply Ga..].
    destruct (remove_controlees _ _ _ _ _ _ _ _) as [[[[[dst st] rsp] ntf] e1]|] eqn:A; [|discriminate]. cbn [obind] in H.
    destruct (multicast_finish _ _ _ _) as [d0 e3] eqn:F. apply Ret_inj in H. injection H as <- _ <-.
    eapply G; [|by rewrite F|reflexivity]. apply remove_status in A. tauto.
  - (* start *)
    assert (forall s s' m', rd s i = rd s' i -> (is_Some s <-> is_Some s') -> says_step id (CmdStart id) m' i s s') as G.
    { intros s s' m' E1 E2. apply SaySame; try done.
      - by intros (? & ? & ? & _).
      - by intros [?|[? _]].
      - by intros w (? & ? & ? & _).
      - by intros [_ (? & ? & ? & ? & ? & _)]. }
    unfold session_start in H. destruct (d_sessions d !! id) as [s|] eqn:L.
    2:{ apply Ret_inj in H. injection H as <- _ _. rewrite L. by apply G. }
    destruct (negb _). { apply Ret_inj in H. injection H as <- _ _. rewrite L. by apply G. }
    destruct (s_task s); [discriminate|]. rewrite session_set_state_eq, device_set_state_eq in H. apply Ret_inj in H. injection H as <- _ _.
    cbn. rewrite lookup_insert. apply G; [done|]. split; by eexists.
  - (* stop *)
    assert (forall s s' m', rd s i = rd s' i -> (is_Some s <-> is_Some s') -> says_step id (CmdStop id) m' i s s') as G.
    { intros s s' m' E1 E2. apply SaySame; try done.
      - by intros (? & ? & ? & _).
      - by intros [?|[? _]].
      - by intros w (? & ? & ? & _).
      - by intros [_ (? & ? & ? & ? & ? & _)]. }
    unfold session_stop in H. destruct (d_sessions d !! id) as [s|] eqn:L.
    2:{ apply Ret_inj in H. injection H as <- _ _. rewrite L. by apply G. }
    destruct (negb _). { apply Ret_inj in H. injection H as <- _ _. rewrite L. by apply G. }
    rewrite stop_ranging_task_eq, session_set_state_eq in H. destruct (device_dec_active _) as [[d1 e1]|] eqn:Da; [|discriminate].
    apply dec_active_inv in Da as (_ & -> & _). apply Ret_inj in H. injection H as <- _ _.
    cbn. rewrite lookup_insert. apply G; [done|]. split; by eexists.
Qed.

(** A step which is not a command of the host, or to which no answer of this kind is sent. *)
Lemma reads_quiet h id i o outs s s' : rd s i = rd s' i -> (is_Some s <-> is_Some s') ->
  (forall packet, o = UciPacket h packet -> (forall c, wf_cmd c -> ~ encodes c packet)
     \/ (encodes (CmdDeviceReset 0) packet -> s = None) /\ (forall m, m ∈ sent h outs -> exists st, m = CoreDeviceStatusNtf st)) ->
  (o = Disconnect h -> s = None) -> reads_step h id i (o, outs) s s'.
Proof.
  intros Hr Hs Hp Hd.
  assert (forall c m, asks h c o -> sent h outs = [m] -> (forall st, m <> CoreDeviceStatusNtf st) -> False) as B.
  { intros c m (packet & -> & Wc & E) Hm N. destruct (Hp packet eq_refl) as [N'|[_ H1]]; [by destruct (N' c Wc)|].
    destruct (H1 m) as [st ->]; [rewrite Hm; left|]. by apply (N st). }
  apply RsSame; try done; cbn [fst snd].
  - intros (ty & st & Ha & Hm & _). by eapply B.
  - intros [H1|[H1|[H1 H2]]]; [by apply Hd| |by destruct (B _ _ H1 H2)]. cbn [fst snd] in *.
    destruct H1 as (packet & -> & Wc & E). destruct (Hp packet eq_refl) as [N'|[H1 _]]; [by destruct (N' _ Wc E)|auto].
  - intros w (l1 & l2 & Ha & _ & Hm). by eapply B.
  - intros [_ (a & pl & st & l & Ha & Hm & _)]. by eapply B.
Qed.
Lemma sent_one h e m : existsb is_send e = false -> sent h (map (OEff h) (e ++ [Send m])) = [m].
Proof. intros H. rewrite sent_effs, effs_at_same, eff_sent_app, (eff_sent_none e); done. Qed.
Lemma step_reads e p o p' outs h id i : pinv (fun _ => false) p -> wf_op o -> step e p o = Ret (p', outs) ->
  reads_step h id i (o, outs) (session_at p h id) (session_at p' h id).
Proof.
  intros I W H. pose proof I as [D A U]. unfold session_at.
  assert (forall s s', (forall packet, o <> UciPacket h packet) -> (o = Disconnect h -> s = None) -> rd s i = rd s' i -> (is_Some s <-> is_Some s') ->
    reads_step h id i (o, outs) s s') as Q.
  { intros s s' Ho Hd Hr Hs. apply reads_quiet; try done. intros packet E. by destruct (Ho packet). }
  destruct o; cbn [step] in H.
  - apply Ret_inj in H. unfold add_device, device_init in H. rewrite device_set_state_eq in H. injection H as <- <-.
    cbn [p_devices]. destruct (N.eq_dec (p_counter p) h) as [<-|Hne].
    + rewrite lookup_insert. cbn. rewrite lookup_empty.
      replace (p_devices p !! p_counter p) with (@None device) by
        (destruct (p_devices p !! p_counter p) eqn:E; [destruct (D _ _ E) as (_ & _ & _ & ?); lia|done]). by apply Q.
    + rewrite lookup_insert_ne by done. by apply Q.
  - apply Ret_inj in H. unfold disconnect in H. destruct (N.eq_dec h0 h) as [->|Hne].
    + assert (p_devices p' !! h = None) as ->.
      { destruct (p_devices p !! h) eqn:L; injection H as <- _; [by apply lookup_delete|done]. }
      apply RsGone; [by left| |].
      * intros (? & ? & (? & ? & _) & _). done.
      * intros w (? & ? & (? & ? & _) & _). done.
    + assert (p_devices p' !! h = p_devices p !! h) as ->.
      { destruct (p_devices p !! h0) eqn:L; injection H as <- _; [by apply lookup_delete_ne|done]. }
      apply Q; try done. intros Ed. congruence.
  - apply ranging_inv in H as (d & s & ms1 & ms2 & peers & o1 & o2 & s' & L & Ls & _ & _ & _ & Si & -> & _).
    cbn. destruct (N.eq_dec h0 h) as [->|Hne]; [|rewrite lookup_insert_ne by done; by apply Q].
    rewrite lookup_insert, L. cbn. destruct (N.eq_dec id0 id) as [->|Hne]; [|rewrite lookup_insert_ne by done; by apply Q].
    rewrite lookup_insert, Ls. apply Q; try done.
    apply send_info_session in Si as [(_ & -> & _)|(_ & _ & -> & _)]; done.
  - apply Ret_inj in H. unfold stop_controlee_ranging in H. injection H as <- <-. cbn. rewrite lookup_fmap.
    destruct (p_devices p !! h) as [d|] eqn:L; cbn; [|by apply Q].
    unfold stop_controlee. destruct (d_sessions d !! id0) as [s|] eqn:Ls; [|by apply Q].
    destruct (negb _); [by apply Q|]. destruct (bool_decide (s_state s = _)); [|by apply Q].
    rewrite stop_ranging_task_eq, session_set_state_eq.
    match goal with |- context [if ?b then device_set_state ?x ?y else _] =>
      assert (d_sessions (if b then device_set_state x y else (y, [])).1 = d_sessions y) as G by (destruct b; [by rewrite device_set_state_eq|done]);
      destruct (if b then device_set_state x y else (y, [])) as [d1 e1] end.
    cbn [fst d_sessions d_set_active d_set_sessions] in *. rewrite G. destruct (N.eq_dec id0 id) as [->|Hne].
    + rewrite lookup_insert, Ls. by apply Q.
    + rewrite lookup_insert_ne by done. by apply Q.
  - unfold uci_packet in H. destruct (N.eq_dec h0 h) as [->|Hne].
    2:{ assert (p_devices p' !! h = p_devices p !! h) as ->.
        { destruct (p_devices p !! h0) as [d|]; [|by injection H as <- _].
          destruct (receive_packet d packet) as [[d1 e1]|]; [|discriminate]. cbn [obind] in H. injection H as <- _. by apply lookup_insert_ne. }
        apply Q; try done. intros pk Ep. congruence. }
    destruct (p_devices p !! h) as [d|] eqn:L.
    2:{ injection H as <- <-. rewrite L. apply reads_quiet; try done. intros pk _. right. split; [done|]. by intros m ?%elem_of_nil. }
    destruct (receive_packet d packet) as [[d1 e1]|] eqn:R; [|discriminate]. cbn [obind] in H. injection H as <- <-.
    apply receive_received in R; [|done]. cbn. rewrite lookup_insert. cbn. destruct (D _ _ L) as (Id & _).
    assert (forall c, encodes c packet -> hd 0 packet / 32 = 1 /\ defined_group (hd 0 packet mod 16) = true) as Mt.
    { intros c (h1 & o1 & r1 & r2 & -> & Hm & Hg & _). cbn. split; [done|]. rewrite Hg. by destruct c. }
    assert (forall s s' e', (forall c, wf_cmd c -> ~ encodes c packet) -> rd s i = rd s' i -> (is_Some s <-> is_Some s') ->
      reads_step h id i (UciPacket h packet, map (OEff h) e') s s') as N0.
    { intros s s' e' N Hr Hs. apply reads_quiet; try done. intros pk Ep. injection Ep as <-. by left. }
    destruct R as [Hh|Hh Hd|pp d' m b Hh Hd Hs Hw|h1 o1 rest -> Hc|Hh Hv Hr Hl|c d' e2 m b Wc Ec Hr Hc Hw|h1 b1 b2 rest -> Hh Hr Hv Hg].
    + apply N0; try done. intros c _ E. apply Mt in E as [E _]. lia.
    + apply N0; try done. intros c _ E. apply Mt in E as [E _]. lia.
    + apply N0. { intros c _ E. apply Mt in E as [E _]. lia. }
      all: destruct pp as [handle dst seq data|]; cbn [device_data_message_snd] in Hs; [|by injection Hs as <- _];
        destruct (d_sessions d !! handle) as [s|] eqn:Ls; [|by injection Hs as <- _];
        destruct (session_data_message_snd _ _ _ _) as [[s' m']|] eqn:S; [|discriminate]; cbn [obind] in Hs; injection Hs as <- _; cbn;
        (destruct (N.eq_dec handle id) as [->|Hne]; [|by rewrite lookup_insert_ne by done]); rewrite lookup_insert, Ls.
      * unfold session_data_message_snd in S. destruct (negb _); [apply Ret_inj in S; by injection S as <- _|].
        destruct (negb _); [discriminate|]. apply Ret_inj in S. by injection S as <- _.
      * split; by eexists.
    + apply N0; try done. intros c _ E. apply Mt in E as [E E'].
      cbn in E, E'. destruct Hc as [[_ Hc]|Hc]; [|lia].
      assert (forall g, defined_group g = true -> valid_gid g = true) as G; [|rewrite G in Hc; done].
      intros g Hg. unfold defined_group in Hg. apply existsb_In in Hg.
      repeat (destruct Hg as [<-|Hg]; [reflexivity|]). destruct Hg.
    + apply reads_quiet; try done. intros pk Ep. injection Ep as <-. right. split.
      * intros E. rewrite (encodes_reset_like packet W E) in Hl. done.
      * pose proof (sent_one h [] (CoreDeviceStatusNtf DsError) eq_refl) as E1. cbn [app] in E1. rewrite E1.
        intros m ->%elem_of_list_singleton. by eexists.
    + eapply (says_reads h id packet (map (OEff h) (e2 ++ [Send m])) c m W Wc Ec).
      * apply sent_one. eapply handle_no_send; [|exact Wc|exact Hc]. by eapply dinv_weaken.
      * eapply handle_says; [|exact Wc|exact Hc]. by eapply dinv_weaken.
    + apply N0; try done. intros c _ E. apply Mt in E as [_ E]. cbn [hd] in E. congruence.
  - unfold create_anchor in H. destruct (get_category p m); [injection H as <- <-; by apply Q|].
    destruct (p_anchors p !! m); [discriminate|]. injection H as <- <-. by apply Q.
  - apply Ret_inj in H. unfold destroy_anchor in H. destruct (p_anchors p !! m); injection H as <- <-; by apply Q.
  - apply Ret_inj in H. injection H as <- <-. by apply Q.
Qed.

(** ** Histories *)
Lemma initial_ok i v : known_id i -> (tlv_byte i, v) ∈ initial_values <-> app_config_get default_app_config i = Some v.
Proof.
  intros K.
  assert (forallb (fun b => match tlv_of_byte b with
     | Some j => match app_config_get default_app_config j with
        | Some w => bool_decide ((b, w) ∈ initial_values) && forallb (fun x => negb (x.1 =? b) || bool_decide (x.2 = w)) initial_values
        | None => forallb (fun x => negb (x.1 =? b)) initial_values end
     | None => true end) (map N.of_nat (seq 0 256)) = true) as T by (vm_compute; reflexivity).
  rewrite forallb_forall in T. specialize (T (tlv_byte i)).
  assert (List.In (tlv_byte i) (map N.of_nat (seq 0 256))) as Hb.
  { apply in_map_iff. exists (N.to_nat (tlv_byte i)). split; [apply N2Nat.id|]. apply in_seq.
    apply tlv_of_byte_wf in K as [[_ Hb] _]. lia. }
  specialize (T Hb). rewrite K in T. destruct (app_config_get default_app_config i) as [w|].
  - apply andb_prop in T as [T1 T2]. apply bool_decide_eq_true_1 in T1. split.
    + intros Hin. rewrite forallb_forall in T2. specialize (T2 _ (proj1 (elem_of_list_In _ _) Hin)). cbn in T2.
      rewrite N.eqb_refl in T2. cbn in T2. apply bool_decide_eq_true_1 in T2. by subst.
    + intros [= <-]. done.
  - split; [|done]. intros Hin. rewrite forallb_forall in T. specialize (T _ (proj1 (elem_of_list_In _ _) Hin)). cbn in T.
    by rewrite N.eqb_refl in T.
Qed.
Lemma exists_snoc h id tr x : exists_after h id (tr ++ [x]) <-> created h id x \/ exists_after h id tr /\ ~ deleted h id x.
Proof.
  split.
  - intros H. inversion H as [tr0 x0 C Et|tr0 x0 H0 Nd Et]; apply app_inj_tail in Et as [-> ->]; auto.
  - intros [H|[H H']]; [by apply ExistsNew|by apply ExistsStill].
Qed.
Lemma holds_snoc h id i tr x v : holds h id i (tr ++ [x]) v <->
  (created h id x /\ (tlv_byte i, v) ∈ initial_values) \/ (exists w, accepted h id i w x /\ v = as_read i w)
  \/ holds h id i tr v /\ ~ created h id x /\ ~ deleted h id x /\ (forall w, ~ accepted h id i w x) /\ ~ (of_list i /\ list_updated h id x).
Proof.
  split.
  - intros H. inversion H as [tr0 x0 v0 ? ? Et|tr0 x0 w ? Et|tr0 x0 v0 ? ? ? ? ? Et]; apply app_inj_tail in Et as [-> ->]; eauto 10.
  - intros [[? ?]|[(w & ? & ->)|(? & ? & ? & ? & ?)]]; [by apply HoldsInitial|by apply HoldsSet|by apply HoldsStill].
Qed.
Lemma accepted_fun h id i x v w : wf_op x.1 -> accepted h id i v x -> accepted h id i w x -> v = w.
Proof.
  intros Wo (l1 & l2 & (pk & E & Wc & En) & Hn & _) (m1 & m2 & (pk' & E' & Wc' & En') & Hn' & _). rewrite E in E'. injection E' as <-.
  rewrite E in Wo. cbn in Wo. pose proof (encodes_inj _ _ _ Wo Wc Wc' En En') as Eq. injection Eq as Eq.
  clear -Hn Hn' Eq. revert m1 Eq. induction l1 as [|[j u] l1 IH]; intros [|[j' u'] m1] Eq; cbn in Eq.
  - by injection Eq.
  - injection Eq as <- <- ->. destruct Hn. rewrite fmap_app, elem_of_app. right. left.
  - injection Eq as -> -> <-. destruct Hn'. rewrite fmap_app, elem_of_app. right. left.
  - injection Eq as _ _ Eq. by eapply IH.
Qed.
Lemma exists_iff p tr h id : (forall p' tr', executes p' tr' -> pinv (fun _ => false) p') -> executes p tr ->
  exists_after h id tr <-> is_Some (session_at p h id).
Proof.
  intros P X. induction X as [|p tr e o p' outs X IH We Wo S].
  - split; [|intros [? ?]; done]. intros H. inversion H; by destruct tr.
  - pose proof (step_reads _ _ _ _ _ h id T_DEVICE_TYPE (P _ _ X) Wo S) as R. rewrite exists_snoc, IH.
    destruct R as [s s' _ Hs Nc Nd|s s' C|s Hd Nc|s s' v _ _ Nc Nd|s s' _ _ Nc Nd].
    + rewrite <- Hs. split; [intros [?|[? _]]; [done|done]|]. intros Hx. right. split; [done|]. intros Hd. rewrite (Nd Hd) in Hx. by destruct Hx.
    + split; [by eexists|]. by left.
    + split; [|by intros [? ?]]. intros [?|[_ ?]]; done.
    + split; [by eexists|]. right. split; [by eexists|done].
    + split; [by eexists|]. right. split; [by eexists|done].
Qed.
Lemma holds_sound p tr h id i v : (forall p' tr', executes p' tr' -> pinv (fun _ => false) p') -> executes p tr -> known_id i ->
  holds h id i tr v -> rd (session_at p h id) i = Some v.
Proof.
  intros P X K. revert v. induction X as [|p tr e o p' outs X IH We Wo S]; intros v.
  - intros H. inversion H; by destruct tr.
  - pose proof (step_reads _ _ _ _ _ h id i (P _ _ X) Wo S) as R. rewrite holds_snoc.
    destruct R as [s s' Hr Hs Nc Nd Na Nl|s s' C Hc Nd Na|s Hd Nc Na|s s' w Ha Hg Nc Nd|s s' Ho Hl Nc Nd Na].
    + intros [[? _]|[(w & ? & _)|(H & _)]]; [done|by destruct (Na w)|]. rewrite <- Hr. by apply IH.
    + intros [[_ H]|[(w & ? & _)|(_ & ? & _)]]; [|by destruct (Na w)|done]. cbn. rewrite Hc. by apply initial_ok.
    + intros [[? _]|[(w & ? & _)|(_ & _ & ? & _)]]; [done|by destruct (Na w)|done].
    + intros [[? _]|[(w' & Ha' & ->)|(_ & _ & _ & Na & _)]]; [done| |by destruct (Na w)].
      cbn. rewrite Hg. do 2 f_equal. by eapply (accepted_fun _ _ _ (o, outs)).
    + intros [[? _]|[(w' & Ha' & ->)|(_ & _ & _ & _ & Nl)]]; [done|by destruct (Na w')|]. by destruct Nl.
Qed.
Lemma holds_complete p tr h id i v : (forall p' tr', executes p' tr' -> pinv (fun _ => false) p') -> executes p tr -> known_id i -> ~ of_list i ->
  rd (session_at p h id) i = Some v -> holds h id i tr v.
Proof.
  intros P X K Nl. revert v. induction X as [|p tr e o p' outs X IH We Wo S]; intros v.
  - done.
  - pose proof (step_reads _ _ _ _ _ h id i (P _ _ X) Wo S) as R. rewrite holds_snoc.
    destruct R as [s s' Hr Hs Nc Nd Na _|s s' C Hc Nd Na|s Hd Nc Na|s s' w Ha Hg Nc Nd|s s' Ho Hl Nc Nd Na].
    + intros H. right. right. rewrite <- Hr in H. split; [by apply IH|]. split; [done|]. split; [|split; [done|tauto]].
      intros Hd. rewrite (Nd Hd) in H. done.
    + cbn. rewrite Hc. intros H. left. split; [done|]. by apply initial_ok.
    + done.
    + cbn. rewrite Hg. intros [= <-]. right. left. by exists w.
    + done.
Qed.
