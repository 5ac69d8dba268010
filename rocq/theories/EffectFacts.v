(** The effects of the handlers: delayed messages, tasks, timers. *)
From Verif Require Import Base Uci MacAddress AppConfig Codec Session Device Pica BaseFacts CodecSpec CodecFacts ContextSpec InvFacts StepFacts CommandFacts MulticastSpec MulticastFacts RangingSpec RangingFacts CrashFacts MacFacts DeviceFacts.

(** The messages sent after a delay. *)
Definition delayable (m : msg) : bool :=
  match m with CoreDeviceStatusNtf (DsReady | DsActive) | SessionStatusNtf _ _ _ | SessionUpdateControllerMulticastListNtf _ _ => true | _ => false end.
(** Their delays, in milliseconds. *)
Definition delay_of (m : msg) : N := match m with SessionStatusNtf _ _ _ => 1 | _ => 5 end.
Definition fine (start : bool) (x : eff) : Prop :=
  match x with
  | Send m => delayable m = false
  | After ms m => ms = delay_of m /\ delayable m = true /\ wf_msg m
  | SpawnRanging _ _ => start = true
  | AbortRanging _ => start = false
  | SpawnStop a _ n => wf_mac a
  end.
Definition out_fine (start : bool) (o : out) : Prop := match o with OEff _ x => fine start x | _ => True end.

Lemma fine_state start id st r : word32 id -> byte r -> fine start (After 1 (SessionStatusNtf id st r)).
Proof. intros. split; [done|]. done. Qed.
Lemma fine_dev start st : st <> DsError -> fine start (After 5 (CoreDeviceStatusNtf st)).
Proof. intros N. split; [done|]. by destruct st. Qed.
Lemma fine_drop id s : session_ok id s -> Forall (fine false) (session_drop s).
Proof.
  intros O. pose proof (so_id _ _ O) as E. pose proof (so_word _ _ O) as Wd. rewrite session_drop_eq, E.
  destruct (s_task s), (bool_decide _); repeat constructor; done.
Qed.
Lemma fine_device_drop b d : dinv b d -> Forall (fine false) (device_drop d).
Proof.
  intros I. unfold device_drop.
  assert (forall kv, kv ∈ map_to_list (d_sessions d) -> session_ok kv.1 kv.2) as F.
  { intros [k s] Hk. apply elem_of_map_to_list in Hk. by apply (di_session _ _ I). }
  induction (map_to_list (d_sessions d)) as [|x l IH]; [constructor|].
  cbn [map concat]. apply Forall_app. split; [|apply IH; intros; apply F; by right]. eapply fine_drop, F. by left.
Qed.
Lemma fine_dec start d d' e : device_dec_active d = Ret (d', e) -> Forall (fine start) e.
Proof.
  unfold device_dec_active. destruct (_ =? 0); [discriminate|]. cbn. destruct (_ =? 0); intros H; apply Ret_inj in H.
  - rewrite device_set_state_eq in H. injection H as _ <-. destruct (bool_decide _); repeat constructor; done.
  - injection H as _ <-. constructor.
Qed.
Lemma fine_remove id att l dst st rsp ntf e dst' st' rsp' ntf' e' : Forall wf_mac l ->
  remove_controlees id att l dst st rsp ntf e = Ret (dst', st', rsp', ntf', e') -> Forall (fine false) e -> Forall (fine false) e'.
Proof.
  intros Wl. revert dst st rsp ntf e. induction Wl as [|a l Wa Wl IH]; intros dst st rsp ntf e H F; cbn [remove_controlees] in H.
  - by injection H as _ _ _ _ <-.
  - destruct (short_bytes a); [|discriminate]. cbn [obind] in H. destruct (negb _); (eapply IH; [exact H|]); [done|].
    destruct (att =? 0); [done|]. apply Forall_app. split; [done|by repeat constructor].
Qed.
Lemma fine_finish start d id s dst : session_ok id s -> Forall (fine start) (multicast_finish d id s dst).2.
Proof.
  intros O. rewrite multicast_finish_eq. cbn. destruct dst; [|constructor]. pose proof (so_id _ _ O) as E. pose proof (so_word _ _ O) as Wd.
  destruct (bool_decide _); repeat constructor; rewrite ?E; done.
Qed.
Definition is_start (c : command) : bool := match c with CmdStart _ => true | _ => false end.
Lemma handle_fine b d c d' e m : dinv b d -> wf_cmd c -> handle_command d c = Ret (d', e, m) -> Forall (fine (is_start c)) e.
Proof.
  intros I W H. destruct c; cbn [handle_command is_start] in *.
  - rewrite core_reset_eq in H. injection H as _ <- _. apply Forall_app. split; [by eapply fine_device_drop|by repeat constructor].
  - destruct (core_get_device_info d); [|discriminate]. injection H as _ <- _. constructor.
  - injection H as _ <- _. constructor.
  - destruct (core_set_config _ _) as [[? ?]|]; [|discriminate]. injection H as _ <- _. constructor.
  - injection H as _ <- _. constructor.
  - apply Ret_inj in H. unfold session_init in H. destruct (Nat.leb _ _); [injection H as _ <- _; constructor|].
    destruct (d_sessions d !! id) eqn:L; [injection H as _ <- _; eapply fine_drop; by apply (di_session _ _ I)|].
    unfold session_init_state in H. rewrite session_set_state_eq in H. injection H as _ <- _. cbn. destruct W as [Wi _].
    repeat constructor; done.
  - unfold session_deinit in H. destruct (d_sessions d !! id) as [s|] eqn:L; [|injection H as _ <- _; constructor].
    pose proof (di_session _ _ I _ _ L) as O.
    destruct (bool_decide _).
    + destruct (device_dec_active d) as [[d1 e1]|] eqn:D; [|discriminate]. apply Ret_inj in H. injection H as _ <- _.
      apply Forall_app. split; [by eapply fine_dec|by eapply fine_drop].
    + apply Ret_inj in H. injection H as _ <- _. by eapply fine_drop.
  - unfold session_set_app_config in H. destruct (d_sessions d !! id) as [s|] eqn:L; [|injection H as _ <- _; constructor].
    destruct (negb _); [discriminate|]. destruct (bool_decide _ && _); [injection H as _ <- _; constructor|].
    destruct (_ && _); [injection H as _ <- _; constructor|].
    destruct (set_tlvs _ _ _) as [[c i]|]; [|discriminate]. cbn [obind] in H.
    destruct (missing_mandatory c); [injection H as _ <- _; constructor|].
    destruct i; [|injection H as _ <- _; constructor]. rewrite session_set_state_eq in H.
    pose proof (di_session _ _ I _ _ L) as O. pose proof (so_id _ _ O) as E. pose proof (so_word _ _ O) as Wd. cbn in H. rewrite E in H.
    destruct (bool_decide _); apply Ret_inj in H; injection H as _ <- _; [|constructor]. destruct (bool_decide _); repeat constructor; done.
  - injection H as _ <- _. constructor.
  - injection H as _ <- _. constructor.
  - injection H as _ <- _. constructor.
  - unfold session_update_controller_multicast_list in H.
    destruct (d_sessions d !! id) as [s|] eqn:L; [|injection H as _ <- _; constructor].
    pose proof (di_session _ _ I _ _ L) as O. pose proof (so_word _ _ O) as Wd.
    destruct (_ || _); [injection H as _ <- _; constructor|].
    destruct (multicast_controlees action payload) as [l|] eqn:Mc; [|injection H as _ <- _; constructor].
    destruct W as (_ & Wp).
    apply decode_controlees_inv in Mc as (cs & Hc & ->); [|done].
    assert (length (addresses cs) <= 255 /\ Forall (fun a => length a = 2%nat /\ wf_bytes a) (addresses cs))%nat as [Sl Wl].
    { destruct Hc as (S & F & _). unfold addresses. rewrite map_length. split; [exact S|]. apply Forall_map.
      eapply Forall_impl; [exact F|]. intros c (? & ? & _). done. }
    assert (forall kr, (let! (dst, status, rsp) := add_controlees kr (map MShort (addresses cs)) (dst_mac_address (s_cfg s)) STATUS_OK [] in
         let '(d1, e3) := multicast_finish d id s dst in
         Ret (d1, e3, SessionUpdateControllerMulticastListRsp status rsp)) = Ret (d', e, m) -> Forall (fine false) e) as Ga.
    { clear H. intros kr H. destruct (add_controlees _ _ _ _ _) as [[[d1 s1] r1]|]; [|discriminate]. cbn [obind] in H.
      pose proof (fine_finish false d id s d1 O) as C. destruct (multicast_finish _ _ _ _). apply Ret_inj in H. by injection H as _ <- _. }
    destruct action; [by eapply Ga| |by eapply Ga..].
    destruct (remove_controlees _ _ _ _ _ _ _ _) as [[[[[d1 s1] r1] n1] e1]|] eqn:Rm; [|discriminate].
    cbn [obind] in H. pose proof (fine_finish false d id s d1 O) as C. destruct (multicast_finish _ _ _ _). apply Ret_inj in H. injection H as _ <- _.
    pose proof Rm as Rm'. apply remove_rsp in Rm' as (_ & Ln & _ & Fn); [|done]. cbn [length] in Ln.
    apply fine_remove in Rm; [| |constructor].
    2:{ apply Forall_map. eapply Forall_impl; [exact Wl|]. cbn. intros a [? ?]. done. }
    rewrite !Forall_app. split; [done|]. split; [|done]. destruct (bool_decide _); constructor; [|constructor]. cbn [fine delayable wf_msg].
    split; [done|]. split; [done|]. split; [done|]. split; [exact (Nat.le_trans _ _ _ Ln Sl)|]. apply Fn; [done|constructor..].
  - unfold session_start in H. destruct (d_sessions d !! id) as [s|] eqn:L; [|injection H as _ <- _; constructor].
    pose proof (di_session _ _ I _ _ L) as O. pose proof (so_id _ _ O) as E. pose proof (so_word _ _ O) as Wd.
    destruct (negb _); [injection H as _ <- _; constructor|]. destruct (s_task s); [discriminate|].
    rewrite session_set_state_eq, device_set_state_eq in H. apply Ret_inj in H. injection H as _ <- _.
    cbn. rewrite E. repeat destruct (bool_decide _); repeat constructor; done.
  - unfold session_stop in H. destruct (d_sessions d !! id) as [s|] eqn:L; [|injection H as _ <- _; constructor].
    pose proof (di_session _ _ I _ _ L) as O. pose proof (so_id _ _ O) as E. pose proof (so_word _ _ O) as Wd.
    destruct (negb _); [injection H as _ <- _; constructor|].
    rewrite stop_ranging_task_eq, session_set_state_eq in H.
    destruct (device_dec_active _) as [[d1 e1]|] eqn:D; [|discriminate]. apply Ret_inj in H. injection H as _ <- _.
    apply (fine_dec false) in D. rewrite !Forall_app. cbn. destruct (s_task s), (bool_decide _); repeat constructor; cbn; rewrite ?E; done.
  - injection H as _ <- _. constructor.
  - injection H as _ <- _. constructor.
  - injection H as _ <- _. constructor.
Qed.
Lemma stop_fine b m id d : dinv b d -> Forall (fine false) (stop_controlee m id d).2.
Proof.
  intros I. unfold stop_controlee. destruct (d_sessions d !! id) as [s|] eqn:L; [|constructor]. destruct (negb _); [constructor|]. destruct (bool_decide _); [|constructor].
  pose proof (di_session _ _ I _ _ L) as O. pose proof (so_id _ _ O) as E. pose proof (so_word _ _ O) as Wd.
  rewrite stop_ranging_task_eq, session_set_state_eq.
  match goal with |- context [if ?b then device_set_state ?x ?y else ?z] =>
    assert (Forall (fine false) (if b then device_set_state x y else z).2) as G
      by (destruct b; [rewrite device_set_state_eq; cbn; destruct (bool_decide _)|]; repeat constructor; done);
    destruct (if b then device_set_state x y else z) as [d1 e1] end.
  cbn [snd] in *. rewrite !Forall_app. cbn. destruct (s_task s), (bool_decide _); repeat constructor; cbn; rewrite ?E; done.
Qed.
Lemma effs_fine start h e : Forall (fine start) e -> Forall (out_fine start) (map (OEff h) e).
Proof. induction 1; by constructor. Qed.

(** What may be sent: a well-formed message, or the answer to a packet of reserved message type. *)
Definition sendable (o : op) (m : msg) : Prop :=
  wf_msg m \/ exists h a b rest st, o = UciPacket h (a :: b :: rest) /\ 4 <= a / 32 /\ m = UnknownCmdRsp (a mod 16) (b mod 64) st.
Definition eff_sendable (o : op) (x : eff) : Prop := match x with Send m => sendable o m | _ => True end.
Definition out_sendable (o : op) (x : out) : Prop := match x with OEff _ x => eff_sendable o x | _ => True end.

Lemma answer_not_delayable packet m : answers packet m -> delayable m = false.
Proof.
  intros (b & mt & gid & oid & Wr & Hh & _). unfold wire in Wr. destruct m; try done; exfalso; destruct (msg_payload _); try discriminate;
    cbn [mbind option_bind] in Wr; injection Wr as <-; cbn in Hh; discriminate Hh.
Qed.
Lemma data_not_delayable d pp d' m : device_data_message_snd d pp = Ret (d', m) -> delayable m = false.
Proof.
  destruct pp as [handle dst seq data|]; cbn [device_data_message_snd]; intros H; [|apply Ret_inj in H; by injection H as _ <-].
  destruct (d_sessions d !! handle) as [s|]; [|apply Ret_inj in H; by injection H as _ <-]. unfold session_data_message_snd in H.
  repeat (match type of H with context [match ?x with _ => _ end] => destruct x; cbn [obind] in H end; try discriminate H);
    apply Ret_inj in H; by injection H as _ <-.
Qed.
Lemma receive_fine b d packet d' e : dinv b d -> wf_bytes packet -> receive_packet d packet = Ret (d', e) -> exists start, Forall (fine start) e.
Proof.
  intros I W R. apply receive_received in R; [|done].
  destruct R as [Hh|Hh Hd|pp d' m b' Hh Hd Hs Hw|h1 o1 rest -> Hc|Hh Hv Hr Hl|c d' e2 m b' Wc Ec Hr Hc Hw|h1 b1 b2 rest -> Hh Hr Hv Hg];
    try (exists false; by repeat constructor).
  - exists false. constructor; [|constructor]. cbn. by eapply data_not_delayable.
  - exists (is_start c). apply Forall_app. split; [by eapply handle_fine|]. constructor; [|constructor]. cbn.
    eapply answer_not_delayable, answer_answers; done.
Qed.

Lemma step_fine cl e p o p' outs : pinv cl p -> wf_op o -> step e p o = Ret (p', outs) -> exists start, Forall (out_fine start) outs.
Proof.
  intros I W H. destruct o; cbn [step] in H.
  - apply Ret_inj in H. unfold add_device, device_init in H. rewrite device_set_state_eq in H. injection H as _ <-. exists false. by repeat constructor.
  - apply Ret_inj in H. unfold disconnect in H. destruct (p_devices p !! h) as [d|] eqn:L; injection H as _ <-; exists false; [|constructor].
    constructor; [done|]. eapply effs_fine, fine_device_drop. by apply (pi_device _ _ I _ _ L).
  - exists false. apply (round_spec cl) in H as (s & s' & ms & ks & peers & _ & _ & _ & _ & _ & _ & _ & m & ms1 & _ & _ & [(_ & _ & ->)|(_ & _ & ->)]); [| |done].
    + apply Forall_app. split; [|by repeat constructor]. apply Forall_map. by apply Forall_forall.
    + apply Forall_map. by apply Forall_forall.
  - apply Ret_inj in H. unfold stop_controlee_ranging in H. injection H as _ <-. exists false.
    induction (env_order e _) as [|k l IH]; [constructor|]. cbn [map concat]. apply Forall_app. split; [|done].
    destruct (p_devices p !! k) as [d|] eqn:L; [|constructor]. eapply effs_fine, stop_fine. by apply (pi_device _ _ I _ _ L).
  - unfold uci_packet in H. destruct (p_devices p !! h) as [d|] eqn:L; [|injection H as _ <-; exists false; constructor].
    destruct (receive_packet d packet) as [[d1 e1]|] eqn:R; [|discriminate]. cbn [obind] in H. injection H as _ <-.
    eapply receive_fine in R as [start F]; [|by apply (pi_device _ _ I _ _ L)|done]. exists start. by apply effs_fine.
  - unfold create_anchor in H. destruct (get_category p m); [injection H as _ <-; exists false; by repeat constructor|].
    destruct (p_anchors p !! m); [discriminate|]. injection H as _ <-; exists false; by repeat constructor.
  - apply Ret_inj in H. unfold destroy_anchor in H. destruct (p_anchors p !! m); injection H as _ <-; exists false; by repeat constructor.
  - apply Ret_inj in H. injection H as _ <-. exists false. constructor.
Qed.

(** ** Immediate messages *)
Lemma data_sendable d pp d' m packet : wf_bytes packet -> hd 0 packet / 32 = 0 -> decode_data_packet packet = DdPacket pp ->
  device_data_message_snd d pp = Ret (d', m) -> wf_msg m.
Proof.
  intros W Hh D H. destruct pp as [handle dst seq data|handle st src seq data]; cbn [device_data_message_snd] in H.
  - apply decode_data_snd_iff in D as (Wh & _ & _); [|done|].
    2:{ destruct packet; [discriminate|]. by eexists. }
    destruct (d_sessions d !! handle) as [s|]; [|by injection H as _ <-].
    unfold session_data_message_snd in H. destruct (negb _).
    + injection H as _ <-. cbn. split; [done|]. split; [unfold byte; apply N.mod_lt; lia|done].
    + destruct (negb _); [discriminate|]. by injection H as _ <-.
  - apply decode_data_rcv_sound in D as (Wh & _); [|done|done]. by injection H as _ <-.
Qed.
Lemma no_send_sendable o l : existsb is_send l = false -> Forall (eff_sendable o) l.
Proof.
  induction l as [|x l IH]; [constructor|]. cbn [existsb]. intros [H1 H2]%orb_false_iff. constructor; [by destruct x|by apply IH].
Qed.
Lemma receive_sendable b h d packet d' e : dinv b d -> wf_bytes packet -> receive_packet d packet = Ret (d', e) ->
  Forall (eff_sendable (UciPacket h packet)) e.
Proof.
  intros I W R. apply receive_received in R; [|done].
  destruct R as [Hh|Hh Hd|pp d' m b' Hh Hd Hs Hw|h1 o1 rest -> Hc|Hh Hv Hr Hl|c d' e2 m b' Wc Ec Hr Hc Hw|h1 b1 b2 rest -> Hh Hr Hv Hg].
  - constructor.
  - constructor.
  - constructor; [|constructor]. left. by eapply data_sendable.
  - constructor; [|constructor]. cbn [eff_sendable]. destruct Hc as [[Hc Hv]|Hc].
    + left. cbn [wf_msg]. rewrite Hv. apply wf_bytes_cons in W as [Hh [Ho W]%wf_bytes_cons].
      split; [|split; [|done]].
      * destruct (gid_cases (h1 mod 16)) as [(_ & V & _)|[(_ & _ & G)|(V & _)]]; [apply N.mod_lt; lia|congruence| |congruence].
        cbn in G. repeat (destruct G as [<-|G]; [done|]). destruct G.
      * unfold byte in *. pose proof (N.mod_lt o1 64). lia.
    + right. by repeat eexists.
  - by repeat constructor.
  - apply Forall_app. split; [eapply no_send_sendable, handle_no_send; [by eapply dinv_weaken|done..]|].
    constructor; [|constructor]. left. eapply handle_wf; [done..|]. intros L. eapply long_no_wire in L; [|done..]. congruence.
  - constructor; [|constructor]. left. cbn. apply wf_bytes_cons in W as [Wh [Wb [Wc W]%wf_bytes_cons]%wf_bytes_cons].
    split; [apply N.mod_lt; lia|]. split; [done|]. split; [|done].
    destruct (gid_cases (h1 mod 16)) as [(D & _)|[(V & _)|(_ & _ & G)]]; [apply N.mod_lt; lia|congruence..|].
    cbn in G. repeat (destruct G as [<-|G]; [done|]). destruct G.
Qed.
Lemma measures_wf e m l r x : wf_env e -> (exists a b, env_estimate e a b = Some l) -> wf_mac m -> measures m l r x -> wf_measurement x.
Proof.
  intros We (a0 & b0 & El) Wm (a & -> & Ea & Es & En & Ed & Ez & Ee & Ez' & Ee' & F1 & F2 & F3 & F4 & S & R).
  apply We in El. destruct Wm as [La Wa].
  unfold wf_measurement. rewrite Es, En, F1, F2, F3, F4, S, R, Ed.
  split_and!; try done; unfold word16.
  - rewrite Ea. eapply N.lt_le_trans; [apply le_nat_bound; exact Wa|]. rewrite La. cbn. lia.
  - assert (Z.of_N (m_aoa_azimuth x) < 65536)%Z; [rewrite Ez; apply Z.mod_pos_bound; lia|lia].
  - assert (Z.of_N (m_aoa_elevation x) < 65536)%Z; [rewrite Ee; apply Z.mod_pos_bound; lia|lia].
  - assert (Z.of_N (m_aoa_destination_azimuth x) < 65536)%Z; [rewrite Ez'; apply Z.mod_pos_bound; lia|lia].
  - assert (Z.of_N (m_aoa_destination_elevation x) < 65536)%Z; [rewrite Ee'; apply Z.mod_pos_bound; lia|lia].
Qed.

Lemma round_sendable cl e p h id p' outs : pinv cl p -> wf_env e -> step e p (Ranging h id) = Ret (p', outs) ->
  Forall (out_sendable (Ranging h id)) outs.
Proof.
  intros I We H. pose proof H as H0. cbn [step] in H0.
  apply ranging_inv in H0 as (d & s & ms1 & ms2 & peers & o1 & o2 & s' & L & Ls & Am & Pl & Sd & Si & -> & ->).
  destruct (pi_device _ _ I _ _ L) as (Id & Hh & _). pose proof (di_session _ _ Id _ _ Ls) as O. rewrite Hh in Am.
  apply Forall_app. split.
  - apply send_data_outs in Sd as (m & Em & -> & _ & Wr). apply Forall_map, Forall_forall. intros k Hk.
    assert (peers <> []) as Ne by (intros ->; by apply elem_of_nil in Hk).
    destruct (Wr Ne) as [b Eb]. left. cbn [wf_msg].
    split; [exact (so_word _ _ O)|]. split; [done|]. split; [|split; [done|split; [|exact (so_data _ _ O)]]].
    + specialize (Em Ne). apply (co_mac _ (so_cfg _ _ O)) in Em. pose proof (proj2 (mac_to_u64_value _ Em)) as B. unfold word64.
      destruct m as [l|l]; destruct Em as [El _]; cbn [mac_to_vec] in B; rewrite El in B; (eapply N.lt_le_trans; [exact B|]); vm_compute; discriminate.
    + unfold wire in Eb. cbn [msg_payload] in Eb. unfold enc_vec16 in Eb. destruct (N.leb_spec (N.of_nat (length (s_data s))) 65535); [done|discriminate].
  - apply send_info_session in Si as [(_ & _ & ->)|(_ & _ & _ & _ & -> & b & Eb)]; [constructor|].
    constructor; [|constructor]. left. cbn [wf_msg].
    split; [exact (so_seq _ _ O)|]. split; [exact (so_word _ _ O)|]. split; [done|]. split; [done|].
    split; [|split; [|constructor]].
    + unfold wire in Eb. cbn [msg_payload] in Eb. unfold enc_counted in Eb. unfold short_list.
      destruct (Nat.leb_spec (length (ms1 ++ ms2)) 255); [done|discriminate].
    + apply Forall_app. split.
      * apply anchor_spec in Am. unfold anchors_measured in Am. apply Forall2_flip in Am.
        eapply Forall2_Forall_l; [exact Am|].
        apply Forall_forall. intros [[m l] r] Ht x M.
        apply elem_of_list_omap in Ht as (m' & Hm & E0). destruct (p_anchors p !! m') as [a|] eqn:Ea; [|discriminate]. cbn in E0.
        destruct (env_estimate e h a) as [l'|] eqn:E1; [|discriminate]. cbn in E0. destruct (env_estimate e a h) as [r'|]; [|discriminate].
        injection E0 as <- <- <-. eapply measures_wf; [done|by eauto| |exact M]. by apply (pi_anchor _ _ I _ _ Ea).
      * apply (peer_loop_spec _ _ _ _ _ _ _ _ _ _ I L Ls) in Pl as (ks & _ & _ & _ & K1 & _).
        2:{ rewrite (env_order_perm e). apply NoDup_fst_map_to_list. }
        2:{ intros k Hk. rewrite (env_order_perm e) in Hk. apply elem_of_list_fmap in Hk as ([k' d'] & -> & Hk). exists d'. by apply elem_of_map_to_list. }
        clear -K1 We I. induction K1 as [|k x ks ms ([[m l] r] & (_ & ps & Sp & _ & _ & Em & E1 & _) & M) _ IH]; [constructor|]. constructor; [|done].
        cbn [fst snd] in *. eapply measures_wf; [done|by eauto| |exact M].
        unfold session_at in Sp. destruct (p_devices p !! k) as [dk|] eqn:Lk; [|discriminate]. cbn in Sp.
        destruct (pi_device _ _ I _ _ Lk) as (Ik & _). by apply (co_mac _ (so_cfg _ _ (di_session _ _ Ik _ _ Sp))).
Qed.
Lemma effs_sendable o h e : Forall (eff_sendable o) e -> Forall (out_sendable o) (map (OEff h) e).
Proof. induction 1; by constructor. Qed.
Lemma fine_sendable o start e : existsb is_send e = false -> Forall (fine start) e -> Forall (eff_sendable o) e.
Proof. intros N _. by apply no_send_sendable. Qed.
Lemma stop_no_send m id d : existsb is_send (stop_controlee m id d).2 = false.
Proof.
  unfold stop_controlee. destruct (d_sessions d !! id) as [s|]; [|done]. destruct (negb _); [done|]. destruct (bool_decide _); [|done].
  rewrite stop_ranging_task_eq, session_set_state_eq.
  match goal with |- context [if ?b then device_set_state ?x ?y else ?z] =>
    assert (existsb is_send (if b then device_set_state x y else z).2 = false) as G
      by (destruct b; [rewrite device_set_state_eq; cbn; destruct (bool_decide _)|]; done);
    destruct (if b then device_set_state x y else z) as [d1 e1] end.
  cbn [snd] in *. rewrite !existsb_app, G. by destruct (s_task s), (bool_decide _).
Qed.
Lemma step_sendable cl e p o p' outs : pinv cl p -> wf_env e -> wf_op o -> step e p o = Ret (p', outs) -> Forall (out_sendable o) outs.
Proof.
  intros I We W H. destruct o; [..|by eapply round_sendable| | | | |]; cbn [step] in H.
  - apply Ret_inj in H. unfold add_device, device_init in H. rewrite device_set_state_eq in H. injection H as _ <-. by repeat constructor.
  - apply Ret_inj in H. unfold disconnect in H. destruct (p_devices p !! h) as [d|] eqn:L; injection H as _ <-; [|constructor].
    constructor; [done|]. apply effs_sendable, no_send_sendable, no_send_device_drop.
  - apply Ret_inj in H. unfold stop_controlee_ranging in H. injection H as _ <-.
    induction (env_order e _) as [|k l IH]; [constructor|]. cbn [map concat]. apply Forall_app. split; [|done].
    destruct (p_devices p !! k) as [d|] eqn:L; [|constructor]. apply effs_sendable, no_send_sendable, stop_no_send.
  - unfold uci_packet in H. destruct (p_devices p !! h) as [d|] eqn:L; [|injection H as _ <-; constructor].
    destruct (receive_packet d packet) as [[d1 e1]|] eqn:R; [|discriminate]. cbn [obind] in H. injection H as _ <-.
    eapply receive_sendable in R; [|by apply (pi_device _ _ I _ _ L)|done]. by apply effs_sendable.
  - unfold create_anchor in H. destruct (get_category p m); [injection H as _ <-; by repeat constructor|].
    destruct (p_anchors p !! m); [discriminate|]. injection H as _ <-; by repeat constructor.
  - apply Ret_inj in H. unfold destroy_anchor in H. destruct (p_anchors p !! m); injection H as _ <-; by repeat constructor.
  - apply Ret_inj in H. injection H as _ <-. constructor.
Qed.
Lemma step_messages cl e p o p' outs h : pinv cl p -> wf_env e -> wf_op o -> step e p o = Ret (p', outs) -> Forall (sendable o) (messages h outs).
Proof.
  intros I We W H. pose proof (step_sendable _ _ _ _ _ _ I We W H) as S. destruct (step_fine _ _ _ _ _ _ I W H) as [st F].
  clear H. induction S as [|x outs Sx S IH]; [constructor|]. inversion F as [|? ? Fx F']; subst. unfold messages. cbn [map concat].
  apply Forall_app. split; [|by apply IH]. destruct x as [h' x| | |]; try constructor. unfold messages_to, sent_to, scheduled_to.
  destruct x; cbn in *; try constructor; destruct (h' =? h); try constructor; try done. left. by destruct Fx as (_ & _ & ?).
Qed.

