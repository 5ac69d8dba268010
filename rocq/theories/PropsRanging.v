(** Properties of the ranging rounds. *)
From Verif Require Import Base Uci MacAddress AppConfig Codec Session Device Pica.
From Verif Require Import BaseFacts AppConfigSpec CodecSpec CodecFacts ContextSpec InvFacts StepFacts CommandFacts Demo EvolveFacts RangingSpec RangingFacts.

(** ** C39 *)
Theorem C39_measurements : forall e p h id s p' outs,
  reachable p -> wf_env e -> session_at p h id = Some s -> notifies s -> step e p (Ranging h id) = Ret (p', outs) ->
  exists anchors peers ks,
    sent h outs = [SessionInfoNtf (s_seq s) id 0 0 (anchors ++ peers) []]
    /\ Forall2 (fun t x => measures t.1.1 t.1.2 t.2 x) (anchors_measured e p h (dst_mac_address (s_cfg s))) anchors
    /\ Forall2 (fun k x => exists t, measured e p h id s k t /\ measures t.1.1 t.1.2 t.2 x) ks peers
    /\ NoDup ks /\ (forall k, k ∈ ks <-> exists t, measured e p h id s k t).
Proof.
  intros e p h id s p' outs R _ S Nt H.
  destruct (round_spec _ _ _ _ _ _ _ (reachable_pinv _ R) H) as (s0 & s' & ms & ks & peers & S0 & S' & N1 & N2 & F & C & P & m & ms1 & _ & A & O).
  rewrite S in S0. injection S0 as <-. destruct O as [(_ & _ & ->)|(Nn & _)]; [|done].
  exists ms1, ms, ks. split_and!; try done.
  - rewrite sent_app, sent_sends.
    + unfold sent. cbn. by rewrite N.eqb_refl.
    + intros Hh. apply P in Hh. by destruct Hh as [Hh _].
  - intros k. split; [|intros (t & M); by eapply C].
    intros Hk. apply elem_of_list_lookup in Hk as (i & Hi). destruct (Forall2_lookup_l _ _ _ _ _ F Hi) as (x & _ & t & M & _). by exists t.
Qed.
Print Assumptions C39_measurements.

(** A measurement has one address and two estimations. *)
Theorem C39_measured_once : forall e p h id s k t t', measured e p h id s k t -> measured e p h id s k t' -> t = t'.
Proof.
  intros e p h id s k [[m l] r] [[m' l'] r'] (_ & ps & A & _ & _ & B & C & D) (_ & ps' & A' & _ & _ & B' & C' & D'). cbn in *.
  rewrite A in A'. injection A' as <-. congruence.
Qed.
Print Assumptions C39_measured_once.

(** ** C40 *)
Theorem C40_symmetric : forall e p a b id sa sb ma mb l r,
  session_at p a id = Some sa -> session_at p b id = Some sb -> s_state sa = SsActive -> s_state sb = SsActive ->
  device_mac_address (s_cfg sa) = Some ma -> device_mac_address (s_cfg sb) = Some mb ->
  (measured e p a id sa b (mb, l, r) <-> measured e p b id sb a (ma, r, l)).
Proof.
  intros e p a b id sa sb ma mb l r Sa Sb Aa Ab Ma Mb. split.
  - intros (Ne & ps & S & _ & C & _ & E1 & E2). cbn in *. rewrite Sb in S. injection S as <-.
    split; [done|]. exists sa. apply compatible_sym in C. done.
  - intros (Ne & ps & S & _ & C & _ & E1 & E2). cbn in *. rewrite Sa in S. injection S as <-.
    split; [done|]. exists sb. apply compatible_sym in C. done.
Qed.
Print Assumptions C40_symmetric.

(** In terms of the notifications of two rounds in the same state: one host sees a measurement of the
    other exactly when the other sees one of it. *)
Theorem C40_rounds : forall e p a b id sa sb pa oa pb ob,
  reachable p -> wf_env e -> session_at p a id = Some sa -> session_at p b id = Some sb -> s_state sa = SsActive -> s_state sb = SsActive ->
  notifies sa -> notifies sb -> step e p (Ranging a id) = Ret (pa, oa) -> step e p (Ranging b id) = Ret (pb, ob) ->
  exists xa ya ka xb yb kb,
    sent a oa = [SessionInfoNtf (s_seq sa) id 0 0 (xa ++ ya) []] /\ length ya = length ka
    /\ sent b ob = [SessionInfoNtf (s_seq sb) id 0 0 (xb ++ yb) []] /\ length yb = length kb
    /\ (b ∈ ka <-> a ∈ kb).
Proof.
  intros e p a b id sa sb pa oa pb ob R We Sa Sb Aa Ab Na Nb Ha Hb.
  destruct (C39_measurements _ _ _ _ _ _ _ R We Sa Na Ha) as (xa & ya & ka & -> & _ & Fa & _ & Ca).
  destruct (C39_measurements _ _ _ _ _ _ _ R We Sb Nb Hb) as (xb & yb & kb & -> & _ & Fb & _ & Cb).
  exists xa, ya, ka, xb, yb, kb. split_and!; try done; [by apply Forall2_length in Fa|by apply Forall2_length in Fb|].
  assert (forall e p a b id sa sb, session_at p a id = Some sa -> session_at p b id = Some sb -> s_state sa = SsActive ->
    (exists t, measured e p a id sa b t) -> exists t, measured e p b id sb a t) as G.
  { clear. intros e p a b id sa sb Sa Sb Aa ([[m l] r] & Ne & ps & S & A & C & M & E1 & E2). cbn in *. rewrite Sb in S. injection S as <-.
    pose proof C as (_ & _ & ma & mb & Ma & Mb & _). exists (ma, r, l). split; [done|]. exists sa. apply compatible_sym in C. done. }
  rewrite Ca, Cb. split; by eapply G.
Qed.
Print Assumptions C40_rounds.

(** ** C41 *)
Lemma since_reachable h id p outs : since_init h id p outs -> reachable p.
Proof. induction 1; by eapply reachable_step. Qed.
Lemma round_info cl e p k id' p' outs h id s : pinv cl p -> step e p (Ranging k id') = Ret (p', outs) -> session_at p h id = Some s ->
  exists s', session_at p' h id = Some s' /\
   ((s_seq s' = s_seq s /\ info_seqs h id outs = []) \/ (s_seq s' = s_seq s + 1 /\ info_seqs h id outs = [s_seq s])).
Proof.
  intros I H S.
  destruct (round_spec _ _ _ _ _ _ _ I H) as (s0 & s' & ms & ks & peers & S0 & S' & N1 & N2 & F & C & P & m & ms1 & _ & A & O).
  assert (info_seqs h id (map (fun k => OEff k (Send (DataMessageRcv id' 0 (mac_to_u64 m) 1 (s_data s0)))) peers) = []) as Ed.
  { unfold info_seqs. rewrite messages_sends by done. by destruct (bool_decide _). }
  destruct (decide ((k, id') = (h, id))) as [E|Ne].
  - injection E as -> ->. rewrite S in S0. injection S0 as <-. exists s'. split; [done|]. destruct O as [(_ & -> & ->)|(_ & -> & ->)].
    + right. split; [done|]. rewrite info_seqs_app, Ed. unfold info_seqs. rewrite messages_one, N.eqb_refl. cbn. by rewrite N.eqb_refl.
    + left. done.
  - assert (session_at p' h id = Some s) as S2.
    { cbn [step] in H. apply ranging_inv in H as (d & s1 & ? & ? & ? & ? & ? & s2 & L & _ & _ & _ & _ & _ & -> & _).
      revert S. unfold session_at. cbn [p_devices p_set_device p_set_devices]. destruct (N.eq_dec k h) as [->|Nk].
      - rewrite lookup_insert, L. cbn. rewrite lookup_insert_ne; [done|congruence].
      - by rewrite lookup_insert_ne. }
    exists s. split; [done|]. left. split; [done|]. destruct O as [(_ & _ & ->)|(_ & _ & ->)]; [|done].
    rewrite info_seqs_app, Ed. unfold info_seqs. rewrite messages_one. destruct (N.eqb_spec k h) as [->|]; [|done].
    cbn. destruct (N.eqb_spec id' id) as [->|]; done.
Qed.
Lemma since_seqs h id p outs : since_init h id p outs ->
  exists s, session_at p h id = Some s /\ info_seqs h id outs = map N.of_nat (seq 0 (N.to_nat (s_seq s))).
Proof.
  induction 1 as [p e o p' outs R We Wo H Hi|p outs e o p' outs' Hs IH We Wo H Hi Ex].
  - destruct (initialises_session _ _ _ _ _ _ _ _ (reachable_pinv _ R) Wo H Hi) as (s' & ? & E & _). exists s'. by rewrite E.
  - destruct IH as (s & S & Es). pose proof (reachable_pinv _ (since_reachable _ _ _ _ Hs)) as I.
    assert ((exists k id', o = Ranging k id') \/ forall k id', o <> Ranging k id') as [(k & id' & ->)|Nr]
      by (destruct o; try (by right); left; by eexists _, _).
    + destruct (round_info _ _ _ _ _ _ _ h id s I H S) as (s' & S' & [(Eq & E)|(Eq & E)]); exists s'; (split; [done|]); rewrite info_seqs_app, Es, E, Eq.
      * by rewrite app_nil_r.
      * rewrite N2Nat.inj_add. change (N.to_nat 1) with 1%nat. rewrite seq_app, map_app. cbn. by rewrite N2Nat.id.
    + assert (o <> Ranging h id) as Nr' by auto.
      destruct (step_keeps _ _ _ _ _ _ _ _ _ I Wo H S Hi Nr' Ex) as (s' & S' & Eq & _). exists s'. split; [done|].
      rewrite Eq, info_seqs_app, Es, (calm_info h id outs'), app_nil_r; [done|]. by eapply step_calm.
Qed.
Theorem C41_sequence : forall h id p outs, since_init h id p outs ->
  info_seqs h id outs = map N.of_nat (seq 0 (length (info_seqs h id outs))).
Proof.
  intros h id p outs H. destruct (since_seqs _ _ _ _ H) as (s & _ & ->). by rewrite map_length, seq_length.
Qed.
Print Assumptions C41_sequence.
Theorem C41_count : forall h id p outs p' outs', since_init h id p outs -> commanded p h (CmdGetRangingCount id) p' outs' ->
  sent h outs' = [SessionGetRangingCountRsp 0x00 (N.of_nat (length (info_seqs h id outs)))].
Proof.
  intros h id p outs p' outs' H C. destruct (since_seqs _ _ _ _ H) as (s & S & ->).
  destruct (commanded_inv _ _ _ _ _ C) as (d & d' & e & m & R). rewrite (cr_sent R).
  pose proof (cr_handle R) as Hh. cbn [handle_command] in Hh. injection Hh as _ _ <-.
  rewrite (cr_session R) in S. unfold session_get_ranging_count. rewrite S, map_length, seq_length, N2Nat.id. done.
Qed.
Print Assumptions C41_count.
(** Every existing session has such a history. *)
Theorem C41_history : forall p h id, reachable p -> session_at p h id <> None -> exists outs, since_init h id p outs.
Proof.
  intros p h id (l & outs & R). revert R. revert l p outs. apply (reaches_ind (fun l p outs => session_at p h id <> None -> exists outs', since_init h id p outs')).
  - unfold session_at. cbn. by rewrite lookup_empty.
  - intros l p outs e o p' outs' R IH We Wo H Ex.
    assert (reachable p) as Rp by by exists l, outs.
    destruct (initialises_dec h id o outs' Wo) as [Hi|Hi].
    + exists []. by eapply SinceInit.
    + destruct (session_at p h id) eqn:S.
      * destruct IH as (outs1 & Hs); [done|]. exists (outs1 ++ outs'). by eapply SinceStep.
      * exfalso. apply Hi. eapply step_appears; try done. by apply reachable_pinv.
Qed.
Print Assumptions C41_history.
(** Nothing else sends session information notifications. *)
Theorem C41_only_rounds : forall e p o p' outs k seq tok a b ms v, reachable p -> wf_op o -> step e p o = Ret (p', outs) ->
  In (SessionInfoNtf seq tok a b ms v) (messages k outs) -> o = Ranging k tok.
Proof.
  intros e p o p' outs k seq tok a b ms v R Wo H Hi.
  assert ((exists k id', o = Ranging k id') \/ forall k id', o <> Ranging k id') as [(k' & id' & ->)|Nr]
    by (destruct o; try (by right); left; by eexists _, _).
  - destruct (round_spec _ _ _ _ _ _ _ (reachable_pinv _ R) H) as (s0 & s' & ms' & ks & peers & S0 & S' & N1 & N2 & F & C & P & m & ms1 & _ & A & O).
    assert (forall x, In x (messages k (map (fun k => OEff k (Send (DataMessageRcv id' 0 (mac_to_u64 m) 1 (s_data s0)))) peers)) ->
      x <> SessionInfoNtf seq tok a b ms v) as Nd.
    { intros x. rewrite messages_sends by done. destruct (bool_decide _); [|intros []]. by intros [<-|[]]. }
    destruct O as [(_ & _ & ->)|(_ & _ & ->)].
    + rewrite messages_app in Hi. apply in_app_iff in Hi as [Hi|Hi]; [by destruct (Nd _ Hi)|].
      rewrite messages_one in Hi. destruct (N.eqb_spec k' k) as [->|]; [|destruct Hi]. destruct Hi as [Hi|[]]. congruence.
    + by destruct (Nd _ Hi).
  - pose proof (messages_calm k _ (step_calm _ _ _ _ _ Wo H Nr)) as C. rewrite Forall_forall in C.
    apply elem_of_list_In in Hi. by apply C in Hi.
Qed.
Print Assumptions C41_only_rounds.

(** ** C42 *)
Definition is_info (m : msg) : bool := match m with SessionInfoNtf _ _ _ _ _ _ => true | _ => false end.
Theorem C42_disabled : forall e p h id s p' outs,
  reachable p -> session_at p h id = Some s -> app_config_get (s_cfg s) T_SESSION_INFO_NTF_CONFIG = Some [0x00] ->
  step e p (Ranging h id) = Ret (p', outs) ->
  (forall k, filter is_info (messages k outs) = []) /\ s_seq <$> session_at p' h id = Some (s_seq s).
Proof.
  intros e p h id s p' outs R S D H.
  destruct (round_spec _ _ _ _ _ _ _ (reachable_pinv _ R) H) as (s0 & s' & ms' & ks & peers & S0 & S' & N1 & N2 & F & C & P & m & ms1 & _ & A & O).
  rewrite S in S0. injection S0 as <-. destruct O as [(Nt & _)|(_ & -> & ->)]; [done|]. rewrite S'. split; [|done].
  intros k. rewrite messages_sends by done. by destruct (bool_decide _).
Qed.
Print Assumptions C42_disabled.
Theorem C42_enabled : forall e p h id s p' outs,
  reachable p -> session_at p h id = Some s -> app_config_get (s_cfg s) T_SESSION_INFO_NTF_CONFIG <> Some [0x00] ->
  step e p (Ranging h id) = Ret (p', outs) ->
  (exists ms, filter is_info (messages h outs) = [SessionInfoNtf (s_seq s) id 0 0 ms []])
  /\ (forall k, k <> h -> filter is_info (messages k outs) = []) /\ s_seq <$> session_at p' h id = Some (s_seq s + 1).
Proof.
  intros e p h id s p' outs R S D H.
  destruct (round_spec _ _ _ _ _ _ _ (reachable_pinv _ R) H) as (s0 & s' & ms' & ks & peers & S0 & S' & N1 & N2 & F & C & P & m & ms1 & _ & A & O).
  rewrite S in S0. injection S0 as <-. destruct O as [(_ & -> & ->)|(Nt & _)]; [|done]. rewrite S'.
  assert (forall k, filter is_info (messages k (map (fun k => OEff k (Send (DataMessageRcv id 0 (mac_to_u64 m) 1 (s_data s)))) peers)) = []) as E.
  { intros k. rewrite messages_sends by done. by destruct (bool_decide _). }
  split_and!; [|intros k Nk|done].
  - rewrite messages_app, filter_app, E, messages_one, N.eqb_refl. cbn. by eexists.
  - rewrite messages_app, filter_app, E, messages_one. apply not_eq_sym, N.eqb_neq in Nk. by rewrite Nk.
Qed.
Print Assumptions C42_enabled.

(** ** C43 *)
Lemma pending_reachable h id p l : pending h id p l -> reachable p.
Proof.
  induction 1 as [|p l e p' outs ? ? ? S| |]; [by eapply reachable_step| |by eapply reachable_step..].
  by eapply (reachable_step p e (Ranging h id)).
Qed.
Lemma pending_data h id p l : pending h id p l -> exists s, session_at p h id = Some s /\ s_data s = concat l.
Proof.
  induction 1 as [p e o p' outs R We Wo H Hi|p l e p' outs Hp IH We H|p l e o p' outs data Hp IH We Wo H Ha|p l e o p' outs Hp IH We Wo H Hi Hr Ha Ex].
  - destruct (initialises_session _ _ _ _ _ _ _ _ (reachable_pinv _ R) Wo H Hi) as (s' & ? & _ & E). exists s'. by rewrite E.
  - destruct IH as (s & S & Es). pose proof (reachable_pinv _ (pending_reachable _ _ _ _ Hp)) as I.
    destruct (round_spec _ _ _ _ _ _ _ I H) as (s0 & s' & ms' & ks & peers & S0 & S' & N1 & N2 & F & C & P & m & ms1 & _ & A & O).
    exists s'. split; [done|]. destruct O as [(_ & E & _)|(_ & E & _)]; by rewrite E.
  - destruct IH as (s & S & Es). pose proof (reachable_pinv _ (pending_reachable _ _ _ _ Hp)) as I.
    destruct Ha as (packet & dst & seq & -> & Dm & Sn).
    destruct (data_cases _ _ _ _ id _ _ _ I Wo (data_message_hd _ _ _ _ _ Dm) H) as [(s1 & dst' & seq' & data' & S1 & _ & Dm' & S2 & _)|[_ N]]; [|done].
    rewrite S in S1. injection S1 as <-. pose proof (data_message_decode _ _ _ _ _ Wo Dm) as D1. rewrite (data_message_decode _ _ _ _ _ Wo Dm') in D1.
    injection D1 as -> -> ->. eexists. split; [exact S2|]. cbn. rewrite Es, concat_app. cbn. by rewrite app_nil_r.
  - destruct IH as (s & S & Es). pose proof (reachable_pinv _ (pending_reachable _ _ _ _ Hp)) as I.
    destruct (step_keeps _ _ _ _ _ _ _ _ _ I Wo H S Hi Hr Ex) as (s' & S' & _ & _ & D). exists s'. split; [done|]. rewrite D by done. done.
Qed.
Theorem C43_delivered : forall h id p l e p' outs k, pending h id p l -> wf_env e -> step e p (Ranging h id) = Ret (p', outs) ->
  data_received k outs = [] \/ k <> h /\ exists src, data_received k outs = [(id, 0x00, src, 1, concat l)].
Proof.
  intros h id p l e p' outs k Hp We H. destruct (pending_data _ _ _ _ Hp) as (s & S & Es).
  pose proof (reachable_pinv _ (pending_reachable _ _ _ _ Hp)) as I.
  destruct (round_spec _ _ _ _ _ _ _ I H) as (s0 & s' & ms' & ks & peers & S0 & S' & N1 & N2 & F & C & P & m & ms1 & _ & A & O).
  rewrite S in S0. injection S0 as <-.
  assert (data_received k outs = if bool_decide (k ∈ peers) then [(id, 0x00, mac_to_u64 m, 1, s_data s)] else []) as ->.
  { assert (data_received k (map (fun k => OEff k (Send (DataMessageRcv id 0 (mac_to_u64 m) 1 (s_data s)))) peers)
      = if bool_decide (k ∈ peers) then [(id, 0x00, mac_to_u64 m, 1, s_data s)] else []) as E.
    { unfold data_received. rewrite messages_sends by done. by destruct (bool_decide _). }
    destruct O as [(_ & _ & ->)|(_ & _ & ->)]; [|done]. rewrite data_received_app, E. unfold data_received. rewrite messages_one.
    destruct (h =? k); cbn; by rewrite app_nil_r. }
  case_bool_decide as B; [|by left]. right. apply P in B as (Nk & _). split; [done|]. rewrite Es. by eexists.
Qed.
Print Assumptions C43_delivered.
(** Which devices receive, and from whom. *)
Theorem C43_receivers : forall e p h id s p' outs k, reachable p -> session_at p h id = Some s -> step e p (Ranging h id) = Ret (p', outs) ->
  (data_received k outs <> [] <->
   k <> h /\ data_session 1 s /\ (exists ps, session_at p k id = Some ps /\ data_session 0 ps) /\ ~ not_estimated e p h id s k)
  /\ forall id' st src seq data, In (id', st, src, seq, data) (data_received k outs) ->
       exists m, app_config_get (s_cfg s) T_DEVICE_MAC_ADDRESS = Some (mac_to_vec m) /\ src = le_nat (mac_to_vec m).
Proof.
  intros e p h id s p' outs k R S H.
  destruct (round_spec _ _ _ _ _ _ _ (reachable_pinv _ R) H) as (s0 & s' & ms' & ks & peers & S0 & S' & N1 & N2 & F & C & P & m & ms1 & Em & A & O).
  rewrite S in S0. injection S0 as <-.
  assert (data_received k outs = if bool_decide (k ∈ peers) then [(id, 0x00, mac_to_u64 m, 1, s_data s)] else []) as ->.
  { assert (data_received k (map (fun k => OEff k (Send (DataMessageRcv id 0 (mac_to_u64 m) 1 (s_data s)))) peers)
      = if bool_decide (k ∈ peers) then [(id, 0x00, mac_to_u64 m, 1, s_data s)] else []) as E.
    { unfold data_received. rewrite messages_sends by done. by destruct (bool_decide _). }
    destruct O as [(_ & _ & ->)|(_ & _ & ->)]; [|done]. rewrite data_received_app, E. unfold data_received. rewrite messages_one.
    destruct (h =? k); cbn; by rewrite app_nil_r. }
  case_bool_decide as B.
  - split.
    + split; [intros _; by apply P in B|done].
    + intros id' st src seq data [E|[]]. injection E as <- <- <- <- <-. exists m. cbn [app_config_get].
      rewrite Em; [|by intros ->; apply elem_of_nil in B]. split; [done|]. by destruct m.
  - split; [|intros ? ? ? ? ? []]. split; [done|]. intros Rc. exfalso. apply B. by apply P.
Qed.
Print Assumptions C43_receivers.
(** Every existing session has such a history. *)
Lemma data_message_dec id packet : wf_bytes packet ->
  (exists dst seq data, data_message id dst seq data packet) \/ ~ exists dst seq data, data_message id dst seq data packet.
Proof.
  intros W. destruct (decide (hd 0 packet / 32 = 0 /\ packet <> [])) as [[Hd Np]|N].
  2:{ right. intros (dst & seq & data & D). apply N. split; [by eapply data_message_hd|].
      destruct D as (_ & _ & _ & _ & _ & ? & ? & ? & ? & -> & _). done. }
  destruct (decode_data_packet packet) as [| |pp] eqn:D.
  1-2: right; intros (dst & seq & data & Dm); pose proof (data_message_decode _ _ _ _ _ W Dm); congruence.
  destruct pp as [handle dst seq data|].
  2: right; intros (dst' & seq' & data' & Dm); pose proof (data_message_decode _ _ _ _ _ W Dm); congruence.
  destruct (N.eq_dec handle id) as [->|Ne].
  - left. exists dst, seq, data. apply decode_data_snd_iff in D; [done|done|]. destruct packet as [|x pk]; [done|]. by exists x.
  - right; intros (dst' & seq' & data' & Dm); pose proof (data_message_decode _ _ _ _ _ W Dm). congruence.
Qed.
Theorem C43_history : forall p h id, reachable p -> session_at p h id <> None -> exists l, pending h id p l.
Proof.
  intros p h id (l & outs & R). revert R. revert l p outs. apply (reaches_ind (fun l p outs => session_at p h id <> None -> exists l', pending h id p l')).
  - unfold session_at. cbn. by rewrite lookup_empty.
  - intros l p outs e o p' outs' R IH We Wo H Ex.
    assert (reachable p) as Rp by by exists l, outs.
    destruct (initialises_dec h id o outs' Wo) as [Hi|Hi].
    { exists []. by eapply PendInit. }
    destruct (session_at p h id) as [s|] eqn:S.
    2:{ exfalso. apply Hi. eapply step_appears; try done. by apply reachable_pinv. }
    destruct IH as (l' & Hp); [done|].
    assert (o = Ranging h id \/ o <> Ranging h id) as [->|Nr].
    { destruct o; try (by right). destruct (decide ((h0, id0) = (h, id))) as [E|E]; [injection E as -> ->; by left|right; congruence]. }
    { exists []. by eapply PendRound. }
    assert ((exists data, accepts h id o outs' data) \/ forall data, ~ accepts h id o outs' data) as [(data & Ha)|Na].
    { destruct o as [| | | |k packet| | |]; try (right; by intros data (pk & ? & ? & E & _)).
      destruct (N.eq_dec k h) as [->|Nk]; [|right; intros data (pk & ? & ? & E & _); congruence].
      destruct (data_message_dec id packet Wo) as [(dst & seq & data & Dm)|Nd].
      2:{ right. intros data (pk & dst & seq & E & Dm & _). injection E as <-. apply Nd. by exists dst, seq, data. }
      destruct (data_cases _ _ _ _ id _ _ _ (reachable_pinv _ Rp) Wo (data_message_hd _ _ _ _ _ Dm) H) as [(s1 & dst' & seq' & data' & S1 & _ & Dm' & S2 & Sn)|[_ N]].
      - left. exists data', packet, dst', seq'. done.
      - right. intros data' (pk & ? & ? & _ & _ & Sn). done. }
    + exists (l' ++ [data]). by eapply PendAccept.
    + exists l'. by eapply PendOther.
Qed.
Print Assumptions C43_history.
Theorem C43_only_rounds : forall e p o p' outs k id st src seq data, reachable p -> wf_op o -> step e p o = Ret (p', outs) ->
  In (id, st, src, seq, data) (data_received k outs) -> exists h, h <> k /\ o = Ranging h id.
Proof.
  intros e p o p' outs k id st src seq data R Wo H Hi.
  assert ((exists k id', o = Ranging k id') \/ forall k id', o <> Ranging k id') as [(h & id' & ->)|Nr]
    by (destruct o; try (by right); left; by eexists _, _).
  - destruct (round_spec _ _ _ _ _ _ _ (reachable_pinv _ R) H) as (s & _ & _ & _ & _ & S & _).
    assert (exists l, pending h id' p l) as (l & Hp). { apply C43_history; [done|]. by rewrite S. }
    exists h. destruct (round_spec _ _ _ _ _ _ _ (reachable_pinv _ R) H) as (s0 & s' & ms' & ks & peers & S0 & S' & N1 & N2 & F & C & P & m & ms1 & Em & A & O).
    assert (data_received k (map (fun k => OEff k (Send (DataMessageRcv id' 0 (mac_to_u64 m) 1 (s_data s0)))) peers)
      = if bool_decide (k ∈ peers) then [(id', 0x00, mac_to_u64 m, 1, s_data s0)] else []) as E.
    { unfold data_received. rewrite messages_sends by done. by destruct (bool_decide _). }
    assert (data_received k outs = if bool_decide (k ∈ peers) then [(id', 0x00, mac_to_u64 m, 1, s_data s0)] else []) as E2.
    { destruct O as [(_ & _ & ->)|(_ & _ & ->)]; [|done]. rewrite data_received_app, E. unfold data_received. rewrite messages_one.
      destruct (h =? k); cbn; by rewrite app_nil_r. }
    rewrite E2 in Hi. case_bool_decide as B; [|destruct Hi]. destruct Hi as [Hi|[]]. injection Hi as <- _ _ _ _.
    apply P in B as (Nk & _). done.
  - rewrite (calm_data k outs) in Hi; [destruct Hi|]. by eapply step_calm.
Qed.
Print Assumptions C43_only_rounds.

(** ** C44: a device receives data only in a round of an ACTIVE initiator session with in-band data, when it has an
    ACTIVE responder session with in-band data and the same id. Missing: that it has the destination address of the data. *)
Theorem C44_partial : forall e p o p' outs k id st src seq data, reachable p -> wf_op o -> step e p o = Ret (p', outs) ->
  In (id, st, src, seq, data) (data_received k outs) ->
  exists h s ps, h <> k /\ o = Ranging h id /\ session_at p h id = Some s /\ data_session 1 s
    /\ session_at p k id = Some ps /\ data_session 0 ps.
Proof.
  intros e p o p' outs k id st src seq data R Wo H Hi.
  destruct (C43_only_rounds _ _ _ _ _ _ _ _ _ _ _ R Wo H Hi) as (h & Nk & ->).
  destruct (round_spec _ _ _ _ _ _ _ (reachable_pinv _ R) H) as (s & _ & _ & _ & _ & S & _).
  destruct (C43_receivers _ _ _ _ _ _ _ k R S H) as [Rc _].
  destruct (proj1 Rc) as (_ & Ds & (ps & Sp & Dp) & _); [by intros E; rewrite E in Hi|]. by exists h, s, ps.
Qed.
Print Assumptions C44_partial.

(** ** Concrete rounds *)
(** Device 0 (address 1) and device 1 (address 2) have the ACTIVE session 7, with in-band data, and list each other;
    the session of device 0 also lists the anchor at address 0x0909. Device 2 (address 3) is like device 1. *)
Definition data_packet_of (id dst seq : N) (data : bytes) : bytes :=
  [1; 0; 0; 0] ++ le_bytes 4 id ++ le_bytes 8 dst ++ le_bytes 2 seq ++ le_bytes 2 (N.of_nat (length data)) ++ data.
Definition multi_config : list (tlv_id * bytes) := [
  (T_DEVICE_TYPE, [1]); (T_DEVICE_ROLE, [1]); (T_MULTI_NODE_MODE, [1]); (T_RANGING_ROUND_USAGE, [2]);
  (T_SCHEDULE_MODE, [1]); (T_MAC_ADDRESS_MODE, [0]); (T_DEVICE_MAC_ADDRESS, [1; 0]);
  (T_NUMBER_OF_CONTROLEES, [3]); (T_DST_MAC_ADDRESS, [2; 0; 9; 9; 3; 0]) ].
Definition start_session (h ty : N) (c : list (tlv_id * bytes)) : list op :=
  [cmd h (CmdDeviceReset 0); cmd h (CmdSessionInit 7 ty); cmd h (CmdSetAppConfig 7 c); cmd h (CmdStart 7)].
Definition linked : list op :=
  [Connect; Connect; Connect; CreateAnchor (MShort [9; 9])] ++ start_session 0 1 multi_config
  ++ start_session 1 1 (controlee_config [2; 0] [1; 0]) ++ start_session 2 1 (controlee_config [3; 0] [1; 0]).
Definition demo_estimate (a b : N) : option ranging_measurement := Some (RangingMeasurement ((100 * a + b) mod 65536) (-30) 10).
Definition demo_env : env := est_env demo_estimate.
Lemma demo_env_wf : wf_env demo_env.
Proof. intros a b r H. injection H as <-. cbn [rm_range]. by apply N.mod_lt. Qed.

Definition round_result (e : env) (p : pica) (h id : N) : pica * list out :=
  match step e p (Ranging h id) with Ret r => r | Crash _ => (p, []) end.
Lemma round_result_eq e p h id : crashed (step e p (Ranging h id)) = false ->
  step e p (Ranging h id) = Ret ((round_result e p h id).1, (round_result e p h id).2).
Proof. unfold round_result. destruct (step e p (Ranging h id)) as [[? ?]|]; [done|discriminate]. Qed.

Example C39_example :
  let p := state_after linked in let r := round_result demo_env p 0 7 in
  reachable p /\ (exists s, session_at p 0 7 = Some s /\ notifies s) /\ step demo_env p (Ranging 0 7) = Ret (r.1, r.2)
  /\ (exists x y z, sent 0 r.2 = [SessionInfoNtf 0 7 0 0 [x; y; z] []]
      /\ m_mac_address x = 0x0909 /\ m_mac_address y = 2 /\ m_mac_address z = 3
      /\ m_distance x = 3 /\ m_distance y = 1 /\ m_distance z = 2 /\ m_aoa_azimuth x = 65506).
Proof.
  split_and!.
  - apply history_reachable. by vm_compute.
  - eexists. split; [vm_compute; reflexivity|]. by vm_compute.
  - apply round_result_eq. by vm_compute.
  - eexists _, _, _. split; [vm_compute; reflexivity|]. by vm_compute.
Qed.
Example C40_example :
  let p := state_after linked in
  (exists sa sb, session_at p 0 7 = Some sa /\ session_at p 1 7 = Some sb /\ s_state sa = SsActive /\ s_state sb = SsActive
   /\ notifies sa /\ notifies sb /\ compatible sa sb)
  /\ crashed (step demo_env p (Ranging 0 7)) = false /\ crashed (step demo_env p (Ranging 1 7)) = false.
Proof.
  split; [|by split; vm_compute].
  eexists _, _. split; [vm_compute; reflexivity|]. split; [vm_compute; reflexivity|]. split_and!; try by vm_compute.
  split; [by vm_compute|]. split; [by vm_compute|].
  exists (MShort [1; 0]), (MShort [2; 0]). split_and!; try by vm_compute.
  - left.
  - left.
Qed.
Definition ranged : list op := linked ++ [Ranging 0 7; Ranging 0 7; Ranging 1 7; Ranging 0 7].
Example C41_example : exists outs, since_init 0 7 (state_after ranged) outs /\ info_seqs 0 7 outs = [0; 1; 2].
Proof.
  destruct (C41_history (state_after ranged) 0 7) as (outs & H).
  - apply history_reachable. by vm_compute.
  - by vm_compute.
  - exists outs. split; [done|]. destruct (since_seqs _ _ _ _ H) as (s & S & ->). vm_compute in S. by injection S as <-.
Qed.
Example C41_example_count : exists outs', commanded (state_after ranged) 0 (CmdGetRangingCount 7) (state_after (ranged ++ [cmd 0 (CmdGetRangingCount 7)])) outs'
  /\ sent 0 outs' = [SessionGetRangingCountRsp 0x00 3].
Proof. eexists. split; [apply history_commanded; [done|by vm_compute..]|]. by vm_compute. Qed.
Definition silent : list op :=
  [Connect; cmd 0 (CmdDeviceReset 0); cmd 0 (CmdSessionInit 7 1); cmd 0 (CmdSetAppConfig 7 (multi_config ++ [(T_SESSION_INFO_NTF_CONFIG, [0])])); cmd 0 (CmdStart 7)].
Example C42_example_disabled : exists s, reachable (state_after silent) /\ session_at (state_after silent) 0 7 = Some s
  /\ app_config_get (s_cfg s) T_SESSION_INFO_NTF_CONFIG = Some [0x00] /\ crashed (step demo_env (state_after silent) (Ranging 0 7)) = false.
Proof. eexists. split; [apply history_reachable; by vm_compute|]. split; [vm_compute; reflexivity|]. by vm_compute. Qed.
Example C42_example_enabled : exists s, reachable (state_after linked) /\ session_at (state_after linked) 0 7 = Some s
  /\ app_config_get (s_cfg s) T_SESSION_INFO_NTF_CONFIG <> Some [0x00] /\ crashed (step demo_env (state_after linked) (Ranging 0 7)) = false.
Proof. eexists. split; [apply history_reachable; by vm_compute|]. split; [vm_compute; reflexivity|]. by vm_compute. Qed.
Definition with_data : list op := linked ++ [UciPacket 0 (data_packet_of 7 2 0 [1; 2]); UciPacket 0 (data_packet_of 7 2 1 [3])].
Example C43_example : exists l, pending 0 7 (state_after with_data) l /\ concat l = [1; 2; 3]
  /\ crashed (step demo_env (state_after with_data) (Ranging 0 7)) = false
  /\ data_received 1 (round_result demo_env (state_after with_data) 0 7).2 = [(7, 0, 1, 1, [1; 2; 3])].
Proof.
  destruct (C43_history (state_after with_data) 0 7) as (l & H).
  - apply history_reachable. by vm_compute.
  - by vm_compute.
  - exists l. split; [done|]. destruct (pending_data _ _ _ _ H) as (s & S & <-). vm_compute in S. injection S as <-.
    split_and!; by vm_compute.
Qed.

(** Data for the device with address 2 is also received by the device with address 3. *)
Theorem C44_refuted : exists p h id dst seq data packet e1 p1 o1 e2 p2 o2 k ps m src,
  reachable p /\ wf_bytes packet /\ data_message id dst seq data packet /\ data <> []
  /\ step e1 p (UciPacket h packet) = Ret (p1, o1) /\ accepts h id (UciPacket h packet) o1 data
  /\ step e2 p1 (Ranging h id) = Ret (p2, o2)
  /\ session_at p1 k id = Some ps /\ device_mac_address (s_cfg ps) = Some m /\ mac_to_u64 m <> dst
  /\ data_received k o2 = [(id, 0x00, src, 1, data)].
Proof.
  pose (packet := data_packet_of 7 2 0 [1; 2]). pose (l := linked ++ [UciPacket 0 packet]).
  assert (data_message 7 2 0 [1; 2] packet) as Dm.
  { split_and!; try (by vm_compute); [by apply wf_bytesb|]. by exists 1, 0, 0, 0. }
  assert (ok_history l = true) as Ok by by vm_compute.
  destruct (history_step _ _ Ok) as [Ok' St].
  exists (state_after linked), 0, 7, 2, 0, [1; 2], packet, plain_env, (state_after l), (outs_of linked (UciPacket 0 packet)).
  exists demo_env, (round_result demo_env (state_after l) 0 7).1, (round_result demo_env (state_after l) 0 7).2, 2.
  eexists _, (MShort [3; 0]), 1.
  split; [by apply history_reachable|]. split; [by apply wf_bytesb|]. split; [exact Dm|]. split; [discriminate|]. split; [exact St|].
  split. { exists packet, 2, 0. split; [reflexivity|]. split; [exact Dm|]. by vm_compute. }
  split; [apply round_result_eq; by vm_compute|]. split; [vm_compute; reflexivity|].
  split; [reflexivity|]. split; [discriminate|]. vm_compute. reflexivity.
Qed.
Print Assumptions C44_refuted.
Example C44_example :
  let p := state_after with_data in let r := round_result demo_env p 0 7 in
  reachable p /\ step demo_env p (Ranging 0 7) = Ret (r.1, r.2) /\ In (7, 0, 1, 1, [1; 2; 3]) (data_received 1 r.2).
Proof. split_and!; [apply history_reachable; by vm_compute|apply round_result_eq; by vm_compute|vm_compute; by left]. Qed.
