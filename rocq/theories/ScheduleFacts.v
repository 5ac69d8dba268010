(** Facts about schedules. *)
From Verif Require Import Base Uci MacAddress AppConfig Codec Session Device Pica Sys BaseFacts CodecSpec CodecFacts ContextSpec InvFacts StepFacts CommandFacts
  GateFacts RangingSpec RangingFacts CrashSpec CrashFacts RoundFacts EffectFacts SysSpec SysFacts.

(** ** Starting a timer *)
Lemma fine_no_starts id e : Forall (fine false) e -> eff_starts id e = 0%nat.
Proof.
  induction 1 as [|x e F _ IH]; [done|]. unfold eff_starts in *. cbn [map list_sum foldr]. unfold list_sum in IH. rewrite IH. by destruct x.
Qed.
Lemma receive_starts b d packet d' e id : dinv b d -> wf_bytes packet -> receive_packet d packet = Ret (d', e) ->
  eff_starts id e <> 0%nat -> encodes (CmdStart id) packet.
Proof.
  intros I W R. apply receive_received in R; [|done].
  destruct R as [Hh|Hh Hd|pp d' m b' Hh Hd Hs Hw|h1 o1 rest -> Hc|Hh Hv Hr Hl|c d' e2 m b' Wc Ec Hr Hc Hw|h1 b1 b2 rest -> Hh Hr Hv Hg]; try done.
  rewrite eff_starts_app. replace (eff_starts id [Send m]) with 0%nat by done. rewrite Nat.add_0_r.
  destruct (is_start c) eqn:Sc.
  2:{ apply (handle_fine b) in Hc; [|done..]. rewrite Sc in Hc. by rewrite (fine_no_starts id _ Hc). }
  destruct c; try discriminate. cbn [handle_command] in Hc. unfold session_start in Hc.
  destruct (d_sessions d !! id0) as [s|]; [|by injection Hc as _ <- _]. destruct (negb _); [by injection Hc as _ <- _|].
  destruct (s_task s); [discriminate|]. rewrite session_set_state_eq, device_set_state_eq in Hc. apply Ret_inj in Hc. injection Hc as _ <- _.
  intros N. destruct (N.eq_dec id0 id) as [->|Ne]; [done|]. destruct N. cbn [s_state s_set_task d_state d_set_active d_set_sessions].
  apply N.eqb_neq in Ne. unfold eff_starts. repeat destruct (bool_decide _); cbn; by rewrite Ne.
Qed.
Lemma step_starts cl e p o p' outs h id : pinv cl p -> wf_op o -> step e p o = Ret (p', outs) -> timers_started h id outs <> 0%nat ->
  exists packet, o = UciPacket h packet /\ encodes (CmdStart id) packet.
Proof.
  intros I W S N. rewrite started_effs in N.
  assert ((exists h' packet, o = UciPacket h' packet) \/ eff_starts id (effs_at h outs) = 0%nat) as [(h' & packet & ->)|E]; [| |done].
  - destruct o; try (left; by eauto); right; apply fine_no_starts.
    all: assert (forall l, Forall (out_fine false) l -> Forall (fine false) (effs_at h l)) as G
      by (clear; induction 1 as [|x l F _ IH]; [constructor|]; change (effs_at h (x :: l)) with (effs_of h x ++ effs_at h l);
          apply Forall_app; split; [|done]; destruct x as [k x| | |]; cbn; try constructor; destruct (k =? h); repeat constructor; done); apply G; clear G.
    all: cbn [step] in S.
    + apply Ret_inj in S. unfold add_device, device_init in S. rewrite device_set_state_eq in S. injection S as _ <-. by repeat constructor.
    + apply Ret_inj in S. unfold disconnect in S. destruct (p_devices p !! h0) as [d|] eqn:L; injection S as _ <-; [|constructor].
      constructor; [done|]. eapply effs_fine, fine_device_drop. by apply (pi_device _ _ I _ _ L).
    + apply (round_spec cl) in S as (s & s' & ms & ks & peers & _ & _ & _ & _ & _ & _ & _ & m & ms1 & _ & _ & [(_ & _ & ->)|(_ & _ & ->)]); [| |done].
      * apply Forall_app. split; [|by repeat constructor]. apply Forall_map. by apply Forall_forall.
      * apply Forall_map. by apply Forall_forall.
    + apply Ret_inj in S. unfold stop_controlee_ranging in S. injection S as _ <-. clear N.
      induction (env_order e _) as [|k l IH]; [constructor|]. cbn [map concat]. apply Forall_app. split; [|done].
      destruct (p_devices p !! k) as [d|] eqn:L; [|constructor]. eapply effs_fine, stop_fine. by apply (pi_device _ _ I _ _ L).
    + unfold create_anchor in S. destruct (get_category p m); [injection S as _ <-; by repeat constructor|].
      destruct (p_anchors p !! m); [discriminate|]. injection S as _ <-; by repeat constructor.
    + apply Ret_inj in S. unfold destroy_anchor in S. destruct (p_anchors p !! m); injection S as _ <-; by repeat constructor.
    + apply Ret_inj in S. injection S as _ <-. constructor.
  - cbn [step] in S. unfold uci_packet in S. destruct (p_devices p !! h') as [d|] eqn:L; [|injection S as _ <-; done].
    destruct (receive_packet d packet) as [[d1 e1]|] eqn:R; [|discriminate]. cbn [obind] in S. apply Ret_inj in S. injection S as _ <-.
    destruct (N.eq_dec h h') as [<-|Ne]; [|by rewrite effs_at_other in N].
    rewrite effs_at_same in N. exists packet. split; [done|]. eapply receive_starts; eauto. by apply (pi_device _ _ I _ _ L).
Qed.

Lemma step_otask cl e p o p' outs h id : pinv cl p -> wf_op o -> step e p o = Ret (p', outs) ->
  (forall packet, o = UciPacket h packet -> ~ encodes (CmdStart id) packet) ->
  (otask (p_devices p' !! h) id <= otask (p_devices p !! h) id)%nat.
Proof.
  intros I W S N. destruct (step_hstep _ _ _ _ _ _ h I W S) as ([_ T] & _). specialize (T id).
  assert (timers_started h id outs = 0%nat) as E.
  { destruct (Nat.eq_dec (timers_started h id outs) 0) as [?|Ne]; [done|].
    destruct (step_starts _ _ _ _ _ _ _ _ I W S Ne) as (packet & -> & Ec). by destruct (N packet). }
  rewrite started_effs in E. lia.
Qed.
Lemma stop_otask cl e p h id packet p' outs : pinv cl p -> wf_bytes packet -> wf_cmd (CmdStop id) -> encodes (CmdStop id) packet ->
  step e p (UciPacket h packet) = Ret (p', outs) -> In (SessionStopRsp 0x00) (sent h outs) -> otask (p_devices p' !! h) id = 0%nat.
Proof.
  intros I W Wc Ec S A. cbn [step] in S. unfold uci_packet in S. destruct (p_devices p !! h) as [d|] eqn:L; [|apply Ret_inj in S; injection S as _ <-; destruct A].
  destruct (receive_packet d packet) as [[d1 e1]|] eqn:R; [|discriminate]. cbn [obind] in S. apply Ret_inj in S. injection S as <- <-.
  rewrite sent_effs, effs_at_same in A. apply receive_received in R; [|done]. cbn [p_devices p_set_device p_set_devices]. rewrite lookup_insert. cbn [otask].
  destruct R as [Hh|Hh Hd|pp d' m b' Hh Hd Hs Hw|h1 o1 rest -> Hc|Hh Hv Hr Hl|c d' e2 m b' Wc' Ec' Hr Hc Hw|h1 b1 b2 rest -> Hh Hr Hv Hg]; try (by cbn in A; destruct A as [?|[]]); try done.
  - pose proof (encodes_hd _ _ Ec). lia.
  - rewrite (encodes_inj _ _ _ W Wc' Wc Ec' Ec) in Hc. cbn [handle_command] in Hc.
    assert (m = SessionStopRsp 0) as ->.
    { rewrite eff_sent_app, (eff_sent_none e2) in A; [by destruct A as [?|[]]|]. eapply (handle_no_send d (CmdStop id)); [|done|done].
      destruct (pi_device _ _ I _ _ L) as (Id & _). by eapply dinv_weaken. }
    unfold session_stop in Hc. destruct (d_sessions d !! id) as [s|]; [|discriminate]. destruct (negb _); [discriminate|].
    rewrite stop_ranging_task_eq, session_set_state_eq in Hc. destruct (device_dec_active _) as [[d2 e3]|] eqn:D; [|discriminate]. cbn [obind] in Hc.
    apply Ret_inj in Hc. injection Hc as <- _. apply dec_active_inv in D as (_ & -> & _). unfold dtask. cbn. by rewrite lookup_insert.
Qed.
Lemma run_otask l p p' outs h id : wf_history l -> reachable p -> run p l = Ret (p', outs) -> no_start h id l ->
  (otask (p_devices p' !! h) id <= otask (p_devices p !! h) id)%nat.
Proof.
  revert p outs. induction l as [|[e o] l IH]; intros p outs F R H N; cbn [run] in H; [by injection H as <- _|].
  destruct (step e p o) as [[p1 o1]|] eqn:S; [|discriminate]. cbn [obind] in H. destruct (run p1 l) as [[p2 o2]|] eqn:R2; [|discriminate].
  cbn [obind] in H. injection H as <- _. inversion F as [|? ? [We Wo] F']; subst. cbn [fst snd] in *.
  etransitivity; [eapply IH; [done| |exact R2|]|].
  - destruct R as (l0 & o0 & R). eexists _, _. by eapply reaches_snoc.
  - intros e' packet I. apply (N e'). by right.
  - eapply step_otask; [by apply reachable_pinv|done|done|]. intros packet ->. apply (N e). by left.
Qed.
Lemma was_stopped_otask l p outs h id : reaches l p outs -> was_stopped h id l -> otask (p_devices p !! h) id = 0%nat.
Proof.
  intros [F R] (l1 & e & packet & l2 & p1 & outs1 & p2 & outs2 & -> & Wc & Ec & R1 & S & A & N).
  apply Forall_app in F as [F1 F2]. inversion F2 as [|? ? [We Wo] F3]; subst. cbn [fst snd] in *.
  assert (reaches l1 p1 outs1) as Re1 by done.
  rewrite run_app, R1 in R. cbn [obind run] in R. rewrite S in R. cbn [obind] in R.
  destruct (run p2 l2) as [[p3 o3]|] eqn:R2; [|discriminate]. cbn [obind] in R. injection R as <- _.
  assert (reachable p2) as Re2 by (eexists _, _; by eapply reaches_snoc).
  pose proof (run_otask _ _ _ _ h id F3 Re2 R2 N) as Le.
  rewrite (stop_otask _ _ _ _ _ _ _ _ (reaches_pinv _ _ _ Re1) Wo Wc Ec S A) in Le. lia.
Qed.

(** ** Counting the notifications of a stopped session *)
Definition infos (id : N) (l : list msg) : nat := length (concat (map (info_seq id) l)).
Lemma infos_app id l l' : infos id (l ++ l') = (infos id l + infos id l')%nat.
Proof. unfold infos. by rewrite map_app, concat_app, app_length. Qed.
Lemma infos_by_task id m : by_task m = true -> infos id [m] = 0%nat.
Proof. by destruct m. Qed.
Lemma infos_sent id h outs : (infos id (sent h outs) <= infos id (messages h outs))%nat.
Proof.
  induction outs as [|o outs IH]; [done|]. change (sent h (o :: outs)) with (sent_to h o ++ sent h outs).
  change (messages h (o :: outs)) with (messages_to h o ++ messages h outs). rewrite !infos_app. unfold messages_to. rewrite infos_app. lia.
Qed.
Lemma step_infos cl e p o p' outs h id : pinv cl p -> wf_op o -> step e p o = Ret (p', outs) ->
  (infos id (sent h outs) <= if is_ranging h id o then 1 else 0)%nat.
Proof.
  intros I W S. destruct (is_ranging h id o) eqn:R0.
  - destruct o; try discriminate. apply andb_true_iff in R0 as [E1 E2]. apply N.eqb_eq in E1 as ->, E2 as ->.
    etransitivity; [apply infos_sent|].
    apply (round_spec _ _ _ _ _ _ _ I) in S as (s & s' & ms & ks & peers & _ & _ & _ & Np & _ & _ & _ & m & ms1 & _ & _ & [(_ & _ & ->)|(_ & _ & ->)]).
    + rewrite messages_app, infos_app, messages_one, N.eqb_refl, messages_sends by done. destruct (bool_decide _); cbn; destruct (id =? id); cbn; lia.
    + rewrite messages_sends by done. destruct (bool_decide _); cbn; lia.
  - etransitivity; [apply infos_sent|].
    assert ((exists h' id', o = Ranging h' id') \/ forall h' id', o <> Ranging h' id') as [(h' & id' & ->)|N] by (destruct o; eauto).
    + apply (round_spec _ _ _ _ _ _ _ I) in S as (s & s' & ms & ks & peers & _ & _ & _ & Np & _ & _ & _ & m & ms1 & _ & _ & [(_ & _ & ->)|(_ & _ & ->)]).
      * cbn in R0. rewrite messages_app, infos_app, messages_one, messages_sends by done. destruct (N.eqb_spec h' h) as [->|]; cbn [andb] in R0.
        -- unfold infos. cbn. rewrite R0. destruct (bool_decide _); cbn; lia.
        -- destruct (bool_decide _); cbn; lia.
      * rewrite messages_sends by done. destruct (bool_decide _); cbn; lia.
    + pose proof (calm_info h id outs (step_calm _ _ _ _ _ W S N)) as E. unfold info_seqs in E. unfold infos. by rewrite E.
Qed.
Lemma abort_dying h id h' id' l : (length (List.filter (fun t => is_timer h' id' t && negb (t_live t)) (map (abort h id) l))
  <= length (List.filter (fun t => is_timer h' id' t && negb (t_live t)) l) + length (List.filter (fun t => is_timer h' id' t && t_live t) l))%nat.
Proof.
  induction l as [|t l IH]; [done|]. cbn [map List.filter].
  assert (is_timer h' id' (abort h id t) = is_timer h' id' t) as -> by (unfold abort, is_timer; by destruct ((t_host t =? h) && (t_session t =? id))).
  destruct (is_timer h' id' t); cbn [andb]; [|exact IH]. unfold abort at 1. destruct (_ && _), (t_live t) eqn:E; cbn [t_live negb]; rewrite ?E; cbn [negb length]; lia.
Qed.
Lemma executed_sub ls0 y0 ls y : executed ls0 y0 -> continues y0 ls y -> exists outs, sinv y (processed (ls0 ++ ls) sys_new) outs.
Proof. intros E C. eapply executed_sinv, executed_continues; done. Qed.
Lemma no_start_app h id l l' : no_start h id (l ++ l') <-> no_start h id l /\ no_start h id l'.
Proof.
  split.
  - intros N. split; intros e packet I; apply (N e), in_or_app; auto.
  - intros [N1 N2] e packet [I|I]%in_app_or; [by eapply N1|by eapply N2].
Qed.

Lemma filter_snoc {A} (f : A -> bool) l x : length (List.filter f (l ++ [x])) = (length (List.filter f l) + (if f x then 1 else 0))%nat.
Proof. rewrite List.filter_app, app_length. cbn. by destruct (f x). Qed.

Definition potential (h id : N) (y : sys) : nat :=
  (infos id (delivered h y) + infos id (sent h (y_todo y)) + queued_rounds h id y + dying_timers h id y)%nat.

Lemma quiet_step ls0 y0 l y' h id : executed ls0 y0 -> wf_label l -> moved y0 l y' ->
  live_timers h id y0 = 0%nat -> timers_started h id (y_todo y0) = 0%nat -> no_start h id (taken l y0) ->
  live_timers h id y' = 0%nat /\ timers_started h id (y_todo y') = 0%nat /\ (potential h id y' <= potential h id y0)%nat.
Proof.
  intros Ex W M Lv St Ns. destruct (executed_sinv _ _ Ex) as (outs & I). destruct I as [R Q _ _ _ Dl _ _ _].
  assert (pinv (fun _ => false) (y_pica y0)) as Pi by (eapply reachable_pinv; eexists _, _; done).
  assert (forall l', length (List.filter (is_ranging h id) l') = queued_rounds h id (y_set_queue l' y0)) as Qr by done.
  assert (forall y1 o, y_queue y1 = y_queue y0 ++ [o] -> is_ranging h id o = false -> y_todo y1 = y_todo y0 -> y_timers y1 = y_timers y0 -> y_log y1 = y_log y0 ->
    live_timers h id y1 = 0%nat /\ timers_started h id (y_todo y1) = 0%nat /\ (potential h id y1 <= potential h id y0)%nat) as Enq.
  { intros y1 o E1 E2 E3 E4 E5. unfold potential, live_timers, dying_timers, queued_rounds, delivered. rewrite E1, E3, E4, E5, filter_snoc, E2. split_and!; [done|done|lia]. }
  destruct M; try (by split_and!); try (by eapply Enq).
  - (* take *) split; [done|]. rewrite H0 in Q. apply Forall_cons in Q as [Wo _]. cbn [y_todo y_set_pica y_set_strict y_set_todo y_set_queue].
    cbn [taken] in Ns. rewrite H0, H1 in Ns. cbn [crashed] in Ns. split.
    + destruct (Nat.eq_dec (timers_started h id outs0) 0) as [?|Ne]; [done|].
      destruct (step_starts _ _ _ _ _ _ _ _ Pi Wo H1 Ne) as (packet & -> & Ec). destruct (Ns e packet); [by left|done].
    + unfold potential, queued_rounds. cbn [y_todo y_queue y_set_pica y_set_strict y_set_todo y_set_queue].
      pose proof (step_infos _ _ _ _ _ _ h id Pi Wo H1) as Le. rewrite H0, H. cbn [List.filter].
      change (delivered h (y_set_pica _ _)) with (delivered h y0). change (dying_timers h id (y_set_pica _ _)) with (dying_timers h id y0).
      change (infos id (sent h [])) with 0%nat. destruct (is_ranging h id o); cbn [length]; lia.
  - (* crash *) split_and!; [done|by cbn; rewrite H|]. unfold potential, queued_rounds. cbn [y_todo y_queue y_set_crash y_set_queue].
    rewrite H0. cbn [List.filter]. change (delivered h (y_set_crash _ _)) with (delivered h y0). change (dying_timers h id (y_set_crash _ _)) with (dying_timers h id y0).
    destruct (is_ranging h id o); cbn [length]; lia.
  - (* effect *) destruct (perform_fields o (y_set_todo todo y0)) as (Ep & En & Eq & Et & Es).
    rewrite H, timers_started_cons in St. unfold potential, queued_rounds. rewrite Et, Eq. cbn [y_todo y_queue y_set_todo]. rewrite H.
    change (sent h (o :: todo)) with (sent_to h o ++ sent h todo). rewrite infos_app.
    assert (forall y1, y_timers y1 = y_timers y0 -> delivered h y1 = delivered h y0 -> live_timers h id y1 = 0%nat
      /\ timers_started h id todo = 0%nat
      /\ (infos id (delivered h y1) + infos id (sent h todo) + length (List.filter (is_ranging h id) (y_queue y0)) + dying_timers h id y1
      <= infos id (delivered h y0) + (infos id (sent_to h o) + infos id (sent h todo)) + length (List.filter (is_ranging h id) (y_queue y0)) + dying_timers h id y0)%nat) as Same.
    { intros y1 E1 E2. unfold live_timers, dying_timers. rewrite E1, E2. split_and!; [done|lia|lia]. }
    destruct o as [k [m|ms m|id0 iv|id0|]| | |]; try (by apply Same).
    + cbn [perform]. destruct (_ && _); [by apply Same|].
      destruct (deliver_fields k m (y_set_todo todo y0)) as (_ & _ & _ & _ & Etm & _). unfold live_timers, dying_timers. rewrite Etm. cbn [y_timers y_set_todo].
      split_and!; [done|lia|]. rewrite delivered_deliver, infos_app. change (delivered h (y_set_todo todo y0)) with (delivered h y0). cbn [sent_to].
      destruct (k =? h); [|rewrite andb_false_r; cbn; lia]. destruct (negb _); cbn [andb]; [lia|]. change (infos id []) with 0%nat. lia.
    + cbn [starts_timer] in St. destruct (_ && _) eqn:Em; [lia|]. split_and!; [|lia|].
      * unfold live_timers. cbn [perform y_timers y_set_timers y_set_todo]. rewrite filter_snoc. fold (live_timers h id y0). rewrite Lv.
        unfold is_timer. cbn [t_host t_session]. by rewrite Em.
      * unfold dying_timers. cbn [perform y_timers y_set_timers y_set_todo]. rewrite filter_snoc. unfold is_timer at 2. cbn [t_host t_session]. rewrite Em. cbn [andb].
        change (delivered h (y_set_timers _ _)) with (delivered h y0). lia.
    + split_and!; [|lia|].
      * unfold live_timers. cbn [perform y_timers y_set_timers y_set_todo]. rewrite abort_live. fold (live_timers h id y0). rewrite Lv. by destruct (_ && _).
      * unfold dying_timers. cbn [perform y_timers y_set_timers y_set_todo]. pose proof (abort_dying k id0 h id (y_timers y0)) as Le.
        unfold live_timers in Lv. rewrite Lv in Le. change (delivered h (y_set_timers _ _)) with (delivered h y0). lia.
  - (* timer *) assert (is_timer h id t = false) as Ne.
    { destruct (is_timer h id t) eqn:E; [|done]. unfold live_timers in Lv.
      pose proof (filter_delete_length (fun t => is_timer h id t && t_live t) _ _ _ H) as Le. cbn beta in Le. rewrite E, H2 in Le. cbn in Le. lia. }
    split_and!; [|done|].
    + unfold live_timers. cbn [y_timers y_set_timers y_set_queue]. erewrite filter_insert_length; [exact Lv|exact H|]. unfold is_timer. cbn. by rewrite H2.
    + unfold potential, queued_rounds, dying_timers. cbn [y_timers y_queue y_set_timers y_set_queue]. rewrite filter_snoc.
      erewrite filter_insert_length; [|exact H|unfold is_timer; cbn; by rewrite H2]. cbn [is_ranging]. unfold is_timer in Ne. rewrite Ne.
      change (delivered h (y_set_timers _ _)) with (delivered h y0). cbn [y_todo y_set_timers y_set_queue]. lia.
  - (* late *) split_and!; [|done|].
    + unfold live_timers. cbn [y_timers y_set_timers y_set_queue].
      pose proof (filter_delete_length (fun t => is_timer h id t && t_live t) _ _ _ H) as Le. unfold live_timers in Lv. rewrite Lv in Le. by apply Nat.eq_add_0 in Le as [? _].
    + unfold potential, queued_rounds, dying_timers. cbn [y_timers y_queue y_set_timers y_set_queue]. rewrite filter_snoc.
      pose proof (filter_delete_length (fun t => is_timer h id t && negb (t_live t)) _ _ _ H) as Le. cbn beta in Le. rewrite H2 in Le. cbn [negb] in Le. rewrite andb_true_r in Le.
      cbn [is_ranging]. fold (is_timer h id t). change (delivered h (y_set_timers _ _)) with (delivered h y0). cbn [y_todo y_set_timers y_set_queue].
      fold (is_timer h id t) in *. unfold is_timer in *. destruct (_ && _); lia.
  - (* end of a timer *) split_and!; [|done|].
    + unfold live_timers. cbn [y_timers y_set_timers].
      pose proof (filter_delete_length (fun t => is_timer h id t && t_live t) _ _ _ H) as Le. unfold live_timers in Lv. rewrite Lv in Le. by apply Nat.eq_add_0 in Le as [? _].
    + unfold potential, queued_rounds, dying_timers. cbn [y_timers y_queue y_set_timers].
      pose proof (filter_delete_length (fun t => is_timer h id t && negb (t_live t)) _ _ _ H) as Le.
      change (delivered h (y_set_timers _ _)) with (delivered h y0). cbn [y_todo y_set_timers]. cbn beta in Le. destruct (is_timer h id t && negb (t_live t)); lia.
  - (* notify *) destruct (deliver_fields (n_host n) (n_msg n) (y_set_delayed (delete i (y_delayed y0)) y0)) as (_ & _ & Eq & Et & Etm & _).
    unfold live_timers, potential, queued_rounds, dying_timers. rewrite Eq, Et, Etm. split_and!; [done|done|].
    rewrite delivered_deliver, infos_app. change (delivered h (y_set_delayed _ _)) with (delivered h y0). cbn [y_todo y_timers y_queue y_set_delayed].
    eapply lookup_wf in H; [|exact Dl]. cbn beta in H. pose proof (infos_by_task id _ H) as E. destruct (_ && _); [rewrite E|change (infos id []) with 0%nat]; lia.
Qed.

Lemma quiet_run ls0 y0 ls y h id : executed ls0 y0 -> continues y0 ls y -> 
  live_timers h id y0 = 0%nat -> timers_started h id (y_todo y0) = 0%nat -> no_start h id (processed ls y0) ->
  live_timers h id y = 0%nat /\ timers_started h id (y_todo y) = 0%nat /\ (potential h id y <= potential h id y0)%nat.
Proof.
  intros Ex C Lv St. revert ls y C. refine (continues_ind _ _ _ _); [intros _; by split_and!|].
  intros ls y l y' C IH W Cr M S Ns. rewrite (processed_snoc _ _ _ _ _ (proj2 C) S) in Ns. apply no_start_app in Ns as [N1 N2].
  destruct (IH N1) as (L1 & S1 & P1).
  destruct (quiet_step (ls0 ++ ls) y l y' h id) as (L2 & S2 & P2); try done; [by eapply executed_continues|]. split_and!; [done..|lia].
Qed.

(** ** The pace of a ranging task *)
Lemma fires_snoc h id ls l y0 y y' : sys_run ls y0 = Some y -> sys_step l y = Some y' ->
  fires h id (ls ++ [l]) y0 = (fires h id ls y0 + fired h id l y)%nat.
Proof.
  revert y0. induction ls as [|a ls IH]; intros y0 R S; cbn [app fires sys_run] in *.
  - injection R as ->. rewrite S. lia.
  - destruct (sys_step a y0) as [y1|]; [|discriminate]. cbn in R. rewrite (IH _ R S). lia.
Qed.
Lemma filter_two {A} (f : A -> bool) l i j x z : l !! i = Some x -> l !! j = Some z -> f x = true -> f z = true ->
  (length (List.filter f l) <= 1)%nat -> i = j.
Proof.
  intros Hi Hj Fx Fz Le. destruct (decide (i = j)) as [|Ne]; [done|]. exfalso.
  pose proof (filter_delete_length f _ _ _ Hi) as E1. rewrite Fx in E1.
  assert (exists k, delete i l !! k = Some z) as [k Hk].
  { destruct (decide (j < i)%nat).
    - exists j. by rewrite lookup_delete_lt.
    - exists (pred j). rewrite lookup_delete_ge by lia. by replace (S (pred j)) with j by lia. }
  pose proof (filter_delete_length f _ _ _ Hk) as E2. rewrite Fz in E2. lia.
Qed.
Definition paced (h id interval now0 : N) (k : nat) (y : sys) : Prop :=
  timers_started h id (y_todo y) = 0%nat
  /\ (k = 0%nat \/ now0 + N.of_nat (k - 1) * interval <= y_now y) /\ now0 <= y_now y
  /\ Forall (fun t => is_timer h id t = true -> t_live t = true ->
       t_interval t = interval /\ (k = 0%nat \/ now0 + N.of_nat k * interval <= t_deadline t)) (y_timers y).
Lemma paced_step ls0 y l y' h id interval now0 k : executed ls0 y -> wf_label l -> moved y l y' -> paced h id interval now0 k y ->
  no_start h id (taken l y) -> paced h id interval now0 (k + fired h id l y) y'.
Proof.
  intros Ex W M (St & Kn & Nw & F) Ns. destruct (executed_sinv _ _ Ex) as (outs & I). destruct I as [R Q _ _ _ _ _ _ Tm].
  assert (pinv (fun _ => false) (y_pica y)) as Pi by (eapply reachable_pinv; eexists _, _; done).
  assert (forall y1, y_todo y1 = y_todo y -> y_now y1 = y_now y -> y_timers y1 = y_timers y -> fired h id l y = 0%nat ->
    paced h id interval now0 (k + fired h id l y) y1) as Same.
  { intros y1 E1 E2 E3 ->. rewrite Nat.add_0_r. unfold paced. by rewrite E1, E2, E3. }
  destruct M; try (by apply Same).
  - (* take *) cbn [fired]. rewrite Nat.add_0_r. rewrite H0 in Q. apply Forall_cons in Q as [Wo _]. split; [|done].
    cbn [taken] in Ns. rewrite H0, H1 in Ns. cbn [crashed] in Ns. cbn [y_todo y_set_pica y_set_strict y_set_todo y_set_queue].
    destruct (Nat.eq_dec (timers_started h id outs0) 0) as [?|Ne]; [done|].
    destruct (step_starts _ _ _ _ _ _ _ _ Pi Wo H1 Ne) as (packet & -> & Ec). destruct (Ns e packet); [by left|done].
  - (* effect *) cbn [fired]. rewrite Nat.add_0_r. destruct (perform_fields o (y_set_todo todo y)) as (Ep & En & Eq & Et & Es).
    unfold paced. rewrite Et, En. cbn [y_todo y_now y_set_todo]. rewrite H, timers_started_cons in St. split; [lia|]. split; [done|]. split; [done|].
    destruct o as [h0 [m|ms m|id0 iv|id0|]| | |]; try done; cbn [perform].
    + destruct (_ && _); [done|]. destruct (deliver_fields h0 m (y_set_todo todo y)) as (_ & _ & _ & _ & -> & _). done.
    + cbn [y_timers y_set_timers y_set_todo]. apply Forall_app. split; [done|]. constructor; [|constructor]. intros E _. unfold is_timer in E. cbn [t_host t_session] in E.
      cbn [starts_timer] in St. rewrite E in St. lia.
    + cbn [y_timers y_set_timers y_set_todo]. apply Forall_map. eapply Forall_impl; [exact F|]. intros t G E L. unfold abort in *.
      destruct (_ && _); [done|]. by apply G.
  - (* timer *) cbn [fired]. rewrite H, H2, andb_true_r. split; [done|]. cbn [y_timers y_now y_set_timers y_set_queue].
    destruct (is_timer h id t) eqn:E.
    + pose proof (Forall_lookup_1 _ _ _ _ F H E H2) as [Ei Ek]. split_and!; [|done|].
      * right. replace (k + 1 - 1)%nat with k by lia. destruct Ek as [->|Ek]; [cbn; lia|lia].
      * apply Forall_lookup. intros j u Hj Eu Lu. rewrite list_lookup_insert_Some in Hj. destruct Hj as [(<- & <- & _)|(Ne & Hj)].
        -- cbn [t_interval t_deadline]. split; [done|]. right. rewrite Ei. destruct Ek as [->|Ek]; [cbn [y_now y_set_now]; lia|].
           replace (N.of_nat (k + 1)) with (N.of_nat k + 1) by lia. rewrite N.mul_add_distr_r. lia.
        -- destruct Ne. destruct (Tm h id) as [_ Le]. unfold live_timers in Le. eapply filter_two; [exact H|exact Hj| | |exact Le]; cbn beta; [by rewrite E, H2|by rewrite Eu, Lu].
    + rewrite Nat.add_0_r. split_and!; [done|done|]. apply Forall_insert; [done|]. intros Eu. unfold is_timer in *. cbn in Eu. congruence.
  - (* late *) cbn [fired]. rewrite H, H2, andb_false_r, Nat.add_0_r. split_and!; [done|done|done|]. cbn. by apply Forall_delete.
  - cbn [fired]. rewrite Nat.add_0_r. split_and!; [done|done|done|]. cbn. by apply Forall_delete.
  - destruct (deliver_fields (n_host n) (n_msg n) (y_set_delayed (delete i (y_delayed y)) y)) as (_ & En & _ & Et & Etm & _). by apply Same.
  - cbn [fired]. rewrite Nat.add_0_r. split_and!; [done| |cbn; lia|done]. destruct Kn as [?|Kn]; [by left|right]. cbn. lia.
Qed.
Lemma paced_run ls0 y0 ls y h id t : executed ls0 y0 -> In t (y_timers y0) -> is_timer h id t = true -> t_live t = true ->
  continues y0 ls y -> no_start h id (processed ls y0) -> paced h id (t_interval t) (y_now y0) (fires h id ls y0) y.
Proof.
  intros Ex It E L C. revert ls y C. refine (continues_ind _ _ _ _).
  - intros _. destruct (executed_sinv _ _ Ex) as (outs & I). destruct I as [R Q _ _ [st Fn] _ _ _ Tm]. destruct (Tm h id) as [T1 T2].
    apply elem_of_list_In, elem_of_list_lookup in It as [i Hi].
    assert (1 <= live_timers h id y0)%nat as L1.
    { pose proof (filter_delete_length (fun t => is_timer h id t && t_live t) _ _ _ Hi) as Le. cbn beta in Le. rewrite E, L in Le. unfold live_timers. cbn in Le. lia. }
    pose proof (otask_le (p_devices (y_pica y0) !! h) id) as Le. pose proof (fine_one_way st h id _ Fn) as Ow.
    split; [destruct st; lia|]. cbn [fires]. split; [by left|]. split; [lia|]. apply Forall_lookup. intros j u Hj Eu Lu.
    assert (i = j) as <-.
    { unfold live_timers in T2. eapply filter_two; [exact Hi|exact Hj| | |exact T2]; cbn beta; [by rewrite E, L|by rewrite Eu, Lu]. }
    rewrite Hi in Hj. injection Hj as <-. split; [done|by left].
  - intros ls y l y' C IH W Cr M S Ns. rewrite (processed_snoc _ _ _ _ _ (proj2 C) S) in Ns. apply no_start_app in Ns as [N1 N2].
    rewrite (fires_snoc _ _ _ _ _ _ _ (proj2 C) S). eapply paced_step; [by eapply executed_continues|done|done|by apply IH|done].
Qed.

(** ** Orderly schedules *)
Lemma along_snoc P ls l y0 y : sys_run ls y0 = Some y -> (along P (ls ++ [l]) y0 <-> along P ls y0 /\ P l y) .
Proof.
  revert y0. induction ls as [|a ls IH]; intros y0 R; cbn [app along sys_run] in *.
  - injection R as ->. destruct (sys_step l y); tauto.
  - destruct (sys_step a y0) as [y1|]; [|discriminate]. cbn in R. rewrite (IH _ R). tauto.
Qed.
Lemma otask_session p h id : otask (p_devices p !! h) id <> 0%nat -> session_at p h id <> None.
Proof. unfold otask, dtask, session_at. destruct (p_devices p !! h) as [d|]; [|done]. cbn. by destruct (d_sessions d !! id). Qed.
Lemma orderly_rounds ls y : executed ls y -> along orderly ls sys_new ->
  forall h id, In (Ranging h id) (y_queue y) -> session_at (y_pica y) h id <> None.
Proof.
  revert ls y. refine (executed_ind _ _ _); [done|]. intros ls y l y' Ex IH W Cr M S O h id In'.
  apply (along_snoc _ _ _ _ _ (proj2 Ex)) in O as [O Ol]. specialize (IH O h id).
  assert (forall o q, y_queue y = q -> y_queue y' = q ++ [o] -> y_pica y' = y_pica y -> o <> Ranging h id -> session_at (y_pica y') h id <> None) as Enq.
  { intros o q E1 E2 E3 Ne. rewrite E3. rewrite E2 in In'. apply in_app_or in In' as [In'|[E|[]]]; [|by destruct Ne]. apply IH. by rewrite E1. }
  assert (p_devices (y_pica y') = p_devices (y_pica y) -> y_queue y' = y_queue y -> session_at (y_pica y') h id <> None) as Same.
  { intros E1 E2. unfold session_at. rewrite E1. apply IH. by rewrite <- E2. }
  destruct M; try (by apply Same); try (by eapply Enq).
  - cbn [orderly] in Ol. intros N. cbn [y_queue y_set_pica y_set_strict y_set_todo y_set_queue] in In'.
    assert (session_at (y_pica y) h id <> None) as Ne by (apply IH; rewrite H0; by right).
    specialize (Ol _ h id S Ne N). unfold queued_rounds in Ol. cbn [y_queue y_set_pica y_set_strict y_set_todo y_set_queue] in Ol.
    assert (In (Ranging h id) (List.filter (is_ranging h id) q)) as I2.
    { apply filter_In. split; [done|]. cbn. by rewrite !N.eqb_refl. }
    by destruct (List.filter _ q).
  - apply IH. rewrite H0. by right.
  - destruct (perform_fields o (y_set_todo todo y)) as (Ep & En & Eq & Et & Es). apply Same; [by rewrite Ep|by rewrite Eq].
  - destruct Ol as [Et Li]. cbn [y_queue y_set_timers y_set_queue y_pica] in *. apply in_app_or in In' as [In'|[E|[]]]; [by apply IH|]. injection E as <- <-.
    destruct (executed_sinv _ _ Ex) as (outs & I). destruct (si_timers _ _ _ I (t_host t) (t_session t)) as [T1 _]. rewrite Et in T1. cbn in T1.
    apply otask_session. rewrite <- (Nat.add_0_r (live_timers _ _ _)) in T1.
    assert (live_timers (t_host t) (t_session t) y <> 0)%nat; [|unfold timers_started, timers_stopped in T1; cbn in T1; lia].
    pose proof (filter_delete_length (fun t' => is_timer (t_host t) (t_session t) t' && t_live t') _ _ _ H) as Le. cbn beta in Le.
    unfold is_timer in Le at 2. rewrite !N.eqb_refl, H2 in Le. unfold live_timers. cbn [andb] in Le. lia.
  - destruct Ol as [_ Li]. specialize (Li _ H). congruence.
  - destruct (deliver_fields (n_host n) (n_msg n) (y_set_delayed (delete i (y_delayed y)) y)) as (Ep & En & Eq & _). apply Same; [by rewrite Ep|by rewrite Eq].
Qed.

(** ** The event loop never blocks *)
Lemma processed_none ls y : sys_run ls y <> None -> (forall l, In l ls -> l = LEffect) -> processed ls y = [].
Proof.
  revert y. induction ls as [|l ls IH]; intros y R A; [done|]. cbn [sys_run processed] in *. destruct (sys_step l y) as [y'|]; [|done]. cbn in R.
  rewrite (A l) by by left. cbn. apply IH; [done|]. intros l' I. apply A. by right.
Qed.
Lemma perform_crash o y : y_crash y = None -> y_crash (perform o y) = None \/ exists s, y_crash (perform o y) = Some s.
Proof. intros _. destruct (y_crash (perform o y)); eauto. Qed.
Lemma finish_effects n y : length (y_todo y) = n -> y_crash y = None ->
  exists ls y', (forall l, In l ls -> l = LEffect) /\ sys_run ls y = Some y' /\ (y_crash y' <> None \/ y_crash y' = None /\ y_todo y' = [] /\ y_queue y' = y_queue y).
Proof.
  revert y. induction n as [|n IH]; intros y L C.
  - exists [], y. split; [intros ? []|]. split; [done|]. right. by destruct (y_todo y).
  - destruct (y_todo y) as [|o todo] eqn:T; [discriminate|]. destruct (perform_fields o (y_set_todo todo y)) as (Ep & En & Eq & Et & Es).
    assert (sys_step LEffect y = Some (perform o (y_set_todo todo y))) as St by (unfold sys_step; by rewrite C, T).
    destruct (y_crash (perform o (y_set_todo todo y))) as [s|] eqn:Cr.
    + exists [LEffect], (perform o (y_set_todo todo y)). split; [by intros l [<-|[]]|]. cbn [sys_run]. rewrite St. split; [done|]. left. by rewrite Cr.
    + destruct (IH (perform o (y_set_todo todo y))) as (ls & y' & A & R & D); [rewrite Et; cbn in *; lia|done|].
      exists (LEffect :: ls), y'. split; [by intros l [<-|I]; [|apply A]|]. cbn [sys_run]. rewrite St. split; [done|].
      destruct D as [D|(D1 & D2 & D3)]; [by left|right]. split; [done|]. split; [done|]. by rewrite D3, Eq.
Qed.
Lemma drain e y : wf_env e -> exists ls y', Forall (fun l => l = LEffect \/ l = LTake e) ls /\ continues y ls y'
  /\ (y_crash y' <> None \/ y_queue y' = [] /\ y_todo y' = [] /\ (processed ls y).*2 = y_queue y).
Proof.
  intros We.
  assert (forall n y, length (y_queue y) = n -> y_crash y = None -> exists ls y', Forall (fun l => l = LEffect \/ l = LTake e) ls /\ sys_run ls y = Some y'
    /\ (y_crash y' <> None \/ y_queue y' = [] /\ y_todo y' = [] /\ (processed ls y).*2 = y_queue y)) as G.
  { clear y. induction n as [|n IH]; intros y L C.
    - destruct (finish_effects _ y eq_refl C) as (ls & y' & A & R & D). exists ls, y'. split; [apply Forall_forall; intros l Hl; left; by apply A, elem_of_list_In|].
      split; [done|]. destruct D as [D|(D1 & D2 & D3)]; [by left|right]. rewrite D3, (processed_none ls y); [|congruence|done]. by destruct (y_queue y).
    - destruct (finish_effects _ y eq_refl C) as (ls & y1 & A & R & D). destruct D as [D|(D1 & D2 & D3)].
      + exists ls, y1. split; [apply Forall_forall; intros l Hl; left; by apply A, elem_of_list_In|]. split; [done|]. by left.
      + destruct (y_queue y) as [|o q] eqn:Q; [discriminate|].
        assert (Forall (fun l => l = LEffect \/ l = LTake e) (ls ++ [LTake e])) as Fl.
        { apply Forall_app. split; [apply Forall_forall; intros l Hl; left; by apply A, elem_of_list_In|]. constructor; [by right|constructor]. }
        destruct (step e (y_pica y1) o) as [[p outs]|s] eqn:S.
        * assert (sys_step (LTake e) y1 = Some (y_set_pica p (y_set_strict (is_round o) (y_set_todo outs (y_set_queue q y1))))) as St.
          { unfold sys_step. by rewrite D1, D2, D3, S. }
          destruct (IH (y_set_pica p (y_set_strict (is_round o) (y_set_todo outs (y_set_queue q y1))))) as (ls2 & y2 & F2 & R2 & D); [cbn in *; lia|done|].
          assert (sys_run (ls ++ [LTake e]) y = Some (y_set_pica p (y_set_strict (is_round o) (y_set_todo outs (y_set_queue q y1))))) as R1.
          { rewrite sys_run_app, R. cbn. by rewrite St. }
          exists ((ls ++ [LTake e]) ++ ls2), y2. split; [by apply Forall_app|]. split.
          { by rewrite sys_run_app, R1. }
          destruct D as [D|(E1 & E2 & E3)]; [by left|right]. split; [done|]. split; [done|].
          rewrite (processed_app _ _ _ _ R1), (processed_snoc _ _ _ _ _ R St), (processed_none ls y); [|congruence|done].
          rewrite !fmap_app, E3. cbn [taken app fmap list_fmap]. rewrite D3, S. cbn. done.
        * assert (sys_step (LTake e) y1 = Some (y_set_crash (Some s) (y_set_queue q y1))) as St by (unfold sys_step; by rewrite D1, D2, D3, S).
          exists (ls ++ [LTake e]), (y_set_crash (Some s) (y_set_queue q y1)). split; [done|]. split; [|by left].
          rewrite sys_run_app, R. cbn. by rewrite St. }
  destruct (y_crash y) as [s|] eqn:C.
  - exists [], y. split; [constructor|]. split; [by split; [constructor|]|]. left. by rewrite C.
  - destruct (G _ y eq_refl C) as (ls & y' & F & R & D). exists ls, y'. split; [done|]. split; [|done]. split; [|done].
    eapply Forall_impl; [exact F|]. by intros l [-> | ->].
Qed.

(** ** Packets *)
Lemma packets_app h l l' : packets h (l ++ l') = packets h l ++ packets h l'.
Proof. unfold packets. by rewrite map_app, concat_app. Qed.
Lemma packets_read_app h l l' : packets_read h (l ++ l') = packets_read h l ++ packets_read h l'.
Proof. unfold packets_read. by rewrite map_app, concat_app. Qed.
Lemma packets_in_order ls y h : executed ls y -> y_crash y = None ->
  packets h (processed ls sys_new).*2 ++ packets h (y_queue y) = packets_read h ls.
Proof.
  revert ls y. refine (executed_ind _ _ _); [done|]. intros ls y l y' Ex IH W Cr M S C'.
  specialize (IH Cr). rewrite (processed_snoc _ _ _ _ _ (proj2 Ex) S), fmap_app, packets_app, packets_read_app, <- IH, <- !app_assoc. f_equal.
  assert (forall o, y_queue y' = y_queue y ++ [o] -> taken l y = [] -> read_of h l = packet_of h o ->
    packets h (taken l y).*2 ++ packets h (y_queue y') = packets h (y_queue y) ++ packets_read h [l]) as Enq.
  { intros o E1 E2 E3. rewrite E1, E2, packets_app. unfold packets_read, packets at 1 3. cbn. by rewrite E3. }
  assert (y_queue y' = y_queue y -> packets h (taken l y).*2 = [] -> read_of h l = [] ->
    packets h (taken l y).*2 ++ packets h (y_queue y') = packets h (y_queue y) ++ packets_read h [l]) as Same.
  { intros E1 E2 E3. rewrite E1, E2. unfold packets_read. cbn. by rewrite E3, !app_nil_r. }
  destruct M; try (by apply Same); try (by eapply Enq).
  - cbn [taken]. rewrite H0, H1. cbn [crashed fmap list_fmap snd y_queue y_set_pica y_set_strict y_set_todo y_set_queue].
    unfold packets_read. cbn [map read_of concat]. rewrite app_nil_r. change (o :: q) with ([o] ++ q). by rewrite packets_app.
  - destruct (perform_fields o (y_set_todo todo y)) as (Ep & En & Eq & Et & Es). apply Same; [by rewrite Eq|done|done].
  - destruct (deliver_fields (n_host n) (n_msg n) (y_set_delayed (delete i (y_delayed y)) y)) as (Ep & En & Eq & _). apply Same; [by rewrite Eq|done|done].
Qed.

(** ** Connections *)
Definition is_connected (o : out) : bool := match o with OConnected _ _ => true | _ => false end.
Lemma effs_no_connected h e : existsb is_connected (map (OEff h) e) = false.
Proof. by induction e. Qed.
Lemma no_connected_in l h m : existsb is_connected l = false -> OConnected h m ∉ l.
Proof.
  intros E I. apply elem_of_list_In in I. assert (existsb is_connected l = true); [|congruence]. apply existsb_exists. by eexists.
Qed.
Lemma step_conn e p o p' outs : step e p o = Ret (p', outs) -> (forall h, o <> HostGone h) ->
  p_closed p' = p_closed p /\ p_counter p <= p_counter p' /\ (forall h, connected p h -> o = Disconnect h \/ connected p' h)
  /\ ((existsb is_connected outs = false)
      \/ exists outs1 m, outs = outs1 ++ [OConnected (p_counter p) m] /\ existsb is_connected outs1 = false
         /\ connected p' (p_counter p) /\ p_counter p < p_counter p').
Proof.
  intros H Ng. assert (forall d h d' k, p_devices p !! h = Some d -> connected p k -> connected (p_set_device h d' p) k) as Ins.
  { intros d h d' k L [dk Lk]. unfold connected. cbn. destruct (decide (k = h)) as [->|Ne]; [rewrite lookup_insert; by eexists|rewrite lookup_insert_ne by done; by eexists]. }
  destruct o; cbn [step] in H.
  - apply Ret_inj in H. unfold add_device, device_init in H. rewrite device_set_state_eq in H. injection H as <- <-. cbn [p_closed p_counter].
    split; [done|]. split; [lia|]. split.
    + intros h [d L]. right. unfold connected. cbn. destruct (decide (h = p_counter p)) as [->|Ne]; [rewrite lookup_insert; by eexists|rewrite lookup_insert_ne by done; by eexists].
    + right. eexists [_], _. split; [reflexivity|]. split; [done|]. split; [unfold connected; cbn; rewrite lookup_insert; by eexists|lia].
  - apply Ret_inj in H. unfold disconnect in H. destruct (p_devices p !! h) as [d|] eqn:L; injection H as <- <-; cbn [p_closed p_counter p_set_devices].
    + split; [done|]. split; [done|]. split; [|left; cbn; apply effs_no_connected]. intros k [dk Lk]. destruct (decide (h = k)) as [->|Ne]; [by left|right].
      unfold connected. cbn. rewrite lookup_delete_ne by done. by eexists.
    + split; [done|]. split; [done|]. split; [by right|by left].
  - pose proof H as H0. apply ranging_inv in H0 as (d & s & ms1 & ms2 & peers & o1 & o2 & s' & L & Ls & _ & _ & Sd & Si & -> & ->).
    split; [done|]. split; [done|]. split; [intros k C; right; by eapply Ins|left].
    apply send_data_outs in Sd as (m & _ & -> & _). rewrite existsb_app.
    assert (existsb is_connected o2 = false) as -> by (apply send_info_session in Si as [(_ & _ & ->)|(_ & _ & _ & _ & -> & _)]; done).
    rewrite orb_false_r. clear. by induction peers.
  - apply Ret_inj in H. unfold stop_controlee_ranging in H. injection H as <- <-. split; [done|]. split; [done|]. split.
    + intros k [d L]. right. unfold connected. cbn. rewrite lookup_fmap, L. by eexists.
    + left. induction (env_order e _) as [|k l IH]; [done|]. cbn [map concat]. rewrite existsb_app, IH, orb_false_r. destruct (p_devices p !! k); [apply effs_no_connected|done].
  - unfold uci_packet in H. destruct (p_devices p !! h) as [d|] eqn:L.
    + destruct (receive_packet d packet) as [[d1 e1]|]; [|discriminate]. cbn [obind] in H. apply Ret_inj in H. injection H as <- <-.
      split; [done|]. split; [done|]. split; [intros k C; right; by eapply Ins|left; apply effs_no_connected].
    + apply Ret_inj in H. injection H as <- <-. split; [done|]. split; [done|]. split; [by right|by left].
  - unfold create_anchor in H. destruct (get_category p m).
    + apply Ret_inj in H. injection H as <- <-. split; [done|]. split; [done|]. split; [by right|by left].
    + destruct (p_anchors p !! m); [discriminate|]. apply Ret_inj in H. injection H as <- <-. cbn. split; [done|]. split; [lia|]. split; [by right|by left].
  - apply Ret_inj in H. unfold destroy_anchor in H. destruct (p_anchors p !! m); injection H as <- <-; (split; [done|]; split; [done|]; split; [by right|by left]).
  - by destruct (Ng h).
Qed.

Record cinv (y : sys) : Prop := {
  ci_known : forall h c, y_conns y !! h = Some c -> h < p_counter (y_pica y);
  ci_new : forall a h m b, y_todo y = a ++ OConnected h m :: b ->
    y_conns y !! h = None /\ connected (y_pica y) h /\ h < p_counter (y_pica y) /\ existsb is_connected b = false;
  ci_open : forall h, y_conns y !! h = Some CnRunning \/ y_conns y !! h = Some CnEnded -> connected (y_pica y) h;
  ci_gone : forall h, gone h y <-> y_conns y !! h = Some CnEnded \/ y_conns y !! h = Some CnDone;
  ci_disc : forall h, Disconnect h ∈ y_queue y -> y_conns y !! h = Some CnDone;
  ci_packet : forall h packet, UciPacket h packet ∈ y_queue y -> connected (y_pica y) h /\ exists c, y_conns y !! h = Some c;
  ci_after : forall q1 h q2 packet, y_queue y = q1 ++ Disconnect h :: q2 -> UciPacket h packet ∉ q2 /\ Disconnect h ∉ q2;
  ci_never : forall h, HostGone h ∉ y_queue y }.

Lemma snoc_split {A} (q : list A) o q1 x q2 : q ++ [o] = q1 ++ x :: q2 ->
  (q2 = [] /\ o = x /\ q = q1) \/ exists q2', q2 = q2' ++ [o] /\ q = q1 ++ x :: q2'.
Proof.
  destruct q2 as [|z q2 _] using rev_ind; intros E.
  - apply app_inj_tail in E as [-> ->]. by left.
  - rewrite app_comm_cons, app_assoc in E. apply app_inj_tail in E as [-> ->]. right. by exists q2.
Qed.
Lemma cinv_enqueue y y' o : cinv y -> y_queue y' = y_queue y ++ [o] -> y_pica y' = y_pica y -> y_todo y' = y_todo y ->
  (forall h, o <> HostGone h) ->
  (forall h packet, o = UciPacket h packet -> y_conns y !! h = Some CnRunning) ->
  (forall h, o = Disconnect h -> y_conns y !! h = Some CnEnded /\ y_conns y' = <[h := CnDone]> (y_conns y)) ->
  ((forall h, o <> Disconnect h) -> y_conns y' = y_conns y) -> cinv y'.
Proof.
  intros [C1 C2 C3 C4 C5 C6 C7 C8] Eq Ep Et No Np Nd Ns.
  assert ((exists h, o = Disconnect h) \/ forall h, o <> Disconnect h) as [[k ->]|Nd'] by (destruct o; eauto).
  - destruct (Nd k eq_refl) as [Ck Ec]. clear Nd Ns Np No.
    assert (forall h, h <> k -> y_conns y' !! h = y_conns y !! h) as Eo by (intros h Ne; by rewrite Ec, lookup_insert_ne).
    assert (y_conns y' !! k = Some CnDone) as Ek by by rewrite Ec, lookup_insert.
    split; rewrite ?Ep, ?Et.
    + intros h c Hc. destruct (decide (h = k)) as [->|Ne]; [by eapply C1|]. rewrite Eo in Hc by done. by eapply C1.
    + intros a h m b E. destruct (C2 _ _ _ _ E) as (N & ? & ? & ?). split; [|done]. destruct (decide (h = k)) as [->|Ne]; [congruence|]. by rewrite Eo.
    + intros h Hc. destruct (decide (h = k)) as [->|Ne]; [apply C3; by right|]. rewrite Eo in Hc by done. by apply C3.
    + intros h. unfold gone in *. rewrite Ep. rewrite C4. destruct (decide (h = k)) as [->|Ne]; [rewrite Ek; split; auto|]. by rewrite Eo.
    + intros h. rewrite Eq, elem_of_app, elem_of_list_singleton. destruct (decide (h = k)) as [->|Ne]; [done|]. rewrite Eo by done. intros [H|E]; [by apply C5|congruence].
    + intros h packet. rewrite Eq, elem_of_app, elem_of_list_singleton. intros [H|E]; [|discriminate]. destruct (C6 _ _ H) as [? [c Hc]]. split; [done|].
      destruct (decide (h = k)) as [->|Ne]; [by eexists|]. rewrite Eo by done. by eexists.
    + intros q1 h q2 packet E. rewrite Eq in E. apply snoc_split in E as [(-> & E & <-)|(q2' & -> & E)]; [by split; intros []%elem_of_nil|].
      destruct (C7 _ _ _ packet E) as [A B]. rewrite !elem_of_app, !elem_of_list_singleton. split; [by intros [?|?]|]. intros [?|[= ->]]; [done|].
      assert (y_conns y !! k = Some CnDone); [|congruence]. apply C5. rewrite E. apply elem_of_app. right. left.
    + intros h. rewrite Eq, elem_of_app, elem_of_list_singleton. intros [H|E]; [by apply C8 in H|discriminate].
  - specialize (Ns Nd'). split; rewrite ?Ep, ?Et, ?Ns; auto.
    + intros h. unfold gone in *. rewrite Ep. apply C4.
    + intros h. rewrite Eq, elem_of_app, elem_of_list_singleton. intros [H|E]; [by apply C5|by destruct (Nd' h)].
    + intros h packet. rewrite Eq, elem_of_app, elem_of_list_singleton. intros [H|E]; [by eapply C6|]. symmetry in E. specialize (Np _ _ E). split; [apply C3; by left|by eexists].
    + intros q1 h q2 packet E. rewrite Eq in E. apply snoc_split in E as [(-> & E & _)|(q2' & -> & E)]; [by destruct (Nd' h)|].
      destruct (C7 _ _ _ packet E) as [A B]. rewrite !elem_of_app, !elem_of_list_singleton. split.
      * intros [?|E']; [done|]. symmetry in E'. specialize (Np _ _ E'). assert (y_conns y !! h = Some CnDone); [|congruence]. apply C5. rewrite E. apply elem_of_app. right. left.
      * intros [?|E']; [done|]. by destruct (Nd' h).
    + intros h. rewrite Eq, elem_of_app, elem_of_list_singleton. intros [H|E]; [by apply C8 in H|by destruct (No h)].
Qed.
Lemma cinv_frame y y' : cinv y -> y_queue y' = y_queue y -> y_pica y' = y_pica y -> y_todo y' = y_todo y -> y_conns y' = y_conns y -> cinv y'.
Proof. intros [C1 C2 C3 C4 C5 C6 C7 C8] E1 E2 E3 E4. split; unfold gone in *; rewrite ?E1, ?E2, ?E3, ?E4; auto. Qed.
Lemma cinv_close y h c : cinv y -> y_conns y !! h = Some CnRunning -> c = CnEnded \/ c = CnDone ->
  cinv (close_host h (y_set_conns (<[h := c]> (y_conns y)) y)).
Proof.
  intros [C1 C2 C3 C4 C5 C6 C7 C8] Hh Hc.
  assert (forall k, connected (y_pica (close_host h (y_set_conns (<[h := c]> (y_conns y)) y))) k <-> connected (y_pica y) k) as Cn by done.
  split; cbn [y_pica y_conns y_queue y_todo close_host y_set_pica y_set_conns]; auto.
  - intros k c' Hk. destruct (decide (h = k)) as [->|Ne]; [by apply (C1 k CnRunning)|]. rewrite lookup_insert_ne in Hk by done. by eapply C1.
  - intros a k m b E. destruct (C2 _ _ _ _ E) as (N & ? & ? & ?). split; [|done]. rewrite lookup_insert_ne; [done|congruence].
  - intros k Hk. destruct (decide (h = k)) as [->|Ne]; [apply C3; by left|]. rewrite lookup_insert_ne in Hk by done. by apply C3.
  - intros k. unfold gone in *. cbn. rewrite elem_of_union, elem_of_singleton, C4. destruct (decide (h = k)) as [->|Ne].
    + rewrite lookup_insert. split; [|auto]. destruct Hc as [-> | ->]; auto.
    + rewrite lookup_insert_ne by done. split; [intros [?|?]; [congruence|done]|auto].
  - intros k Hk. destruct (decide (h = k)) as [->|Ne]; [apply C5 in Hk; congruence|]. rewrite lookup_insert_ne by done. by apply C5.
  - intros k packet Hk. destruct (C6 _ _ Hk) as [? [c' Hc']]. split; [done|]. destruct (decide (h = k)) as [->|Ne]; [rewrite lookup_insert; by eexists|].
    rewrite lookup_insert_ne by done. by eexists.
Qed.
Lemma cinv_step y l y' : cinv y -> moved y l y' -> cinv y'.
Proof.
  intros C M. pose proof C as [C1 C2 C3 C4 C5 C6 C7 C8].
  destruct M; try (by eapply cinv_frame); try (by eapply cinv_enqueue; [done|done|done|done|..]).
  - (* take *) assert (forall h, o <> HostGone h) as No. { intros h ->. apply (C8 h). rewrite H0. left. }
    destruct (step_conn _ _ _ _ _ H1 No) as (Ec & Eco & Cn & Hn).
    split; cbn [y_pica y_conns y_queue y_todo y_set_pica y_set_strict y_set_todo y_set_queue].
    + intros h c Hc. eapply N.lt_le_trans; [by eapply C1|done].
    + intros a h m b E. destruct Hn as [Hn|(outs1 & m1 & -> & Hn & Hc & Hl)].
      * exfalso. eapply (no_connected_in _ h m Hn). rewrite E. apply elem_of_app. right. left.
      * apply snoc_split in E as [(-> & [= <- <-] & _)|(q2' & -> & ->)].
        -- split; [|done]. destruct (y_conns y !! p_counter (y_pica y)) as [c|] eqn:Hc'; [|done]. apply C1 in Hc'. lia.
        -- exfalso. eapply (no_connected_in _ h m Hn). apply elem_of_app. right. left.
    + intros h Hc. destruct (Cn h (C3 h Hc)) as [->|?]; [|done]. assert (y_conns y !! h = Some CnDone) as Cd by (apply C5; rewrite H0; left). destruct Hc; congruence.
    + intros h. unfold gone in *. cbn. rewrite Ec. apply C4.
    + intros h Hd. apply C5. rewrite H0. by right.
    + intros h packet Hp. assert (UciPacket h packet ∈ y_queue y) as Hp' by (rewrite H0; by right). destruct (C6 _ _ Hp') as [Hc He]. split; [|done].
      destruct (Cn h Hc) as [->|?]; [|done]. destruct (C7 [] h q packet H0) as [A _]. done.
    + intros q1 h q2 packet E. apply (C7 (o :: q1)). by rewrite H0, E.
    + intros h Hg. apply (C8 h). rewrite H0. by right.
  - (* crash *) split; cbn [y_pica y_conns y_queue y_todo y_set_crash y_set_queue]; auto.
    + intros h Hd. apply C5. rewrite H0. by right.
    + intros h packet Hd. apply (C6 h packet). rewrite H0. by right.
    + intros q1 h q2 packet E. apply (C7 (o :: q1)). by rewrite H0, E.
    + intros h Hg. apply (C8 h). rewrite H0. by right.
  - (* effect *) destruct (perform_fields o (y_set_todo todo y)) as (Ep & En & Eq & Et & Es).
    assert (cinv (y_set_todo todo y)) as C'.
    { split; auto. cbn. intros a h m b E. apply (C2 (o :: a) h m). by rewrite H, E. }
    assert (y_conns (perform o (y_set_todo todo y)) = y_conns y -> cinv (perform o (y_set_todo todo y))) as Same.
    { intros E. eapply cinv_frame; [exact C'|by rewrite ?Eq, ?Ep, ?Et..|done]. }
    destruct o as [k [m| | | |]|k m| |]; try (by apply Same).
    + apply Same. cbn [perform]. destruct (_ && _); [done|]. by destruct (deliver_fields k m (y_set_todo todo y)) as (_ & _ & _ & _ & _ & _ & _ & -> & _).
    + cbn [perform]. destruct (C2 [] k m todo H) as (Nk & Ck & Lk & Nt). clear Same.
      split; cbn [y_pica y_conns y_queue y_todo y_set_conns y_set_todo]; auto.
      * intros h c Hc. destruct (decide (k = h)) as [->|Ne]; [done|]. rewrite lookup_insert_ne in Hc by done. by eapply C1.
      * intros a h m' b E. exfalso. eapply (no_connected_in _ h m' Nt). rewrite E. apply elem_of_app. right. left.
      * intros h Hc. destruct (decide (k = h)) as [->|Ne]; [done|]. rewrite lookup_insert_ne in Hc by done. by apply C3.
      * intros h. unfold gone in *. cbn. rewrite C4. destruct (decide (k = h)) as [->|Ne]; [rewrite lookup_insert, Nk; split; intros [?|?]; congruence|]. by rewrite lookup_insert_ne.
      * intros h Hd. apply C5 in Hd. rewrite lookup_insert_ne; [done|congruence].
      * intros h packet Hp. destruct (C6 _ _ Hp) as [? [c Hc]]. split; [done|]. rewrite lookup_insert_ne; [by eexists|congruence].
  - (* notify *) destruct (deliver_fields (n_host n) (n_msg n) (y_set_delayed (delete i (y_delayed y)) y)) as (Ep & _ & Eq & Et & _ & _ & _ & Ec & _).
    eapply cinv_frame; [exact C|by rewrite ?Eq, ?Ep, ?Et, ?Ec..].
  - (* read *) eapply cinv_enqueue; [exact C|done..| |done|done]. intros h' p' E. by injection E as <- <-.
  - (* end *) apply cinv_close; auto.
  - (* disconnect *) eapply cinv_enqueue; [exact C|done..| |]. 
    + intros h' E. injection E as <-. done.
    + intros N. by destruct (N h).
  - (* panic *) apply cinv_close; auto.
Qed.
Lemma cinv_new : cinv sys_new.
Proof.
  split; cbn; intros; try (by rewrite lookup_empty in *); try done.
  - by destruct a.
  - rewrite lookup_empty in H. by destruct H.
  - unfold gone. cbn. rewrite lookup_empty. split; [set_solver|by intros [?|?]].
  - by apply elem_of_nil in H.
  - by apply elem_of_nil in H.
  - by destruct q1.
  - by apply not_elem_of_nil.
Qed.
Lemma executed_cinv ls y : executed ls y -> cinv y.
Proof. revert ls y. refine (executed_ind _ cinv_new _). intros. by eapply cinv_step. Qed.
