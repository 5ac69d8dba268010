(** The dialogue of a host with its device (C76, C77). *)
From Verif Require Import Base Uci MacAddress AppConfig Codec Session Device Pica Sys CodecSpec ContextSpec HistorySpec SessionSpec SysSpec DialogueSpec.
From Verif Require Import InvFacts CommandFacts Demo SysDemo DialogueFacts SetupFacts DialogueDemo.

(** ** C76. Command by command *)
(** The messages delivered to a host are, for each command processed, in order, what [due] says: the answers first,
    then the notifications in the order of their delays. [rest] is what has not arrived yet. *)
Theorem C76_order : forall ls y h,
  executed ls y -> along (calm h) ls sys_new -> along (orderly h) ls sys_new -> along (timely h) ls sys_new -> along (unhurried h) ls sys_new -> ~ gone h y ->
  exists rest, delivered h y ++ rest = concat (map (due h) (outputs pica_new (processed ls sys_new)))
    /\ rest ≡ₚ messages h (y_todo y) ++ waiting h y.
Proof. exact dialogue. Qed.
Print Assumptions C76_order.
(** A host which waits for all the messages of a packet before it sends the next one is in that case. *)
Theorem C76_lockstep : forall ls y h,
  executed ls y -> along (lockstep h) ls sys_new -> along (in_turn h) ls sys_new -> along (unhurried h) ls sys_new.
Proof. intros ls y h. exact (lockstep_unhurried h ls y). Qed.
Print Assumptions C76_lockstep.
(** Once everything has arrived, exactly that. *)
Theorem C76_complete : forall ls y h,
  executed ls y -> along (calm h) ls sys_new -> along (orderly h) ls sys_new -> along (timely h) ls sys_new -> along (lockstep h) ls sys_new -> along (in_turn h) ls sys_new ->
  ~ gone h y -> at_rest h y ->
  delivered h y = concat (map (due h) (outputs pica_new (processed ls sys_new))).
Proof.
  intros ls y h Ex A1 A0 A2 A3 A4 G [R1 R2]. destruct (dialogue _ _ _ Ex A1 A0 A2 (lockstep_unhurried _ _ _ Ex A3 A4) G) as (rest & E & P).
  rewrite R1, R2 in P. symmetry in P. apply Permutation_nil in P as ->. by rewrite app_nil_r in E.
Qed.
Print Assumptions C76_complete.
Lemma not_gone_b h y : bool_decide (h ∈ p_closed (y_pica y)) = false -> ~ gone h y.
Proof. intros H G. apply bool_decide_eq_false in H. by apply H. Qed.
Example C76_example :
  executed dialogue_start (at_end dialogue_start) /\ along (calm 0) dialogue_start sys_new /\ along (orderly 0) dialogue_start sys_new /\ along (timely 0) dialogue_start sys_new
  /\ along (lockstep 0) dialogue_start sys_new /\ along (in_turn 0) dialogue_start sys_new
  /\ ~ gone 0 (at_end dialogue_start) /\ settled 0 (at_end dialogue_start)
  /\ length (outputs pica_new (processed dialogue_start sys_new)) = 7%nat
  /\ delivered 0 (at_end dialogue_start) = set_up 7 ++ started_up 7.
Proof.
  split; [run_demo|]. split; [apply (alongb_sound (calmb 0)); [apply calmb_sound|by vm_compute]|].
  split; [apply (alongb_sound (orderlyb 0)); [apply orderlyb_sound|by vm_compute]|]. split; [apply (alongb_sound (timelyb 0)); [apply timelyb_sound|by vm_compute]|].
  split; [apply (alongb_sound (lockstepb 0)); [apply lockstepb_sound|by vm_compute]|]. split; [apply (alongb_sound (in_turnb 0)); [apply in_turnb_sound|by vm_compute]|].
  split; [apply not_gone_b; by vm_compute|]. split; [apply settledb_sound; by vm_compute|]. split; by vm_compute.
Qed.

(** ** C77. What each command gives *)
(** The answer first, and whatever else follows it. *)
Theorem C77_answer_first : forall p h c p' outs, commanded p h c p' outs ->
  exists m rest, sent h outs = [m] /\ due h outs = m :: rest /\ rest ≡ₚ scheduled h outs.
Proof.
  intros p h c p' outs C. destruct (commanded_inv _ _ _ _ _ C) as (d & d' & e & m & R). exists m. eexists. split; [apply (cr_sent R)|].
  split; [unfold due; rewrite (cr_sent R); reflexivity|]. by rewrite by_delay_perm, delays_snd.
Qed.
Print Assumptions C77_answer_first.
Theorem C77_connect : forall e p p' outs, step e p Connect = Ret (p', outs) -> due (p_counter p) outs = [CoreDeviceStatusNtf DsReady].
Proof. intros e p p' outs S. apply (due_connect _ _ _ _ S). Qed.
Print Assumptions C77_connect.
(** From any state: the deinitialisation of all the sessions, then the device is ready. *)
Theorem C77_reset : forall e p h packet p' outs,
  reachable p -> connected p h -> wf_bytes packet -> encodes (CmdDeviceReset 0) packet -> step e p (UciPacket h packet) = Ret (p', outs) ->
  exists ids, due h outs = [CoreDeviceResetRsp 0x00] ++ map (fun id => SessionStatusNtf id SsDeinit 0x00) ids ++ [CoreDeviceStatusNtf DsReady]
    /\ NoDup ids /\ forall id, id ∈ ids <-> state_at p h id <> SsDeinit.
Proof.
  intros e p h packet p' outs R [d L] W E S. destruct (due_reset e p h d packet R L W E) as (ids & outs' & S' & Ed & H).
  rewrite S' in S. apply Ret_inj in S. injection S as _ <-. by exists ids.
Qed.
Print Assumptions C77_reset.
Theorem C77_init : forall p h d id ty p' outs,
  commanded p h (CmdSessionInit id ty) p' outs -> p_devices p !! h = Some d -> (size (d_sessions d) < 255)%nat -> session_at p h id = None ->
  due h outs = [SessionInitRsp 0x00; SessionStatusNtf id SsInit 0x00].
Proof.
  intros p h d id ty p' outs C L Sz N. apply (due_init _ _ _ _ _ _ _ C L Sz). unfold session_at in N. by rewrite L in N.
Qed.
Print Assumptions C77_init.
Theorem C77_configure : forall p h s id l c p' outs,
  commanded p h (CmdSetAppConfig id l) p' outs -> session_at p h id = Some s -> s_state s = SsInit ->
  sets_all (s_cfg s) l c [] -> configured c ->
  due h outs = [SessionSetAppConfigRsp 0x00 []; SessionStatusNtf id SsIdle 0x00].
Proof.
  intros p h s id l c p' outs C Ls Si Sa Cf. unfold session_at in Ls. destruct (p_devices p !! h) as [d|] eqn:L; [|discriminate]. by eapply due_config.
Qed.
Print Assumptions C77_configure.
Theorem C77_start : forall p h id p' outs,
  commanded p h (CmdStart id) p' outs -> state_at p h id = SsIdle ->
  due h outs = [SessionStartRsp 0x00; SessionStatusNtf id SsActive 0x00]
    ++ (if bool_decide (device_state_at p h = Some DsActive) then [] else [CoreDeviceStatusNtf DsActive]).
Proof.
  intros p h id p' outs C Si. unfold state_at, session_at in Si. destruct (p_devices p !! h) as [d|] eqn:L; [|discriminate]. cbn in Si.
  destruct (d_sessions d !! id) as [s|] eqn:Ls; [|discriminate]. destruct (due_start _ _ _ _ _ _ _ C L Ls Si) as [-> Da]. f_equal.
  unfold device_change. rewrite Da. unfold device_state_at. rewrite L. cbn. destruct (d_state d); by vm_compute.
Qed.
Print Assumptions C77_start.
(** The device becomes READY with its last active session, and says so last. *)
Theorem C77_stop : forall p h id p' outs,
  commanded p h (CmdStop id) p' outs -> state_at p h id = SsActive ->
  due h outs = [SessionStopRsp 0x00; SessionStatusNtf id SsIdle 0x00] ++ device_change p p' h.
Proof.
  intros p h id p' outs C Si. unfold state_at, session_at in Si. destruct (p_devices p !! h) as [d|] eqn:L; [|discriminate]. cbn in Si.
  destruct (d_sessions d !! id) as [s|] eqn:Ls; [|discriminate]. by eapply due_stop.
Qed.
Print Assumptions C77_stop.
Theorem C77_deinit : forall p h id p' outs,
  commanded p h (CmdSessionDeinit id) p' outs -> state_at p h id <> SsDeinit ->
  due h outs = [SessionDeinitRsp 0x00; SessionStatusNtf id SsDeinit 0x00] ++ device_change p p' h.
Proof.
  intros p h id p' outs C Si. unfold state_at, session_at in Si. destruct (p_devices p !! h) as [d|] eqn:L; [|by destruct Si]. cbn in Si.
  destruct (d_sessions d !! id) as [s|] eqn:Ls; [|by destruct Si]. by eapply due_deinit.
Qed.
Print Assumptions C77_deinit.
(** The set-up of a session: whatever the other hosts do, a host in lockstep whose packets were a reset, a session init
    and an accepted configuration has received exactly [set_up], and its session is idle with that configuration. *)
Theorem C77_set_up : forall ls y h id ty l cfg reset init config,
  encodes (CmdDeviceReset 0) reset -> encodes (CmdSessionInit id ty) init -> encodes (CmdSetAppConfig id l) config ->
  wf_cmd (CmdSessionInit id ty) -> wf_cmd (CmdSetAppConfig id l) -> sets_all default_app_config l cfg [] -> configured cfg ->
  executed ls y -> along (calm h) ls sys_new -> along (orderly h) ls sys_new -> along (timely h) ls sys_new -> along (lockstep h) ls sys_new -> along (in_turn h) ls sys_new ->
  ~ gone h y -> settled h y -> packets_read h ls = [reset; init; config] ->
  delivered h y = set_up id
  /\ exists s, session_at (y_pica y) h id = Some s /\ s_state s = SsIdle /\ s_type s = ty /\ s_cfg s = cfg.
Proof. intros. by eapply settled_run. Qed.
Print Assumptions C77_set_up.
(** And if its next packet starts the session, [started_up] comes next. *)
Theorem C77_start_up : forall ls y h id ty l cfg reset init config start more,
  encodes (CmdDeviceReset 0) reset -> encodes (CmdSessionInit id ty) init -> encodes (CmdSetAppConfig id l) config -> encodes (CmdStart id) start ->
  wf_cmd (CmdSessionInit id ty) -> wf_cmd (CmdSetAppConfig id l) -> sets_all default_app_config l cfg [] -> configured cfg ->
  executed ls y -> along (calm h) ls sys_new -> along (orderly h) ls sys_new -> along (timely h) ls sys_new -> along (lockstep h) ls sys_new -> along (in_turn h) ls sys_new ->
  ~ gone h y -> settled h y -> packets_read h ls = reset :: init :: config :: start :: more ->
  exists rest, delivered h y = set_up id ++ started_up id ++ rest.
Proof. intros ls y h id ty l cfg reset init config start more Er Ei Ec Es Wi Wc Sa Cf Ex A1 A0 A2 A3 A4 G St Pk. eapply settled_run; try done. apply Wi. Qed.
Print Assumptions C77_start_up.
Example C77_example :
  let config := controller_config [1; 0] [2; 0] in
  wf_cmd (CmdSessionInit 7 0) /\ wf_cmd (CmdSetAppConfig 7 config)
  /\ (exists cfg, sets_all default_app_config config cfg [] /\ configured cfg)
  /\ packets_read 0 dialogue_start = map cmd_packet [CmdDeviceReset 0; CmdSessionInit 7 0; CmdSetAppConfig 7 config; CmdStart 7]
  /\ packets_read 1 dialogue_start = [cmd_packet (CmdDeviceReset 0)]
  /\ executed dialogue_7 (at_end dialogue_7) /\ along (in_turn 0) dialogue_7 sys_new /\ settled 0 (at_end dialogue_7)
  /\ delivered 0 (at_end dialogue_7) = set_up 7.
Proof.
  cbv zeta. split; [split; [done|by left]|]. split; [split_and!; [done|unfold short_list; cbn; lia|by repeat constructor]|]. split.
  { eexists. split; [cbn; repeat (eapply SaOk; [reflexivity|]); apply SaNil|]. intros i [<-|[<-|[<-|[<-|[<-|[]]]]]]; done. }
  split; [by vm_compute|]. split; [by vm_compute|]. split; [run_demo|]. split; [apply (alongb_sound (in_turnb 0)); [apply in_turnb_sound|by vm_compute]|].
  split; [apply settledb_sound; by vm_compute|by vm_compute].
Qed.
