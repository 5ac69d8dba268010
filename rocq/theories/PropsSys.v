(** Properties of the executions of the whole system: every interleaving of the event loop, the connections, the
    ranging tasks, the delayed notifications and the clock. *)
From Verif Require Import Base Uci MacAddress AppConfig Codec Session Device Pica Sys.
From Verif Require Import BaseFacts CodecSpec CodecFacts ContextSpec InvFacts StepFacts CommandFacts RangingSpec RangingFacts CrashSpec RoundFacts EffectFacts.
From Verif Require Import Demo SysSpec SysFacts ScheduleFacts DeliveryFacts SysDemo.

(** The packet is decoded as a command. *)
Definition decodes (packet : bytes) : bool :=
  match decode_control_packet packet with
  | Some cp => match cp_mt cp, specialize_command (cp_gid cp) (cp_payload cp) with MtCommand, SpCommand _ => true | _, _ => false end
  | None => false
  end.
(** The hosts send well-formed commands only. *)
Definition polite (l : label) : Prop := match l with LRead _ packet => is_command packet | _ => True end.
Definition politeb (l : label) : bool := match l with LRead _ packet => decodes packet | _ => true end.
Lemma politeb_sound ls y : executed ls y -> forallb politeb ls = true -> Forall polite ls.
Proof.
  intros [F _] P. rewrite forallb_forall in P. apply Forall_forall. intros l Hl. rewrite Forall_forall in F. specialize (F l Hl). specialize (P l (proj1 (elem_of_list_In _ _) Hl)).
  destruct l; try done. cbn in *. unfold decodes in P. destruct (decode_control_packet packet) as [cp|] eqn:D; [|done]. destruct (cp_mt cp) eqn:M; try done.
  destruct (specialize_command _ _) eqn:S; try done. exists c. apply decode_command_iff; [done|]. by exists cp.
Qed.

(** ** C47. Full statement: executed ls y -> Forall polite ls -> y_crash y = None.
    It is false: a round of a session that is deinitialised, or whose device is disconnected, or whose host has
    left, after its ranging task has put the round in the queue. *)
Definition late_round_1 : list label :=
  parts [raw y_active; raw (ticks 200); raw [rd 0 (CmdSessionDeinit 7); LTimer 0]; finish; raw [LTake plain_env]] sys_new.
Definition late_round_2 : list label :=
  parts [raw y_active; raw (ticks 200); raw [LEnd 0; LDisconnect 0; LTimer 0]; finish; raw [LTake plain_env]] sys_new.
Definition late_round_3 : list label := parts [raw y_active; raw (ticks 200); raw [LTimer 0; LEnd 0; LTake plain_env]] sys_new.
Theorem C47_refuted : exists ls1 y1 ls2 y2 ls3 y3,
  (executed ls1 y1 /\ Forall polite ls1 /\ y_crash y1 = Some RangingNoSession)
  /\ (executed ls2 y2 /\ Forall polite ls2 /\ y_crash y2 = Some RangingNoDevice)
  /\ (executed ls3 y3 /\ Forall polite ls3 /\ y_crash y3 = Some RangingHostGone).
Proof.
  exists late_round_1, (at_end late_round_1), late_round_2, (at_end late_round_2), late_round_3, (at_end late_round_3).
  assert (executed late_round_1 (at_end late_round_1)) as E1 by run_demo.
  assert (executed late_round_2 (at_end late_round_2)) as E2 by run_demo.
  assert (executed late_round_3 (at_end late_round_3)) as E3 by run_demo.
  split; [|split].
  - split; [exact E1|]. split; [apply (politeb_sound _ _ E1); vm_compute; reflexivity|vm_compute; reflexivity].
  - split; [exact E2|]. split; [apply (politeb_sound _ _ E2); vm_compute; reflexivity|vm_compute; reflexivity].
  - split; [exact E3|]. split; [apply (politeb_sound _ _ E3); vm_compute; reflexivity|vm_compute; reflexivity].
Qed.
Print Assumptions C47_refuted.

(** What holds. The only actions that stop the system are: taking a command that is fatal in the current state
    ([fatal_op]: a packet of C46, or a round), and sending a message of a round to a host that has left
    meanwhile. In particular connections, disconnections, anchors, in-band stops, timers and notifications never do. *)
Theorem C47_exact_partial : forall ls y l y', executed ls y -> wf_label l -> sys_step l y = Some y' ->
  y_crash y' <> None <->
    (exists e o q, l = LTake e /\ y_queue y = o :: q /\ fatal_op e (y_pica y) o)
    \/ (exists h m todo, l = LEffect /\ y_todo y = OEff h (Send m) :: todo /\ y_strict y = true /\ gone h y).
Proof.
  intros ls y l y' Ex W S. destruct (sys_step_moved _ _ _ S) as [C M]. destruct (executed_sinv _ _ Ex) as (outs & I).
  assert (pinv (fun _ => false) (y_pica y)) as Pi by (eapply reachable_pinv; eexists _, _; apply (si_reach _ _ _ I)).
  assert (forall o q, y_queue y = o :: q -> wf_op o) as Wo by (intros o q E; pose proof (si_queue _ _ _ I) as Q; rewrite E in Q; by inversion Q).
  destruct M; try (split; [intros N; exfalso; apply N; exact C|intros [(e0 & o0 & q0 & E & _)|(h0 & m0 & t0 & E & _)]; discriminate E]).
  - split; [intros N; exfalso; apply N; exact C|]. intros [(e0 & o0 & q0 & E & Q & F)|(h0 & m0 & t0 & E & _)]; [|discriminate E].
    injection E as <-. rewrite H0 in Q. injection Q as <- <-. apply (op_crash _ _ _ _ Pi (Wo _ _ H0)) in F. by rewrite H1 in F.
  - split; [|done]. intros _. left. exists e, o, q. split; [done|]. split; [done|]. apply (op_crash _ _ _ _ Pi (Wo _ _ H0)). by rewrite H1.
  - destruct o as [k [m|ms m|id iv|id|a id n]|k a|k a|r];
      try (split; [intros N; exfalso; apply N; exact C|intros [(e0 & o0 & q0 & E & _)|(h0 & m0 & t0 & _ & E & _)]; [discriminate E|rewrite H in E; discriminate E]]).
    cbn [perform]. change (y_strict (y_set_todo todo y)) with (y_strict y). change (host_closed k (y_set_todo todo y)) with (host_closed k y).
    destruct (host_closed k y && y_strict y) eqn:B.
    + split; [|done]. intros _. right. apply andb_true_iff in B as [B1 B2]. exists k, m, todo. apply bool_decide_eq_true in B1. done.
    + destruct (deliver_fields k m (y_set_todo todo y)) as (_ & _ & _ & _ & _ & _ & _ & _ & -> & _). split; [done|].
      intros [(e0 & o0 & q0 & E & _)|(h0 & m0 & t0 & _ & E & St & G)]; [discriminate E|]. exfalso. rewrite H in E. injection E as <- <- <-.
      unfold host_closed in B. rewrite St, andb_true_r in B. by apply bool_decide_eq_false in B.
  - destruct (deliver_fields (n_host n) (n_msg n) (y_set_delayed (delete i (y_delayed y)) y)) as (_ & _ & _ & _ & _ & _ & _ & _ & -> & _).
    split; [done|]. intros [(e0 & o0 & q0 & E & _)|(h0 & m0 & t0 & E & _)]; discriminate E.
Qed.
Print Assumptions C47_exact_partial.
(** If moreover the ranging tasks act between commands, aborted tasks do not act, and no command removes a session
    whose round is in the queue, then every round finds its session. *)
Theorem C47_orderly_partial : forall ls y h id, executed ls y -> along orderly ls sys_new ->
  In (Ranging h id) (y_queue y) -> session_at (y_pica y) h id <> None.
Proof. intros. by eapply orderly_rounds. Qed.
Print Assumptions C47_orderly_partial.
Example C47_example : executed late_round_1 (at_end late_round_1)
  /\ (let ls := y_active ++ ticks 200 ++ [LTimer 0] in executed ls (at_end ls) /\ In (Ranging 0 7) (y_queue (at_end ls))).
Proof. split; [run_demo|]. cbv zeta. split; [run_demo|]. vm_compute. by left. Qed.

(** ** C48. Full statement:
      executed ls y -> y_todo y = [] -> was_stopped h id (processed ls sys_new) -> continues y ls' y' ->
      no_start h id (processed ls' y) -> infos_delivered h id y' = infos_delivered h id y.
    It is false: a round may be in the queue when the session is stopped. *)
Definition stopped_round : list label :=
  parts [raw y_active; raw (ticks 200); raw [rd 0 (CmdStop 7); LTimer 0]; finish] sys_new.
Definition stopped_more : list label := finish (at_end stopped_round).
Theorem C48_refuted : exists ls y h id ls' y', executed ls y /\ Forall polite ls /\ y_todo y = []
  /\ was_stopped h id (processed ls sys_new) /\ continues y ls' y' /\ no_start h id (processed ls' y)
  /\ In (SessionStopRsp 0x00) (delivered h y) /\ infos_delivered h id y = [] /\ infos_delivered h id y' = [0].
Proof.
  exists stopped_round, (at_end stopped_round), 0, 7, stopped_more, (after stopped_more (at_end stopped_round)).
  assert (executed stopped_round (at_end stopped_round)) as Ex by run_demo.
  split; [exact Ex|]. split; [apply (politeb_sound _ _ Ex); vm_compute; reflexivity|]. split; [vm_compute; reflexivity|].
  split.
  { exists (history active), plain_env, (cmd_packet (CmdStop 7)), [], (state_after active), (outs_after active),
      (state_after (active ++ [cmd 0 (CmdStop 7)])), (outs_of active (cmd 0 (CmdStop 7))).
    split; [vm_compute; reflexivity|]. split; [done|]. split; [apply cmd_packet_encodes|].
    split; [apply history_reaches; vm_compute; reflexivity|]. split; [apply history_step; vm_compute; reflexivity|]. split; [vm_compute; by left|]. intros e packet []. }
  split; [run_demo|]. split.
  { intros e packet Hi. assert (processed stopped_more (at_end stopped_round) = [(plain_env, Ranging 0 7)]) as E by (vm_compute; reflexivity).
    rewrite E in Hi. destruct Hi as [Hi|[]]. discriminate Hi. }
  split; [|split; vm_compute; reflexivity]. vm_compute. tauto.
Qed.
Print Assumptions C48_refuted.
(** What holds: only the rounds already in the queue, and those of tasks caught by the abort while running, may still
    be notified. *)
Theorem C48_partial : forall ls y h id ls' y', executed ls y -> y_todo y = [] -> was_stopped h id (processed ls sys_new) ->
  continues y ls' y' -> no_start h id (processed ls' y) ->
  (length (infos_delivered h id y') <= length (infos_delivered h id y) + queued_rounds h id y + dying_timers h id y)%nat.
Proof.
  intros ls y h id ls' y' Ex T St C Ns. destruct (executed_sinv _ _ Ex) as (outs & I).
  pose proof (was_stopped_otask _ _ _ _ _ (si_reach _ _ _ I) St) as Ot. destruct (si_timers _ _ _ I h id) as [Tm _]. rewrite T, Ot in Tm.
  change (timers_started h id []) with 0%nat in Tm. change (timers_stopped h id []) with 0%nat in Tm.
  destruct (quiet_run _ _ _ _ h id Ex C) as (_ & _ & P); [lia|by rewrite T|done|].
  unfold potential, infos in P. rewrite T in P. change (sent h []) with (@nil msg) in P. cbn [map concat length] in P. unfold infos_delivered. lia.
Qed.
Print Assumptions C48_partial.
(** Hence the full statement when no round is pending at the stop. *)
Theorem C48_idle_partial : forall ls y h id ls' y', executed ls y -> y_todo y = [] -> was_stopped h id (processed ls sys_new) ->
  queued_rounds h id y = 0%nat -> dying_timers h id y = 0%nat ->
  continues y ls' y' -> no_start h id (processed ls' y) ->
  infos_delivered h id y' = infos_delivered h id y.
Proof.
  intros ls y h id ls' y' Ex T St Q D C Ns. pose proof (C48_partial _ _ _ _ _ _ Ex T St C Ns) as L.
  destruct (infos_grow _ _ _ h id C) as (x & E). rewrite E in *. rewrite app_length in L. destruct x; [by rewrite app_nil_r|cbn in L; lia].
Qed.
Print Assumptions C48_idle_partial.

(** ** C58. Full statement: whatever is delivered after a command is taken, its response comes before its notifications.
    It is false: the delay of the notification may expire before the response is sent. *)
Definition overtaken : list label := y_ready ++ [rd 0 (CmdSessionInit 7 0); LTake plain_env; LEffect; LTick; LNotify 2; LEffect].
Theorem C58_refuted : exists ls y h l, executed ls y /\ Forall polite ls
  /\ delivered h y = l ++ [SessionStatusNtf 7 SsInit 0x00; SessionInitRsp 0x00]
  /\ ~ In (SessionInitRsp 0x00) l.
Proof.
  exists overtaken, (at_end overtaken), 0, [CoreDeviceResetRsp 0].
  assert (executed overtaken (at_end overtaken)) as Ex by run_demo.
  split; [exact Ex|]. split; [apply (politeb_sound _ _ Ex); vm_compute; reflexivity|]. split; [vm_compute; reflexivity|]. intros [H|[]]. discriminate H.
Qed.
Print Assumptions C58_refuted.
(** What holds: if the handler completes within the millisecond in which it started, then the response (and everything
    sent by the handler) is delivered while all the notifications caused by the command are still waiting. [old] are
    the notifications of earlier commands delivered meanwhile. *)
Theorem C58_partial : forall ls y e y1 ls' y' o q p outs h, executed ls y -> wf_env e -> y_queue y = o :: q ->
  sys_step (LTake e) y = Some y1 -> step e (y_pica y) o = Ret (p, outs) ->
  continues y1 ls' y' -> Forall instant ls' -> y_todo y' = [] -> ~ gone h y' ->
  exists old rest, old ++ rest ≡ₚ waiting h y
    /\ delivered h y' ≡ₚ delivered h y ++ old ++ sent h outs
    /\ waiting h y' ≡ₚ rest ++ scheduled h outs.
Proof.
  intros ls y e y1 ls' y' o q p outs h Ex We Q S1 St C F T G.
  assert (executed (ls ++ [LTake e]) y1) as Ex1 by (by eapply executed_snoc).
  destruct (sys_step_moved _ _ _ S1) as [Cr M].
  inversion M as [e0 o0 q0 p0 outs0 T0 Q0 S0|e0 o0 q0 s0 T0 Q0 S0| | | | | | | | | | | | | |]; subst; [|rewrite Q in Q0; injection Q0 as <- <-; congruence].
  rewrite Q in Q0. injection Q0 as <- <-. rewrite St in S0. apply Ret_inj in S0. injection S0 as <- <-.
  destruct (instant_run _ _ _ _ h Ex1 C F) as (old & new & olds & lost & [I1 I2 I3 I4 I5 I6 I7 I8]).
  rewrite (I7 G), T in I6. rewrite T in I8. change (scheduled h []) with (@nil msg) in I8. change (sent h []) with (@nil msg) in I6. rewrite !app_nil_r in *.
  exists olds, (wt h old). split; [exact I5|]. split; [exact I6|]. unfold waiting. rewrite I2. change (concat (map _ (old ++ new))) with (wt h (old ++ new)). by rewrite wt_app, I8.
Qed.
Print Assumptions C58_partial.
(** A start: the response is delivered, its two notifications wait. *)
Definition started : list label := [rd 0 (CmdStart 7)].
Example C58_example :
  let y := after started (at_end y_idle) in let y1 := after [LTake plain_env] y in let ls' := effects y1 in let y' := after ls' y1 in
  continues y1 ls' y' /\ Forall instant ls' /\ y_todo y' = [] /\ ~ gone 0 y' /\ length ls' = 4%nat
  /\ sent 0 (y_todo y1) = [SessionStartRsp 0] /\ scheduled 0 (y_todo y1) = [SessionStatusNtf 7 SsActive 0; CoreDeviceStatusNtf DsActive]
  /\ last (delivered 0 y') = Some (SessionStartRsp 0) /\ length (waiting 0 y') = 6%nat.
Proof.
  cbv zeta. split; [run_demo|]. split; [vm_compute; repeat constructor|]. split; [vm_compute; reflexivity|]. split; [|vm_compute; repeat (split; [reflexivity|]); reflexivity].
  unfold gone. intros H. assert (bool_decide (0 ∈ p_closed (y_pica (after (effects (after [LTake plain_env] (after started (at_end y_idle)))) (after [LTake plain_env] (after started (at_end y_idle)))))) = true) as E by by apply bool_decide_eq_true.
  vm_compute in E. discriminate E.
Qed.

(** ** C59. The messages delivered are those of a history of commands processed one at a time: none is lost,
    duplicated or forged, but for hosts that have left; those sent by the event loop are delivered in order. *)
Theorem C59_messages : forall ls y, executed ls y -> exists outs, reaches (processed ls sys_new) (y_pica y) outs
  /\ forall h, exists lost, delivered h y ++ waiting h y ++ messages h (y_todo y) ++ lost ≡ₚ messages h outs
     /\ (~ gone h y -> lost = []).
Proof. intros ls y Ex. destruct (executed_sinv _ _ Ex) as (outs & I). exists outs. split; [apply (si_reach _ _ _ I)|apply (si_msgs _ _ _ I)]. Qed.
Print Assumptions C59_messages.
Theorem C59_order : forall ls y outs h, executed ls y -> run pica_new (processed ls sys_new) = Ret (y_pica y, outs) ->
  exists lost, by_loop (delivered h y) ++ lost ++ by_loop (sent h (y_todo y)) = by_loop (sent h outs)
     /\ (~ gone h y -> lost = []).
Proof.
  intros ls y outs h Ex R. destruct (executed_sinv _ _ Ex) as (outs' & I). destruct (si_reach _ _ _ I) as [_ R']. rewrite R in R'. apply Ret_inj in R'.
  injection R' as E. subst outs'. apply (si_order _ _ _ I).
Qed.
Print Assumptions C59_order.
Example C59_example : executed y_active (at_end y_active)
  /\ processed y_active sys_new = history active
  /\ delivered 0 (at_end y_active) = [CoreDeviceResetRsp 0; SessionInitRsp 0; SessionSetAppConfigRsp 0 []; SessionStartRsp 0]
  /\ length (waiting 0 (at_end y_active)) = 6%nat.
Proof. split; [run_demo|]. repeat (split; [vm_compute; reflexivity|]). vm_compute; reflexivity. Qed.

(** ** C60. Packets are processed exactly once, in the order in which they were read, by a connected device. *)
Theorem C60_packets : forall ls y h, executed ls y -> y_crash y = None ->
  packets h (processed ls sys_new).*2 ++ packets h (y_queue y) = packets_read h ls.
Proof. exact packets_in_order. Qed.
Print Assumptions C60_packets.
Theorem C60_connected : forall ls y h l1 e packet l2 p1 outs1, executed ls y ->
  processed ls sys_new = l1 ++ (e, UciPacket h packet) :: l2 -> run pica_new l1 = Ret (p1, outs1) -> connected p1 h.
Proof. intros ls y h l1 e packet l2 p1 outs1 Ex. by apply (packets_connected _ _ h Ex). Qed.
Print Assumptions C60_connected.
(** After the end of a connection, what was read from it is still processed before the disconnection. *)
Theorem C60_before_disconnect : forall ls y q1 h q2 packet, executed ls y -> y_queue y = q1 ++ Disconnect h :: q2 ->
  ~ In (UciPacket h packet) q2.
Proof. intros ls y q1 h q2 packet Ex E I. destruct (ci_after _ (executed_cinv _ _ Ex) _ _ _ packet E) as [N _]. by apply N, elem_of_list_In. Qed.
Print Assumptions C60_before_disconnect.

(** ** C64. Every command processed is answered by exactly one response, with its group and opcode (or by the status
    notification before the reset), and the responses are in the order of the commands. [lost]: the answers to a host
    that has left. *)
Theorem C64_answers : forall ls y h, executed ls y -> exists lost,
  Forall2 answered (commands (packets h (processed ls sys_new).*2)) (responses (delivered h y) ++ lost ++ responses (sent h (y_todo y)))
  /\ (~ gone h y -> lost = []).
Proof. exact commands_answered. Qed.
Print Assumptions C64_answers.
(** In a state at rest, all the commands read have been answered. *)
Theorem C64_at_rest : forall ls y h, executed ls y -> y_crash y = None -> y_queue y = [] -> y_todo y = [] -> ~ gone h y ->
  Forall2 answered (commands (packets_read h ls)) (responses (delivered h y)).
Proof.
  intros ls y h Ex C Q T G. destruct (commands_answered _ _ h Ex) as (lost & F & L). rewrite (L G), T in F.
  change (responses (sent h [])) with (@nil msg) in F. rewrite !app_nil_r in F. pose proof (packets_in_order _ _ h Ex C) as P.
  rewrite Q in P. change (packets h []) with (@nil bytes) in P. rewrite app_nil_r in P. by rewrite <- P.
Qed.
Print Assumptions C64_at_rest.
Example C60_example : y_queue (at_end y_active) = [] /\ y_todo (at_end y_active) = [] /\ y_crash (at_end y_active) = None
  /\ length (packets_read 0 y_active) = 4%nat /\ commands (packets_read 0 y_active) = packets_read 0 y_active
  /\ length (responses (delivered 0 (at_end y_active))) = 4%nat
  /\ bool_decide (0 ∈ p_closed (y_pica (at_end y_active))) = false.
Proof. repeat (split; [vm_compute; reflexivity|]). vm_compute; reflexivity. Qed.

(** ** C61. A session has at most one running ranging task; between commands it has one exactly if its record says so,
    and it has none if it does not exist. *)
Theorem C61_one_task : forall ls y h id, executed ls y -> (live_timers h id y <= 1)%nat.
Proof. intros ls y h id Ex. destruct (executed_sinv _ _ Ex) as (outs & I). apply (si_timers _ _ _ I). Qed.
Print Assumptions C61_one_task.
Theorem C61_between_commands : forall ls y h id, executed ls y -> y_todo y = [] ->
  live_timers h id y = match session_at (y_pica y) h id with Some s => if s_task s then 1%nat else 0%nat | None => 0%nat end.
Proof.
  intros ls y h id Ex T. destruct (executed_sinv _ _ Ex) as (outs & I). destruct (si_timers _ _ _ I h id) as [E _]. rewrite T in E.
  change (timers_started h id []) with 0%nat in E. change (timers_stopped h id []) with 0%nat in E. unfold session_at.
  unfold otask, dtask in E. destruct (p_devices (y_pica y) !! h) as [d|]; cbn; [destruct (d_sessions d !! id)|]; lia.
Qed.
Print Assumptions C61_between_commands.
Example C61_example : live_timers 0 7 (at_end y_active) = 1%nat /\ live_timers 0 7 (at_end y_idle) = 0%nat
  /\ live_timers 0 7 (at_end stopped_round) = 0%nat /\ queued_rounds 0 7 (at_end stopped_round) = 1%nat.
Proof. repeat (split; [vm_compute; reflexivity|]). vm_compute; reflexivity. Qed.

(** ** C62. While a session is not started again, two rounds are at least one ranging interval apart: [n] rounds take at least
    [n - 1] intervals. *)
Theorem C62_cadence : forall ls y h id t ls' y', executed ls y -> In t (y_timers y) -> is_timer h id t = true -> t_live t = true ->
  continues y ls' y' -> no_start h id (processed ls' y) ->
  N.of_nat (fires h id ls' y - 1) * t_interval t <= y_now y' - y_now y.
Proof.
  intros ls y h id t ls' y' Ex It E L C Ns. destruct (paced_run _ _ _ _ _ _ _ Ex It E L C Ns) as (_ & K & Nw & _).
  destruct K as [->|K]; [cbn [Nat.sub N.of_nat]; lia|lia].
Qed.
Print Assumptions C62_cadence.
Definition two_rounds : list label := ticks 200 ++ [LTimer 0] ++ ticks 200 ++ [LTimer 0].
Example C62_example : exists t, y_timers (at_end y_active) = [t] /\ is_timer 0 7 t = true /\ t_live t = true /\ t_interval t = 200
  /\ continues (at_end y_active) two_rounds (after two_rounds (at_end y_active)) /\ fires 0 7 two_rounds (at_end y_active) = 2%nat.
Proof. eexists. split; [vm_compute; reflexivity|]. repeat (split; [vm_compute; reflexivity|]). split; [run_demo|]. vm_compute. reflexivity. Qed.

(** ** C63. No deadlock: from every state the event loop alone can process all the commands in the queue, in order,
    unless one of them is fatal; *)
Theorem C63_drains : forall e y, wf_env e -> exists ls y', Forall (fun l => l = LEffect \/ l = LTake e) ls /\ continues y ls y'
  /\ (y_crash y' <> None \/ y_queue y' = [] /\ y_todo y' = [] /\ (processed ls y).*2 = y_queue y).
Proof. exact drain. Qed.
Print Assumptions C63_drains.
(** and all the delayed notifications can be delivered, by letting time pass. *)
Theorem C63_notifies : forall y, y_crash y = None -> exists ls y', Forall (fun l => l = LTick \/ l = LNotify 0) ls /\ continues y ls y'
  /\ y_delayed y' = [] /\ y_crash y' = None /\ y_queue y' = y_queue y /\ y_pica y' = y_pica y
  /\ forall h, ~ gone h y -> delivered h y' = delivered h y ++ waiting h y.
Proof. exact notified. Qed.
Print Assumptions C63_notifies.
Example C63_example : y_crash (at_end y_active) = None /\ length (y_delayed (at_end y_active)) = 6%nat
  /\ (let y := after [rd 0 (CmdStop 7); rd 0 (CmdSessionDeinit 7); LConnect] (at_end y_active) in length (y_queue y) = 3%nat /\ y_crash y = None).
Proof. repeat (split; [vm_compute; reflexivity|]). vm_compute; reflexivity. Qed.

(** ** C65. The notifications of the states of a session, and of the device, arrive in the order of the changes.
    Full statement: the theorem [C65_fifo_partial] without [along fifo]. It is false: two notifications whose delays
    have expired may be sent in either order. *)
Definition disorder : list label := y_idle ++ [LTick; LNotify 3; LNotify 2].
Theorem C65_refuted : exists ls y outs h id, executed ls y /\ Forall polite ls
  /\ run pica_new (processed ls sys_new) = Ret (y_pica y, outs) /\ ~ gone h y
  /\ status_ntfs h id outs = [(SsInit, 0); (SsIdle, 0)] /\ statuses id (delivered h y) = [(SsIdle, 0); (SsInit, 0)].
Proof.
  exists disorder, (at_end disorder), (outs_after idle), 0, 7.
  assert (executed disorder (at_end disorder)) as Ex by run_demo.
  split; [exact Ex|]. split; [apply (politeb_sound _ _ Ex); vm_compute; reflexivity|]. split; [vm_compute; reflexivity|].
  split; [|split; vm_compute; reflexivity]. intros G. unfold gone in G.
  assert (bool_decide (0 ∈ p_closed (y_pica (at_end disorder))) = true) as E by by apply bool_decide_eq_true. vm_compute in E. discriminate E.
Qed.
Print Assumptions C65_refuted.
(** What holds: if, for each host, the runtime sends the delayed notifications in the order of their deadlines and
    of their creation, then what is received is a prefix of the changes, and the rest is on its way. *)
Theorem C65_fifo_partial : forall ls y outs h id, executed ls y -> along fifo ls sys_new ->
  run pica_new (processed ls sys_new) = Ret (y_pica y, outs) -> ~ gone h y ->
  statuses id (delivered h y) ++ statuses id (waiting h y) ++ statuses id (scheduled h (y_todo y)) = status_ntfs h id outs
  /\ device_statuses (delivered h y) ++ device_statuses (waiting h y) ++ device_statuses (scheduled h (y_todo y)) = device_statuses (messages h outs).
Proof. exact status_order. Qed.
Print Assumptions C65_fifo_partial.
Definition order : list label := y_idle ++ [LTick; LNotify 2; LNotify 2].
Example C65_example : executed order (at_end order) /\ along fifo order sys_new
  /\ statuses 7 (delivered 0 (at_end order)) = [(SsInit, 0); (SsIdle, 0)].
Proof.
  split; [run_demo|]. split; [|vm_compute; reflexivity]. vm_compute.
  repeat (split; [try exact I|]); try exact I.
  - intros j n n' Lt E E' Eh. destruct j as [|[|j]]; [| |lia]; injection E as <-; injection E' as <-; done.
  - intros j n n' Lt E E' Eh. destruct j as [|[|j]]; [| |lia]; injection E as <-; injection E' as <-; done.
Qed.

(** ** C66. Every device of the environment has a connection that is open, or whose end is being reported; and
    conversely. If the capture file of a connection cannot be created, its task panics and the device remains. *)
Theorem C66_served : forall ls y h, executed ls y -> Forall no_panic ls -> connected (y_pica y) h ->
  (exists m, OConnected h m ∈ y_todo y) \/ y_conns y !! h = Some CnRunning \/ y_conns y !! h = Some CnEnded
  \/ Disconnect h ∈ y_queue y.
Proof. exact all_served. Qed.
Print Assumptions C66_served.
Theorem C66_open : forall ls y h, executed ls y -> y_conns y !! h = Some CnRunning \/ y_conns y !! h = Some CnEnded ->
  connected (y_pica y) h.
Proof. intros ls y h Ex. apply (ci_open _ (executed_cinv _ _ Ex)). Qed.
Print Assumptions C66_open.
(** The messages to a host are dropped exactly from the end of its connection on. *)
Theorem C66_gone : forall ls y h, executed ls y -> gone h y <-> y_conns y !! h = Some CnEnded \/ y_conns y !! h = Some CnDone.
Proof. intros ls y h Ex. apply (ci_gone _ (executed_cinv _ _ Ex)). Qed.
Print Assumptions C66_gone.
(** In a history of the commands processed, without the tasks: exactly those whose connection was reported as ended. *)
Theorem C66_ended : forall l p outs h, reaches l p outs -> (h ∈ p_closed p <-> exists e, (e, HostGone h) ∈ l).
Proof.
  intros l p outs h R. revert l p outs R. apply (reaches_ind (fun l p _ => h ∈ p_closed p <-> exists e, (e, HostGone h) ∈ l)).
  - split; [intros H; exfalso; revert H; apply (not_elem_of_empty (C := gset N))|]. intros (e & H). by apply elem_of_nil in H.
  - intros l p outs e o p' outs' R IH We Wo S.
    assert (h ∈ p_closed p' <-> h ∈ p_closed p \/ o = HostGone h) as ->.
    { assert ((exists k, o = HostGone k) \/ ~ exists k, o = HostGone k) as [(k & ->)|Ne] by (destruct o; first [by left; eexists|right; intros [? ?]; discriminate]).
      - cbn [step] in S. injection S as <- _. cbn [p_closed]. rewrite elem_of_union, elem_of_singleton. split; [intros [->|?]; auto|intros [?|E]; [auto|injection E as ->; auto]].
      - rewrite (step_closed_same _ _ _ _ _ S) by (intros k ->; apply Ne; by exists k). split; [auto|]. intros [?| ->]; [done|]. destruct Ne. by exists h. }
    rewrite IH. split.
    + intros [(e' & H)| ->]; [exists e'|exists e]; apply elem_of_app; [by left|right; by apply elem_of_list_singleton].
    + intros (e' & H). apply elem_of_app in H as [H|H]; [left; by exists e'|]. apply elem_of_list_singleton in H. injection H as _ ->. by right.
Qed.
Print Assumptions C66_ended.
(** A device is disconnected at most once, and only after the end of its connection. *)
Theorem C66_disconnect_once : forall ls y q1 h q2, executed ls y -> y_queue y = q1 ++ Disconnect h :: q2 ->
  y_conns y !! h = Some CnDone /\ ~ In (Disconnect h) q2.
Proof.
  intros ls y q1 h q2 Ex E. pose proof (executed_cinv _ _ Ex) as C. split.
  - apply (ci_disc _ C). rewrite E. apply elem_of_app. right. left.
  - intros I. destruct (ci_after _ C _ _ _ [] E) as [_ N]. by apply N, elem_of_list_In.
Qed.
Print Assumptions C66_disconnect_once.
Theorem C66_panic_refuted : exists ls y h, executed ls y /\ connected (y_pica y) h /\ y_queue y = [] /\ y_todo y = []
  /\ y_conns y !! h = Some CnDone.
Proof.
  exists (y_ready ++ [LPanic 0]), (at_end (y_ready ++ [LPanic 0])), 0. split; [run_demo|].
  split; [|repeat (split; [vm_compute; reflexivity|]); vm_compute; reflexivity].
  unfold connected. destruct (p_devices (y_pica (at_end (y_ready ++ [LPanic 0]))) !! 0) as [d|] eqn:E; [by exists d|].
  assert (match p_devices (y_pica (at_end (y_ready ++ [LPanic 0]))) !! 0 with Some _ => true | None => false end = true) as T by (vm_compute; reflexivity).
  rewrite E in T. discriminate T.
Qed.
Print Assumptions C66_panic_refuted.
Example C66_example : let ls := y_active ++ [LEnd 0; LDisconnect 0] in executed ls (at_end ls) /\ Forall no_panic ls
  /\ y_queue (at_end ls) = [Disconnect 0].
Proof. cbv zeta. split; [run_demo|]. split; [vm_compute; repeat constructor|vm_compute; reflexivity]. Qed.

(** ** C06, continued: every message produced fits its format, and decodes to what was meant; the only exception are the
    answers to packets of a reserved message type, which have the header of a response of the group of the packet,
    and a single status byte. *)
Theorem C06_produced : forall e p o p' outs h m, reachable p -> wf_env e -> wf_op o -> step e p o = Ret (p', outs) ->
  In m (messages h outs) ->
  (exists b, wire m = Some b /\ decode_msg b = Some m)
  \/ (exists h' a b rest st, o = UciPacket h' (a :: b :: rest) /\ 4 <= a / 32 /\ wire m = Some [64 + a mod 16; b mod 64; 0; 1; st]).
Proof.
  intros e p o p' outs h m R We Wo S I.
  pose proof (step_messages _ _ _ _ _ _ h (reachable_pinv _ R) We Wo S) as F. rewrite Forall_forall in F. apply elem_of_list_In, F in I.
  destruct I as [W|(h' & a & b & rest & st & -> & Ha & ->)]; [left; by apply wire_decode|right].
  exists h', a, b, rest, st. split; [done|]. split; [done|]. unfold wire. cbn [msg_payload mbind option_bind app].
  assert (mk_hdr (mt_code MtResponse) (a mod 16) = 64 + a mod 16) as ->; [|done].
  apply N.eqb_eq, (small_byte_sweep (a mod 16) (fun g => mk_hdr (mt_code MtResponse) g =? 64 + g)); [vm_compute; reflexivity|].
  apply N.mod_lt. discriminate.
Qed.
Print Assumptions C06_produced.
Example C06_produced_example : ok_history active = true
  /\ step plain_env (state_after idle) (cmd 0 (CmdStart 7)) = Ret (state_after active, outs_of idle (cmd 0 (CmdStart 7)))
  /\ messages 0 (outs_of idle (cmd 0 (CmdStart 7))) = [SessionStatusNtf 7 SsActive 0; CoreDeviceStatusNtf DsActive; SessionStartRsp 0]
  /\ wire (SessionStatusNtf 7 SsActive 0) = Some [0x61; 2; 0; 0; 7; 0; 0; 0; 2; 0].
Proof.
  assert (ok_history (idle ++ [cmd 0 (CmdStart 7)]) = true) as O by (vm_compute; reflexivity).
  split; [exact O|]. split; [apply (history_step idle), O|]. split; vm_compute; reflexivity.
Qed.
