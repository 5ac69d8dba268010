(** The cadence of the ranging rounds of a session. *)
From Verif Require Import Base Uci MacAddress AppConfig Codec Session Device Pica Sys.
From Verif Require Import BaseFacts CodecSpec CodecFacts ContextSpec InvFacts StepFacts CommandFacts Demo SysSpec SysFacts ScheduleFacts SysDemo PaceFacts PropsSession PropsSys.

(** ** C62. A session that is idle, with RANGING_DURATION [r] milliseconds (as SESSION_GET_APP_CONFIG reports it), is
    started. As long as it is not started again, its ranging task asks for [n] rounds in [n * r] milliseconds or more. *)
Theorem C62_from_start : forall ls y h packet q id s r e y1 ls' y',
  executed ls y -> y_queue y = UciPacket h packet :: q -> wf_cmd (CmdStart id) -> encodes (CmdStart id) packet ->
  serving (y_pica y) h -> session_at (y_pica y) h id = Some s -> s_state s = SsIdle ->
  r < 4294967296 -> app_config_get (s_cfg s) T_RANGING_DURATION = Some (le_bytes 4 r) ->
  wf_env e -> sys_step (LTake e) y = Some y1 -> continues y1 ls' y' -> no_start h id (processed ls' y1) ->
  N.of_nat (fires h id ls' y1) * r <= y_now y' - y_now y1.
Proof.
  intros ls y h packet q id s r e y1 ls' y' Ex Eq Wc En Sv Hs Si Hr Hd We S C Ns.
  pose proof (executed_snoc _ (LTake e) _ _ Ex We S) as Ex1. apply sys_step_moved in S as [Cr M].
  destruct (executed_sinv _ _ Ex) as (outs & I). destruct I as [R Q _ _ _ _ _ _ Tm].
  assert (reachable (y_pica y)) as Re by (eexists _, _; done).
  pose proof (reachable_pinv _ Re) as Pi.
  assert (wf_bytes packet) as Wp. { rewrite Eq in Q. by apply Forall_cons in Q as [? _]. }
  inversion M as [e0 o q0 p outs0 T0 Q0 S0 E0 E1|e0 o q0 sx T0 Q0 S0 E0 E1| | | | | | | | | | | | | |]; subst; rewrite Eq in Q0; injection Q0 as <- <-.
  2:{ (* the command of a reset device cannot crash here *) destruct C as [_ C]. destruct ls'; [|cbn in C; discriminate].
      cbn in C. injection C as <-. cbn. lia. }
  assert (commanded (y_pica y) h (CmdStart id) p outs0) as Cm. { split; [done|]. split; [done|]. split; [done|]. by eexists _, _. }
  pose proof (C26_start _ _ _ _ _ Cm) as K. rewrite Hs, bool_decide_true in K by done. destruct K as (_ & _ & K1 & _ & (v & Ev & Iv & _) & _).
  assert (ranging_duration (s_cfg s) = r) as Er.
  { destruct Sv as (d & Hd' & _). unfold session_at in Hs. rewrite Hd' in Hs. cbn in Hs.
    pose proof (co_duration _ (so_cfg _ _ (di_session _ _ (proj1 (pi_device _ _ Pi _ _ Hd')) _ _ Hs))) as B.
    cbn [app_config_get] in Hd. apply (inj Some) in Hd. apply (f_equal le_nat) in Hd. by rewrite !le_nat_bytes in Hd. }
  rewrite Er in Iv.
  destruct (started_run _ _ ls' y' h id r (y_now y) Ex1) as (_ & K & _); [|exact C|exact Ns|cbn [y_now y_set_pica y_set_strict y_set_todo y_set_queue]; lia].
  split; [|split; [cbn; lia|]].
  - by apply single_spawn.
  - cbn [y_timers y_set_pica y_set_strict y_set_todo y_set_queue]. destruct (Tm h id) as [E _]. rewrite T0 in E.
    change (timers_started h id []) with 0%nat in E. change (timers_stopped h id []) with 0%nat in E.
    assert (otask (p_devices (y_pica y) !! h) id = 0%nat) as Z.
    { destruct (commanded_inv _ _ _ _ _ Cm) as (d & d' & ef & m & Rd). pose proof (cr_handle Rd) as Hh. pose proof Hs as Hs'. rewrite (cr_session Rd) in Hs'.
      cbn [handle_command] in Hh. unfold session_start in Hh. rewrite Hs', bool_decide_true in Hh by done. cbn [negb] in Hh.
      destruct (s_task s) eqn:Ts; [discriminate|]. unfold session_at in Hs. unfold otask, dtask. destruct (p_devices (y_pica y) !! h); [|done].
      cbn in Hs |- *. by rewrite Hs, Ts. }
    rewrite Z in E. apply Forall_lookup. intros i t Hi Et Lt. exfalso.
    pose proof (filter_delete_length (fun t => is_timer h id t && t_live t) _ _ _ Hi) as Le. cbn beta in Le. rewrite Et, Lt in Le.
    unfold live_timers in E. cbn in Le. lia.
Qed.
Print Assumptions C62_from_start.

(** The task is never late: within one interval from any moment it can ask for its next round, provided the queue of the
    environment has room. *)
Theorem C62_due : forall ls y i t, executed ls y -> y_crash y = None -> y_timers y !! i = Some t -> t_live t = true ->
  (length (y_queue y) < QUEUE_CAPACITY)%nat ->
  exists n y', N.of_nat n <= t_interval t /\ continues y (repeat LTick n ++ [LTimer i]) y' /\ y_queue y' = y_queue y ++ [Ranging (t_host t) (t_session t)].
Proof.
  intros ls y i t Ex Cr Ht Lt Lq. pose proof (Forall_lookup_1 _ _ _ _ (deadline_near _ _ Ex) Ht) as D. cbn beta in D.
  set (n := N.to_nat (t_deadline t - y_now y)). destruct (wait n y Cr) as [F R].
  pose proof (MvTimer (y_set_now (y_now y + N.of_nat n) y) i t Ht) as M. cbn [y_now y_set_now] in M.
  specialize (M ltac:(unfold n; lia) Lq Lt). apply moved_sys_step in M; [|done].
  eexists n, _. split; [unfold n; lia|]. split; [split|].
  - apply Forall_app. split; [done|]. by repeat constructor.
  - rewrite sys_run_app, R. cbn [option_bind mbind sys_run]. rewrite M. reflexivity.
  - done.
Qed.
Print Assumptions C62_due.

(** The interval is the one configured when the session was started: a change of RANGING_DURATION while it is active is
    accepted, and has no effect on the running task. *)
Definition reconfigured : list label :=
  y_active ++ serve [rd 0 (CmdSetAppConfig 7 [(T_RANGING_DURATION, [0xf4; 1; 0; 0])])] (at_end y_active).
Theorem C62_reconfigured : exists ls y t s, executed ls y /\ In t (y_timers y) /\ is_timer 0 7 t = true /\ t_live t = true
  /\ last (delivered 0 y) = Some (SessionSetAppConfigRsp 0x00 (* OK *) [])
  /\ session_at (y_pica y) 0 7 = Some s /\ app_config_get (s_cfg s) T_RANGING_DURATION = Some (le_bytes 4 500) /\ t_interval t = 200.
Proof.
  exists reconfigured, (at_end reconfigured). eexists _, _. split; [run_demo|]. split; [vm_compute; left; reflexivity|].
  split; [vm_compute; reflexivity|]. split; [vm_compute; reflexivity|]. split; [vm_compute; reflexivity|].
  split; [vm_compute; reflexivity|]. split; vm_compute; reflexivity.
Qed.
Print Assumptions C62_reconfigured.

(** A start, and two rounds 200 and 400 milliseconds later. *)
Definition waiting_start : list label := y_idle ++ [rd 0 (CmdStart 7)].
Definition start_and_rounds : list label := repeat LEffect 4 ++ two_rounds.
Example C62_start_example : exists packet q s y1, executed waiting_start (at_end waiting_start)
  /\ y_queue (at_end waiting_start) = UciPacket 0 packet :: q /\ packet = cmd_packet (CmdStart 7)
  /\ serving (y_pica (at_end waiting_start)) 0
  /\ session_at (y_pica (at_end waiting_start)) 0 7 = Some s /\ s_state s = SsIdle
  /\ app_config_get (s_cfg s) T_RANGING_DURATION = Some (le_bytes 4 200)
  /\ sys_step (LTake plain_env) (at_end waiting_start) = Some y1
  /\ continues y1 start_and_rounds (after start_and_rounds y1) /\ fires 0 7 start_and_rounds y1 = 2%nat
  /\ y_now (after start_and_rounds y1) - y_now y1 = 400.
Proof.
  eexists _, _, _, _. split; [run_demo|]. split; [vm_compute; reflexivity|]. split; [reflexivity|]. split; [apply servingb_sound; vm_compute; reflexivity|].
  split; [vm_compute; reflexivity|]. split; [reflexivity|]. split; [reflexivity|]. split; [vm_compute; reflexivity|].
  split; [run_demo|]. split; vm_compute; reflexivity.
Qed.
