(** The programs of the tests, running against the simulator (C83). *)
From Verif Require Import Base Uci MacAddress AppConfig Codec Session Device Pica Sys Transport CodecSpec ContextSpec HistorySpec SessionSpec SysSpec DialogueSpec.
From Verif Require Import PyHost PyReaderSpec Script ScriptSpec InvFacts CommandFacts Demo SysDemo DialogueDemo ScriptDemo ScriptFacts PropsDialogue.

Lemma ranging_config_ok : let config := ranging_config 1 1 [1; 0] [2; 0] in
  wf_cmd (CmdSessionInit 7 0) /\ wf_cmd (CmdSetAppConfig 7 config) /\ (length (cmd_args (CmdSetAppConfig 7 config)) <= 255)%nat
  /\ exists cfg, sets_all default_app_config config cfg [] /\ configured cfg.
Proof.
  cbv zeta. split; [split; [done|by left]|]. split; [split_and!; [done|apply Nat.ltb_lt; vm_compute; reflexivity|by repeat constructor]|].
  split; [apply Nat.leb_le; vm_compute; reflexivity|]. eexists. split; [unfold ranging_config; repeat (eapply SaOk; [vm_compute; reflexivity|]); apply SaNil|].
  intros i [<-|[<-|[<-|[<-|[<-|[]]]]]]; vm_compute; discriminate.
Qed.

(** ** C83. The set-up of a session by tests/ranging.py *)
(** Whatever the other hosts do, and however the tasks are scheduled, if no notification is sent before the response of
    the same command, no expectation of the program fails, for any session, type and accepted parameters. *)
Theorem C83_never_raises_partial : forall h id ty l cfg ls y,
  wf_cmd (CmdSessionInit id ty) -> wf_cmd (CmdSetAppConfig id l) -> (length (cmd_args (CmdSetAppConfig id l)) <= 255)%nat ->
  sets_all default_app_config l cfg [] -> configured cfg ->
  executed ls y -> along (orderly h) ls sys_new -> follows (set_up_program id ty l) h ls ->
  outcome_of (set_up_program id ty l) h y <> Raised.
Proof. intros. by eapply program_sets_up. Qed.
Print Assumptions C83_never_raises_partial.
(** When it finishes, the session exists, is idle, and has the parameters of the program. *)
Theorem C83_finished_partial : forall h id ty l cfg ls y,
  wf_cmd (CmdSessionInit id ty) -> wf_cmd (CmdSetAppConfig id l) -> (length (cmd_args (CmdSetAppConfig id l)) <= 255)%nat ->
  sets_all default_app_config l cfg [] -> configured cfg ->
  executed ls y -> along (orderly h) ls sys_new -> follows (set_up_program id ty l) h ls ->
  outcome_of (set_up_program id ty l) h y = Finished -> ~ gone h y -> y_crash y = None ->
  exists s, session_at (y_pica y) h id = Some s /\ s_state s = SsIdle /\ s_type s = ty /\ s_cfg s = cfg.
Proof. intros. by eapply program_sets_up. Qed.
Print Assumptions C83_finished_partial.
(** It never waits for a message which will not come: if nothing is on its way, it has finished. *)
Theorem C83_never_stuck_partial : forall h id ty l cfg ls y,
  wf_cmd (CmdSessionInit id ty) -> wf_cmd (CmdSetAppConfig id l) -> (length (cmd_args (CmdSetAppConfig id l)) <= 255)%nat ->
  sets_all default_app_config l cfg [] -> configured cfg ->
  executed ls y -> along (orderly h) ls sys_new -> follows (set_up_program id ty l) h ls ->
  ~ gone h y -> y_crash y = None -> connected (y_pica y) h -> all_arrived (set_up_program id ty l) h ls y ->
  outcome_of (set_up_program id ty l) h y = Finished.
Proof. intros. by eapply program_sets_up. Qed.
Print Assumptions C83_never_stuck_partial.
(** On a slow machine the notification may overtake the response (TODO(#84) of device.rs), and the program fails. *)
Theorem C83_refuted : ~ forall h id ty l cfg ls y,
  wf_cmd (CmdSessionInit id ty) -> wf_cmd (CmdSetAppConfig id l) -> (length (cmd_args (CmdSetAppConfig id l)) <= 255)%nat ->
  sets_all default_app_config l cfg [] -> configured cfg ->
  executed ls y -> follows (set_up_program id ty l) h ls ->
  outcome_of (set_up_program id ty l) h y <> Raised.
Proof.
  intros H. destruct ranging_config_ok as (Wi & Wc & Lc & cfg & Sa & Cf).
  assert (outcome_of controller_7 0 (at_end script_slow) = Raised) as E by (vm_compute; reflexivity).
  assert (follows controller_7 0 script_slow) as Fo by (apply followsb_sound; vm_compute; reflexivity).
  assert (executed script_slow (at_end script_slow)) as Ex by run_demo.
  exact (H 0 7 0 _ cfg script_slow (at_end script_slow) Wi Wc Lc Sa Cf Ex Fo E).
Qed.
Print Assumptions C83_refuted.
Example C83_example :
  let config := ranging_config 1 1 [1; 0] [2; 0] in
  wf_cmd (CmdSessionInit 7 0) /\ wf_cmd (CmdSetAppConfig 7 config) /\ (length (cmd_args (CmdSetAppConfig 7 config)) <= 255)%nat
  /\ (exists cfg, sets_all default_app_config config cfg [] /\ configured cfg)
  /\ executed script_7 (at_end script_7) /\ along (orderly 0) script_7 sys_new /\ follows controller_7 0 script_7
  /\ ~ gone 0 (at_end script_7) /\ y_crash (at_end script_7) = None /\ all_arrived controller_7 0 script_7 (at_end script_7)
  /\ outcome_of controller_7 0 (at_end script_7) = Finished.
Proof.
  cbv zeta. destruct ranging_config_ok as (Wi & Wc & Lc & Cf). split; [exact Wi|]. split; [exact Wc|]. split; [exact Lc|]. split; [exact Cf|]. clear.
  split; [run_demo|]. split; [apply (alongb_sound (orderlyb 0)); [apply orderlyb_sound|by vm_compute]|]. split; [apply followsb_sound; vm_compute; reflexivity|].
  split; [apply not_gone_b; by vm_compute|]. split; [vm_compute; reflexivity|].
  split; [split_and!; vm_compute; reflexivity|vm_compute; reflexivity].
Qed.
