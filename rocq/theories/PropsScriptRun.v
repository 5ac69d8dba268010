(** The whole program of tests/ranging.py, running against the simulator (C84). *)
From Verif Require Import Base Uci MacAddress AppConfig Codec Session Device Pica Sys Transport CodecSpec ContextSpec HistorySpec SessionSpec SysSpec DialogueSpec.
From Verif Require Import PyHost PyReaderSpec Script ScriptSpec InvFacts CommandFacts Demo SysDemo DialogueDemo ScriptDemo ScriptFacts ScriptRunDemo ScriptRunFacts PropsDialogue PropsScript.

(** ** C84. The program of tests/ranging.py *)
(** For any session, type, accepted parameters and number [n] of notifications waited for, whatever the other hosts do, if
    the machine is fast enough for everything concerning the host to be done before time passes, and no in-band stop
    command is processed for its session, no expectation of the program fails. *)
Theorem C84_never_raises_partial : forall h id ty l cfg n ls y,
  wf_cmd (CmdSessionInit id ty) -> wf_cmd (CmdSetAppConfig id l) -> (length (cmd_args (CmdSetAppConfig id l)) <= 255)%nat ->
  sets_all default_app_config l cfg [] -> configured cfg -> session_info_ntf_config cfg <> 0 -> 5 < ranging_duration cfg ->
  executed ls y -> follows (ranging_program id ty l n) h ls -> brisk (ranging_program id ty l n) h ls -> not_stopped (device_mac_address cfg) id ls ->
  outcome_of (ranging_program id ty l n) h y <> Raised.
Proof. intros. by eapply program_ranges. Qed.
Print Assumptions C84_never_raises_partial.
(** When it finishes, it has received exactly [n] session information notifications, numbered from 0, and the session
    does not exist any more. *)
Theorem C84_finished_partial : forall h id ty l cfg n ls y,
  wf_cmd (CmdSessionInit id ty) -> wf_cmd (CmdSetAppConfig id l) -> (length (cmd_args (CmdSetAppConfig id l)) <= 255)%nat ->
  sets_all default_app_config l cfg [] -> configured cfg -> session_info_ntf_config cfg <> 0 -> 5 < ranging_duration cfg ->
  executed ls y -> follows (ranging_program id ty l n) h ls -> brisk (ranging_program id ty l n) h ls -> not_stopped (device_mac_address cfg) id ls ->
  outcome_of (ranging_program id ty l n) h y = Finished ->
  infos_delivered h id y = map N.of_nat (seq 0 n) /\ (~ gone h y -> y_crash y = None -> session_at (y_pica y) h id = None).
Proof. intros. by eapply program_ranges. Qed.
Print Assumptions C84_finished_partial.
(** It never waits for a message which will not come: if nothing is on its way, it has finished, or the ranging task of
    the session is running and will send the next notification. *)
Theorem C84_never_stuck_partial : forall h id ty l cfg n ls y,
  wf_cmd (CmdSessionInit id ty) -> wf_cmd (CmdSetAppConfig id l) -> (length (cmd_args (CmdSetAppConfig id l)) <= 255)%nat ->
  sets_all default_app_config l cfg [] -> configured cfg -> session_info_ntf_config cfg <> 0 -> 5 < ranging_duration cfg ->
  executed ls y -> follows (ranging_program id ty l n) h ls -> brisk (ranging_program id ty l n) h ls -> not_stopped (device_mac_address cfg) id ls ->
  ~ gone h y -> y_crash y = None -> connected (y_pica y) h -> all_arrived (ranging_program id ty l n) h ls y -> queued_rounds h id y = 0%nat ->
  outcome_of (ranging_program id ty l n) h y = Finished \/ live_timers h id y = 1%nat.
Proof. intros. by eapply program_ranges. Qed.
Print Assumptions C84_never_stuck_partial.

Lemma ranging_config_runs : exists cfg, sets_all default_app_config (ranging_config 1 1 [1; 0] [2; 0]) cfg [] /\ configured cfg
  /\ session_info_ntf_config cfg <> 0 /\ 5 < ranging_duration cfg.
Proof.
  eexists. split; [unfold ranging_config; repeat (eapply SaOk; [vm_compute; reflexivity|]); apply SaNil|].
  split; [intros i [<-|[<-|[<-|[<-|[<-|[]]]]]]; vm_compute; discriminate|]. split; [by vm_compute|vm_compute; reflexivity].
Qed.
Lemma ranging_late_run : executed ranging_late (at_end ranging_late) /\ follows (ranger 1) 0 ranging_late /\ along (orderly 0) ranging_late sys_new
  /\ (forall a, not_stopped a 7 ranging_late) /\ outcome_of (ranger 1) 0 (at_end ranging_late) = Raised.
Proof.
  split; [apply at_end_executed; [apply started_plain|vm_compute; reflexivity|vm_compute; reflexivity]|].
  split; [apply followsb_sound; vm_compute; reflexivity|]. split; [apply (alongb_sound (orderlyb 0)); [apply orderlyb_sound|vm_compute; reflexivity]|].
  split; [intros a; apply no_stopb_sound; vm_compute; reflexivity|vm_compute; reflexivity].
Qed.
(** On a slow machine, a round may come between the last notification waited for and the processing of the packet asking
    to stop; the program then fails, although every notification follows the response of its command. *)
Theorem C84_refuted : ~ forall h id ty l cfg n ls y,
  wf_cmd (CmdSessionInit id ty) -> wf_cmd (CmdSetAppConfig id l) -> (length (cmd_args (CmdSetAppConfig id l)) <= 255)%nat ->
  sets_all default_app_config l cfg [] -> configured cfg -> session_info_ntf_config cfg <> 0 -> 5 < ranging_duration cfg ->
  executed ls y -> follows (ranging_program id ty l n) h ls -> along (orderly h) ls sys_new -> not_stopped (device_mac_address cfg) id ls ->
  outcome_of (ranging_program id ty l n) h y <> Raised.
Proof.
  intros H. destruct ranging_config_ok as (Wi & Wc & Lc & _). destruct ranging_config_runs as (cfg & Sa & Cf & Nt & Du). destruct ranging_late_run as (Ex & Fo & Or & Ns & E).
  exact (H 0 7 0 _ cfg 1%nat ranging_late (at_end ranging_late) Wi Wc Lc Sa Cf Nt Du Ex Fo Or (Ns _) E).
Qed.
Print Assumptions C84_refuted.
Lemma ranging_run_runs : executed ranging_run (at_end ranging_run) /\ follows (ranger 2) 0 ranging_run /\ brisk (ranger 2) 0 ranging_run /\ (forall a, not_stopped a 7 ranging_run)
  /\ outcome_of (ranger 2) 0 (at_end ranging_run) = Finished /\ ~ gone 0 (at_end ranging_run) /\ y_crash (at_end ranging_run) = None.
Proof.
  split; [apply at_end_executed; [apply run_plain|vm_compute; reflexivity|vm_compute; reflexivity]|].
  split; [apply followsb_sound; vm_compute; reflexivity|]. split; [apply briskb_sound; vm_compute; reflexivity|].
  split; [intros a; apply no_stopb_sound; vm_compute; reflexivity|]. split; [vm_compute; reflexivity|].
  split; [apply not_gone_b; vm_compute; reflexivity|vm_compute; reflexivity].
Qed.
(** The controller of tests/ranging.py with two notifications, while another host is connected. *)
Example C84_example :
  let config := ranging_config 1 1 [1; 0] [2; 0] in
  wf_cmd (CmdSessionInit 7 0) /\ wf_cmd (CmdSetAppConfig 7 config) /\ (length (cmd_args (CmdSetAppConfig 7 config)) <= 255)%nat
  /\ (exists cfg, sets_all default_app_config config cfg [] /\ configured cfg /\ session_info_ntf_config cfg <> 0 /\ 5 < ranging_duration cfg
        /\ not_stopped (device_mac_address cfg) 7 ranging_run)
  /\ executed ranging_run (at_end ranging_run) /\ follows (ranger 2) 0 ranging_run /\ brisk (ranger 2) 0 ranging_run
  /\ outcome_of (ranger 2) 0 (at_end ranging_run) = Finished /\ ~ gone 0 (at_end ranging_run) /\ y_crash (at_end ranging_run) = None.
Proof.
  cbv zeta. destruct ranging_config_ok as (Wi & Wc & Lc & _). destruct ranging_config_runs as (cfg & Sa & Cf & Nt & Du). destruct ranging_run_runs as (Ex & Fo & Br & Ns & R).
  split; [exact Wi|]. split; [exact Wc|]. split; [exact Lc|]. split; [exists cfg; split; [exact Sa|]; split; [exact Cf|]; split; [exact Nt|]; split; [exact Du|]; apply Ns|].
  split; [exact Ex|]. split; [exact Fo|]. split; [exact Br|exact R].
Qed.
