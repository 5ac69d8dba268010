(** Liveness: what a fair runtime guarantees in the executions of the whole system that go on for ever (C87). *)
From Verif Require Import Base Uci MacAddress AppConfig Codec Session Device Pica Sys.
From Verif Require Import BaseFacts CodecSpec ContextSpec Demo SysSpec SysFacts SysDemo LiveSpec LiveFacts.
Open Scope N_scope.

(** ** C87. With a runtime that forgets no task, every command read is answered, every message meant for a host that
    stays is delivered, and a host whose connection has ended is removed. *)
Theorem C87_answered : forall f s h n, infinite f s -> fair_loop f s -> stays h s ->
  exists k, (n <= k)%nat /\ Forall2 answered (commands (packets_read h (before f n))) (responses (delivered h (s k))).
Proof. intros f s h n Inf Fl. by apply commands_answered_later. Qed.
Print Assumptions C87_answered.
(** Also the notifications that are sent after a delay. *)
Theorem C87_delivered : forall f s h n outs, infinite f s -> fair_loop f s -> fair_notify f s -> fair_time s -> stays h s ->
  run pica_new (processed (before f n) sys_new) = Ret (y_pica (s n), outs) ->
  exists k, (n <= k)%nat /\ messages h outs ⊆+ delivered h (s k).
Proof. intros f s h n outs Inf Fl Fn Ft. by apply all_delivered. Qed.
Print Assumptions C87_delivered.
Theorem C87_removed : forall f s h n, infinite f s -> fair_loop f s -> fair_disconnect f s -> y_conns (s n) !! h = Some CnEnded ->
  exists k, (n <= k)%nat /\ forall j, (k <= j)%nat -> ~ connected (y_pica (s j)) h.
Proof. intros f s h n Inf Fl. by apply removed_later. Qed.
Print Assumptions C87_removed.
(** The fair executions include every finite execution that comes to rest. *)
Theorem C87_fair : forall ls y, executed ls y -> at_rest y -> exists f s, before f (length ls) = ls /\ s (length ls) = y
  /\ infinite f s /\ fair_loop f s /\ fair_notify f s /\ fair_time s /\ fair_disconnect f s.
Proof.
  intros ls y Ex Re. exists (padded ls), (padded_state ls). split.
  { rewrite padded_before, take_ge, Nat.sub_diag by lia. apply app_nil_r. }
  split.
  { rewrite (padded_late _ _ Ex Re) by lia. rewrite Nat.sub_diag. unfold y_set_now. cbn. rewrite N.add_0_r. by destruct y. }
  split; [by eapply padded_infinite|]. split; [by eapply padded_fair_loop|]. split; [by eapply padded_fair_notify|].
  split; [by eapply padded_fair_time|by eapply padded_fair_disconnect].
Qed.
Print Assumptions C87_fair.

(** One host configures a session and stays, another one comes and goes. *)
Definition live_demo : list label :=
  parts [raw y_idle; raw (ticks 30); (fun y => repeat (LNotify 0) (length (y_delayed y))); serve [LConnect; rd 1 (CmdDeviceReset 0)]; raw (ticks 30);
         (fun y => repeat (LNotify 0) (length (y_delayed y))); raw [LEnd 1; LDisconnect 1]; finish] sys_new.
Lemma live_demo_executed : executed live_demo (at_end live_demo).
Proof. run_demo. Qed.
Definition restb (y : sys) : bool :=
  match y_crash y, y_queue y, y_todo y, y_delayed y with
  | None, [], [], [] => forallb (fun c => match c.2 with CnEnded => false | _ => true end) (map_to_list (y_conns y))
  | _, _, _, _ => false
  end.
Lemma restb_sound y : restb y = true -> at_rest y.
Proof.
  unfold restb, at_rest. destruct (y_crash y); [discriminate|]. destruct (y_queue y); [|discriminate]. destruct (y_todo y); [|discriminate].
  destruct (y_delayed y); [|discriminate]. intros F. repeat split. intros h E. rewrite forallb_forall in F.
  apply elem_of_map_to_list, elem_of_list_In, F in E. discriminate.
Qed.
Lemma live_demo_rest : at_rest (at_end live_demo).
Proof. apply restb_sound. vm_compute. reflexivity. Qed.
Lemma live_demo_stays : stays 0 (padded_state live_demo).
Proof.
  assert (forallb (fun n => negb (existsb (N.eqb 0) (elements (p_closed (y_pica (padded_state live_demo n)))))) (seq 0 95) = true) as C by (vm_compute; reflexivity).
  assert (forall n, (n <= 94)%nat -> ~ gone 0 (padded_state live_demo n)) as A.
  { intros n L G. rewrite forallb_forall in C. assert (In n (seq 0 95)) as I by (apply in_seq; lia). apply C in I.
    apply negb_true_iff in I. apply not_true_iff_false in I. apply I, existsb_exists. exists 0. split; [by apply elem_of_list_In, elem_of_elements|done]. }
  apply (padded_stays _ _ live_demo_executed live_demo_rest). assert (length live_demo = 94%nat) as -> by (vm_compute; reflexivity). exact A.
Qed.
Example C87_example : exists f s, infinite f s /\ fair_loop f s /\ fair_notify f s /\ fair_time s /\ fair_disconnect f s /\ stays 0 s
  /\ commands (packets_read 0 (before f 94%nat))
     = map cmd_packet [CmdDeviceReset 0; CmdSessionInit 7 0; CmdSetAppConfig 7 (controller_config [1; 0] [2; 0])]
  /\ (length (y_delayed (s 12%nat)) > 0)%nat
  /\ exists n, y_conns (s n) !! 1 = Some CnEnded.
Proof.
  exists (padded live_demo), (padded_state live_demo). pose proof live_demo_executed as Ex. pose proof live_demo_rest as Re.
  split; [by eapply padded_infinite|]. split; [by eapply padded_fair_loop|]. split; [by eapply padded_fair_notify|].
  split; [by eapply padded_fair_time|]. split; [by eapply padded_fair_disconnect|]. split; [apply live_demo_stays|].
  split; [vm_compute; reflexivity|]. split; [apply Nat.ltb_lt; vm_compute; reflexivity|]. exists 91%nat. vm_compute. reflexivity.
Qed.
