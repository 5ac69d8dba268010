(** Concrete schedules for the examples and the refutations. *)
From Verif Require Import Base Uci MacAddress AppConfig Codec Session Device Pica Sys CodecSpec ContextSpec InvFacts CommandFacts Demo SysSpec.

(** The state after a schedule. *)
Definition after (ls : list label) (y : sys) : sys := default y (sys_run ls y).
Definition at_end (ls : list label) : sys := after ls sys_new.
(** One action, and the complete processing of the command at the head of the queue. *)
Definition act (l : label) (y : sys) : list label :=
  l :: LTake plain_env :: repeat LEffect (length (y_todo (after [l; LTake plain_env] y))).
(** Several, one after the other. *)
Fixpoint serve (ls : list label) (y : sys) : list label :=
  match ls with [] => [] | l :: ls => let a := act l y in a ++ serve ls (after a y) end.
(** A sequence of parts, each computed from the state in which it starts. *)
Fixpoint parts (l : list (sys -> list label)) (y : sys) : list label :=
  match l with [] => [] | f :: l => let a := f y in a ++ parts l (after a y) end.
Definition raw (ls : list label) : sys -> list label := fun _ => ls.
Definition finish : sys -> list label := fun y => LTake plain_env :: repeat LEffect (length (y_todo (after [LTake plain_env] y))).
Definition effects : sys -> list label := fun y => repeat LEffect (length (y_todo y)).
Definition rd (h : N) (c : command) : label := LRead h (cmd_packet c).

Definition wf_labelb (l : label) : bool :=
  match l with
  | LTake e => true
  | LRead _ packet => forallb (fun b => b <? 256) packet
  | LCreateAnchor m | LDestroyAnchor m => wf_macb m
  | _ => true
  end.
Definition plain (l : label) : Prop := match l with LTake e => e = plain_env | _ => True end.
Lemma wf_labelb_sound l : plain l -> wf_labelb l = true -> wf_label l.
Proof.
  destruct l; cbn; try done; [intros -> _; apply plain_env_wf|intros _; apply wf_bytesb|intros _ H; by apply (wf_opb_sound (CreateAnchor m))|intros _ H; by apply (wf_opb_sound (CreateAnchor m))].
Qed.
Lemma at_end_continues y ls : Forall plain ls -> forallb wf_labelb ls = true -> match sys_run ls y with Some _ => true | None => false end = true ->
  continues y ls (after ls y).
Proof.
  intros P W R. split.
  - apply Forall_forall. intros l Hl. rewrite Forall_forall in P. rewrite forallb_forall in W. apply wf_labelb_sound; [by apply P|by apply W, elem_of_list_In].
  - unfold after. by destruct (sys_run ls y).
Qed.
Lemma at_end_executed ls : Forall plain ls -> forallb wf_labelb ls = true -> match sys_run ls sys_new with Some _ => true | None => false end = true ->
  executed ls (at_end ls).
Proof. apply at_end_continues. Qed.
Ltac run_demo := first [apply at_end_executed|apply at_end_continues]; [vm_compute; repeat (constructor; [first [exact I|reflexivity]|]); constructor|vm_compute; reflexivity|vm_compute; reflexivity].

(** A device, reset, with session 7 configured, started. *)
Definition y_ready : list label := serve [LConnect; rd 0 (CmdDeviceReset 0)] sys_new.
Definition y_idle : list label :=
  y_ready ++ serve [rd 0 (CmdSessionInit 7 0); rd 0 (CmdSetAppConfig 7 (controller_config [1; 0] [2; 0]))] (at_end y_ready).
Definition y_active : list label := y_idle ++ serve [rd 0 (CmdStart 7)] (at_end y_idle).
Definition ticks (n : nat) : list label := repeat LTick n.
