(** Concrete runs of the whole program of tests/ranging.py, and checkers of [brisk] and [not_stopped]. *)
From Verif Require Import Base Uci MacAddress AppConfig Codec Session Device Pica Sys Transport CodecSpec ContextSpec InvFacts CommandFacts Demo SysSpec SysDemo DialogueSpec DialogueDemo.
From Verif Require Import SysFacts PyHost PyReaderSpec Script ScriptSpec ScriptDemo.

Definition done_atb (h : N) (y : sys) : bool :=
  forallb (fun o => match o with OEff k _ => negb (k =? h) | _ => true end) (y_todo y) && is_nil (packets h (y_queue y))
  && forallb (fun o => match o with Ranging k _ => negb (k =? h) | _ => true end) (y_queue y)
  && forallb (fun n => negb (n_host n =? h) || (y_now y <? n_deadline n)) (y_delayed y)
  && forallb (fun t => negb (t_host t =? h) || t_live t && (y_now y <? t_deadline t)) (y_timers y).
Lemma done_atb_sound h y : done_atb h y = true -> done_at h y.
Proof.
  unfold done_atb. intros H. apply andb_true_iff in H as [H H5]. apply andb_true_iff in H as [H H4]. apply andb_true_iff in H as [H H3]. apply andb_true_iff in H as [H1 H2].
  rewrite forallb_forall in H1, H3, H4, H5. split_and!.
  - intros x I. apply H1 in I. by rewrite N.eqb_refl in I.
  - by apply is_nil_sound.
  - intros id. unfold queued_rounds. clear H2. induction (y_queue y) as [|o q IH]; [done|]. cbn [List.filter].
    assert (is_ranging h id o = false) as ->. { specialize (H3 o (or_introl eq_refl)). destruct o; try done. cbn. by destruct (_ =? h). }
    apply IH. intros. apply H3. by right.
  - intros n I E. apply H4 in I. rewrite E, N.eqb_refl in I. cbn in I. by apply N.ltb_lt.
  - intros t I E. apply H5 in I. rewrite E, N.eqb_refl in I. cbn in I. apply andb_true_iff in I as [? I]. split; [done|]. by apply N.ltb_lt.
Qed.
Fixpoint briskb (prog : list action) (h : N) (before : list bytes) (ls : list label) (y : sys) : bool :=
  match ls with
  | [] => true
  | l :: ls =>
      match l with LTick => done_atb h y && bool_decide (before = sent_by prog (received h y)) | _ => true end
      && match sys_step l y with Some y' => briskb prog h (before ++ read_of h l) ls y' | None => true end
  end.
Lemma briskb_sound prog h ls : briskb prog h [] ls sys_new = true -> brisk prog h ls.
Proof.
  assert (forall ls0 y, sys_run ls0 sys_new = Some y -> briskb prog h (packets_read h ls0) ls y = true ->
    forall ls1 ls2 y1, ls = ls1 ++ LTick :: ls2 -> sys_run ls1 y = Some y1 ->
      done_at h y1 /\ packets_read h (ls0 ++ ls1) = sent_by prog (received h y1)) as H.
  2:{ intros B ls1 ls2 y1 E R _. by apply (H [] sys_new eq_refl B ls1 ls2). }
  induction ls as [|l ls IH]; intros ls0 y R B ls1 ls2 y1 E R1; [by destruct ls1|].
  cbn [briskb] in B. apply andb_true_iff in B as [B1 B2]. destruct ls1 as [|l1 ls1].
  - injection E as -> _. injection R1 as <-. apply andb_true_iff in B1 as [B1 B3]. rewrite app_nil_r. split; [by apply done_atb_sound|]. by apply bool_decide_eq_true in B3.
  - injection E as <- ->. cbn [sys_run] in R1. destruct (sys_step l y) as [y'|] eqn:S; [|discriminate]. cbn in R1.
    replace (ls0 ++ l :: ls1) with ((ls0 ++ [l]) ++ ls1) by (by rewrite <- app_assoc). eapply (IH (ls0 ++ [l]) y'); [| |done|done].
    + by rewrite sys_run_app, R; cbn; rewrite S.
    + unfold packets_read. rewrite map_app, concat_app. cbn [map concat]. by rewrite app_nil_r.
Qed.
Definition no_stopb (l : list (env * op)) : bool := forallb (fun p => match p.2 with StopRanging _ _ => false | _ => true end) l.
Lemma no_stopb_sound a id ls : no_stopb (processed ls sys_new) = true -> not_stopped a id ls.
Proof. intros H e m I. unfold no_stopb in H. rewrite forallb_forall in H. by apply H in I. Qed.

(** The fastest machine: everything that can be done is done before time passes. *)
Fixpoint index {A} (f : A -> bool) (l : list A) : option nat :=
  match l with [] => None | x :: l => if f x then Some 0%nat else S <$> index f l end.
Definition next (prog : list action) (h : N) (before : list bytes) (y : sys) : label :=
  match y_todo y, y_queue y with
  | _ :: _, _ => LEffect
  | [], _ :: _ => LTake plain_env
  | [], [] =>
      match index (fun n => n_deadline n <=? y_now y) (y_delayed y), index (fun t => negb (t_live t)) (y_timers y), index (fun t => t_deadline t <=? y_now y) (y_timers y) with
      | Some i, _, _ => LNotify i
      | _, Some i, _ => LTimerEnd i
      | _, _, Some i => LTimer i
      | None, None, None => match drop (length before) (sent_by prog (received h y)) with packet :: _ => LRead h packet | [] => LTick end
      end
  end.
Fixpoint fast (prog : list action) (h : N) (fuel : nat) (before : list bytes) (y : sys) : list label :=
  match fuel with
  | O => []
  | S fuel =>
      let l := next prog h before y in
      match l, outcome_of prog h y with
      | LTick, Finished => []
      | _, _ => match sys_step l y with Some y' => l :: fast prog h fuel (before ++ read_of h l) y' | None => [] end
      end
  end.
Lemma next_plain prog h before y : SysDemo.plain (next prog h before y).
Proof.
  unfold next. destruct (y_todo y), (y_queue y); try done. destruct (index _ _); [done|]. destruct (index _ _); [done|]. destruct (index _ _); [done|]. by destruct (drop _ _).
Qed.
Lemma fast_plain prog h fuel before y : Forall SysDemo.plain (fast prog h fuel before y).
Proof.
  revert before y. induction fuel as [|fuel IH]; intros before y; [constructor|]. cbn [fast]. pose proof (next_plain prog h before y) as P.
  destruct (next prog h before y), (outcome_of prog h y); try constructor; destruct (sys_step _ y); try constructor; try done; apply IH.
Qed.

(** The controller of tests/ranging.py, with two notifications, while another host is connected. *)
Definition ranger (n : nat) : list action := ranging_program 7 0 (ranging_config 1 1 [1; 0] [2; 0]) n.
Definition ranging_run : list label := [LConnect; LConnect] ++ fast (ranger 2) 0 2200 [] (at_end [LConnect; LConnect]).
Lemma run_plain : Forall SysDemo.plain ranging_run.
Proof. unfold ranging_run. generalize (at_end [LConnect; LConnect]). intros y. apply Forall_app. split; [by repeat constructor|apply fast_plain]. Qed.
(** The same with one notification, but the second round comes before the packet asking to stop is read. *)
Definition ranging_started : list label := [LConnect] ++ fast (take 15 (ranger 1)) 0 1060 [] (at_end [LConnect]).
Definition ranging_late : list label := ranging_started ++ ticks 1000 ++ [LTimer 0; LTake plain_env; LEffect].
Lemma started_plain : Forall SysDemo.plain ranging_late.
Proof.
  assert (Forall SysDemo.plain ranging_started) as A. { unfold ranging_started. generalize (at_end [LConnect]). intros y. apply Forall_app. split; [by repeat constructor|apply fast_plain]. }
  unfold ranging_late, ticks. generalize dependent ranging_started. intros ls A. generalize 1000%nat. intros k.
  apply Forall_app. split; [done|]. apply Forall_app. split; [|by repeat constructor].
  apply Forall_forall. intros l I. apply elem_of_list_In, repeat_spec in I as ->. done.
Qed.
