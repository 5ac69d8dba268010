(** Checkers of the kinds of schedules, and a concrete dialogue. *)
From Verif Require Import Base Uci MacAddress AppConfig Codec Session Device Pica Sys CodecSpec ContextSpec InvFacts CommandFacts Demo SysSpec SysDemo DialogueSpec.

Fixpoint alongb (P : label -> sys -> bool) (ls : list label) (y : sys) : bool :=
  match ls with
  | [] => true
  | l :: ls => P l y && match sys_step l y with Some y' => alongb P ls y' | None => true end
  end.
Lemma alongb_sound (Pb : label -> sys -> bool) (P : label -> sys -> Prop) ls y :
  (forall l y, Pb l y = true -> P l y) -> alongb Pb ls y = true -> along P ls y.
Proof.
  intros F. revert y. induction ls as [|l ls IH]; intros y H; [done|]. cbn [alongb along] in *. apply andb_true_iff in H as [H1 H2].
  split; [by apply F|]. destruct (sys_step l y); [by apply IH|done].
Qed.
Definition is_nil {A} (l : list A) : bool := match l with [] => true | _ => false end.
Lemma is_nil_sound {A} (l : list A) : is_nil l = true -> l = [].
Proof. by destruct l. Qed.
Definition calmb (h : N) (l : label) (y : sys) : bool := match l with LTick => is_nil (scheduled h (y_todo y)) || is_nil (waiting h y) | _ => true end.
Definition orderlyb (h : N) (l : label) (y : sys) : bool :=
  match l with
  | LNotify i => match y_delayed y !! i with Some n => negb (n_host n =? h) || is_nil (sent h (y_todo y)) | None => true end
  | _ => true
  end.
Definition timelyb (h : N) (l : label) (y : sys) : bool :=
  match l with
  | LNotify i => match y_delayed y !! i with
      | Some n => forallb (fun j => match y_delayed y !! j with
          | Some n' => Nat.eqb i j || negb (n_host n =? h) || negb (n_host n' =? h) || (n_deadline n <? n_deadline n') || (n_deadline n =? n_deadline n') && Nat.ltb i j
          | None => true end) (seq 0 (length (y_delayed y)))
      | None => true end
  | _ => true
  end.
Definition lockstepb (h : N) (l : label) (y : sys) : bool :=
  match l with
  | LRead h' _ => negb (h' =? h) || is_nil (packets h (y_queue y)) && is_nil (scheduled h (y_todo y)) && is_nil (waiting h y)
  | _ => true
  end.
Definition in_turnb (h : N) (l : label) (y : sys) : bool :=
  match l with
  | LTake e => match y_queue y with
      | o :: q => match step e (y_pica y) o with
          | Ret (_, outs) => match o with Connect => true | _ => negb (is_nil (packet_of h o)) || is_nil (messages h outs)
                || is_nil (waiting h y) && (is_nil (scheduled h outs) || is_nil (packets h q)) end
          | Crash _ => true end
      | [] => true end
  | _ => true
  end.
Lemma calmb_sound h l y : calmb h l y = true -> calm h l y.
Proof. destruct l; try done. intros H. apply orb_true_iff in H as [H|H]; [left|right]; by apply is_nil_sound. Qed.
Lemma orderlyb_sound h l y : orderlyb h l y = true -> orderly h l y.
Proof. destruct l; try done. cbn. intros H n L Eh. rewrite L, Eh, N.eqb_refl in H. by apply is_nil_sound. Qed.
Lemma timelyb_sound h l y : timelyb h l y = true -> timely h l y.
Proof.
  destruct l; try done. cbn. intros H j n n' Ne Ln Ln' Eh Eh'. rewrite Ln in H. rewrite forallb_forall in H.
  assert (In j (seq 0 (length (y_delayed y)))) as I by (apply in_seq; apply lookup_lt_Some in Ln'; lia). specialize (H _ I). rewrite Ln', Eh, Eh', N.eqb_refl in H.
  destruct (Nat.eqb_spec i j); [done|]. cbn in H. destruct (N.ltb_spec (n_deadline n) (n_deadline n')); [by left|]. cbn in H.
  apply andb_true_iff in H as [H1 H2]. right. split; [by apply N.eqb_eq|by apply Nat.ltb_lt].
Qed.
Lemma lockstepb_sound h l y : lockstepb h l y = true -> lockstep h l y.
Proof.
  destruct l; try done. cbn. intros H ->. rewrite N.eqb_refl in H. cbn in H. apply andb_true_iff in H as [H1 H3]. apply andb_true_iff in H1 as [H1 H2].
  split_and!; by apply is_nil_sound.
Qed.
Lemma in_turnb_sound h l y : in_turnb h l y = true -> in_turn h l y.
Proof.
  destruct l; try done. cbn [in_turnb in_turn]. intros H o q p outs Q S Nc Po. rewrite Q, S, Po in H. cbn [is_nil negb orb] in H.
  assert (is_nil (messages h outs) || is_nil (waiting h y) && (is_nil (scheduled h outs) || is_nil (packets h q)) = true) as H' by (destruct o; done).
  apply orb_true_iff in H' as [H'|H']; [left; by apply is_nil_sound|]. apply andb_true_iff in H' as [H1 H2]. right. split; [by apply is_nil_sound|].
  apply orb_true_iff in H2 as [H2|H2]; [left|right]; by apply is_nil_sound.
Qed.
Definition settledb (h : N) (y : sys) : bool :=
  match y_crash y with None => true | _ => false end && is_nil (packets h (y_queue y)) && is_nil (messages h (y_todo y)) && is_nil (waiting h y).
Lemma settledb_sound h y : settledb h y = true -> settled h y.
Proof.
  unfold settledb, settled, at_rest. intros H. apply andb_true_iff in H as [H H4]. apply andb_true_iff in H as [H H3]. apply andb_true_iff in H as [H1 H2].
  split_and!; [by destruct (y_crash y)|by apply is_nil_sound..].
Qed.

(** Time passes, and the notifications are sent in the order of their creation. *)
Definition settle : sys -> list label := fun y => ticks 5 ++ repeat (LNotify 0) (length (y_delayed y)).
Definition talk (l : label) : list (sys -> list label) := [act l; settle].
(** Two hosts connect; host 0 sets up session 7 while host 1 resets; then host 0 starts its session. *)
Definition dialogue_7 : list label :=
  parts (talk LConnect ++ talk LConnect ++ talk (rd 0 (CmdDeviceReset 0)) ++ talk (rd 1 (CmdDeviceReset 0)) ++ talk (rd 0 (CmdSessionInit 7 0))
    ++ talk (rd 0 (CmdSetAppConfig 7 (controller_config [1; 0] [2; 0])))) sys_new.
Definition dialogue_start : list label := dialogue_7 ++ parts (talk (rd 0 (CmdStart 7))) (at_end dialogue_7).
