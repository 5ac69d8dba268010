(** The pace of a ranging task since the session was started. *)
From Verif Require Import Base Uci MacAddress AppConfig Codec Session Device Pica Sys.
From Verif Require Import BaseFacts CodecSpec CodecFacts ContextSpec InvFacts StepFacts CommandFacts EffectFacts SysSpec SysFacts ScheduleFacts.

(** The ranging tasks that remain to be spawned have this interval. *)
Definition spawns (h id interval : N) (o : out) : Prop :=
  match o with OEff h' (SpawnRanging id' n) => h' = h -> id' = id -> n = interval | _ => True end.
Lemma single_spawn h id interval outs : timers_started h id outs = 1%nat -> In (OEff h (SpawnRanging id interval)) outs ->
  Forall (spawns h id interval) outs.
Proof.
  intros S I. apply in_split in I as (l1 & l2 & ->).
  assert (forall l, timers_started h id l = 0%nat -> Forall (spawns h id interval) l) as Z.
  { induction l as [|o l IH]; [constructor|]. rewrite timers_started_cons. intros E. constructor; [|apply IH; lia].
    destruct o as [h' [| |id' n| |]| | |]; try exact I. intros -> ->. cbn [starts_timer] in E. rewrite !N.eqb_refl in E. cbn in E. lia. }
  unfold timers_started in S. rewrite map_app, list_sum_app in S. cbn [map list_sum fold_right] in S. cbn [starts_timer] in S.
  rewrite !N.eqb_refl in S. cbn [andb] in S. apply Forall_app. split; [apply Z; unfold timers_started; lia|].
  constructor; [by intros _ _|apply Z; unfold timers_started, list_sum in *; lia].
Qed.

(** [k] rounds have been asked for since [now0]. *)
Definition started (h id interval now0 : N) (k : nat) (y : sys) : Prop :=
  Forall (spawns h id interval) (y_todo y) /\ now0 + N.of_nat k * interval <= y_now y
  /\ Forall (fun t => is_timer h id t = true -> t_live t = true ->
       t_interval t = interval /\ now0 + (N.of_nat k + 1) * interval <= t_deadline t) (y_timers y).
Lemma started_step ls0 y l y' h id interval now0 k : executed ls0 y -> wf_label l -> moved y l y' -> started h id interval now0 k y ->
  no_start h id (taken l y) -> started h id interval now0 (k + fired h id l y) y'.
Proof.
  intros Ex W M (St & Kn & F) Ns. destruct (executed_sinv _ _ Ex) as (outs & I). destruct I as [R Q _ _ _ _ _ _ Tm].
  assert (pinv (fun _ => false) (y_pica y)) as Pi by (eapply reachable_pinv; eexists _, _; done).
  assert (forall y1, y_todo y1 = y_todo y -> y_now y1 = y_now y -> y_timers y1 = y_timers y -> fired h id l y = 0%nat ->
    started h id interval now0 (k + fired h id l y) y1) as Same.
  { intros y1 E1 E2 E3 ->. rewrite Nat.add_0_r. unfold started. by rewrite E1, E2, E3. }
  destruct M; try (by apply Same).
  - (* take *) cbn [fired]. rewrite Nat.add_0_r. rewrite H0 in Q. apply Forall_cons in Q as [Wo _]. split; [|done].
    cbn [taken] in Ns. rewrite H0, H1 in Ns. cbn [crashed] in Ns. cbn [y_todo y_set_pica y_set_strict y_set_todo y_set_queue].
    destruct (Nat.eq_dec (timers_started h id outs0) 0) as [E|Ne].
    + clear -E. induction outs0 as [|o l IH]; [constructor|]. rewrite timers_started_cons in E. constructor; [|apply IH; lia].
      destruct o as [h' [| |id' n| |]| | |]; try exact I. intros -> ->. cbn [starts_timer] in E. rewrite !N.eqb_refl in E. cbn in E. lia.
    + destruct (step_starts _ _ _ _ _ _ _ _ Pi Wo H1 Ne) as (packet & -> & Ec). destruct (Ns e packet); [by left|done].
  - (* effect *) cbn [fired]. rewrite Nat.add_0_r. destruct (perform_fields o (y_set_todo todo y)) as (Ep & En & Eq & Et & Es).
    unfold started. rewrite Et, En. cbn [y_todo y_now y_set_todo]. rewrite H in St. apply Forall_cons in St as [So St]. split; [done|]. split; [done|].
    destruct o as [h0 [m|ms m|id0 iv|id0|]| | |]; try done; cbn [perform].
    + destruct (_ && _); [done|]. destruct (deliver_fields h0 m (y_set_todo todo y)) as (_ & _ & _ & _ & -> & _). done.
    + cbn [y_timers y_set_timers y_set_todo y_now]. apply Forall_app. split; [done|]. constructor; [|constructor]. intros E _. unfold is_timer in E. cbn [t_host t_session] in E.
      apply andb_true_iff in E as [E1 E2]. apply N.eqb_eq in E1, E2. cbn [t_interval t_deadline]. cbn [spawns] in So. rewrite (So E1 E2). split; [done|].
      rewrite N.mul_add_distr_r. lia.
    + cbn [y_timers y_set_timers y_set_todo]. apply Forall_map. eapply Forall_impl; [exact F|]. intros t G E L. unfold abort in *.
      destruct (_ && _); [done|]. by apply G.
  - (* timer *) cbn [fired]. rewrite H, H2, andb_true_r. split; [done|]. cbn [y_timers y_now y_set_timers y_set_queue].
    destruct (is_timer h id t) eqn:E.
    + pose proof (Forall_lookup_1 _ _ _ _ F H E H2) as [Ei Ek]. replace (N.of_nat (k + 1)) with (N.of_nat k + 1) by lia. split; [lia|].
      apply Forall_lookup. intros j u Hj Eu Lu. rewrite list_lookup_insert_Some in Hj. destruct Hj as [(<- & <- & _)|(Ne & Hj)].
      * cbn [t_interval t_deadline]. split; [done|]. rewrite Ei. rewrite (N.mul_add_distr_r (N.of_nat k + 1)). lia.
      * destruct Ne. destruct (Tm h id) as [_ Le]. unfold live_timers in Le. eapply filter_two; [exact H|exact Hj| | |exact Le]; cbn beta; [by rewrite E, H2|by rewrite Eu, Lu].
    + rewrite Nat.add_0_r. split; [done|]. apply Forall_insert; [done|]. intros Eu. unfold is_timer in *. cbn in Eu. congruence.
  - (* late *) cbn [fired]. rewrite H, H2, andb_false_r, Nat.add_0_r. split_and!; [done|done|]. cbn. by apply Forall_delete.
  - cbn [fired]. rewrite Nat.add_0_r. split_and!; [done|done|]. cbn. by apply Forall_delete.
  - destruct (deliver_fields (n_host n) (n_msg n) (y_set_delayed (delete i (y_delayed y)) y)) as (_ & En & _ & Et & Etm & _). by apply Same.
  - cbn [fired]. rewrite Nat.add_0_r. split_and!; [done|cbn; lia|done].
Qed.
Lemma started_run ls0 y0 ls y h id interval now0 : executed ls0 y0 -> started h id interval now0 0 y0 ->
  continues y0 ls y -> no_start h id (processed ls y0) -> started h id interval now0 (fires h id ls y0) y.
Proof.
  intros Ex S0 C. revert ls y C. refine (continues_ind _ _ _ _); [done|].
  intros ls y l y' C IH W Cr M S Ns. rewrite (processed_snoc _ _ _ _ _ (proj2 C) S) in Ns. apply no_start_app in Ns as [N1 N2].
  rewrite (fires_snoc _ _ _ _ _ _ _ (proj2 C) S). eapply started_step; [by eapply executed_continues|done|done|by apply IH|done].
Qed.

(** A ranging task never sleeps for more than its interval. *)
Lemma deadline_near ls y : executed ls y -> Forall (fun t => t_deadline t <= y_now y + t_interval t) (y_timers y).
Proof.
  revert ls y. refine (executed_ind _ _ _); [constructor|]. intros ls y l y' Ex F W Cr M S. destruct M; try exact F.
  - destruct (perform_fields o (y_set_todo todo y)) as (_ & En & _). rewrite En. cbn [y_now y_set_todo].
    destruct o as [h0 [m|ms m|id0 iv|id0|]| | |]; try done; cbn [perform].
    + destruct (_ && _); [done|]. by destruct (deliver_fields h0 m (y_set_todo todo y)) as (_ & _ & _ & _ & -> & _).
    + cbn [y_timers y_set_timers y_set_todo y_now]. apply Forall_app. split; [done|]. constructor; [|constructor]. cbn. lia.
    + cbn [y_timers y_set_timers y_set_todo]. apply Forall_map. eapply Forall_impl; [exact F|]. intros t G. unfold compose, abort.
      by destruct (_ && _).
  - cbn [y_timers y_now y_set_timers y_set_queue]. apply Forall_insert; [done|]. cbn. lia.
  - cbn [y_timers y_now y_set_timers y_set_queue]. by apply Forall_delete.
  - cbn [y_timers y_now y_set_timers y_set_queue]. by apply Forall_delete.
  - destruct (deliver_fields (n_host n) (n_msg n) (y_set_delayed (delete i (y_delayed y)) y)) as (_ & En & _ & Et & Etm & _).
    by rewrite En, Etm.
  - eapply Forall_impl; [exact F|]. cbn. intros t ?. lia.
Qed.
(** Time can always pass. *)
Lemma wait n y : y_crash y = None -> continues y (repeat LTick n) (y_set_now (y_now y + N.of_nat n) y).
Proof.
  intros C. revert y C. induction n as [|n IH]; intros y C; cbn [repeat].
  - split; [constructor|]. cbn [sys_run]. rewrite N.add_0_r. by destruct y.
  - destruct (IH (y_set_now (y_now y + 1) y) C) as [F R]. split; [by constructor|]. cbn [sys_run].
    unfold sys_step at 1. rewrite C. cbn [option_bind mbind]. rewrite R. f_equal. cbn [y_now y_set_now].
    replace (y_now y + 1 + N.of_nat n) with (y_now y + N.of_nat (S n)) by lia. by destruct y.
Qed.
