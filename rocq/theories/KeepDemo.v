(** An infinite fair execution with a session that stays active. *)
From Verif Require Import Base Uci MacAddress AppConfig Codec Session Device Pica Sys CodecSpec ContextSpec InvFacts CommandFacts Demo SysSpec SysDemo LiveSpec KeepSpec.
Open Scope nat_scope.

(** The notifications are disabled: the sequence number never overflows (C47). One round each millisecond. *)
Definition keep_config : list (tlv_id * bytes) :=
  controller_config [1%N; 0%N] [2%N; 0%N] ++ [(T_RANGING_DURATION, [1%N; 0%N; 0%N; 0%N]); (T_SESSION_INFO_NTF_CONFIG, [0%N])].
Definition keep_start : list label :=
  y_ready ++ serve [rd 0 (CmdSessionInit 7 0); rd 0 (CmdSetAppConfig 7 keep_config); rd 0 (CmdStart 7)] (at_end y_ready).
Definition keep_cycle : list label := [LTick; LTimer 0; LTake plain_env].
Definition keep_length : nat := length keep_start.
(** The actions and the states. *)
Definition keep_label (n : nat) : label :=
  if Nat.ltb n keep_length then nth n keep_start LTick else nth ((n - keep_length) mod 3) keep_cycle LTick.
Fixpoint keep_state (n : nat) : sys :=
  match n with 0 => sys_new | S n => let y := keep_state n in default y (sys_step (keep_label n) y) end.

Definition keep_pica : pica := y_pica (at_end keep_start).
Record keeping (q : N) (y : sys) (queue : list op) (now deadline : N) : Prop := {
  ke_pica : y_pica y = keep_pica; ke_queue : y_queue y = queue; ke_todo : y_todo y = []; ke_crash : y_crash y = None;
  ke_now : y_now y = (q + now)%N; ke_timers : y_timers y = [Timer 0 7 1 (q + deadline) true] }.
Lemma keep_first : keeping 0 (keep_state keep_length) [] 0 1.
Proof. split; vm_compute; reflexivity. Qed.
Lemma same_round e p h id : match step e p (Ranging h id) with Ret (p', o) => o = [] /\ session_at p' h id = session_at p h id | _ => False end ->
  step e p (Ranging h id) = Ret (p, []).
Proof.
  destruct (step e p (Ranging h id)) as [[p' o]|] eqn:S; [|done]. intros [-> Eq]. do 2 f_equal. cbn [step] in S.
  apply ranging_inv in S as (d & s & ms1 & ms2 & peers & o1 & o2 & s' & L & Ls & _ & _ & _ & _ & -> & _).
  unfold session_at in Eq. cbn in Eq. rewrite lookup_insert, L in Eq. cbn in Eq. rewrite lookup_insert, Ls in Eq. injection Eq as ->.
  unfold p_set_device, p_set_devices. rewrite (insert_id (d_sessions d)) by done.
  assert (d_set_sessions (d_sessions d) d = d) as -> by by destruct d. rewrite (insert_id (p_devices p)) by done. by destruct p.
Qed.
Lemma keep_round : step plain_env keep_pica (Ranging 0 7) = Ret (keep_pica, []).
Proof.
  assert (match step plain_env keep_pica (Ranging 0 7) with Ret (p, o) => o = [] /\ session_at p 0 7 = session_at keep_pica 0 7 | _ => False end) as H
    by (vm_compute; split; reflexivity).
  by apply same_round.
Qed.
Lemma keep_active : state_at keep_pica 0 7 = SsActive.
Proof. vm_compute. reflexivity. Qed.
Lemma keep_S n y : sys_step (keep_label n) (keep_state n) = Some y -> keep_state (S n) = y.
Proof. intros H. cbn [keep_state]. rewrite H. reflexivity. Qed.
Lemma keep_next n : match sys_step (keep_label n) (keep_state n) with Some _ => true | None => false end = true ->
  sys_step (keep_label n) (keep_state n) = Some (keep_state (S n)).
Proof. destruct (sys_step (keep_label n) (keep_state n)) as [y|] eqn:E; [|discriminate]. intros _. symmetry. f_equal. exact (keep_S _ _ E). Qed.
Global Opaque keep_pica keep_length keep_start keep_state.
Lemma keep_tick q y : keeping q y [] 0 1 -> exists y', sys_step LTick y = Some y' /\ keeping q y' [] 1 1.
Proof. intros [P Q T C W Ti]. unfold sys_step. rewrite C. eexists. split; [reflexivity|]. split; cbn; [exact P|exact Q|exact T|exact C|clear P; lia|exact Ti]. Qed.
Lemma keep_timer q y : keeping q y [] 1 1 -> exists y', sys_step (LTimer 0) y = Some y' /\ keeping q y' [Ranging 0 7] 1 2.
Proof.
  intros [P Q T C W Ti]. unfold sys_step. rewrite C, Ti. cbn [lookup list_lookup t_deadline]. rewrite W, N.leb_refl. unfold enqueue. rewrite Q.
  assert (Nat.ltb (length (@nil op)) QUEUE_CAPACITY = true) as -> by (vm_compute; reflexivity).
  eexists. split; [reflexivity|]. split; cbn; [exact P|reflexivity|exact T|exact C|exact W|]. rewrite Ti. cbn. rewrite W. clear P. replace (q + 1 + 1)%N with (q + 2)%N by lia. reflexivity.
Qed.
Lemma keep_take q y : keeping q y [Ranging 0 7] 1 2 -> exists y', sys_step (LTake plain_env) y = Some y' /\ keeping (q + 1) y' [] 0 1.
Proof.
  intros [P Q T C W Ti]. unfold sys_step. rewrite C, T, Q, P, keep_round. eexists. split; [reflexivity|].
  split; cbn; [reflexivity|reflexivity|reflexivity|exact C|clear P; lia|]. rewrite Ti. clear P. replace (q + 1 + 1)%N with (q + 2)%N by lia. reflexivity.
Qed.
Lemma keep_label_at q r : r < 3 -> keep_label (keep_length + (3 * q + r)) = nth r keep_cycle LTick.
Proof.
  intros Lr. unfold keep_label. destruct (Nat.ltb_spec (keep_length + (3 * q + r)) keep_length) as [L|L]; [lia|].
  replace (keep_length + (3 * q + r) - keep_length) with (r + q * 3) by lia. rewrite Nat.mod_add by lia. by rewrite Nat.mod_small.
Qed.
Lemma keep_states q : keeping (N.of_nat q) (keep_state (keep_length + 3 * q)) [] 0 1
  /\ keeping (N.of_nat q) (keep_state (keep_length + (3 * q + 1))) [] 1 1
  /\ keeping (N.of_nat q) (keep_state (keep_length + (3 * q + 2))) [Ranging 0 7] 1 2
  /\ forall r, r < 3 -> sys_step (keep_label (keep_length + (3 * q + r))) (keep_state (keep_length + (3 * q + r))) = Some (keep_state (S (keep_length + (3 * q + r)))).
Proof.
  assert (forall q, keeping (N.of_nat q) (keep_state (keep_length + 3 * q)) [] 0 1 ->
    keeping (N.of_nat q) (keep_state (keep_length + (3 * q + 1))) [] 1 1
    /\ keeping (N.of_nat q) (keep_state (keep_length + (3 * q + 2))) [Ranging 0 7] 1 2
    /\ keeping (N.of_nat (S q)) (keep_state (keep_length + 3 * S q)) [] 0 1
    /\ forall r, r < 3 -> sys_step (keep_label (keep_length + (3 * q + r))) (keep_state (keep_length + (3 * q + r))) = Some (keep_state (S (keep_length + (3 * q + r))))) as Go.
  { clear q. intros q K0. pose proof (keep_label_at q 0 ltac:(lia)) as L0. pose proof (keep_label_at q 1 ltac:(lia)) as L1. pose proof (keep_label_at q 2 ltac:(lia)) as L2.
    rewrite Nat.add_0_r in L0. cbn [nth keep_cycle] in L0, L1, L2.
    destruct (keep_tick _ _ K0) as (y1 & S1 & K1). rewrite <- L0 in S1. pose proof (keep_S _ _ S1) as E1.
    replace (S (keep_length + 3 * q)) with (keep_length + (3 * q + 1)) in E1 by lia. rewrite <- E1 in K1.
    destruct (keep_timer _ _ K1) as (y2 & S2 & K2). rewrite <- L1 in S2. pose proof (keep_S _ _ S2) as E2.
    replace (S (keep_length + (3 * q + 1))) with (keep_length + (3 * q + 2)) in E2 by lia. rewrite <- E2 in K2.
    destruct (keep_take _ _ K2) as (y3 & S3 & K3). rewrite <- L2 in S3. pose proof (keep_S _ _ S3) as E3.
    split; [done|]. split; [done|]. split.
    - replace (keep_length + 3 * S q) with (S (keep_length + (3 * q + 2))) by lia. rewrite E3. by replace (N.of_nat (S q)) with (N.of_nat q + 1)%N by lia.
    - intros r Lr. destruct r as [|[|[|r]]]; [| | |lia].
      + rewrite Nat.add_0_r, S1. by rewrite (keep_S _ _ S1).
      + rewrite S2. by rewrite (keep_S _ _ S2).
      + rewrite S3. by rewrite (keep_S _ _ S3). }
  assert (keeping (N.of_nat q) (keep_state (keep_length + 3 * q)) [] 0 1) as K.
  { induction q as [|q IH]; [rewrite Nat.mul_0_r, Nat.add_0_r; exact keep_first|by apply Go]. }
  destruct (Go q K) as (K1 & K2 & _ & K3). done.
Qed.
Lemma keep_split n : keep_length <= n -> exists q r, r < 3 /\ n = keep_length + (3 * q + r).
Proof.
  intros L. exists ((n - keep_length) / 3), ((n - keep_length) mod 3). split; [apply Nat.mod_upper_bound; lia|].
  pose proof (Nat.div_mod (n - keep_length) 3 ltac:(lia)). lia.
Qed.
Lemma keep_infinite : infinite keep_label keep_state.
Proof.
  split; [vm_compute; reflexivity|]. intros n. destruct (Nat.lt_ge_cases n keep_length) as [L|L].
  - split.
    + unfold keep_label. destruct (Nat.ltb_spec n keep_length) as [_|?]; [|lia].
      assert (executed keep_start (at_end keep_start)) as [W _] by run_demo. rewrite Forall_forall in W. apply W, elem_of_list_In, nth_In. exact L.
    + assert (forallb (fun n => match sys_step (keep_label n) (keep_state n) with Some _ => true | None => false end) (seq 0 keep_length) = true) as C
        by (vm_compute; reflexivity).
      rewrite forallb_forall in C. specialize (C n ltac:(apply in_seq; lia)). exact (keep_next n C).
  - destruct (keep_split n L) as (q & r & Lr & ->). split; [|by apply keep_states].
    rewrite keep_label_at by done. destruct r as [|[|[|r]]]; [exact I|exact I|apply plain_env_wf|lia].
Qed.
Lemma keep_fair_loop : fair_loop keep_label keep_state.
Proof. intros n _. exists (keep_length + (3 * n + 2)). split; [lia|]. by rewrite keep_label_at by lia. Qed.
Lemma keep_fair_ranging : fair_ranging keep_label keep_state.
Proof.
  intros n t _ _ _. destruct (ex_intro (fun q => q = n + N.to_nat (t_deadline t)) _ eq_refl) as [q Eq]. exists (keep_length + 3 * q). split; [lia|]. right.
  destruct (keep_states q) as ([_ _ _ _ _ Ti] & _). rewrite Ti. intros [E|[]]. apply (f_equal t_deadline) in E. cbn [t_deadline] in E. lia.
Qed.
Lemma keep_fair_time : fair_time keep_state.
Proof. intros t. exists (keep_length + 3 * N.to_nat t). destruct (keep_states (N.to_nat t)) as ([_ _ _ _ W _] & _). rewrite W. lia. Qed.
Lemma keep_active_from : active_from keep_length 0 7 keep_state.
Proof.
  intros k L. destruct (keep_split k L) as (q & r & Lr & ->). destruct (keep_states q) as ([P0 _ _ _ _ _] & [P1 _ _ _ _ _] & [P2 _ _ _ _ _] & _).
  destruct r as [|[|[|r]]]; [rewrite Nat.add_0_r, P0|rewrite P1|rewrite P2|lia]; exact keep_active.
Qed.
