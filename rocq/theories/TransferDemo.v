(** Concrete runs of the two programs of tests/data_transfer.py, and checkers of [joins] and [only_sender]. *)
From Verif Require Import Base Uci MacAddress AppConfig Codec Session Device Pica Sys Transport CodecSpec ContextSpec InvFacts CommandFacts Demo RangingSpec SysSpec SysDemo DialogueSpec DialogueDemo.
From Verif Require Import SysFacts PyHost PyReaderSpec Script ScriptSpec ScriptDemo ScriptRunDemo PropsRanging TransferSpec TransferFacts.

Definition activeb (h id : N) (y : sys) : bool :=
  match session_at (y_pica y) h id with Some s => bool_decide (s_state s = SsActive) | None => false end.
Definition first (h id : N) (y : sys) (f : option N) : option N :=
  match f with Some t => Some t | None => if activeb h id y then Some (y_now y) else None end.
Definition joined (i now : N) (fa fb : option N) : bool :=
  match fa with Some ta => (now <? ta + i) || match fb with Some tb => tb <? ta + i | None => false end | None => true end.
(** [fa] and [fb] are when the sessions were first active. *)
Fixpoint joinsb (a b id i : N) (fa fb : option N) (ls : list label) (y : sys) : bool :=
  let fa := first a id y fa in
  let fb := first b id y fb in
  joined i (y_now y) fa fb
  && match ls with
     | [] => true
     | l :: ls => match sys_step l y with Some y' => joinsb a b id i fa fb ls y' | None => true end
     end.
Definition since (h id : N) (ls : list label) (y : sys) (f : option N) : Prop :=
  match f with Some t => active_at h id ls t /\ t <= y_now y /\ forall t', active_at h id ls t' -> t <= t' | None => forall t', ~ active_at h id ls t' end.
Lemma first_now h id y : activeb h id y = true <-> exists sn, session_at (y_pica y) h id = Some sn /\ s_state sn = SsActive.
Proof.
  unfold activeb. destruct (session_at _ h id) as [s|]; [|split; [done|by intros (? & ? & _)]]. rewrite bool_decide_eq_true. split; [by intros E; exists s|]. by intros (? & [= <-] & ?).
Qed.
Lemma now_grows y l y' : moved y l y' -> y_now y <= y_now y'.
Proof.
  destruct 1; cbn; try lia.
  - destruct (perform_fields o (y_set_todo todo y)) as (_ & -> & _). done.
  - destruct (deliver_fields (n_host n) (n_msg n) (y_set_delayed (delete i (y_delayed y)) y)) as (_ & -> & _). done.
Qed.
Lemma since_step h id ls y l y' f : sys_run ls sys_new = Some y -> sys_step l y = Some y' -> since h id ls y f -> since h id (ls ++ [l]) y' (first h id y' f).
Proof.
  intros R S F. assert (sys_run (ls ++ [l]) sys_new = Some y') as R'. { rewrite sys_run_app, R. cbn. by rewrite S. }
  destruct (sys_step_moved _ _ _ S) as [_ M]. apply now_grows in M. unfold first. destruct f as [t|]; cbn [since] in *.
  - destruct F as (A & L & Mi). split_and!; [by apply active_more|lia|]. intros t' A'. apply (active_snoc _ _ _ _ _ _ R') in A' as [A'|[<- _]]; [by apply Mi|lia].
  - destruct (activeb h id y') eqn:E; cbn.
    + apply first_now in E as (sn & Sn & A). split_and!; [by eapply active_now|done|]. intros t' A'. apply (active_snoc _ _ _ _ _ _ R') in A' as [A'|[<- _]]; [by destruct (F t')|done].
    + intros t' A'. apply (active_snoc _ _ _ _ _ _ R') in A' as [A'|[_ A']]; [by destruct (F t')|]. apply first_now in A'. congruence.
Qed.
Lemma first_since h id ls y f : since h id ls y f -> first h id y f = f -> since h id ls y (first h id y f).
Proof. by intros F ->. Qed.
Lemma first_idem h id y f : first h id y (first h id y f) = first h id y f.
Proof. unfold first. destruct f; [done|]. by destruct (activeb h id y). Qed.
Lemma joinsb_sound a b id i ls : joinsb a b id i None None ls sys_new = true -> joins a b id i ls.
Proof.
  assert (forall ls0 y fa fb, sys_run ls0 sys_new = Some y -> since a id ls0 y fa -> since b id ls0 y fb -> first a id y fa = fa -> first b id y fb = fb -> joinsb a b id i fa fb ls y = true ->
    forall ls1 ls2 y1 t, ls = ls1 ++ ls2 -> sys_run ls1 y = Some y1 -> active_at a id (ls0 ++ ls1) t -> t + i <= y_now y1 -> exists t', t' < t + i /\ active_at b id (ls0 ++ ls1) t') as H.
  2:{ intros J ls1 ls2 y1 t E R _ _. apply (H [] sys_new None None eq_refl) with (ls2 := ls2); try done; intros t' (l1 & l2 & z & sn & Z & Rz & _ & Sz & _); destruct l1; [|done|..|done]; injection Rz as <-; done. }
  induction ls as [|l ls IH]; intros ls0 y fa fb R Sa Sb Ea Eb J ls1 ls2 y1 t E R1 A L; cbn [joinsb] in J; rewrite Ea, Eb in J; apply andb_true_iff in J as [J1 J2].
  1: assert (ls1 = []) as -> by (by destruct ls1). 2: destruct ls1 as [|l1 ls1].
  1-2: injection R1 as <-; rewrite app_nil_r in *; unfold joined in J1; destruct fa as [ta|]; [|by destruct (Sa t)]; destruct Sa as (_ & _ & Mi); specialize (Mi _ A);
    destruct (N.ltb_spec (y_now y) (ta + i)); [lia|]; cbn in J1; destruct fb as [tb|]; [|done]; apply N.ltb_lt in J1; exists tb; split; [lia|by destruct Sb].
  injection E as <- ->. cbn [sys_run] in R1. destruct (sys_step l y) as [y'|] eqn:S; [|discriminate]. cbn in R1.
  replace (ls0 ++ l :: ls1) with ((ls0 ++ [l]) ++ ls1) in * by (by rewrite <- app_assoc).
  assert (joinsb a b id i (first a id y' fa) (first b id y' fb) (ls1 ++ ls2) y' = true) as J3. { destruct (ls1 ++ ls2); cbn [joinsb] in *; by rewrite !first_idem. }
  eapply (IH (ls0 ++ [l]) y' _ _); [|by eapply since_step|by eapply since_step|by rewrite first_idem|by rewrite first_idem|exact J3|done|exact R1|done|done].
  rewrite sys_run_app, R. cbn. by rewrite S.
Qed.
Definition onlyb (a b id : N) (y : sys) : bool :=
  forallb (fun x => (x.1 =? a) || (x.1 =? b) || negb (activeb x.1 id y)) (map_to_list (p_devices (y_pica y))).
Fixpoint only_senderb (a b id : N) (ls : list label) (y : sys) : bool :=
  onlyb a b id y
  && match ls with
     | [] => true
     | l :: ls => match sys_step l y with Some y' => only_senderb a b id ls y' | None => true end
     end.
Lemma only_senderb_sound a b id ls : only_senderb a b id ls sys_new = true -> only_sender a b id ls.
Proof.
  intros H ls1 ls2 y1 k sn -> R Na Nb S (Ac & _). revert H R. generalize sys_new. induction ls1 as [|l ls1 IH]; intros y H R.
  - injection R as ->. assert (onlyb a b id y1 = true) as O. { destruct ls2; cbn [app only_senderb] in H; by apply andb_true_iff in H as [? _]. }
    unfold onlyb in O. rewrite forallb_forall in O. unfold session_at in S. destruct (p_devices (y_pica y1) !! k) as [d|] eqn:Ld; [|discriminate].
    specialize (O (k, d)). rewrite <- elem_of_list_In, elem_of_map_to_list in O. specialize (O Ld). cbn in O.
    apply N.eqb_neq in Na, Nb. rewrite Na, Nb in O. cbn in O. apply negb_true_iff in O. assert (activeb k id y1 = true) as X; [|congruence]. apply first_now. exists sn. unfold session_at. by rewrite Ld.
  - cbn [app only_senderb] in H. apply andb_true_iff in H as [_ H]. cbn [sys_run] in R. destruct (sys_step l y) as [y'|]; [|discriminate]. cbn in R. by eapply IH.
Qed.
(** All the environments are [demo_env], where every distance is estimated. *)
Definition seen (l : label) : Prop := match l with LTake e => e = demo_env | _ => True end.
Lemma seen_estimated a b ls : Forall seen ls -> estimated a b ls.
Proof. intros F e I. rewrite Forall_forall in F. apply elem_of_list_In, F in I. cbn in I. subst e. by split. Qed.
Lemma seen_executed ls : Forall seen ls -> forallb wf_labelb ls = true -> match sys_run ls sys_new with Some _ => true | None => false end = true -> executed ls (at_end ls).
Proof.
  intros P W R. split.
  - apply Forall_forall. intros l Hl. rewrite Forall_forall in P. rewrite forallb_forall in W. specialize (P l Hl). specialize (W l (proj1 (elem_of_list_In _ _) Hl)).
    destruct l; cbn in *; try done; [subst; apply demo_env_wf|by apply wf_bytesb|by apply (wf_opb_sound (CreateAnchor m))|by apply (wf_opb_sound (CreateAnchor m))].
  - unfold at_end, after. by destruct (sys_run ls sys_new).
Qed.

(** The fastest machine with two programs. *)
Definition next2 (p1 : list action) (h1 : N) (b1 : list bytes) (p2 : list action) (h2 : N) (b2 : list bytes) (y : sys) : label :=
  match match next p1 h1 b1 y with LTick => next p2 h2 b2 y | l => l end with LTake _ => LTake demo_env | l => l end.
Fixpoint fast2 (p1 : list action) (h1 : N) (b1 : list bytes) (p2 : list action) (h2 : N) (b2 : list bytes) (fuel : nat) (y : sys) : list label :=
  match fuel with
  | O => []
  | S fuel =>
      let l := next2 p1 h1 b1 p2 h2 b2 y in
      let go := match sys_step l y with Some y' => l :: fast2 p1 h1 (b1 ++ read_of h1 l) p2 h2 (b2 ++ read_of h2 l) fuel y' | None => [] end in
      match l with
      | LTick => match outcome_of p1 h1 y, outcome_of p2 h2 y with Blocked, Raised | Finished, Raised | Finished, Finished => [] | _, _ => go end
      | _ => go
      end
  end.
Lemma fast2_seen p1 h1 b1 p2 h2 b2 fuel y : Forall seen (fast2 p1 h1 b1 p2 h2 b2 fuel y).
Proof.
  revert b1 b2 y. induction fuel as [|fuel IH]; intros b1 b2 y; [constructor|]. cbn [fast2].
  assert (seen (next2 p1 h1 b1 p2 h2 b2 y)) as P. { unfold next2. by destruct (match next p1 h1 b1 y with LTick => _ | _ => _ end). }
  set (l := next2 p1 h1 b1 p2 h2 b2 y) in *. set (go := match sys_step l y with Some y' => _ | None => _ end).
  assert (Forall seen go) as G. { subst go. destruct (sys_step l y); [constructor; [done|apply IH]|constructor]. }
  destruct l; try exact G. destruct (outcome_of p1 h1 y), (outcome_of p2 h2 y); try exact G; constructor.
Qed.

(** The parameters of tests/data_transfer.py, but for rounds of 100 ms. *)
Definition transfer_config (role kind : N) (mac peer : bytes) : list (tlv_id * bytes) :=
  map (fun x => if bool_decide (x.1 = T_RANGING_DURATION) then (T_RANGING_DURATION, [100; 0; 0; 0]) else x) (ranging_config role kind mac peer).
(** The host of device 0 sends a file of 1030 bytes, in two messages, to that of device 1; another host is connected. *)
Definition sent_file : bytes := map (fun k => N.of_nat k mod 251) (seq 0 (N.to_nat 1030)).
Definition sender_7 : list action := sender_program 7 1 (transfer_config 1 1 [1; 0] [2; 0]) 2 sent_file 2.
Definition receiver_7 : list action := receiver_program 7 1 (transfer_config 0 0 [2; 0] [1; 0]) (le_nat [1; 0]) sent_file 1.
Definition transfer_start : list label := [LConnect; LConnect; LConnect].
Definition transfer_run : list label := transfer_start ++ fast2 sender_7 0 [] receiver_7 1 [] 700 (at_end transfer_start).
(** The second host connects after the first round. *)
Definition transfer_early : list label := [LConnect] ++ fast2 sender_7 0 [] receiver_7 1 [] 180 (at_end [LConnect]).
Definition transfer_late : list label :=
  transfer_early ++ [LConnect] ++ fast2 sender_7 0 (packets_read 0 transfer_early) receiver_7 1 [] 700 (at_end (transfer_early ++ [LConnect])).
