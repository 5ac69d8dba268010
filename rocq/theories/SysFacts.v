(** Invariants of the executions of the whole system. *)
From Verif Require Import Base Uci MacAddress AppConfig Codec Session Device Pica Sys BaseFacts CodecSpec CodecFacts ContextSpec InvFacts StepFacts CommandFacts RangingSpec RangingFacts EffectFacts SysSpec.

(** ** The actions, one by one *)
Inductive moved (y : sys) : label -> sys -> Prop :=
  | MvTake e o q p outs : y_todo y = [] -> y_queue y = o :: q -> step e (y_pica y) o = Ret (p, outs) ->
      moved y (LTake e) (y_set_pica p (y_set_strict (is_round o) (y_set_todo outs (y_set_queue q y))))
  | MvCrash e o q s : y_todo y = [] -> y_queue y = o :: q -> step e (y_pica y) o = Crash s ->
      moved y (LTake e) (y_set_crash (Some s) (y_set_queue q y))
  | MvEffect o todo : y_todo y = o :: todo -> moved y LEffect (perform o (y_set_todo todo y))
  | MvTimer i t : y_timers y !! i = Some t -> t_deadline t <= y_now y -> (length (y_queue y) < QUEUE_CAPACITY)%nat -> t_live t = true ->
      moved y (LTimer i) (y_set_timers (<[i := Timer (t_host t) (t_session t) (t_interval t) (y_now y + t_interval t) true]> (y_timers y))
                            (y_set_queue (y_queue y ++ [Ranging (t_host t) (t_session t)]) y))
  | MvLate i t : y_timers y !! i = Some t -> t_deadline t <= y_now y -> (length (y_queue y) < QUEUE_CAPACITY)%nat -> t_live t = false ->
      moved y (LTimer i) (y_set_timers (delete i (y_timers y)) (y_set_queue (y_queue y ++ [Ranging (t_host t) (t_session t)]) y))
  | MvTimerEnd i t : y_timers y !! i = Some t -> t_live t = false -> moved y (LTimerEnd i) (y_set_timers (delete i (y_timers y)) y)
  | MvNotify i n : y_delayed y !! i = Some n -> n_deadline n <= y_now y ->
      moved y (LNotify i) (deliver (n_host n) (n_msg n) (y_set_delayed (delete i (y_delayed y)) y))
  | MvStopper i k : y_stoppers y !! i = Some k -> 0 < k_left k -> (length (y_queue y) < QUEUE_CAPACITY)%nat ->
      moved y (LStopper i) (y_set_stoppers (<[i := Stopper (k_mac k) (k_session k) (k_left k - 1)]> (y_stoppers y))
                              (y_set_queue (y_queue y ++ [StopRanging (k_mac k) (k_session k)]) y))
  | MvRead h packet : y_conns y !! h = Some CnRunning -> (length (y_queue y) < QUEUE_CAPACITY)%nat ->
      moved y (LRead h packet) (y_set_queue (y_queue y ++ [UciPacket h packet]) y)
  | MvEnd h : y_conns y !! h = Some CnRunning -> moved y (LEnd h) (close_host h (y_set_conns (<[h := CnEnded]> (y_conns y)) y))
  | MvDisconnect h : y_conns y !! h = Some CnEnded -> (length (y_queue y) < QUEUE_CAPACITY)%nat ->
      moved y (LDisconnect h) (y_set_conns (<[h := CnDone]> (y_conns y)) (y_set_queue (y_queue y ++ [Disconnect h]) y))
  | MvPanic h : y_conns y !! h = Some CnRunning -> moved y (LPanic h) (close_host h (y_set_conns (<[h := CnDone]> (y_conns y)) y))
  | MvConnect : (length (y_queue y) < QUEUE_CAPACITY)%nat -> moved y LConnect (y_set_queue (y_queue y ++ [Connect]) y)
  | MvCreate m : (length (y_queue y) < QUEUE_CAPACITY)%nat -> moved y (LCreateAnchor m) (y_set_queue (y_queue y ++ [CreateAnchor m]) y)
  | MvDestroy m : (length (y_queue y) < QUEUE_CAPACITY)%nat -> moved y (LDestroyAnchor m) (y_set_queue (y_queue y ++ [DestroyAnchor m]) y)
  | MvTick : moved y LTick (y_set_now (y_now y + 1) y).

Lemma sys_step_moved l y y' : sys_step l y = Some y' -> y_crash y = None /\ moved y l y'.
Proof.
  intros H. unfold sys_step in H. destruct (y_crash y) as [c|] eqn:C; [discriminate|]. split; [done|].
  assert (forall o (f : sys -> option sys), (y0 ← enqueue o y; f y0) = Some y' ->
    (length (y_queue y) < QUEUE_CAPACITY)%nat /\ f (y_set_queue (y_queue y ++ [o]) y) = Some y') as En.
  { intros o f E. unfold enqueue in E. destruct (Nat.ltb_spec (length (y_queue y)) QUEUE_CAPACITY); [|discriminate]. done. }
  assert (forall o, enqueue o y = Some y' ->
    (length (y_queue y) < QUEUE_CAPACITY)%nat /\ y' = y_set_queue (y_queue y ++ [o]) y) as En'.
  { intros o E. unfold enqueue in E. destruct (Nat.ltb_spec (length (y_queue y)) QUEUE_CAPACITY); [|discriminate]. injection E as <-. done. }
  destruct l.
  - destruct (y_todo y) eqn:T; [|discriminate]. destruct (y_queue y) as [|o q] eqn:Q; [discriminate|].
    destruct (step e (y_pica y) o) as [[p outs]|] eqn:S; injection H as <-; [by eapply MvTake|by eapply MvCrash].
  - destruct (y_todo y) as [|o todo] eqn:T; [discriminate|]. injection H as <-. by apply MvEffect.
  - destruct (y_timers y !! i) as [t|] eqn:T; [|discriminate]. destruct (N.leb_spec (t_deadline t) (y_now y)); [|discriminate].
    apply En in H as [L H]. injection H as <-. cbn [y_timers y_set_queue y_now]. destruct (t_live t) eqn:Lv; [by eapply MvTimer|by eapply MvLate].
  - destruct (y_timers y !! i) as [t|] eqn:T; [|discriminate]. destruct (t_live t) eqn:Lv; [discriminate|]. injection H as <-. by eapply MvTimerEnd.
  - destruct (y_delayed y !! i) as [n|] eqn:T; [|discriminate]. destruct (N.leb_spec (n_deadline n) (y_now y)); [|discriminate]. injection H as <-. by eapply MvNotify.
  - destruct (y_stoppers y !! i) as [k|] eqn:T; [|discriminate]. destruct (N.ltb_spec 0 (k_left k)); [|discriminate].
    apply En in H as [L H]. injection H as <-. by eapply MvStopper.
  - destruct (y_conns y !! h) as [[]|] eqn:T; try discriminate. apply En' in H as [L ->]. by apply MvRead.
  - destruct (y_conns y !! h) as [[]|] eqn:T; try discriminate. injection H as <-. by apply MvEnd.
  - destruct (y_conns y !! h) as [[]|] eqn:T; try discriminate. apply En in H as [L H]. injection H as <-. by apply MvDisconnect.
  - destruct (y_conns y !! h) as [[]|] eqn:T; try discriminate. injection H as <-. by apply MvPanic.
  - apply En' in H as [L ->]. by apply MvConnect.
  - apply En' in H as [L ->]. by apply MvCreate.
  - apply En' in H as [L ->]. by apply MvDestroy.
  - injection H as <-. by apply MvTick.
Qed.
(** Conversely, the moves are possible. *)
Lemma moved_sys_step l y y' : y_crash y = None -> moved y l y' -> sys_step l y = Some y'.
Proof.
  intros C M. unfold sys_step. rewrite C.
  assert (forall o, (length (y_queue y) < QUEUE_CAPACITY)%nat -> enqueue o y = Some (y_set_queue (y_queue y ++ [o]) y)) as En.
  { intros o L. unfold enqueue. apply Nat.ltb_lt in L. by rewrite L. }
  destruct M.
  - by rewrite H, H0, H1.
  - by rewrite H, H0, H1.
  - by rewrite H.
  - rewrite H. apply N.leb_le in H0. rewrite H0, En by done. cbn. by rewrite H2.
  - rewrite H. apply N.leb_le in H0. rewrite H0, En by done. cbn. by rewrite H2.
  - by rewrite H, H0.
  - rewrite H. apply N.leb_le in H0. by rewrite H0.
  - rewrite H. apply N.ltb_lt in H0. rewrite H0, En by done. done.
  - by rewrite H, En.
  - by rewrite H.
  - by rewrite H, En.
  - by rewrite H.
  - by rewrite En.
  - by rewrite En.
  - by rewrite En.
  - done.
Qed.

(** ** Runs *)
Lemma sys_run_app ls1 ls2 y : sys_run (ls1 ++ ls2) y = (y' ← sys_run ls1 y; sys_run ls2 y').
Proof. revert y. induction ls1 as [|l ls1 IH]; intros y; [done|]. cbn [app sys_run]. destruct (sys_step l y); cbn; [apply IH|done]. Qed.
Lemma processed_app ls1 ls2 y y' : sys_run ls1 y = Some y' -> processed (ls1 ++ ls2) y = processed ls1 y ++ processed ls2 y'.
Proof.
  revert y. induction ls1 as [|l ls1 IH]; intros y H; cbn [app sys_run processed] in *; [by injection H as ->|].
  destruct (sys_step l y) as [y1|]; [|discriminate]. cbn in H. by rewrite (IH _ H), app_assoc.
Qed.
Lemma executed_snoc ls l y y' : executed ls y -> wf_label l -> sys_step l y = Some y' -> executed (ls ++ [l]) y'.
Proof.
  intros [F R] W S. split; [apply Forall_app; split; [done|by repeat constructor]|]. rewrite sys_run_app, R. cbn. by rewrite S.
Qed.
Lemma executed_continues ls y ls' y' : executed ls y -> continues y ls' y' -> executed (ls ++ ls') y'.
Proof. intros [F R] [F' R']. split; [by apply Forall_app|]. by rewrite sys_run_app, R. Qed.
Lemma executed_ind (P : list label -> sys -> Prop) : P [] sys_new ->
  (forall ls y l y', executed ls y -> P ls y -> wf_label l -> y_crash y = None -> moved y l y' -> sys_step l y = Some y' -> P (ls ++ [l]) y') ->
  forall ls y, executed ls y -> P ls y.
Proof.
  intros P0 PS ls. induction ls as [|l ls IH] using rev_ind; intros y [F R].
  - injection R as <-. done.
  - apply Forall_app in F as [F Fl]. inversion Fl; subst. rewrite sys_run_app in R.
    destruct (sys_run ls sys_new) as [y0|] eqn:R0; [|discriminate]. cbn in R. destruct (sys_step l y0) as [y1|] eqn:S; [|discriminate].
    injection R as <-. destruct (sys_step_moved _ _ _ S) as [C M]. eapply PS; [split| | | | |]; try done. apply IH. by split.
Qed.
Lemma continues_ind y0 (P : list label -> sys -> Prop) : P [] y0 ->
  (forall ls y l y', continues y0 ls y -> P ls y -> wf_label l -> y_crash y = None -> moved y l y' -> sys_step l y = Some y' -> P (ls ++ [l]) y') ->
  forall ls y, continues y0 ls y -> P ls y.
Proof.
  intros P0 PS ls. induction ls as [|l ls IH] using rev_ind; intros y [F R].
  - injection R as <-. done.
  - apply Forall_app in F as [F Fl]. inversion Fl; subst. rewrite sys_run_app in R.
    destruct (sys_run ls y0) as [y1|] eqn:R0; [|discriminate]. cbn in R. destruct (sys_step l y1) as [y2|] eqn:S; [|discriminate].
    injection R as <-. destruct (sys_step_moved _ _ _ S) as [C M]. eapply PS; [split| | | | |]; try done. apply IH. by split.
Qed.
Lemma processed_snoc ls l y0 y y' : sys_run ls y0 = Some y -> sys_step l y = Some y' ->
  processed (ls ++ [l]) y0 = processed ls y0 ++ taken l y.
Proof. intros R S. rewrite (processed_app _ _ _ _ R). cbn [processed]. by rewrite S, app_nil_r. Qed.

(** What [perform] and [deliver] leave alone. *)
Lemma deliver_fields h m y : y_pica (deliver h m y) = y_pica y /\ y_now (deliver h m y) = y_now y /\ y_queue (deliver h m y) = y_queue y
  /\ y_todo (deliver h m y) = y_todo y /\ y_timers (deliver h m y) = y_timers y /\ y_delayed (deliver h m y) = y_delayed y
  /\ y_stoppers (deliver h m y) = y_stoppers y /\ y_conns (deliver h m y) = y_conns y /\ y_crash (deliver h m y) = y_crash y
  /\ y_strict (deliver h m y) = y_strict y.
Proof. unfold deliver. by destruct (host_closed h y). Qed.
Lemma perform_fields o y : y_pica (perform o y) = y_pica y /\ y_now (perform o y) = y_now y /\ y_queue (perform o y) = y_queue y
  /\ y_todo (perform o y) = y_todo y /\ y_strict (perform o y) = y_strict y.
Proof.
  destruct o as [h []| | |]; cbn [perform]; try done. destruct (host_closed h y && y_strict y); [done|].
  pose proof (deliver_fields h m y). tauto.
Qed.

(** ** Counting *)
Lemma delivered_app h y l : delivered h (y_set_log (y_log y ++ l) y) = delivered h y ++ concat (map (fun x : N * msg => if x.1 =? h then [x.2] else []) l).
Proof. unfold delivered. cbn. by rewrite map_app, concat_app. Qed.
Lemma delivered_deliver h k m y : delivered h (deliver k m y) = delivered h y ++ (if negb (host_closed k y) && (k =? h) then [m] else []).
Proof.
  unfold deliver. destruct (host_closed k y); cbn [negb andb]; [by rewrite app_nil_r|]. rewrite delivered_app. cbn. by destruct (k =? h); rewrite ?app_nil_r.
Qed.
Lemma filter_insert_length {A} (f : A -> bool) l i x y : l !! i = Some x -> f y = f x ->
  length (List.filter f (<[i := y]> l)) = length (List.filter f l).
Proof.
  revert i. induction l as [|a l IH]; intros [|i] L E; try discriminate; cbn in L.
  - injection L as ->. change (length (List.filter f (y :: l)) = length (List.filter f (x :: l))). cbn. rewrite E. by destruct (f x).
  - change (length (List.filter f (a :: <[i := y]> l)) = length (List.filter f (a :: l))). cbn [List.filter]. destruct (f a); cbn [length]; by rewrite (IH _ L E).
Qed.
Lemma filter_delete_length {A} (f : A -> bool) l i x : l !! i = Some x ->
  (length (List.filter f (delete i l)) + (if f x then 1 else 0) = length (List.filter f l))%nat.
Proof.
  revert i. induction l as [|a l IH]; intros [|i] L; try discriminate; cbn in L.
  - injection L as ->. change (length (List.filter f l) + (if f x then 1 else 0) = length (List.filter f (x :: l)))%nat. cbn. destruct (f x); cbn; lia.
  - specialize (IH _ L). change (length (List.filter f (a :: delete i l)) + (if f x then 1 else 0) = length (List.filter f (a :: l)))%nat.
    cbn [List.filter]. destruct (f a); cbn [length]; lia.
Qed.
Lemma abort_other h id h' id' t : is_timer h' id' (abort h id t) && t_live (abort h id t)
  = is_timer h' id' t && t_live t && negb ((h =? h') && (id =? id')).
Proof.
  unfold abort, is_timer. destruct (N.eqb_spec (t_host t) h) as [E1|E1], (N.eqb_spec (t_session t) id) as [E2|E2]; cbn.
  - rewrite E1, E2. destruct (h =? h'), (id =? id'); cbn; rewrite ?andb_false_r, ?andb_true_r; done.
  - destruct (N.eqb_spec (t_host t) h'), (N.eqb_spec (t_session t) id'); cbn; try done.
    destruct (N.eqb_spec id id'); [congruence|]. by rewrite andb_false_r, andb_true_r.
  - destruct (N.eqb_spec (t_host t) h'), (N.eqb_spec (t_session t) id'); cbn; try done.
    destruct (N.eqb_spec h h'); [congruence|]. by rewrite andb_true_r.
  - destruct (N.eqb_spec (t_host t) h'), (N.eqb_spec (t_session t) id'); cbn; try done.
    destruct (N.eqb_spec h h'); [congruence|]. by rewrite andb_true_r.
Qed.
Lemma abort_live h id h' id' l : length (List.filter (fun t => is_timer h' id' t && t_live t) (map (abort h id) l))
  = if (h =? h') && (id =? id') then 0%nat else length (List.filter (fun t => is_timer h' id' t && t_live t) l).
Proof.
  induction l as [|t l IH]; [by destruct (_ && _)|]. cbn [map List.filter]. rewrite abort_other.
  destruct ((h =? h') && (id =? id')); cbn [negb] in *; [rewrite andb_false_r; done|].
  rewrite andb_true_r. destruct (_ && _); cbn; by rewrite IH.
Qed.
Lemma timers_started_cons h id o outs : timers_started h id (o :: outs) = (starts_timer h id o + timers_started h id outs)%nat.
Proof. done. Qed.
Lemma timers_stopped_cons h id o outs : timers_stopped h id (o :: outs) = (stops_timer h id o + timers_stopped h id outs)%nat.
Proof. done. Qed.
Lemma fine_one_way st h id outs : Forall (out_fine st) outs ->
  if st then timers_stopped h id outs = 0%nat else timers_started h id outs = 0%nat.
Proof.
  induction 1 as [|o outs Fo _ IH]; [by destruct st|]. rewrite timers_started_cons, timers_stopped_cons.
  destruct st; rewrite IH; destruct o as [h' []| | |]; try done; by cbn in Fo.
Qed.

(** ** The main invariant *)
Record sinv (y : sys) (l : list (env * op)) (outs : list out) : Prop := {
  si_reach : reaches l (y_pica y) outs;
  si_queue : Forall wf_op (y_queue y);
  si_stoppers : Forall (fun k => wf_mac (k_mac k)) (y_stoppers y);
  si_done : exists dn, outs = dn ++ y_todo y;
  si_fine : exists start, Forall (out_fine start) (y_todo y);
  si_delayed : Forall (fun n => by_task (n_msg n) = true) (y_delayed y);
  si_msgs : forall h, exists lost,
    delivered h y ++ waiting h y ++ messages h (y_todo y) ++ lost ≡ₚ messages h outs /\ (~ gone h y -> lost = []);
  si_order : forall h, exists lost,
    by_loop (delivered h y) ++ lost ++ by_loop (sent h (y_todo y)) = by_loop (sent h outs) /\ (~ gone h y -> lost = []);
  si_timers : forall h id,
    (live_timers h id y + timers_started h id (y_todo y) = timers_stopped h id (y_todo y) + otask (p_devices (y_pica y) !! h) id)%nat
    /\ (live_timers h id y <= 1)%nat }.

Lemma lookup_wf {A} (P : A -> Prop) l i x : Forall P l -> l !! i = Some x -> P x.
Proof. intros F L. eapply Forall_lookup_1; eauto. Qed.
Lemma by_loop_app l l' : by_loop (l ++ l') = by_loop l ++ by_loop l'.
Proof. unfold by_loop. induction l as [|x l IH]; [done|]. cbn. destruct (negb _); cbn; by rewrite IH. Qed.
Lemma waiting_delete h y i n : y_delayed y !! i = Some n ->
  (if n_host n =? h then [n_msg n] else []) ++ waiting h (y_set_delayed (delete i (y_delayed y)) y) ≡ₚ waiting h y.
Proof.
  unfold waiting. cbn. generalize (y_delayed y). intros l. revert i. induction l as [|a l IH]; intros [|i] L; try discriminate; cbn in *.
  - by injection L as ->.
  - rewrite <- (IH _ L), !app_assoc. apply Permutation_app_tail, Permutation_app_comm.
Qed.
Lemma otask_le d id : (otask d id <= 1)%nat.
Proof. destruct d as [d|]; cbn; [|lia]. unfold dtask. destruct (d_sessions d !! id) as [s|]; [|lia]. destruct (s_task s); lia. Qed.

Lemma step_closed e p o p' outs : step e p o = Ret (p', outs) -> p_closed p ⊆ p_closed p'.
Proof.
  intros H. destruct o; cbn [step] in H.
  - apply Ret_inj in H. unfold add_device, device_init in H. rewrite device_set_state_eq in H. injection H as <- _. done.
  - apply Ret_inj in H. unfold disconnect in H. destruct (p_devices p !! h); by injection H as <- _.
  - apply ranging_inv in H as (d & s & ms1 & ms2 & peers & o1 & o2 & s' & _ & _ & _ & _ & _ & _ & -> & _). done.
  - apply Ret_inj in H. unfold stop_controlee_ranging in H. by injection H as <- _.
  - unfold uci_packet in H. destruct (p_devices p !! h); [|by injection H as <- _].
    destruct (receive_packet _ _) as [[d' e']|]; [|discriminate]. by injection H as <- _.
  - unfold create_anchor in H. destruct (get_category p m); [by injection H as <- _|].
    destruct (p_anchors p !! m); [discriminate|]. by injection H as <- _.
  - apply Ret_inj in H. unfold destroy_anchor in H. destruct (p_anchors p !! m); by injection H as <- _.
  - apply Ret_inj in H. injection H as <- _. cbn. set_solver.
Qed.

Lemma step_closed_same e p o p' outs : step e p o = Ret (p', outs) -> (forall h, o <> HostGone h) -> p_closed p' = p_closed p.
Proof.
  intros H Ne. destruct o; cbn [step] in H.
  - apply Ret_inj in H. unfold add_device, device_init in H. rewrite device_set_state_eq in H. injection H as <- _. done.
  - apply Ret_inj in H. unfold disconnect in H. destruct (p_devices p !! h); by injection H as <- _.
  - apply ranging_inv in H as (d & s & ms1 & ms2 & peers & o1 & o2 & s' & _ & _ & _ & _ & _ & _ & -> & _). done.
  - apply Ret_inj in H. unfold stop_controlee_ranging in H. by injection H as <- _.
  - unfold uci_packet in H. destruct (p_devices p !! h); [|by injection H as <- _].
    destruct (receive_packet _ _) as [[d' e']|]; [|discriminate]. by injection H as <- _.
  - unfold create_anchor in H. destruct (get_category p m); [by injection H as <- _|].
    destruct (p_anchors p !! m); [discriminate|]. by injection H as <- _.
  - apply Ret_inj in H. unfold destroy_anchor in H. destruct (p_anchors p !! m); by injection H as <- _.
  - by destruct (Ne h).
Qed.

Lemma sinv_new : sinv sys_new [] [].
Proof.
  split.
  - split; [constructor|done].
  - constructor.
  - constructor.
  - by exists [].
  - exists false. constructor.
  - constructor.
  - intros h. by exists [].
  - intros h. by exists [].
  - intros h id. split; [cbn; by rewrite lookup_empty|cbn; lia].
Qed.

Lemma sinv_step y l outs lb y' : sinv y l outs -> wf_label lb -> moved y lb y' ->
  exists outs', sinv y' (l ++ taken lb y) (outs ++ outs').
Proof.
  intros [R Q K [dn D] [st F] Dl Ms Or Tm] W M.
  assert (forall y' x, reaches (l ++ x) (y_pica y') outs -> p_devices (y_pica y') = p_devices (y_pica y) -> p_closed (y_pica y) ⊆ p_closed (y_pica y') ->
    Forall wf_op (y_queue y') -> Forall (fun k => wf_mac (k_mac k)) (y_stoppers y') ->
    y_todo y' = y_todo y -> taken lb y = x -> y_log y' = y_log y -> y_delayed y' = y_delayed y ->
    (forall h id, live_timers h id y' = live_timers h id y) -> exists outs', sinv y' (l ++ taken lb y) (outs ++ outs')) as Same0.
  { intros y1 x Rx Ed Ec Hq Hk Et -> Elog Edl Elv. exists []. rewrite !app_nil_r. split; rewrite ?Ed, ?Et, ?Edl; eauto; intros h.
    - destruct (Ms h) as (lost & P & E). exists lost. unfold delivered, waiting, gone in *. rewrite Elog, Edl. split; [done|]. intros G. apply E. intros G'. apply G. by apply Ec.
    - destruct (Or h) as (lost & P & E). exists lost. unfold delivered, gone in *. rewrite Elog. split; [done|]. intros G. apply E. intros G'. apply G. by apply Ec.
    - intros id. rewrite Elv. apply Tm. }
  assert (forall y', y_pica y' = y_pica y -> Forall wf_op (y_queue y') -> Forall (fun k => wf_mac (k_mac k)) (y_stoppers y') ->
    y_todo y' = y_todo y -> taken lb y = [] -> y_log y' = y_log y -> y_delayed y' = y_delayed y ->
    (forall h id, live_timers h id y' = live_timers h id y) -> exists outs', sinv y' (l ++ taken lb y) (outs ++ outs')) as Same.
  { intros y1 Ep Hq Hk Et Etk Elog Edl Elv. apply (Same0 y1 []); try done; rewrite ?Ep; try done. by rewrite app_nil_r. }
  destruct M; try (by apply Same); try (apply Same; try done; apply Forall_app; split; try done; constructor; [|constructor]); try done; try exact W.
  - (* take *) exists outs0. rewrite H0 in Q. apply Forall_cons in Q as [Wo Wq].
    assert (pinv (fun _ => false) (y_pica y)) as I by (eapply reachable_pinv; eexists _, _; done).
    cbn [taken]. rewrite H0, H1. cbn [crashed]. rewrite H in *.
    split; cbn [y_pica y_queue y_stoppers y_todo y_delayed y_set_pica y_set_strict y_set_todo y_set_queue]; try done.
    + by eapply reaches_snoc.
    + by exists outs.
    + by eapply step_fine.
    + intros h. destruct (Ms h) as (lost & P & E). cbn in P. exists lost. rewrite messages_app. split.
      * rewrite <- P. unfold delivered, waiting. cbn. rewrite <- !app_assoc. do 2 apply Permutation_app_head. apply Permutation_app_comm.
      * unfold gone in *. cbn. intros G. apply E. intros G'. apply G. by apply (step_closed _ _ _ _ _ H1).
    + intros h. destruct (Or h) as (lost & P & E). cbn in P. exists lost. rewrite sent_app, by_loop_app, <- P. unfold delivered. cbn. rewrite app_nil_r, <- !app_assoc. split; [done|].
      unfold gone in *. cbn. intros G. apply E. intros G'. apply G. by apply (step_closed _ _ _ _ _ H1).
    + intros h id. destruct (Tm h id) as [T1 T2]. cbn in T1.
      destruct (step_hstep _ _ _ _ _ _ h I Wo H1) as ([_ T] & _). specialize (T id).
      rewrite started_effs, stopped_effs. unfold live_timers in *. cbn [y_timers y_set_pica y_set_strict y_set_todo y_set_queue]. split; [lia|done].
  - (* crash *) apply Same; try done; [|by cbn; rewrite H0, H1]. rewrite H0 in Q. by inversion Q.
  - (* effect *) exists []. cbn [taken]. rewrite !app_nil_r.
    destruct (perform_fields o (y_set_todo todo y)) as (Ep & En & Eq & Et & Es). rewrite H in *. apply Forall_cons in F as [Fo F].
    pose proof (fun h id => fine_one_way st h id _ F) as Ow.
    split; rewrite ?Ep, ?Eq, ?Et; cbn [y_pica y_queue y_todo y_set_todo]; try done.
    + destruct o as [h []| | |]; cbn [perform]; try done.
      * destruct (_ && _); [done|]. destruct (deliver_fields h m (y_set_todo todo y)) as (_ & _ & _ & _ & _ & _ & -> & _). done.
      * apply Forall_app. split; [done|]. constructor; [exact Fo|constructor].
    + exists (dn ++ [o]). by rewrite <- app_assoc, D.
    + by exists st.
    + destruct o as [h []| | |]; cbn [perform]; try done.
      * destruct (_ && _); [done|]. destruct (deliver_fields h m (y_set_todo todo y)) as (_ & _ & _ & _ & _ & -> & _). done.
      * apply Forall_app. split; [done|]. constructor; [|constructor]. by destruct Fo as (_ & ? & _).
    + intros h. destruct (Ms h) as (lost & P & E). unfold gone in *. rewrite Ep. cbn [y_pica y_set_todo].
      change (messages h (o :: todo)) with (messages_to h o ++ messages h todo) in P.
      destruct o as [k x| | |]; [|exists lost; unfold messages_to in P; cbn in P; by rewrite <- P..].
      destruct x as [m|ms m| | |]; unfold messages_to, sent_to, scheduled_to in P; cbn [app] in P;
        [| |exists lost; by rewrite <- P..].
      * cbn [perform]. change (host_closed k (y_set_todo todo y)) with (host_closed k y). change (y_strict (y_set_todo todo y)) with (y_strict y).
        destruct (N.eqb_spec k h) as [->|Ne]; cbn [app] in P.
        -- destruct (host_closed h y) eqn:C.
           ++ exists (m :: lost). unfold host_closed in C. apply bool_decide_eq_true in C. split; [|done].
              transitivity (delivered h y ++ waiting h y ++ ([m] ++ messages h todo) ++ lost); [|exact P].
              destruct (true && y_strict y).
              ** change (delivered h (y_set_crash _ _)) with (delivered h y). change (waiting h (y_set_crash _ _)) with (waiting h y).
                 do 2 apply Permutation_app_head. cbn. symmetry. apply Permutation_middle.
              ** unfold deliver. unfold host_closed. cbn [y_pica y_set_todo]. rewrite (bool_decide_eq_true_2 _ C).
                 change (delivered h (y_set_todo todo y)) with (delivered h y). change (waiting h (y_set_todo todo y)) with (waiting h y).
                 do 2 apply Permutation_app_head. cbn. symmetry. apply Permutation_middle.
           ++ exists lost. cbn [andb]. rewrite delivered_deliver. change (host_closed h (y_set_todo todo y)) with (host_closed h y). rewrite C, N.eqb_refl.
              replace (waiting h (deliver h m (y_set_todo todo y))) with (waiting h y)
                by (unfold waiting; by destruct (deliver_fields h m (y_set_todo todo y)) as (_ & _ & _ & _ & _ & -> & _)).
              cbn [negb andb]. change (delivered h (y_set_todo todo y)) with (delivered h y). split; [|done]. rewrite <- P. rewrite <- !app_assoc.
              apply Permutation_app_head. cbn. apply Permutation_middle.
        -- exists lost. split; [|done]. rewrite <- P. destruct (_ && y_strict y); [done|]. rewrite delivered_deliver.
           apply N.eqb_neq in Ne. rewrite Ne, andb_false_r, app_nil_r.
           by replace (waiting h (deliver k m (y_set_todo todo y))) with (waiting h y)
             by (unfold waiting; by destruct (deliver_fields k m (y_set_todo todo y)) as (_ & _ & _ & _ & _ & -> & _)).
      * exists lost. split; [|done]. rewrite <- P. cbn [perform]. unfold waiting at 1. cbn [y_delayed y_set_delayed y_set_todo].
        rewrite map_app, concat_app. cbn. rewrite app_nil_r. change (delivered h (y_set_delayed _ _)) with (delivered h y).
        apply Permutation_app_head. unfold waiting. by rewrite <- !app_assoc.
    + intros h. destruct (Or h) as (lost & P & E). unfold gone in *. rewrite Ep. cbn [y_pica y_set_todo].
      change (sent h (o :: todo)) with (sent_to h o ++ sent h todo) in P. rewrite by_loop_app in P.
      destruct o as [k x| | |]; [|exists lost; by rewrite <- P..].
      destruct x as [m|ms m| | |]; [|exists lost; by rewrite <- P..]. cbn [sent_to] in P.
      cbn [perform]. change (host_closed k (y_set_todo todo y)) with (host_closed k y). change (y_strict (y_set_todo todo y)) with (y_strict y).
      destruct (N.eqb_spec k h) as [->|Ne].
      * destruct (host_closed h y) eqn:C.
        -- exists (lost ++ by_loop [m]). unfold host_closed in C. apply bool_decide_eq_true in C. split; [|done]. rewrite <- P, <- !app_assoc.
           destruct (true && y_strict y); [done|]. unfold deliver, host_closed. cbn [y_pica y_set_todo]. rewrite (bool_decide_eq_true_2 _ C). done.
        -- assert (lost = []) as -> by (apply E; unfold host_closed in C; by apply bool_decide_eq_false in C).
           exists []. split; [|done]. rewrite <- P. cbn [andb app]. rewrite delivered_deliver. change (host_closed h (y_set_todo todo y)) with (host_closed h y).
           rewrite C, N.eqb_refl. cbn [negb andb]. by rewrite by_loop_app, <- app_assoc.
      * exists lost. split; [|done]. rewrite <- P. destruct (_ && y_strict y); [done|]. rewrite delivered_deliver.
        apply N.eqb_neq in Ne. by rewrite Ne, andb_false_r, app_nil_r.
    + intros h id. destruct (Tm h id) as [T1 T2]. pose proof (otask_le (p_devices (y_pica y) !! h) id) as Le. specialize (Ow h id).
      rewrite timers_started_cons, timers_stopped_cons in T1.
      assert (forall y1, y_timers y1 = y_timers y -> live_timers h id y1 = live_timers h id y) as Lv by (intros y1 E; unfold live_timers; by rewrite E).
      destruct o as [k x| | |]; [|by rewrite Lv..].
      destruct x as [m|ms m|id0 iv|id0|]; [|by rewrite Lv| | |by rewrite Lv].
      * rewrite Lv; [done|]. cbn [perform]. destruct (_ && _); [done|]. by destruct (deliver_fields k m (y_set_todo todo y)) as (_ & _ & _ & _ & -> & _).
      * cbn [perform]. unfold live_timers at 1 2. cbn [y_timers y_set_timers y_set_todo].
        rewrite List.filter_app, app_length. cbn [List.filter t_live]. rewrite andb_true_r.
        fold (live_timers h id y). cbn [starts_timer stops_timer] in T1. cbn [out_fine fine] in Fo. rewrite Fo in Ow.
        unfold is_timer. cbn [t_host t_session t_live]. destruct ((k =? h) && (id0 =? id)); cbn [length] in *; lia.
      * cbn [perform]. unfold live_timers at 1 2. cbn [y_timers y_set_timers y_set_todo].
        rewrite abort_live. fold (live_timers h id y). cbn [starts_timer stops_timer] in T1. cbn [out_fine fine] in Fo. rewrite Fo in Ow.
        destruct ((k =? h) && (id0 =? id)); lia.
  - (* timer *) apply Same; try done; [apply Forall_app; split; [done|by repeat constructor]|].
    intros h id. unfold live_timers. cbn [y_timers y_set_timers y_set_queue]. eapply filter_insert_length; [done|]. unfold is_timer. cbn. by rewrite H2.
  - (* late *) apply Same; try done; [apply Forall_app; split; [done|by repeat constructor]|].
    intros h id. unfold live_timers. cbn [y_timers y_set_timers y_set_queue]. pose proof (filter_delete_length (fun t => is_timer h id t && t_live t) _ _ _ H) as E.
    cbn in E. rewrite H2, andb_false_r in E. lia.
  - (* timer end *) apply Same; try done. intros h id. unfold live_timers. cbn. pose proof (filter_delete_length (fun t => is_timer h id t && t_live t) _ _ _ H) as E.
    cbn in E. rewrite H0, andb_false_r in E. lia.
  - (* notify *) exists []. cbn [taken]. rewrite !app_nil_r.
    destruct (deliver_fields (n_host n) (n_msg n) (y_set_delayed (delete i (y_delayed y)) y)) as (Ep & _ & Eq & Et & Etm & Edl & Ek & _).
    split; rewrite ?Ep, ?Eq, ?Et, ?Edl, ?Ek; try done; try eauto.
    + by apply Forall_delete.
    + intros h. destruct (Ms h) as (lost & P & E). unfold gone in *. rewrite Ep.
      rewrite delivered_deliver. change (host_closed (n_host n) (y_set_delayed (delete i (y_delayed y)) y)) with (host_closed (n_host n) y).
      replace (waiting h (deliver (n_host n) (n_msg n) (y_set_delayed (delete i (y_delayed y)) y))) with (waiting h (y_set_delayed (delete i (y_delayed y)) y))
        by (unfold waiting; by rewrite Edl).
      change (delivered h (y_set_delayed (delete i (y_delayed y)) y)) with (delivered h y).
      pose proof (waiting_delete h y i n H) as Wd.
      destruct (N.eqb_spec (n_host n) h) as [<-|Ne].
      * destruct (host_closed (n_host n) y) eqn:C; cbn [negb andb].
        -- exists (n_msg n :: lost). unfold host_closed in C. apply bool_decide_eq_true in C. split; [|done]. rewrite <- P, <- Wd, app_nil_r.
           apply Permutation_app_head. rewrite <- (app_assoc [n_msg n]). rewrite !(app_assoc (waiting _ _)). cbn [app].
           symmetry. apply Permutation_middle.
        -- exists lost. split; [|done]. by rewrite <- P, <- Wd, <- !app_assoc.
      * exists lost. split; [|done]. by rewrite <- P, <- Wd, andb_false_r, app_nil_r.
    + intros h. destruct (Or h) as (lost & P & E). unfold gone in *. rewrite Ep. exists lost. split; [|done]. rewrite <- P, delivered_deliver, by_loop_app.
      change (delivered h (y_set_delayed (delete i (y_delayed y)) y)) with (delivered h y).
      eapply lookup_wf in H; [|exact Dl]. cbn beta in H.
      assert (forall b : bool, by_loop (if b then [n_msg n] else []) = []) as -> by (intros []; [cbn; by rewrite H|done]).
      by rewrite app_nil_r.
    + intros h id. unfold live_timers. rewrite Etm. apply Tm.
  - (* stopper *) apply Same; try done.
    + apply Forall_app. split; [done|]. constructor; [|constructor]. eapply lookup_wf in H; [|exact K]. done.
    + apply Forall_insert; [done|]. eapply lookup_wf in H; [|exact K]. done.
  - (* end *) eapply Same0; try done; [|cbn; set_solver]. cbn [taken]. rewrite <- (app_nil_r outs). by eapply reaches_snoc.
  - (* panic *) eapply Same0; try done; [|cbn; set_solver]. cbn [taken]. rewrite <- (app_nil_r outs). by eapply reaches_snoc.
Qed.

Lemma executed_sinv ls y : executed ls y -> exists outs, sinv y (processed ls sys_new) outs.
Proof.
  revert ls y. apply executed_ind; [exists []; apply sinv_new|].
  intros ls y l y' Ex (outs & I) W C M S. destruct (sinv_step _ _ _ _ _ I W M) as (outs' & I').
  exists (outs ++ outs'). rewrite (processed_snoc _ _ _ _ _ (proj2 Ex) S). exact I'.
Qed.
