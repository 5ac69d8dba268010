(** Proofs about the responses to GET /events. *)
From Verif Require Import Base Uci MacAddress Pica Http HttpSpec HttpFacts Stream StreamSpec.

Section Facts.
Context {P : Type} (default_position : P) (compute : P -> P -> N * Z * Z).
Notation sstep := (server_step default_position compute).
Notation srun := (server_run default_position compute).
Notation wstep := (web_step default_position compute).

(** ** What the actions of the server do to the events *)
Lemma neighbors_events d others w w' : neighbors compute d others w = Some w' ->
  (exists evs, w_events w' = w_events w ++ evs) /\ w_subscribers w' = w_subscribers w.
Proof.
  revert w. induction others as [|o others IH]; intros w H; cbn [neighbors] in H.
  - injection H as <-. split; [exists []; by rewrite app_nil_r|done].
  - case_bool_decide; [by apply IH|]. destruct (compute _ _) as [[ld la] le]. destruct (compute _ _) as [[rd' ra] re].
    destruct (negb _); [discriminate|]. unfold broadcast in H. destruct (w_subscribers w =? 0) eqn:Z; [discriminate|]. cbn [option_bind mbind] in H.
    cbn [w_subscribers w_set_events] in H. rewrite Z in H. cbn [option_bind mbind] in H. apply IH in H as [[evs E] S]. split; [|exact S].
    eexists. rewrite E. cbn [w_events w_set_events]. rewrite <- !app_assoc. done.
Qed.
Lemma web_step_events l w w' : wstep l w = Some w' -> (exists evs, w_events w' = w_events w ++ evs)
  /\ (l <> WSubscribe -> l <> WUnsubscribe -> w_subscribers w' = w_subscribers w).
Proof.
  assert (forall w0 : web P, w_events w0 = w_events w -> w_subscribers w0 = w_subscribers w ->
    (exists evs, w_events w0 = w_events w ++ evs) /\ (l <> WSubscribe -> l <> WUnsubscribe -> w_subscribers w0 = w_subscribers w)) as Same.
  { intros w0 E S. split; [exists []; by rewrite app_nil_r|done]. }
  assert (forall (ev : event P) (w0 w1 : web P), broadcast ev w0 = Some w1 -> w_events w1 = w_events w0 ++ [ev] /\ w_subscribers w1 = w_subscribers w0) as Bc.
  { unfold broadcast. intros ev w0 w1 H. destruct (_ =? 0); [discriminate|]. by injection H as <-. }
  intros H. unfold web_step in H. destruct (w_end w); [discriminate|]. destruct l.
    assert (forall o, w_events (process compute order perm o w).1 = w_events w /\ w_subscribers (process compute order perm o w).1 = w_subscribers w) as Pr.
    { intros o0. unfold process. destruct (Pica.step _ _ _) as [[p outs]|]; done. }
    destruct o; try discriminate; apply (inj Some) in H; subst w'; (split; [exists []; rewrite app_nil_r; apply Pr|intros _ _; apply Pr]).
  - unfold handle_connection_event in H. destruct (w_feed w) as [|ev feed]; [discriminate|]. destruct (16 <? _); [by injection H as <-; apply Same|].
    destruct (w_poisoned w); [by injection H as <-; apply Same|].
    destruct ev; cbv zeta in H; destruct (broadcast _ _) as [w1|] eqn:B; injection H as <-; try (by apply Same); apply Bc in B as [E S]; (split; [by eexists|done]).
  - injection H as <-. split; [exists []; by rewrite app_nil_r|done].
  - destruct (_ =? 0); [discriminate|]. injection H as <-. split; [exists []; by rewrite app_nil_r|done].
  - destruct (bool_decide _); [|discriminate]. injection H as <-. unfold set_position. cbn [w_poisoned w_set_next w_devices].
    destruct (w_poisoned w); [by apply Same|]. destruct (first_with _ _ _) as [[h d]|]; [|by apply Same].
    match goal with |- context [broadcast ?a ?b] => destruct (broadcast a b) as [w1|] eqn:B end; cbn [option_bind mbind]; [|by apply Same].
    apply Bc in B as [E S]. destruct (neighbors _ _ _ _) as [w2|] eqn:N; [|by apply Same]. apply neighbors_events in N as [[evs E2] S2].
    unfold respond. cbn [w_events w_set_responses w_subscribers]. rewrite E2, E, <- app_assoc, S2, S. split; [by eexists|done].
  - injection H as <-. by apply Same.
  - destruct (w_requests w !! k) as [[r abandoned|]|]; try discriminate. destruct (process _ _ _ _ _) as [w1 outs] eqn:Pr.
    assert (w_events w1 = w_events w /\ w_subscribers w1 = w_subscribers w) as [E S].
    { unfold process in Pr. destruct (Pica.step _ _ _) as [[p o]|]; by injection Pr as <- _. }
    destruct (reply_of outs); injection H as <-; cbn [w_events w_subscribers w_set_requests]; rewrite E, S; (split; [exists []; by rewrite app_nil_r|done]).
  - destruct (w_requests w !! k) as [[|r answer]|]; try discriminate. injection H as <-. unfold finish_request. destruct answer; try (by apply Same).
    cbn [w_poisoned w_set_requests]. destruct (w_poisoned w); [by apply Same|].
    destruct r; cbv zeta; (destruct (broadcast _ _) as [w1|] eqn:B; [|by apply Same]); apply Bc in B as [E S]; unfold respond;
      cbn [w_events w_set_responses w_subscribers]; rewrite E, S; (split; [by eexists|done]).
  - destruct (w_requests w !! k) as [[r []|r answer]|]; try discriminate; injection H as <-; by apply Same.
Qed.

(** ** The actions of the server with its responses *)
Inductive smoved (v : server P) : server_label P -> server P -> Prop :=
  | SmWeb l w : wstep l (v_web v) = Some w -> l <> WSubscribe -> l <> WUnsubscribe -> smoved v (VWeb l) (Server w (v_streams v) (v_count v))
  | SmOpen : w_end (v_web v) = None -> smoved v VOpen (Server (w_set_subscribers (w_subscribers (v_web v) + 1) (v_web v))
      (<[v_count v := Stream (length (w_events (v_web v))) [] true]> (v_streams v)) (v_count v + 1))
  | SmRead k m ev : w_end (v_web v) = None -> v_streams v !! k = Some m -> m_open m = true -> N.of_nat (unread (v_web v) m) <= 1024 ->
      w_events (v_web v) !! m_next m = Some ev ->
      smoved v (VPoll k) (Server (v_web v) (<[k := Stream (S (m_next m)) (m_sent m ++ [ev]) true]> (v_streams v)) (v_count v))
  | SmLagged k m : w_end (v_web v) = None -> v_streams v !! k = Some m -> m_open m = true -> 1024 < N.of_nat (unread (v_web v) m) ->
      w_subscribers (v_web v) <> 0 ->
      smoved v (VPoll k) (Server (w_set_subscribers (w_subscribers (v_web v) - 1) (v_web v)) (<[k := Stream (m_next m) (m_sent m) false]> (v_streams v)) (v_count v))
  | SmLeave k m : w_end (v_web v) = None -> v_streams v !! k = Some m -> m_open m = true -> w_subscribers (v_web v) <> 0 ->
      smoved v (VLeave k) (Server (w_set_subscribers (w_subscribers (v_web v) - 1) (v_web v)) (<[k := Stream (m_next m) (m_sent m) false]> (v_streams v)) (v_count v)).
Lemma sstep_smoved l v v' : sstep l v = Some v' <-> smoved v l v'.
Proof.
  split.
  - intros H. unfold server_step in H. destruct l as [l| |k|k].
    + assert (l <> WSubscribe /\ l <> WUnsubscribe /\ (w ← wstep l (v_web v); Some (Server w (v_streams v) (v_count v))) = Some v') as (N1 & N2 & H').
      { destruct l; try discriminate; done. }
      destruct (wstep l (v_web v)) as [w|] eqn:E; [|discriminate]. cbn in H'. injection H' as <-. by constructor.
    + unfold web_step in H. destruct (w_end (v_web v)) eqn:E; [discriminate|]. cbn in H. injection H as <-. by constructor.
    + destruct (w_end (v_web v)) eqn:E; [discriminate|]. destruct (v_streams v !! k) as [m|] eqn:L; [|discriminate].
      destruct (m_open m) eqn:O; [|discriminate]. cbn [negb] in H. destruct (N.ltb_spec CAPACITY (N.of_nat (unread (v_web v) m))) as [Lt|Le].
      * unfold web_step in H. rewrite E in H. destruct (N.eqb_spec (w_subscribers (v_web v)) 0); [discriminate|]. cbn in H. injection H as <-. by apply SmLagged.
      * destruct (w_events (v_web v) !! m_next m) eqn:G; [|discriminate]. injection H as <-. by eapply SmRead.
    + destruct (v_streams v !! k) as [m|] eqn:L; [|discriminate]. destruct (m_open m) eqn:O; [|discriminate].
      unfold web_step in H. destruct (w_end (v_web v)) eqn:E; [discriminate|]. destruct (N.eqb_spec (w_subscribers (v_web v)) 0); [discriminate|]. cbn in H. injection H as <-. by eapply SmLeave.
  - intros M. destruct M as [l w H N1 N2|E|k m ev E L O U G|k m E L O U S|k m E L O S]; unfold server_step.
    + destruct l; try done; by rewrite H.
    + unfold web_step. by rewrite E.
    + rewrite E, L, O. cbn [negb]. destruct (N.ltb_spec CAPACITY (N.of_nat (unread (v_web v) m))) as [Lt|Le]; [unfold CAPACITY in Lt; lia|]. by rewrite G.
    + rewrite E, L, O. cbn [negb]. destruct (N.ltb_spec CAPACITY (N.of_nat (unread (v_web v) m))) as [Lt|Le]; [|unfold CAPACITY in Le; lia].
      unfold web_step. rewrite E. destruct (N.eqb_spec (w_subscribers (v_web v)) 0); [done|]. done.
    + rewrite L, O. unfold web_step. rewrite E. by destruct (N.eqb_spec (w_subscribers (v_web v)) 0).
Qed.
Lemma srun_app ls1 ls2 v : srun (ls1 ++ ls2) v = (v' ← srun ls1 v; srun ls2 v').
Proof. revert v. induction ls1 as [|l ls1 IH]; intros v; [done|]. cbn [app server_run]. destruct (sstep l v); [apply IH|done]. Qed.
Lemma ran_split ls1 ls2 v1 v2 : ran default_position compute ls1 v1 -> ran default_position compute (ls1 ++ ls2) v2 -> srun ls2 v1 = Some v2.
Proof. intros [_ R1] [_ R2]. rewrite srun_app, R1 in R2. exact R2. Qed.

(** ** One response *)
Definition follows (pre : list (event P)) (m : stream P) (w : web P) : Prop :=
  m_next m = length (pre ++ m_sent m) /\ exists rest, w_events w = pre ++ m_sent m ++ rest.
Lemma follow_step v l v' k m pre : smoved v l v' -> v_streams v !! k = Some m -> k < v_count v -> follows pre m (v_web v) ->
  exists m', v_streams v' !! k = Some m' /\ k < v_count v' /\ follows pre m' (v_web v') /\ (m_open m = false -> m' = m)
    /\ (l <> VLeave k -> N.of_nat (length (w_events (v_web v))) <= N.of_nat (length pre + length (m_sent m)) + 1024 -> m_open m' = m_open m).
Proof.
  intros M L Kc [Nx [rest E]]. destruct M as [l w H N1 N2|En|k' m0 ev En L0 O U G|k' m0 En L0 O U S|k' m0 En L0 O S]; cbn [v_streams v_web v_count].
  - exists m. split; [done|]. split; [done|]. split; [|done]. split; [done|]. apply web_step_events in H as [[evs H] _]. rewrite H, E. exists (rest ++ evs). by rewrite <- !app_assoc.
  - exists m. rewrite lookup_insert_ne by lia. split; [done|]. split; [lia|]. split; [|done]. split; [done|]. by exists rest.
  - destruct (N.eq_dec k' k) as [->|Ne].
    + rewrite L in L0. injection L0 as <-. rewrite lookup_insert. eexists. split; [done|]. split; [done|]. cbn [m_sent m_next m_open]. split; [|split; [congruence|by rewrite O]].
      rewrite E, Nx, app_assoc in G. rewrite lookup_app_r, Nat.sub_diag in G by done. destruct rest as [|e rest]; [done|]. injection G as ->.
      split; [cbn [m_sent m_next]; rewrite Nx, !app_length; cbn; lia|]. exists rest. rewrite E. cbn [m_sent]. by rewrite <- !app_assoc.
    + exists m. rewrite lookup_insert_ne by done. split; [done|]. split; [done|]. split; [|done]. split; [done|]. by exists rest.
  - destruct (N.eq_dec k' k) as [->|Ne].
    + rewrite L in L0. injection L0 as <-. rewrite lookup_insert. eexists. split; [done|]. split; [done|]. cbn [m_sent m_next m_open]. split; [split; [done|by exists rest]|].
      split; [congruence|]. intros _ B. unfold unread in U. rewrite Nx, app_length in U. lia.
    + exists m. rewrite lookup_insert_ne by done. split; [done|]. split; [done|]. split; [|done]. split; [done|]. by exists rest.
  - destruct (N.eq_dec k' k) as [->|Ne].
    + rewrite L in L0. injection L0 as <-. rewrite lookup_insert. eexists. split; [done|]. split; [done|]. cbn [m_sent m_next m_open]. split; [split; [done|by exists rest]|].
      split; [congruence|done].
    + exists m. rewrite lookup_insert_ne by done. split; [done|]. split; [done|]. split; [|done]. split; [done|]. by exists rest.
Qed.
Lemma follow_run ls v v' k m pre : srun ls v = Some v' -> v_streams v !! k = Some m -> k < v_count v -> follows pre m (v_web v) ->
  exists m', v_streams v' !! k = Some m' /\ k < v_count v' /\ follows pre m' (v_web v') /\ (m_open m = false -> m' = m)
    /\ (VLeave k ∉ ls -> always default_position compute (keeps_up (length pre) k) ls v -> m_open m' = m_open m).
Proof.
  revert v m. induction ls as [|l ls IH]; intros v m R L Kc F; cbn [server_run] in R.
  - injection R as <-. by exists m.
  - destruct (sstep l v) as [v1|] eqn:S; [|discriminate]. cbn in R. pose proof S as M. apply sstep_smoved in M.
    destruct (follow_step _ _ _ _ _ _ M L Kc F) as (m1 & L1 & K1 & F1 & C1 & O1).
    destruct (IH _ _ R L1 K1 F1) as (m2 & L2 & K2 & F2 & C2 & O2). exists m2. split; [done|]. split; [done|]. split; [done|]. split.
    + intros O. rewrite C2; [by apply C1|]. by rewrite C1.
    + intros Nl A. cbn [always] in A. rewrite S in A. destruct A as [A0 A]. rewrite O2; [|intros X; apply Nl; by right|done].
      apply O1; [intros ->; apply Nl; by left|]. by apply A0.
Qed.
Lemma opened ls1 ls2 v1 v2 : ran default_position compute ls1 v1 -> ran default_position compute (ls1 ++ VOpen :: ls2) v2 ->
  exists v m, sstep VOpen v1 = Some v /\ srun ls2 v = Some v2 /\ v_streams v !! v_count v1 = Some (Stream (length (w_events (v_web v1))) [] true)
    /\ w_events (v_web v) = w_events (v_web v1)
    /\ v_streams v2 !! v_count v1 = Some m /\ follows (w_events (v_web v1)) m (v_web v2)
    /\ (VLeave (v_count v1) ∉ ls2 -> always default_position compute (keeps_up (length (w_events (v_web v1))) (v_count v1)) ls2 v -> m_open m = true).
Proof.
  intros R1 R2. pose proof (ran_split _ _ _ _ R1 R2) as R. cbn [server_run] in R. destruct (sstep VOpen v1) as [v|] eqn:S; [|discriminate]. cbn in R.
  pose proof S as M. apply sstep_smoved in M. inversion M as [|E| | |]; subst.
  destruct (follow_run _ _ _ (v_count v1) (Stream (length (w_events (v_web v1))) [] true) (w_events (v_web v1)) R) as (m & L & _ & F & _ & O).
  - cbn. by rewrite lookup_insert.
  - cbn. lia.
  - split; [by rewrite app_nil_r|]. exists []. cbn. by rewrite app_nil_r.
  - eexists _, m. split; [done|]. split; [done|]. split; [cbn; by rewrite lookup_insert|]. split; [done|]. split; [done|]. split; [done|]. intros A B. by rewrite O.
Qed.

(** ** Reading what is there *)
Lemma catch_up v k m pre rest : w_end (v_web v) = None -> v_streams v !! k = Some m -> m_open m = true -> m_next m = length (pre ++ m_sent m) ->
  w_events (v_web v) = pre ++ m_sent m ++ rest -> N.of_nat (length rest) <= 1024 ->
  exists m', srun (repeat (VPoll k) (length rest)) v = Some (Server (v_web v) (<[k := m']> (v_streams v)) (v_count v))
    /\ m_sent m' = m_sent m ++ rest /\ m_open m' = true.
Proof.
  revert v m. induction rest as [|ev rest IH]; intros v m En L O Nx E B.
  - exists m. split; [|by rewrite app_nil_r]. cbn. rewrite insert_id by done. by destruct v.
  - set (m1 := Stream (S (m_next m)) (m_sent m ++ [ev]) true).
    assert (sstep (VPoll k) v = Some (Server (v_web v) (<[k := m1]> (v_streams v)) (v_count v))) as S.
    { apply sstep_smoved. apply SmRead; try done.
      - unfold unread. rewrite E, Nx, !app_length. lia.
      - rewrite E, app_assoc, lookup_app_r, Nx, Nat.sub_diag by lia. done. }
    destruct (IH (Server (v_web v) (<[k := m1]> (v_streams v)) (v_count v)) m1) as (m' & R & Es & O').
    + done.
    + cbn. by rewrite lookup_insert.
    + done.
    + cbn. rewrite Nx, !app_length. cbn. lia.
    + cbn. rewrite E. by rewrite <- !app_assoc.
    + cbn in B. lia.
    + exists m'. cbn [length repeat server_run]. rewrite S. cbn [option_bind mbind]. rewrite R. cbn [v_web v_streams v_count]. rewrite insert_insert. split; [done|].
      split; [|done]. rewrite Es. cbn. by rewrite <- app_assoc.
Qed.

(** ** The responses which go on are the subscribers *)
Lemma listeners_insert (l : gmap N (stream P)) k m : length (List.filter (fun x : N * stream P => m_open x.2) (map_to_list (<[k := m]> l)))
  = ((if m_open m then 1 else 0) + length (List.filter (fun x : N * stream P => m_open x.2) (map_to_list (delete k l))))%nat.
Proof.
  rewrite <- insert_delete_insert. assert (map_to_list (<[k := m]> (delete k l)) ≡ₚ (k, m) :: map_to_list (delete k l)) as Pm by (apply map_to_list_insert, lookup_delete).
  assert (forall a b : list (N * stream P), a ≡ₚ b -> length (List.filter (fun x : N * stream P => m_open x.2) a) = length (List.filter (fun x : N * stream P => m_open x.2) b)) as Pl.
  { induction 1; cbn; repeat case_match; cbn; congruence. }
  rewrite (Pl _ _ Pm). cbn. destruct (m_open m); done.
Qed.
Lemma listeners_step v l v' : smoved v l v' -> (forall k m, v_streams v !! k = Some m -> k < v_count v) ->
  w_subscribers (v_web v) = N.of_nat (listeners v) ->
  (forall k m, v_streams v' !! k = Some m -> k < v_count v') /\ w_subscribers (v_web v') = N.of_nat (listeners v').
Proof.
  intros M K E. unfold listeners in *.
  assert (forall k m, v_streams v !! k = Some m -> v_streams v = <[k := m]> (v_streams v)) as Id by (intros; by rewrite insert_id).
  destruct M as [l w H N1 N2|En|k' m0 ev En L0 O U G|k' m0 En L0 O U S|k' m0 En L0 O S]; cbn [v_streams v_web v_count].
  - split; [done|]. destruct (web_step_events _ _ _ H) as [_ ->]; done.
  - split.
    + intros k m [[<- <-]|[Ne L]]%lookup_insert_Some; [lia|]. apply K in L. lia.
    + rewrite listeners_insert. cbn [m_open w_subscribers w_set_subscribers]. rewrite delete_notin; [lia|].
      destruct (v_streams v !! v_count v) eqn:L; [apply K in L; lia|done].
  - split.
    + intros k m [[<- <-]|[Ne L]]%lookup_insert_Some; [by eapply K|by eapply K].
    + rewrite listeners_insert. cbn [m_open]. rewrite (Id _ _ L0), listeners_insert, O in E. exact E.
  - split.
    + intros k m [[<- <-]|[Ne L]]%lookup_insert_Some; [by eapply K|by eapply K].
    + rewrite listeners_insert. cbn [m_open w_subscribers w_set_subscribers]. rewrite (Id _ _ L0), listeners_insert, O in E. lia.
  - split.
    + intros k m [[<- <-]|[Ne L]]%lookup_insert_Some; [by eapply K|by eapply K].
    + rewrite listeners_insert. cbn [m_open w_subscribers w_set_subscribers]. rewrite (Id _ _ L0), listeners_insert, O in E. lia.
Qed.
Lemma listeners_run ls v v' : srun ls v = Some v' -> (forall k m, v_streams v !! k = Some m -> k < v_count v) ->
  w_subscribers (v_web v) = N.of_nat (listeners v) ->
  (forall k m, v_streams v' !! k = Some m -> k < v_count v') /\ w_subscribers (v_web v') = N.of_nat (listeners v').
Proof.
  revert v. induction ls as [|l ls IH]; intros v R K E; cbn [server_run] in R; [by injection R as <-|].
  destruct (sstep l v) as [v1|] eqn:S; [|discriminate]. apply sstep_smoved in S. destruct (listeners_step _ _ _ S K E) as [K1 E1]. by apply (IH v1).
Qed.
Lemma ran_listeners ls v : ran default_position compute ls v ->
  (forall k m, v_streams v !! k = Some m -> k < v_count v) /\ w_subscribers (v_web v) = N.of_nat (listeners v).
Proof.
  intros [_ R]. eapply listeners_run; [exact R| |].
  - intros k m. cbn. by rewrite lookup_empty.
  - cbn. unfold listeners. cbn. by rewrite map_to_list_empty.
Qed.
Lemma over_run ls v v' k m : srun ls v = Some v' -> k < v_count v -> v_streams v !! k = Some m -> m_open m = false -> v_streams v' !! k = Some m.
Proof.
  intros R K L O. revert v R K L. induction ls as [|l ls IH]; intros v R K L; cbn [server_run] in R; [by injection R as <-|].
  destruct (sstep l v) as [v1|] eqn:S; [|discriminate]. cbn in R. apply sstep_smoved in S.
  destruct S as [l w H N1 N2|En|k' m0 ev En L0 O0 U G|k' m0 En L0 O0 U S|k' m0 En L0 O0 S]; (eapply IH; [exact R|cbn; lia|]); cbn [v_streams]; try done.
  - rewrite lookup_insert_ne; [done|lia].
  - destruct (N.eq_dec k' k) as [->|]; [congruence|by rewrite lookup_insert_ne].
  - destruct (N.eq_dec k' k) as [->|]; [congruence|by rewrite lookup_insert_ne].
  - destruct (N.eq_dec k' k) as [->|]; [congruence|by rewrite lookup_insert_ne].
Qed.

(** ** The execution of the server alone *)
Definition web_label_of (l : server_label P) (v v' : server P) : list (web_label P) :=
  match l with
  | VWeb l => [l]
  | VOpen => [WSubscribe]
  | VLeave _ => [WUnsubscribe]
  | VPoll _ => if w_subscribers (v_web v') =? w_subscribers (v_web v) then [] else [WUnsubscribe]
  end.
Fixpoint web_of (ls : list (server_label P)) (v : server P) : list (web_label P) :=
  match ls with
  | [] => []
  | l :: ls => match sstep l v with Some v' => web_label_of l v v' ++ web_of ls v' | None => [] end
  end.
Lemma web_run_app' ls1 ls2 w : web_run default_position compute (ls1 ++ ls2) w = (w' ← web_run default_position compute ls1 w; web_run default_position compute ls2 w').
Proof. revert w. induction ls1 as [|l ls1 IH]; intros w; [done|]. cbn [app web_run]. destruct (wstep l w); [apply IH|done]. Qed.
Lemma web_label_step l v v' : smoved v l v' -> web_run default_position compute (web_label_of l v v') (v_web v) = Some (v_web v').
Proof.
  intros M. destruct M as [l w H N1 N2|En|k' m0 ev En L0 O U G|k' m0 En L0 O U S|k' m0 En L0 O S]; cbn [web_label_of v_web web_run].
  - by rewrite H.
  - unfold web_step. by rewrite En.
  - by rewrite N.eqb_refl.
  - cbn [w_subscribers w_set_subscribers]. destruct (N.eqb_spec (w_subscribers (v_web v) - 1) (w_subscribers (v_web v))); [lia|]. cbn [web_run].
    unfold web_step. rewrite En. by destruct (N.eqb_spec (w_subscribers (v_web v)) 0).
  - unfold web_step. rewrite En. by destruct (N.eqb_spec (w_subscribers (v_web v)) 0).
Qed.
Lemma web_of_run ls v v' : srun ls v = Some v' -> web_run default_position compute (web_of ls v) (v_web v) = Some (v_web v').
Proof.
  revert v. induction ls as [|l ls IH]; intros v R; cbn [server_run web_of] in *; [by injection R as <-|].
  destruct (sstep l v) as [v1|] eqn:S; [|discriminate]. cbn in R. apply sstep_smoved, web_label_step in S. rewrite web_run_app', S. cbn. by apply IH.
Qed.
Lemma web_of_app ls1 ls2 v v' : srun ls1 v = Some v' -> web_of (ls1 ++ ls2) v = web_of ls1 v ++ web_of ls2 v'.
Proof.
  revert v. induction ls1 as [|l ls IH]; intros v R; cbn [app server_run web_of] in *; [by injection R as <-|].
  destruct (sstep l v) as [v1|] eqn:S; [|discriminate]. cbn in R. by rewrite (IH _ R), app_assoc.
Qed.
Lemma web_of_wf ls v : Forall wf_server_label ls -> Forall wf_web_label (web_of ls v).
Proof.
  revert v. induction ls as [|l ls IH]; intros v F; cbn [web_of]; [constructor|]. apply Forall_cons in F as [Fl F]. destruct (sstep l v) as [v1|]; [|constructor].
  apply Forall_app. split; [|by apply IH]. destruct l; cbn [web_label_of]; repeat constructor; try done. destruct (_ =? _); by repeat constructor.
Qed.
Lemma ran_served ls v : ran default_position compute ls v -> served default_position compute (web_of ls server_new) (v_web v).
Proof. intros [F R]. split; [by apply web_of_wf|]. by apply web_of_run in R. Qed.
Lemma throughout_app Q ls1 ls2 w : throughout default_position compute Q (ls1 ++ ls2) w <->
  throughout default_position compute Q ls1 w /\ forall w', web_run default_position compute ls1 w = Some w' -> throughout default_position compute Q ls2 w'.
Proof.
  revert w. induction ls1 as [|l ls1 IH]; intros w; cbn [app throughout web_run].
  - split; [intros H; split; [done|]; by intros w' [= <-]|intros [_ H]; by apply H].
  - destruct (wstep l w) as [w1|]; cbn; [rewrite IH; tauto|]. split; [intros [? _]; by split|tauto].
Qed.
Lemma throughout_web_of (Q : web P -> web_label P -> Prop) ls v : (forall w, Q w WSubscribe /\ Q w WUnsubscribe) ->
  all_along default_position compute Q ls v -> throughout default_position compute Q (web_of ls v) (v_web v).
Proof.
  intros Hq. revert v. induction ls as [|l ls IH]; intros v A; cbn [web_of all_along] in *; [done|]. destruct A as [Al A].
  destruct (sstep l v) as [v1|] eqn:S; [|done]. apply sstep_smoved, web_label_step in S. apply throughout_app. split.
  - destruct l; cbn [web_label_of throughout]; [by split; [|destruct (wstep _ _)]|split; [apply Hq|by destruct (wstep _ _)]| |split; [apply Hq|by destruct (wstep _ _)]].
    destruct (_ =? _); cbn [throughout]; [done|]. split; [apply Hq|by destruct (wstep _ _)].
  - intros w' R. rewrite S in R. injection R as <-. by apply IH.
Qed.
Lemma throughout_states (Q : web P -> Prop) ls v : always default_position compute (fun v => Q (v_web v)) ls v ->
  throughout default_position compute (fun w _ => Q w) (web_of ls v) (v_web v).
Proof.
  revert v. induction ls as [|l ls IH]; intros v A; cbn [web_of always] in *; [done|]. destruct A as [Al A].
  destruct (sstep l v) as [v1|] eqn:S; [|done]. apply sstep_smoved, web_label_step in S. apply throughout_app. split.
  - destruct l; cbn [web_label_of throughout]; [by split; [|destruct (wstep _ _)]..| |by split; [|destruct (wstep _ _)]].
    destruct (_ =? _); cbn [throughout]; [done|]. by split; [|destruct (wstep _ _)].
  - intros w' R. rewrite S in R. injection R as <-. by apply IH.
Qed.
End Facts.
