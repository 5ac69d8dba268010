(** Proofs about the requests to the web server. *)
From Coq Require Import Strings.String.
From Verif Require Import Base Uci MacAddress AppConfig Codec Session Device Pica CodecSpec ContextSpec HistorySpec InvFacts StepFacts MacFacts PropsContext Http HttpSpec HttpFacts HttpFacts2 Json OpenApi OpenApiSpec PropsHttp.

Section Facts.
Context {P : Type} (default_position : P) (compute : P -> P -> N * Z * Z) (position_new : Z -> Z -> Z -> Z -> Z -> Z -> P).
Notation server_step := (server_step default_position compute position_new).
Notation server_run := (server_run default_position compute position_new).
Notation handled := (handled default_position compute position_new).
Notation route q := (http_request default_position (q_path q) (body_of position_new (q_body q))).

Lemma server_run_app ls1 ls2 w : server_run (ls1 ++ ls2) w = (w ← server_run ls1 w; server_run ls2 w).
Proof. revert w. induction ls1 as [|l ls1 IH]; intros w; [done|]. cbn. destruct (server_step l w); [apply IH|done]. Qed.
Lemma handled_ind (Q : list (server_label P) -> web P -> Prop) : Q [] web_new ->
  (forall ls w l w', handled ls w -> Q ls w -> wf_server_label l -> server_step l w = Some w' -> Q (ls ++ [l]) w') ->
  forall ls w, handled ls w -> Q ls w.
Proof.
  intros Q0 QS ls. induction ls as [|l ls IH] using rev_ind; intros w [F R]; [by injection R as <-|].
  apply Forall_app in F as [F Fl]. rewrite server_run_app in R. destruct (server_run ls web_new) as [w0|] eqn:R0; [|discriminate]. cbn in R.
  destruct (server_step l w0) as [w1|] eqn:S; [|discriminate]. injection R as <-. eapply QS; [by split|by apply IH; split|by inversion Fl|done].
Qed.

(** The statuses of the responses to a request, by its route. *)
Definition possible (q : http) (status : N) : Prop :=
  match route q with
  | RoStatic | RoEvents | RoGetState => status = 200
  | RoSetPosition _ _ | RoDestroyAnchor _ => status = 200 \/ status = 404
  | RoCreateAnchor _ _ => status = 200 \/ status = 409
  | RoNotFound => status = 404
  | RoNotAcceptable => status = 406
  end.
Definition asked_for (q : http) (r : anchor_request P) : Prop :=
  match r with RqCreate m p => route q = RoCreateAnchor m p | RqDestroy m => route q = RoDestroyAnchor m end.
Definition reply_to (r : anchor_request P) (a : reply) : Prop :=
  match r, a with _, ReplyOk _ | RqCreate _ _, ReplyAlreadyExists _ | RqDestroy _, ReplyNotFound _ => True | _, _ => False end.
Record oinv (log : list http) (w : web P) : Prop := {
  oi_next : w_next w = N.of_nat (length log);
  oi_requests : forall k rq, w_requests w !! k = Some rq -> exists q, log !! N.to_nat k = Some q
     /\ match rq with RqQueued r _ => asked_for q r | RqReplied r a => asked_for q r /\ reply_to r a end;
  oi_responses : forall k status, (k, status) ∈ w_responses w -> exists q, log !! N.to_nat k = Some q /\ possible q status }.

Lemma oinv_eq log (w w' : web P) : oinv log w -> w_next w' = w_next w -> w_requests w' = w_requests w -> w_responses w' = w_responses w -> oinv log w'.
Proof. intros [I1 I2 I3] E1 E2 E3. split; by rewrite ?E1, ?E2, ?E3. Qed.
Lemma oinv_more log q (w w' : web P) : oinv log w -> w_next w' = w_next w + 1 ->
  (forall k rq, w_requests w' !! k = Some rq -> w_requests w !! k = Some rq \/ k = w_next w /\ exists r, rq = RqQueued r false /\ asked_for q r) ->
  (forall k status, (k, status) ∈ w_responses w' -> (k, status) ∈ w_responses w \/ k = w_next w /\ possible q status) -> oinv (log ++ [q]) w'.
Proof.
  intros [I1 I2 I3] E1 E2 E3. assert ((log ++ [q]) !! N.to_nat (w_next w) = Some q) as L by (rewrite I1, Nat2N.id; by apply list_lookup_middle).
  split.
  - rewrite E1, I1, app_length. cbn. lia.
  - intros k rq Lk. destruct (E2 _ _ Lk) as [Lk'|(-> & r & -> & A)].
    + destruct (I2 _ _ Lk') as (q' & L' & X). exists q'. split; [by apply lookup_app_l_Some|done].
    + by exists q.
  - intros k st Hk. destruct (E3 _ _ Hk) as [Hk'|(-> & A)].
    + destruct (I3 _ _ Hk') as (q' & L' & X). exists q'. split; [by apply lookup_app_l_Some|done].
    + by exists q.
Qed.
Lemma set_position_responses k order m position (w : web P) : let w' := set_position compute k order m position w in
  w_responses w' = w_responses w \/ w_responses w' = w_responses w ++ [(k, 200)] \/ w_responses w' = w_responses w ++ [(k, 404)].
Proof.
  cbn zeta. unfold set_position. destruct (w_poisoned w) eqn:Ep; [by left|].
  destruct (first_with _ _ _) as [[h d]|]; [|by right; right].
  destruct (broadcast _ _) as [w1|] eqn:B; cbn [mbind option_bind]; [|by left]. apply broadcast_inv in B as [-> _].
  destruct (neighbors _ _ _ _) as [w2|] eqn:E; [|by left]. apply neighbors_fields in E as (evs & ->). by right; left.
Qed.
Lemma finish_responses k r answer (w : web P) : reply_to r answer -> w_responses (finish_request k r answer w) = w_responses w
  \/ exists status, w_responses (finish_request k r answer w) = w_responses w ++ [(k, status)]
     /\ match r with RqCreate _ _ => status = 200 \/ status = 409 | RqDestroy _ => status = 200 \/ status = 404 end.
Proof.
  intros A. unfold finish_request. destruct answer as [a|m'|m'].
  - destruct (w_poisoned w) eqn:Ep; [by left|]. destruct r as [m pos|m].
    + destruct (broadcast _ _) as [w1|] eqn:B; [apply broadcast_inv in B as [-> _]|by left]. right. exists 200. split; [done|by left].
    + destruct (broadcast _ _) as [w1|] eqn:B; [apply broadcast_inv in B as [-> _]|by left]. right. exists 200. split; [done|by left].
  - destruct r; [|done]. right. exists 409. split; [done|by right].
  - destruct r; [done|]. right. exists 404. split; [done|by right].
Qed.
Lemma reply_of_command order perm r (w : web P) a : reply_of (process compute order perm (command_of r) w).2 = Some a -> reply_to r a.
Proof.
  unfold process. destruct r as [m pos|m]; cbn [command_of].
  - destruct (create_cases (w_pica w) m) as [[_ E]|[_ E]]; rewrite E; cbn; intros H; by injection H as <-.
  - cbn [step]. unfold destroy_anchor. destruct (p_anchors (w_pica w) !! m); cbn; intros H; by injection H as <-.
Qed.

Lemma oinv_step log l (w w' : web P) : oinv log w -> server_step l w = Some w' ->
  oinv (log ++ match l with SRequest q _ => [q] | _ => [] end) w'.
Proof.
  intros I S. destruct l as [q order|l].
  - unfold OpenApi.server_step, arrive in S. destruct (w_end w) eqn:Ew; [discriminate|].
    assert (forall st, possible q st -> oinv (log ++ [q]) (respond (w_next w) st (w_set_next (w_next w + 1) w))) as R.
    { intros st Ps. apply (oinv_more log q w); [done|done| |]; cbn; [by left|]. intros k s [Hk|Hk]%elem_of_app; [by left|right]. apply elem_of_list_singleton in Hk. by injection Hk as -> ->. }
    unfold possible in R. destruct (route q) as [| |m p|m p|m| | |] eqn:Er.
    + injection S as <-. by apply R.
    + injection S as <-. eapply oinv_eq; [by apply R|done..].
    + unfold web_step in S. rewrite Ew in S. destruct (bool_decide _); [|discriminate]. injection S as <-. set (w1 := w_set_next _ w).
      destruct (set_position_fields compute (w_next w) order m p w1) as (_ & _ & E1 & E2 & _).
      apply (oinv_more log q w); [done|by rewrite E2|rewrite E1; by left|].
      intros k st Hk. unfold possible. rewrite Er. destruct (set_position_responses (w_next w) order m p w1) as [E|[E|E]]; rewrite E in Hk; [by left| |];
        (apply elem_of_app in Hk as [Hk|Hk]; [by left|right]); apply elem_of_list_singleton in Hk; injection Hk as -> ->; auto.
    + unfold web_step in S. rewrite Ew in S. injection S as <-. apply (oinv_more log q w); [done|done| |by left].
      cbn. intros k rq [[<- <-]|[_ L]]%lookup_insert_Some; [right|by left]. split; [done|]. by eexists.
    + unfold web_step in S. rewrite Ew in S. injection S as <-. apply (oinv_more log q w); [done|done| |by left].
      cbn. intros k rq [[<- <-]|[_ L]]%lookup_insert_Some; [right|by left]. split; [done|]. by eexists.
    + injection S as <-. destruct (w_poisoned w); [|by apply R]. apply (oinv_more log q w); [done|done|by left|by left].
    + injection S as <-. by apply R.
    + injection S as <-. by apply R.
  - rewrite app_nil_r. unfold OpenApi.server_step, web_step in S. destruct (w_end w) eqn:Ew; [by destruct l|]. destruct l as [order perm o| | | |order m position|r|k|k|k]; try discriminate S.
    + destruct (process_fields compute order perm o w) as (_ & _ & _ & E1 & E2 & _ & E3). destruct o; try discriminate S; apply (inj Some) in S; rewrite <- S; by apply (oinv_eq log w).
    + apply (handle_event_inv default_position compute) in S as (? & ? & _ & _ & _ & _ & E1 & E2 & E3 & _). by apply (oinv_eq log w).
    + destruct (_ =? _); [discriminate|]. injection S as <-. by apply (oinv_eq log w).
    + destruct (w_requests w !! k) as [[r ab|]|] eqn:Lk; [|discriminate..]. destruct (process_fields compute (fun l => l) (fun l => reflexivity l) (command_of r) w) as (_ & _ & _ & E1 & E2 & _ & E3).
      pose proof (reply_of_command (fun l => l) (fun l => reflexivity l) r w) as Rp.
      destruct (process _ _ _ _ _) as [w1 outs]. cbn [fst snd] in *. assert (oinv log w1) as I1 by (by apply (oinv_eq log w)).
      destruct (reply_of outs) as [a|]; injection S as <-; [|done]. specialize (Rp a eq_refl). destruct I1 as [J1 J2 J3]. rewrite <- E1 in Lk. split; [done| |done].
      cbn. intros j rq Lj. destruct ab; [apply lookup_delete_Some in Lj as [_ Lj]; by apply J2|].
      apply lookup_insert_Some in Lj as [[<- <-]|[_ Lj]]; [|by apply J2]. destruct (J2 _ _ Lk) as (q & Lq & A). by exists q.
    + destruct (w_requests w !! k) as [[|r answer]|] eqn:Lk; [discriminate| |discriminate]. injection S as <-. set (w1 := w_set_requests _ w).
      destruct I as [J1 J2 J3]. destruct (J2 _ _ Lk) as (q & Lq & A & Rp). destruct (finish_fields k r answer w1) as (_ & _ & E1 & E2 & _).
      split; [by rewrite E2| |].
      * rewrite E1. cbn. intros j rq [_ Lj]%lookup_delete_Some. by apply J2.
      * intros j st Hj. destruct (finish_responses k r answer w1 Rp) as [E|(st' & E & B)]; rewrite E in Hj; [by apply J3|].
        apply elem_of_app in Hj as [Hj|Hj]; [by apply J3|]. apply elem_of_list_singleton in Hj. injection Hj as -> ->. exists q. split; [done|].
        unfold possible. destruct r; cbn in A; by rewrite A.
    + destruct I as [J1 J2 J3]. destruct (w_requests w !! k) as [[r [|]|r answer]|] eqn:Lk; try discriminate; injection S as <-; (split; [done| |done]); cbn.
      * intros j rq [[<- <-]|[_ Lj]]%lookup_insert_Some; [|by apply J2]. destruct (J2 _ _ Lk) as (q & Lq & A). by exists q.
      * intros j rq [_ Lj]%lookup_delete_Some. by apply J2.
Qed.
Lemma requests_snoc ls (l : server_label P) : requests (ls ++ [l]) = requests ls ++ match l with SRequest q _ => [q] | _ => [] end.
Proof. unfold requests. rewrite omap_app. by destruct l. Qed.
Lemma handled_oinv ls w : handled ls w -> oinv (requests ls) w.
Proof.
  revert ls w. apply handled_ind.
  - split; cbn; [done|by intros k rq; rewrite lookup_empty|by intros k s ?%elem_of_nil].
  - intros ls w l w' _ I _ S. rewrite requests_snoc. by eapply oinv_step.
Qed.
Lemma answered_possible ls w q status : handled ls w -> answered ls w q status -> possible q status.
Proof.
  intros H (k & L & R). destruct (oi_responses _ _ (handled_oinv _ _ H) _ _ R) as (q' & L' & Ps). rewrite L in L'. by injection L' as <-.
Qed.
End Facts.
