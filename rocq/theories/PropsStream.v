(** Properties of the responses to GET /events, and of the page that listens to one. *)
From Verif Require Import Base Uci MacAddress Pica Http HttpSpec HttpFacts PropsHttp Page PageSpec PageFacts PropsPage Json JsonSpec PropsJson Stream StreamSpec StreamFacts.

(** ** C80. Response number [v_count v1] is opened in the state [v1]. Whatever happens next, its body consists of the events
    which the server has broadcast since then: in their order, without a gap, each once. *)
Theorem C80_in_order : forall (P : Type) (default_position : P) compute ls1 ls2 v1 v2,
  ran default_position compute ls1 v1 -> ran default_position compute (ls1 ++ VOpen :: ls2) v2 ->
  exists m rest, v_streams v2 !! v_count v1 = Some m /\ w_events (v_web v2) = w_events (v_web v1) ++ m_sent m ++ rest.
Proof.
  intros P dp co ls1 ls2 v1 v2 R1 R2. destruct (opened dp co _ _ _ _ R1 R2) as (v & m & _ & _ & _ & _ & L & [_ [rest E]] & _). by exists m, rest.
Qed.
(** It goes on as long as its client stays and at most 1024 events wait to be sent. *)
Theorem C80_goes_on : forall (P : Type) (default_position : P) compute ls1 ls2 v1 v v2,
  ran default_position compute ls1 v1 -> server_step default_position compute VOpen v1 = Some v -> ran default_position compute (ls1 ++ VOpen :: ls2) v2 ->
  VLeave (v_count v1) ∉ ls2 -> always default_position compute (keeps_up (length (w_events (v_web v1))) (v_count v1)) ls2 v ->
  goes_on (v_count v1) v2.
Proof.
  intros P dp co ls1 ls2 v1 v v2 R1 S R2 Nl A. destruct (opened dp co _ _ _ _ R1 R2) as (v' & m & S' & _ & _ & _ & L & _ & O). rewrite S in S'. injection S' as <-.
  exists m. split; [done|]. by apply O.
Qed.
(** All that waits can then be sent, whatever the other responses do. *)
Theorem C80_catches_up : forall (P : Type) (default_position : P) compute ls1 ls2 v1 v2 m rest,
  ran default_position compute ls1 v1 -> ran default_position compute (ls1 ++ VOpen :: ls2) v2 -> w_end (v_web v2) = None ->
  v_streams v2 !! v_count v1 = Some m -> m_open m = true ->
  w_events (v_web v2) = w_events (v_web v1) ++ m_sent m ++ rest -> N.of_nat (length rest) <= 1024 ->
  exists m' v3, server_run default_position compute (repeat (VPoll (v_count v1)) (length rest)) v2 = Some v3
    /\ v_streams v3 !! v_count v1 = Some m' /\ m_sent m' = m_sent m ++ rest /\ m_open m' = true /\ v_web v3 = v_web v2.
Proof.
  intros P dp co ls1 ls2 v1 v2 m rest R1 R2 En L O E B. destruct (opened dp co _ _ _ _ R1 R2) as (v & m0 & _ & _ & _ & _ & L0 & [Nx _] & _).
  rewrite L in L0. injection L0 as <-. destruct (catch_up dp co v2 _ m _ rest En L O Nx E B) as (m' & R & Es & O').
  exists m'. eexists. split; [exact R|]. cbn. by rewrite lookup_insert.
Qed.
(** Otherwise it is ended, without a word to the browser about what it has missed. *)
Theorem C80_lagged : forall (P : Type) (default_position : P) compute ls1 ls2 v1 v2 v3 m rest,
  ran default_position compute ls1 v1 -> ran default_position compute (ls1 ++ VOpen :: ls2) v2 ->
  v_streams v2 !! v_count v1 = Some m -> w_events (v_web v2) = w_events (v_web v1) ++ m_sent m ++ rest -> 1024 < N.of_nat (length rest) ->
  server_step default_position compute (VPoll (v_count v1)) v2 = Some v3 ->
  exists m', v_streams v3 !! v_count v1 = Some m' /\ m_sent m' = m_sent m /\ m_open m' = false.
Proof.
  intros P dp co ls1 ls2 v1 v2 v3 m rest R1 R2 L E B S. destruct (opened dp co _ _ _ _ R1 R2) as (v & m0 & _ & _ & _ & _ & L0 & [Nx _] & _).
  rewrite L in L0. injection L0 as <-. apply sstep_smoved in S. inversion S as [| |k m1 ev En L1 O U G|k m1 En L1 O U Sb|]; subst; rewrite L in L1; injection L1 as <-.
  - unfold unread in U. rewrite E, Nx, !app_length in U. lia.
  - cbn. rewrite lookup_insert. by eexists.
Qed.
(** A response that has ended stays as it is. *)
Theorem C80_over : forall (P : Type) (default_position : P) compute ls1 ls2 v1 v2 k m,
  ran default_position compute ls1 v1 -> ran default_position compute (ls1 ++ ls2) v2 -> v_streams v1 !! k = Some m -> m_open m = false ->
  v_streams v2 !! k = Some m.
Proof.
  intros P dp co ls1 ls2 v1 v2 k m R1 R2 L O. pose proof (ran_split dp co _ _ _ _ R1 R2) as R. destruct (ran_listeners dp co _ _ R1) as [K _].
  eapply over_run; [exact R|by eapply K|done|done].
Qed.
(** The responses do not disturb each other, nor the server: an action of one changes no other, and nothing of the scene, the
    environment, the events and the requests. *)
Theorem C80_independent : forall (P : Type) (default_position : P) compute l k v v',
  server_step default_position compute l v = Some v' -> l = VPoll k \/ l = VLeave k \/ (l = VOpen /\ k = v_count v) ->
  (forall k', k' <> k -> v_streams v' !! k' = v_streams v !! k')
  /\ w_pica (v_web v') = w_pica (v_web v) /\ w_feed (v_web v') = w_feed (v_web v) /\ w_devices (v_web v') = w_devices (v_web v)
  /\ w_events (v_web v') = w_events (v_web v) /\ w_requests (v_web v') = w_requests (v_web v) /\ w_responses (v_web v') = w_responses (v_web v)
  /\ w_poisoned (v_web v') = w_poisoned (v_web v) /\ w_end (v_web v') = w_end (v_web v).
Proof.
  intros P dp co l k v v' S H. apply sstep_smoved in S.
  destruct S as [l w Hw N1 N2|En|k' m0 ev En L0 O0 U G|k' m0 En L0 O0 U S|k' m0 En L0 O0 S]; destruct H as [H|[H|[H E]]]; try discriminate; try (injection H as ->);
    (split; [intros j Nj; cbn; rewrite lookup_insert_ne; congruence|done]).
Qed.
(** The server has a listener (C52) exactly while some response goes on: the last one to leave, or to be ended, takes the
    server with it at the next event. *)
Theorem C80_listeners : forall (P : Type) (default_position : P) compute ls v, ran default_position compute ls v ->
  w_subscribers (v_web v) = N.of_nat (listeners v).
Proof.
  intros P dp co ls v R. by apply (ran_listeners dp co ls v R).
Qed.

(** Positions on a line (PropsHttp.v). A page reads its events, another one does not: after 1025 events it is ended, and gets none
    of the rest. A third one, opened in between, gets what was sent after that. *)
Notation server_demo := (server_run (0 : N) line).
Definition server_after (ls : list (server_label N)) : server N := default server_new (server_demo ls server_new).
Lemma ran_after ls : Forall wf_server_label ls -> (if server_demo ls server_new then true else false) = true -> ran 0 line ls (server_after ls).
Proof. intros F R. split; [done|]. unfold server_after. by destruct (server_demo ls server_new). Qed.
Definition moves (n : N) : list (server_label N) := repeat (VWeb (WSetPosition [0] (MShort [0; 0]) n)) (N.to_nat n).
Lemma moves_wf n : Forall wf_server_label (moves n).
Proof. apply Forall_forall. intros l H%elem_of_list_In%repeat_spec. subst l. by repeat constructor. Qed.
Definition two_pages : list (server_label N) := [VOpen; VOpen; VWeb connect; VWeb WEvent; VPoll 0; VPoll 1].
Definition slow_page : list (server_label N) := two_pages ++ moves 1000 ++ [VPoll 0; VOpen] ++ moves 24 ++ [VPoll 0; VPoll 0; VPoll 0; VPoll 2] ++ moves 1.
Definition reads (k : N) (v : server N) : nat * bool := match v_streams v !! k with Some m => (length (m_sent m), m_open m) | None => (0%nat, false) end.
Example C80_example : ran 0 line slow_page (server_after slow_page)
  /\ reads 0 (server_after slow_page) = (5%nat, true) /\ reads 1 (server_after slow_page) = (1%nat, true) /\ reads 2 (server_after slow_page) = (1%nat, true)
  /\ N.of_nat (length (w_events (v_web (server_after slow_page)))) = 1026
  /\ reads 1 (server_after (slow_page ++ [VPoll 0; VPoll 1; VPoll 2])) = (1%nat, false) /\ listeners (server_after (slow_page ++ [VPoll 0; VPoll 1; VPoll 2])) = 2%nat
  /\ (exists m, v_streams (server_after slow_page) !! 2 = Some m
        /\ m_sent m = [DeviceUpdated CategoryUci (MShort [0; 0]) 24]).
Proof.
  split; [apply ran_after; [|by vm_compute]|].
  { unfold slow_page, two_pages. repeat (apply Forall_app; split); [|apply moves_wf| |apply moves_wf| |apply moves_wf]; repeat constructor. }
  split; [by vm_compute|]. split; [by vm_compute|]. split; [by vm_compute|]. split; [by vm_compute|]. split; [by vm_compute|]. split; [by vm_compute|].
  eexists. split; by vm_compute.
Qed.
Print Assumptions C80_in_order.
Print Assumptions C80_goes_on.
Print Assumptions C80_catches_up.
Print Assumptions C80_lagged.
Print Assumptions C80_over.
Print Assumptions C80_independent.
Print Assumptions C80_listeners.

(** ** C71, over its response. The page opens a response in the state [v1]; its request for the state of the scene is answered in
    the state [v2], and the answer comes after the events which were broadcast before it. When the body of the response
    is complete, the events which the browser reads in its bytes make the page show the scene. *)
Theorem C71_stream_partial : forall (P : Type) (default_position : P) compute fields ls1 ls2 ls3 v1 v2 v3 order state m,
  ran default_position compute ls1 v1 -> ran default_position compute (ls1 ++ VOpen :: ls2) v2 -> ran default_position compute ((ls1 ++ VOpen :: ls2) ++ ls3) v3 ->
  all_along default_position compute one_at_a_time ((ls1 ++ VOpen :: ls2) ++ ls3) server_new ->
  always default_position compute (fun v => distinct (v_web v)) ls3 v2 -> w_end (v_web v3) = None -> w_poisoned (v_web v3) = false ->
  order ≡ₚ (map_to_list (w_devices (v_web v2))).*1 -> get_state order (v_web v2) = Some state ->
  v_streams v3 !! v_count v1 = Some m -> w_events (v_web v3) = w_events (v_web v1) ++ m_sent m ->
  exists evs, Forall2 (tells fields) (event_stream (concat (map (frame fields) (m_sent m)))) evs
    /\ shows (page_after state (length (w_events (v_web v2)) - length (w_events (v_web v1))) evs) (v_web v3).
Proof.
  intros P dp co fields ls1 ls2 ls3 v1 v2 v3 order state m R1 R2 R3 One Ds En Ep Pm G L E. exists (m_sent m).
  pose proof (ran_served dp co _ _ R2) as S2. pose proof (ran_served dp co _ _ R3) as S3. rewrite (web_of_app dp co _ _ _ _ (proj2 R2)) in S3.
  split.
  - eapply C78_stream; [exact S3|]. rewrite E. intros x Hx. apply elem_of_app. by right.
  - destruct (C80_in_order P dp co ls1 ls2 v1 v2 R1 R2) as (m2 & rest2 & L2 & E2).
    pose proof (ran_split dp co _ _ _ _ R2 R3) as R.
    destruct (follow_run dp co ls3 v2 v3 (v_count v1) m2 (w_events (v_web v1)) R) as (m3 & L3 & _ & [_ [rest3 E3]] & _); [done| | |].
    { destruct (ran_listeners dp co _ _ R2) as [K _]. by eapply K. }
    { destruct (opened dp co _ _ _ _ R1 R2) as (v & m0 & _ & _ & _ & _ & L0 & F & _). rewrite L2 in L0. by injection L0 as <-. }
    assert (exists evs, w_events (v_web v3) = w_events (v_web v2) ++ evs) as [evs Ev].
    { clear -R. revert v2 R. induction ls3 as [|l ls IH]; intros v R; cbn [server_run] in R; [injection R as <-; exists []; by rewrite app_nil_r|].
      destruct (server_step dp co l v) as [v'|] eqn:S; [|discriminate]. cbn in R. destruct (IH _ R) as [evs' ->]. apply sstep_smoved in S.
      destruct S as [l w Hw N1 N2|En|k' m0 ev En L0 O0 U G|k' m0 En L0 O0 U S|k' m0 En L0 O0 S]; cbn [v_web]; try (by eexists).
      destruct (web_step_events dp co _ _ _ Hw) as [[evs H] _]. rewrite H, <- app_assoc. by eexists. }
    rewrite E2, <- app_assoc, E in Ev. apply app_inv_head in Ev. rewrite Ev, E2, app_length.
    replace (_ - _)%nat with (length (m_sent m2 ++ rest2)) by lia.
    pose proof (throughout_states dp co distinct _ _ Ds) as D. eapply (C71_page_partial P dp co (web_of dp co (ls1 ++ VOpen :: ls2) server_new) (web_of dp co ls3 v2) (v_web v2) (v_web v3)).
    + exact S2.
    + exact S3.
    + rewrite <- (web_of_app dp co _ _ _ _ (proj2 R2)). apply throughout_web_of; [by intros w|exact One].
    + exact D.
    + clear -Ds R. revert v2 R Ds. induction ls3 as [|l ls IH]; intros v R [D A]; cbn [server_run] in R; [by injection R as <-|].
      destruct (server_step dp co l v) as [v'|] eqn:S; [|discriminate]. by apply (IH v').
    + done.
    + done.
    + destruct ls3; apply Ds.
    + exact Pm.
    + exact G.
    + exact E2.
    + rewrite E, Ev. done.
Qed.
Print Assumptions C71_stream_partial.
(** The browser opens a new response when the one it reads from is ended (https://html.spec.whatwg.org, server-sent events,
    reestablishing the connection), and the page does not ask for the state again: what was broadcast in between is lost
    for ever. Here the page, response 1, has read the state and does not read its events while a device moves 1025 times;
    it is ended, and opens response 2; it has then got all that either response holds, and shows the device where it was. *)
Definition before_moves : list (server_label N) := two_pages.
Definition reopened : list (server_label N) := before_moves ++ moves 1025 ++ [VPoll 1; VOpen].
Theorem C71_reconnect_refuted : exists state m m',
  ran 0 line before_moves (server_after before_moves) /\ ran 0 line reopened (server_after reopened)
  /\ distinct (v_web (server_after reopened)) /\ w_end (v_web (server_after reopened)) = None /\ w_poisoned (v_web (server_after reopened)) = false
  /\ get_state (map_to_list (w_devices (v_web (server_after before_moves)))).*1 (v_web (server_after before_moves)) = Some state
  /\ v_streams (server_after reopened) !! 1 = Some m /\ m_open m = false
  /\ v_streams (server_after reopened) !! 2 = Some m' /\ m_open m' = true /\ unread (v_web (server_after reopened)) m' = 0%nat
  /\ shows (page_after state 1 (m_sent m)) (v_web (server_after before_moves))
  /\ ~ shows (page_after state 1 (m_sent m ++ m_sent m')) (v_web (server_after reopened)).
Proof.
  eexists _, _, _. split; [apply ran_after; [repeat constructor|by vm_compute]|].
  split. { apply ran_after; [|by vm_compute]. unfold reopened. repeat (apply Forall_app; split); [repeat constructor|apply moves_wf|repeat constructor]. }
  split; [apply distinctb_spec; by vm_compute|]. split; [by vm_compute|]. split; [by vm_compute|]. split; [by vm_compute|]. split; [by vm_compute|]. split; [done|].
  split; [by vm_compute|]. split; [done|]. split; [by vm_compute|]. split.
  - match goal with |- shows _ ?w => assert ((map_to_list (w_devices w)).*2 = [DeviceInformation CategoryUci (MShort [0; 0]) 0]) as E by (by vm_compute) end.
    unfold shows. rewrite E. by vm_compute.
  - match goal with |- ~ shows _ ?w => assert ((map_to_list (w_devices w)).*2 = [DeviceInformation CategoryUci (MShort [0; 0]) 1025]) as E by (by vm_compute) end.
    unfold shows. rewrite E. intros Pm. apply Permutation_length_1 in Pm. by vm_compute in Pm.
Qed.
(** A page which reads in time, in the midst of others: two devices are there when it opens, one of them moves, a third comes. *)
Definition early : list (server_label N) := [VOpen; VWeb connect; VWeb WEvent; VWeb connect; VWeb WEvent; VPoll 0].
Definition midway : list (server_label N) := [VWeb (WSetPosition [0; 1] (MShort [0; 0]) 5); VPoll 1].
Definition later : list (server_label N) :=
  [VOpen; VPoll 1; VWeb connect; VPoll 1; VWeb WEvent; VPoll 2; VLeave 0; VPoll 1; VWeb (WSetPosition [0; 1; 2] (MShort [0; 1]) 9)] ++ repeat (VPoll 1) 5.
Definition whole : list (server_label N) := (early ++ VOpen :: midway) ++ later.
Fixpoint all_alongb (f : web N -> web_label N -> bool) (ls : list (server_label N)) (v : server N) : bool :=
  match ls with
  | [] => true
  | l :: ls => match l with VWeb l => f (v_web v) l | _ => true end && match server_step 0 line l v with Some v' => all_alongb f ls v' | None => true end
  end.
Lemma all_alongb_spec f (Q : web N -> web_label N -> Prop) ls v : (forall w l, f w l = true -> Q w l) -> all_alongb f ls v = true -> all_along 0 line Q ls v.
Proof.
  intros H. revert v. induction ls as [|a ls IH]; intros v C; [done|]. cbn [all_alongb all_along] in *. apply andb_true_iff in C as [Ca C].
  split; [destruct a; auto|]. destruct (server_step 0 line a v); [by apply IH|done].
Qed.
Fixpoint alwaysb (f : web N -> bool) (ls : list (server_label N)) (v : server N) : bool :=
  f (v_web v) && match ls with [] => true | l :: ls => match server_step 0 line l v with Some v' => alwaysb f ls v' | None => true end end.
Lemma alwaysb_spec f (Q : web N -> Prop) ls v : (forall w, f w = true -> Q w) -> alwaysb f ls v = true -> always 0 line (fun v => Q (v_web v)) ls v.
Proof.
  intros H. revert v. induction ls as [|a ls IH]; intros v C; cbn [alwaysb always] in *; apply andb_true_iff in C as [Ca C]; (split; [by apply H|]); [done|].
  destruct (server_step 0 line a v); [by apply IH|done].
Qed.
Example C71_stream_example : exists state m, ran 0 line early (server_after early) /\ ran 0 line (early ++ VOpen :: midway) (server_after (early ++ VOpen :: midway))
  /\ ran 0 line whole (server_after whole) /\ all_along 0 line one_at_a_time whole server_new
  /\ always 0 line (fun v => distinct (v_web v)) later (server_after (early ++ VOpen :: midway))
  /\ w_end (v_web (server_after whole)) = None /\ w_poisoned (v_web (server_after whole)) = false
  /\ get_state [0; 1] (v_web (server_after (early ++ VOpen :: midway))) = Some state
  /\ v_streams (server_after whole) !! v_count (server_after early) = Some m /\ length (m_sent m) = 9%nat
  /\ w_events (v_web (server_after whole)) = w_events (v_web (server_after early)) ++ m_sent m.
Proof.
  eexists _, _. split; [apply ran_after; [repeat constructor|by vm_compute]|]. split; [apply ran_after; [repeat constructor|by vm_compute]|].
  split; [apply ran_after; [repeat constructor|by vm_compute]|]. split; [apply (all_alongb_spec one_at_a_timeb); [apply one_at_a_timeb_spec|by vm_compute]|].
  split; [apply (alwaysb_spec distinctb); [apply distinctb_spec|by vm_compute]|]. split; [by vm_compute|]. split; [by vm_compute|]. split; [by vm_compute|].
  split; [by vm_compute|]. split; by vm_compute.
Qed.
Print Assumptions C71_reconnect_refuted.
