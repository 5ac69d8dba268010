(** Properties of the page of the web interface (static/index.html, static/src/components/Map.js), for every type of
    positions and every computation of the measurements. *)
From Verif Require Import Base Uci MacAddress AppConfig Codec Session Device Pica CodecSpec ContextSpec HistorySpec Http HttpSpec HttpFacts HttpFacts2 PropsHttp Page PageSpec PageFacts.

(** ** C71. *)
(** The page has subscribed to the events, which have been [evs1] until the server answered its request for the state and
    [evs2] since. If the answer came to the page between those two, then at every moment the page shows exactly the scene.
    Missing: the page does not know [length evs1], and addresses may not be distinct. *)
Theorem C71_page_partial : forall (P : Type) (default_position : P) compute ls1 ls2 w1 w2 order state evs0 evs1 evs2,
  served default_position compute ls1 w1 -> served default_position compute (ls1 ++ ls2) w2 ->
  throughout default_position compute one_at_a_time (ls1 ++ ls2) web_new ->
  throughout default_position compute (fun w _ => distinct w) ls2 w1 -> distinct w2 -> w_end w2 = None -> w_poisoned w2 = false ->
  distinct w1 -> order ≡ₚ (map_to_list (w_devices w1)).*1 -> get_state order w1 = Some state ->
  w_events w1 = evs0 ++ evs1 -> w_events w2 = evs0 ++ evs1 ++ evs2 ->
  shows (page_after state (length evs1) (evs1 ++ evs2)) w2.
Proof.
  intros P dp co ls1 ls2 w1 w2 order state evs0 evs1 evs2 S1 S2 One Ds D2 En Ep D1 Pm G E1 E2.
  destruct (page_run dp co ls1 w1 (load state) S1 (tracks_load co _ _ _ D1 Pm G) ls2 w2 S2 One Ds D2 En Ep) as (evs & E & T & _).
  unfold page_after. rewrite drop_app. rewrite E1, E2, <- app_assoc in E. do 2 apply app_inv_head in E. subst evs. by apply (tracks_shows co).
Qed.
(** Executable forms, for the examples. *)
Definition distinctb (w : web N) : bool := bool_decide (NoDup (map (fun x => di_mac (x.2 : device_information N)) (map_to_list (w_devices w)))).
Lemma distinctb_spec w : distinctb w = true -> distinct w.
Proof.
  intros Nd%bool_decide_eq_true h h' i i' L L' E. apply elem_of_map_to_list in L, L'. revert Nd L L'. induction (map_to_list (w_devices w)) as [|[k j] t IH]; [by intros _ ?%elem_of_nil|].
  cbn. intros [Nk Nd]%NoDup_cons [X|L]%elem_of_cons [Y|L']%elem_of_cons.
  - congruence.
  - injection X as -> ->. destruct Nk. rewrite E. apply map_elem. by exists (h', i').
  - injection Y as -> ->. destruct Nk. rewrite <- E. apply map_elem. by exists (h, i).
  - by apply IH.
Qed.
Fixpoint checked (f : web N -> web_label N -> bool) (ls : list (web_label N)) (w : web N) : bool :=
  match ls with
  | [] => true
  | l :: ls => f w l && match web_step 0 line l w with Some w' => checked f ls w' | None => true end
  end.
Lemma checked_throughout f (Q : web N -> web_label N -> Prop) ls w : (forall w l, f w l = true -> Q w l) -> checked f ls w = true -> throughout 0 line Q ls w.
Proof. intros H. revert w. induction ls as [|a ls IH]; intros w C; [done|]. cbn in *. apply andb_true_iff in C as [Ca C]. split; [by apply H|]. destruct (web_step 0 line a w); [by apply IH|done]. Qed.
Definition one_at_a_timeb (w : web N) (l : web_label N) : bool :=
  match l with WAnchor _ => match map_to_list (w_requests w) with [] => true | _ => false end | WAbandon _ => false | _ => true end.
Lemma one_at_a_timeb_spec w l : one_at_a_timeb w l = true -> one_at_a_time w l.
Proof. destruct l; try done. cbn. intros E. apply requests_none. by destruct (map_to_list (w_requests w)). Qed.
Definition on_sceneb (m : mac_address) (w : web N) : bool := existsb (fun x => bool_decide (di_mac (x.2 : device_information N) = m)) (map_to_list (w_devices w)).
Lemma on_sceneb_spec m w : on_sceneb m w = true -> on_scene w m.
Proof.
  intros H. apply existsb_exists in H as ([h i] & H & E). apply elem_of_list_In, elem_of_map_to_list in H. apply bool_decide_eq_true in E. by exists h, i.
Qed.
Lemma not_shows (l : page N) (w : web N) : length l <> size (w_devices w) -> ~ shows l w.
Proof. intros Ne Sh. apply Ne. apply Permutation_length in Sh. rewrite !map_length, ?fmap_length in Sh. exact Sh. Qed.

(** The answer comes to the page before the event of a device which it already has: the device is shown twice. It comes
    after the event of a device which it has not: the device is not shown. An anchor and a device have one address (C36)
    and the anchor is destroyed: the device, which stays, is not shown. *)
Definition arrival : list (web_label N) := [connect; WEvent].
Definition twins_end : list (web_label N) := [WAnchor (RqDestroy (MShort [0; 1])); WProcess 1; WFinish 1].
Theorem C71_refuted :
  (exists w1 state evs1, served 0 line (WSubscribe :: arrival) w1 /\ distinct w1 /\ get_state (map_to_list (w_devices w1)).*1 w1 = Some state
     /\ w_events w1 = [] ++ evs1 /\ ~ shows (page_after state 0 evs1) w1)
  /\ (exists w1 w2 state evs2, served 0 line [WSubscribe] w1 /\ served 0 line ([WSubscribe] ++ arrival) w2 /\ distinct w2 /\ get_state (map_to_list (w_devices w1)).*1 w1 = Some state
     /\ w_events w1 = [] /\ w_events w2 = evs2 /\ ~ shows (page_after state 1 evs2) w2)
  /\ (exists w1 w2 state evs1 evs2, served 0 line twins w1 /\ served 0 line (twins ++ twins_end) w2 /\ distinct w2 /\ get_state (map_to_list (w_devices w1)).*1 w1 = Some state
     /\ w_events w1 = [] ++ evs1 /\ w_events w2 = [] ++ evs1 ++ evs2 /\ ~ shows (page_after state (length evs1) (evs1 ++ evs2)) w2).
Proof.
  split; [|split].
  - exists (web_after (WSubscribe :: arrival)). eexists _, _. split; [apply served_after; [repeat constructor|by vm_compute]|]. split; [apply distinctb_spec; by vm_compute|].
    split; [by vm_compute|]. split; [by vm_compute|]. apply not_shows. by vm_compute.
  - exists (web_after [WSubscribe]), (web_after ([WSubscribe] ++ arrival)). eexists _, _. split; [apply served_after; [repeat constructor|by vm_compute]|].
    split; [apply served_after; [repeat constructor|by vm_compute]|]. split; [apply distinctb_spec; by vm_compute|].
    split; [by vm_compute|]. split; [by vm_compute|]. split; [by vm_compute|]. apply not_shows. by vm_compute.
  - exists (web_after twins), (web_after (twins ++ twins_end)). eexists _, _, [_]. split; [apply served_after; [repeat constructor|by vm_compute]|].
    split; [apply served_after; [repeat constructor|by vm_compute]|]. split; [apply distinctb_spec; by vm_compute|].
    split; [by vm_compute|]. split; [by vm_compute|]. split; [by vm_compute|]. apply not_shows. by vm_compute.
Qed.
(** The page of a visitor who arrives when there are two devices and an anchor; then the second device is moved, the
    anchor is destroyed, a device arrives and the first device is moved. *)
Definition demo_order (ls : list (web_label N)) : list N := (map_to_list (w_devices (web_after ls))).*1.
Definition first_part : list (web_label N) :=
  [WSetPosition (demo_order visit) (MShort [0; 1]) 7; WAnchor (RqDestroy (MShort [9; 9])); WProcess 2; WFinish 2; connect; WEvent].
Definition second_part : list (web_label N) := [WSetPosition (demo_order (visit ++ first_part)) (MShort [0; 0]) 3].
Definition third_part : list (web_label N) := [connect; WEvent].
Definition stay : list (web_label N) := first_part ++ second_part ++ third_part.
Definition demo_state : list (device_information N) := default [] (get_state (demo_order visit) (web_after visit)).
Definition demo_evs1 : list (event N) := w_events (web_after visit).
Definition demo_evs2 : list (event N) := drop (length demo_evs1) (w_events (web_after (visit ++ stay))).
Definition demo_page : page N := page_after demo_state (length demo_evs1) (demo_evs1 ++ demo_evs2).
Example C71_example : served 0 line visit (web_after visit) /\ served 0 line (visit ++ stay) (web_after (visit ++ stay))
  /\ throughout 0 line one_at_a_time (visit ++ stay) web_new /\ throughout 0 line (fun w _ => distinct w) stay (web_after visit)
  /\ distinct (web_after (visit ++ stay)) /\ w_end (web_after (visit ++ stay)) = None /\ w_poisoned (web_after (visit ++ stay)) = false
  /\ distinct (web_after visit) /\ get_state (demo_order visit) (web_after visit) = Some demo_state
  /\ w_events (web_after visit) = [] ++ demo_evs1 /\ w_events (web_after (visit ++ stay)) = [] ++ demo_evs1 ++ demo_evs2
  /\ map (fun s => (s_mac s, s_position s)) demo_page = [(MShort [0; 0], 3); (MShort [0; 1], 7); (MShort [0; 3], 0); (MShort [0; 4], 0)].
Proof.
  split; [apply served_after; [repeat constructor|by vm_compute]|]. split; [apply served_after; [repeat constructor|by vm_compute]|].
  split; [by apply (checked_throughout one_at_a_timeb); [apply one_at_a_timeb_spec|vm_compute]|].
  split; [by apply (checked_throughout (fun w _ => distinctb w)); [intros w _; apply distinctb_spec|vm_compute]|].
  split; [apply distinctb_spec; by vm_compute|]. split; [by vm_compute|]. split; [by vm_compute|]. split; [apply distinctb_spec; by vm_compute|].
  split; [by vm_compute|]. split; [by vm_compute|]. split; by vm_compute.
Qed.
Print Assumptions C71_page_partial.
Print Assumptions C71_refuted.

(** ** C72. *)
(** The distances and angles which the page shows for the neighbors of a device are always those of the positions. *)
Theorem C72_accurate : forall (P : Type) (default_position : P) compute ls1 ls2 w1 w2 order state evs0 evs1 evs2,
  served default_position compute ls1 w1 -> served default_position compute (ls1 ++ ls2) w2 ->
  throughout default_position compute one_at_a_time (ls1 ++ ls2) web_new ->
  throughout default_position compute (fun w _ => distinct w) ls2 w1 -> distinct w2 -> w_end w2 = None -> w_poisoned w2 = false ->
  distinct w1 -> order ≡ₚ (map_to_list (w_devices w1)).*1 -> get_state order w1 = Some state ->
  w_events w1 = evs0 ++ evs1 -> w_events w2 = evs0 ++ evs1 ++ evs2 ->
  accurate compute (page_after state (length evs1) (evs1 ++ evs2)).
Proof.
  intros P dp co ls1 ls2 w1 w2 order state evs0 evs1 evs2 S1 S2 One Ds D2 En Ep D1 Pm G E1 E2.
  destruct (page_run dp co ls1 w1 (load state) S1 (tracks_load co _ _ _ D1 Pm G) ls2 w2 S2 One Ds D2 En Ep) as (evs & E & T & _).
  unfold page_after. rewrite drop_app. rewrite E1, E2, <- app_assoc in E. do 2 apply app_inv_head in E. subst evs. exact (proj2 (tracks_shows co _ _ D2 T)).
Qed.
(** Once a device has been moved, it and each other device are shown as neighbors of each other, as long as both stay. *)
Theorem C72_moved_partial : forall (P : Type) (default_position : P) compute ls1 lsa order' m p lsb w1 wb w2 order state evs0 evs1 evs2 x,
  let ls2 := lsa ++ [WSetPosition order' m p] ++ lsb in
  served default_position compute ls1 w1 -> served default_position compute (ls1 ++ ls2) w2 -> served default_position compute (ls1 ++ lsa ++ [WSetPosition order' m p]) wb ->
  throughout default_position compute one_at_a_time (ls1 ++ ls2) web_new ->
  throughout default_position compute (fun w _ => distinct w) ls2 w1 -> distinct wb -> distinct w2 ->
  w_end wb = None -> w_poisoned wb = false -> w_end w2 = None -> w_poisoned w2 = false ->
  distinct w1 -> order ≡ₚ (map_to_list (w_devices w1)).*1 -> get_state order w1 = Some state ->
  w_events w1 = evs0 ++ evs1 -> w_events w2 = evs0 ++ evs1 ++ evs2 ->
  x <> m -> on_scene wb m -> on_scene wb x -> throughout default_position compute (fun w _ => on_scene w m /\ on_scene w x) lsb wb -> on_scene w2 m -> on_scene w2 x ->
  lists (page_after state (length evs1) (evs1 ++ evs2)) m x /\ lists (page_after state (length evs1) (evs1 ++ evs2)) x m.
Proof.
  intros P dp co ls1 lsa order' m p lsb w1 wb w2 order state evs0 evs1 evs2 x ls2 S1 S2 Sb One Ds Db D2 Enb Epb En Ep D1 Pm G E1 E2 Ne Mb Xb Th M2 X2.
  destruct (moved_run dp co ls1 w1 (load state) lsa order' m p lsb wb w2 x S1 (tracks_load co _ _ _ D1 Pm G) Sb S2 One Ds D2 En Ep Enb Epb Db Ne Mb Xb Th M2 X2) as (evs & E & L).
  unfold page_after. rewrite drop_app. rewrite E1, E2, <- app_assoc in E. do 2 apply app_inv_head in E. by subst evs.
Qed.
(** Neighbors are announced only when one of the two is moved: two devices which the page shows from their arrival are
    not shown as neighbors. *)
Theorem C72_refuted : exists w2 state x y, served 0 line ([WSubscribe] ++ arrival ++ arrival) w2 /\ get_state [] (web_after [WSubscribe]) = Some state
  /\ distinct w2 /\ shows (page_after state 0 (w_events w2)) w2 /\ on_scene w2 x /\ on_scene w2 y /\ x <> y
  /\ ~ lists (page_after state 0 (w_events w2)) x y.
Proof.
  exists (web_after ([WSubscribe] ++ arrival ++ arrival)), [], (MShort [0; 0]), (MShort [0; 1]). split; [apply served_after; [repeat constructor|by vm_compute]|].
  split; [by vm_compute|]. split; [apply distinctb_spec; by vm_compute|]. split; [by vm_compute|]. split; [apply on_sceneb_spec; by vm_compute|]. split; [apply on_sceneb_spec; by vm_compute|].
  split; [done|]. intros (s & n & Hs & _ & Hn & _).
  match type of Hs with _ ∈ ?l => assert (map s_neighbors l = [[]; []]) as E by (by vm_compute); assert (s_neighbors s ∈ map s_neighbors l) as H by (apply map_elem; by exists s) end.
  rewrite E, !elem_of_cons in H. destruct H as [H|[H|H]]; [by rewrite H in Hn; apply elem_of_nil in Hn..|by apply elem_of_nil in H].
Qed.
(** In the example of C71: the first device is at 3, the second at 7, a third came before the last move and a fourth
    after it. *)
Example C72_example : served 0 line (visit ++ first_part ++ second_part) (web_after (visit ++ first_part ++ second_part))
  /\ distinct (web_after (visit ++ first_part ++ second_part))
  /\ on_scene (web_after (visit ++ first_part ++ second_part)) (MShort [0; 0]) /\ on_scene (web_after (visit ++ first_part ++ second_part)) (MShort [0; 3])
  /\ throughout 0 line (fun w _ => on_scene w (MShort [0; 0]) /\ on_scene w (MShort [0; 3])) third_part (web_after (visit ++ first_part ++ second_part))
  /\ on_scene (web_after (visit ++ stay)) (MShort [0; 0]) /\ on_scene (web_after (visit ++ stay)) (MShort [0; 3])
  /\ map (fun s => map (fun n => (n_mac n, n_distance n)) (s_neighbors s)) demo_page
     = [[(MShort [0; 1], 4); (MShort [0; 3], 3)]; [(MShort [0; 0], 4)]; [(MShort [0; 0], 3)]; []].
Proof.
  split; [apply served_after; [repeat constructor|by vm_compute]|]. split; [apply distinctb_spec; by vm_compute|].
  split; [apply on_sceneb_spec; by vm_compute|]. split; [apply on_sceneb_spec; by vm_compute|].
  split; [apply (checked_throughout (fun w _ => on_sceneb (MShort [0; 0]) w && on_sceneb (MShort [0; 3]) w)); [|by vm_compute]; intros w l H; apply andb_true_iff in H as [? ?]; split; by apply on_sceneb_spec|].
  split; [apply on_sceneb_spec; by vm_compute|]. split; [apply on_sceneb_spec; by vm_compute|]. by vm_compute.
Qed.
Print Assumptions C72_accurate.
Print Assumptions C72_moved_partial.
Print Assumptions C72_refuted.

(** ** C73. *)
(** A device which is dragged stays on the board, and its elevation does not become negative. *)
Theorem C73_board : forall p es dx dz es', (0 <= p_y p)%Z -> on_board (foldl mouse_move p (es ++ Drag dx dz :: es')).
Proof. intros p es dx dz es' H. destruct (mouse_dragged p es dx dz es'). split; [done|]. split; [done|]. by apply mouse_elevation. Qed.
(** A device which is on the board stays there, and its new position is accepted by the server unless it is too high. *)
Theorem C73_accepted_partial : forall p es, on_board p -> on_board (foldl mouse_move p es) /\ ((p_y (foldl mouse_move p es) <= 32767)%Z -> accepted (foldl mouse_move p es) = true).
Proof.
  intros p es (X & Z & Y). destruct (mouse_board p es (conj X Z)) as [X' Z']. pose proof (mouse_elevation p es Y) as Y'. split; [by split|].
  intros H. unfold accepted. cbn [forallb]. repeat (apply andb_true_iff; split); try done; lia.
Qed.
(** Nothing bounds the elevation: a position can be shown which the server refuses, and the page does not notice. *)
Theorem C73_refuted : exists p es, on_board p /\ accepted p = true /\ accepted (foldl mouse_move p es) = false.
Proof. exists (Place 0 32000 0), [Elevate (-400)]. split; [unfold on_board; cbn; lia|]. split; by vm_compute. Qed.
Example C73_example : on_board (Place 10 0 20) /\ foldl mouse_move (Place 10 0 20) [Elevate (-30); Drag 1000 (-7); Elevate 10] = Place 560 40 53 /\ accepted (Place 560 40 53) = true.
Proof. split; [unfold on_board; cbn; lia|]. split; by vm_compute. Qed.
Print Assumptions C73_board.
Print Assumptions C73_accepted_partial.
Print Assumptions C73_refuted.
