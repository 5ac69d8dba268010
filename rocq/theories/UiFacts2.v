(** Proofs about the user's actions on the page: what the server can read, and what it does. *)
From Verif Require Import Base Uci MacAddress AppConfig Codec Session Device Pica CodecSpec ContextSpec HistorySpec Http HttpSpec HttpFacts HttpFacts2 Page PageSpec PageFacts Ui UiSpec UiFacts.

(** ** What the server can read *)
(** Everything but the upper bound of the elevation. *)
Definition nearly (q : pose) : Prop := i16 (q_x q) /\ (-32768 <= q_y q)%Z /\ i16 (q_z q) /\ i16 (q_yaw q) /\ i8 (q_pitch q) /\ i16 (q_roll q).
Lemma readable_nearly q : readable q <-> nearly q /\ (q_y q <= 32767)%Z.
Proof. unfold readable, nearly, i16, i8. naive_solver lia. Qed.
Definition all_nearly (u : ui) : Prop := forall r o, u_objects u !! r = Some o -> nearly (s_position o).
Lemma nearly_alter f r u : (forall o, nearly (s_position o) -> nearly (s_position (f o))) -> all_nearly u -> all_nearly (u_alter f r u).
Proof.
  intros F A r' o E. cbn in E. destruct (decide (r' = r)) as [->|Ne].
  - rewrite list_lookup_alter in E. destruct (u_objects u !! r) as [o'|] eqn:E'; [|done]. cbn in E. injection E as <-. apply F. by apply (A r).
  - rewrite list_lookup_alter_ne in E by done. by apply (A r').
Qed.
Lemma nearly_post r u : all_nearly u -> all_nearly (u_post r u).
Proof. intros A. unfold u_post. by destruct (_ ≫= _). Qed.
Lemma nearly_more u more : all_nearly u -> (forall o, o ∈ more -> nearly (s_position o)) -> all_nearly (u_set_objects (u_objects u ++ more) u).
Proof. intros A M r o E. cbn in E. apply lookup_app_Some in E as [E|[_ E]]; [by apply (A r)|]. apply M. by eapply elem_of_list_lookup_2. Qed.
Lemma nearly_move e q : nearly q -> nearly (move_pose e q).
Proof. unfold nearly, i16, i8. destruct e; cbn; lia. Qed.
Lemma nearly_step u i : sent_by_server i -> all_nearly u -> all_nearly (ui_step u i).
Proof.
  intros S A. destruct i as [state|ev|t|dx dz mv| |v|v|v|]; cbn [ui_step].
  - apply (nearly_more u (load state)); [done|]. intros o Ho. unfold load in Ho. apply map_elem in Ho as (d & Hd & ->). cbn. apply readable_nearly. by apply S.
  - destruct ev as [c m q|c m|c m q|c m c' m' d a e]; cbn.
    + apply (nearly_more u [parse_device m q]); [done|]. intros o ->%elem_of_list_singleton. cbn. by apply readable_nearly.
    + set (u1 := match u_info u with Some r => if u_has (u_objects u) m r then u_set_info None u else u | None => u end).
      assert (u_objects u1 = u_objects u) as E1 by (subst u1; destruct (u_info u) as [x|]; [by destruct (u_has _ m x)|done]).
      intros r o E. cbn in E. rewrite E1 in E. rewrite list_lookup_imap in E. destruct (u_objects u !! r) as [o'|] eqn:E'; [|done]. cbn in E. injection E as <-.
      specialize (A _ _ E'). by destruct (bool_decide _).
    + destruct (u_find m u); [|done]. apply nearly_alter; [|done]. intros o _. cbn. by apply readable_nearly.
    + destruct (u_find m u); [|done]. by apply nearly_alter.
  - destruct t; cbn.
    + destruct (u_selected u); [|done]. by destruct (bool_decide _).
    + by destruct (u_devices u !! key).
    + done.
  - unfold u_move. destruct (u_selected u); [|done]. destruct (u_dragging u), (u_elevating _); repeat (apply nearly_alter; [intros o Ho; by apply nearly_move|]); done.
  - unfold u_up. destruct (_ || _); [|done]. by apply (nearly_post (u_selected u)).
  - unfold u_slide. destruct (u_info u); [|done]. apply nearly_alter; [|done]. intros o. unfold nearly, i16, i8, slider. cbn. lia.
  - unfold u_slide. destruct (u_info u); [|done]. apply nearly_alter; [|done]. intros o. unfold nearly, i16, i8, slider. cbn. lia.
  - unfold u_slide. destruct (u_info u); [|done]. apply nearly_alter; [|done]. intros o. unfold nearly, i16, i8, slider. cbn. lia.
  - by apply nearly_post.
Qed.
Lemma nearly_run is : Forall sent_by_server is -> all_nearly (ui_run is).
Proof.
  induction is as [|i is IH] using rev_ind; intros F; [intros r o E; cbn in E; by rewrite lookup_nil in E|]. apply Forall_app in F as [F1 F2]. apply Forall_cons in F2 as [F2 _]. rewrite ui_run_snoc. apply nearly_step; [exact F2|by apply IH].
Qed.
Lemma nearly_requests is : Forall sent_by_server is -> forall m q, (m, q) ∈ u_requests (ui_run is) -> nearly q.
Proof.
  induction is as [|i is IH] using rev_ind; intros F m q; [by intros ?%elem_of_nil|]. apply Forall_app in F as [F1 F2]. rewrite ui_run_snoc, step_requests_spec.
  intros [H|H]%elem_of_app; [by eapply IH|]. pose proof (nearly_run is F1) as A.
  assert (forall x, (m, q) ∈ posted x (ui_run is) -> nearly q) as P.
  { intros x Hx. unfold posted in Hx. destruct (_ ≫= _) as [o|] eqn:E; [|by apply elem_of_nil in Hx]. apply elem_of_list_singleton in Hx. injection Hx as -> ->.
    destruct x as [r|]; [|done]. cbn in E. by apply (A r). }
  unfold step_requests in H. destruct i; try by apply elem_of_nil in H.
  - destruct (_ || _); [by eapply P|by apply elem_of_nil in H].
  - by eapply P.
Qed.

(** ** What the server does with a request *)
Lemma moved_then_updated (l : list (shown pose)) k s q p : l !! k = Some s ->
  map (fun s => (s_mac s, s_position s)) (map (fun x => if decide (s_mac x = s_mac s) then Shown (s_mac x) p (s_neighbors x) else x) (<[k := set_pose (fun _ => q) s]> l))
  = map (fun x : mac_address * pose => if decide (x.1 = s_mac s) then (s_mac s, p) else x) (map (fun s => (s_mac s, s_position s)) l).
Proof.
  intros V. rewrite !map_map. apply list_eq. intros j. rewrite !list_lookup_fmap. destruct (decide (j = k)) as [->|Ne].
  - rewrite list_lookup_insert by by eapply lookup_lt_Some. rewrite V. cbn. rewrite !decide_True by done. done.
  - rewrite list_lookup_insert_ne by done. destruct (l !! j) as [o|]; [|done]. cbn. destruct (decide (s_mac o = s_mac s)) as [E|]; [cbn; by rewrite E|done].
Qed.
Section Served.
Context {P : Type} (render : P -> pose) (default_position : P) (compute : P -> P -> N * Z * Z).

(** The scene after a change of one position. *)
Lemma scene_insert (w : web P) h i m p : distinct w -> w_devices w !! h = Some i -> di_mac i = m ->
  map (fun i => (di_mac i, render (di_position i))) (map_to_list (<[h := DeviceInformation (di_category i) m p]> (w_devices w))).*2
  ≡ₚ map (fun x : mac_address * pose => if decide (x.1 = m) then (m, render p) else x) (map (fun i => (di_mac i, render (di_position i))) (map_to_list (w_devices w)).*2).
Proof.
  intros D L M. rewrite <- (map_to_list_delete (w_devices w) h i L). rewrite <- insert_delete_insert.
  rewrite map_to_list_insert by apply lookup_delete. cbn. rewrite decide_True by done. apply perm_skip.
  assert (forall l : list (N * device_information P), (forall x, x ∈ l -> di_mac x.2 <> m) ->
    map (fun i => (di_mac i, render (di_position i))) l.*2 = map (fun x : mac_address * pose => if decide (x.1 = m) then (m, render p) else x) (map (fun i => (di_mac i, render (di_position i))) l.*2)) as G.
  { induction l as [|[k j] l IH]; intros H; [done|]. cbn. rewrite decide_False by apply (H (k, j) ltac:(left)). f_equal. apply IH. intros x Hx. apply H. by right. }
  rewrite <- G; [done|]. intros [k j] Hx. apply elem_of_map_to_list in Hx. cbn. apply lookup_delete_Some in Hx as [Ne Lk]. intros E. apply Ne. apply (D _ _ _ _ L Lk). congruence.
Qed.
(** What the page shows after the announcements. *)
Lemma neighbor_events_view (evs : list (event P)) l : Forall (fun ev => match ev with NeighborUpdated _ _ _ _ _ _ _ => True | _ => False end) evs ->
  map (fun s => (s_mac s, s_position s)) (foldl page_event l (map (event_map render) evs)) = map (fun s => (s_mac s, s_position s)) l.
Proof.
  revert l. induction evs as [|ev evs IH]; intros l F; [done|]. apply Forall_cons in F as [F1 F2]. cbn. rewrite IH by done. destruct ev; try done. apply neighbor_view.
Qed.
Lemma announce_only d l : Forall (fun ev : event P => match ev with NeighborUpdated _ _ _ _ _ _ _ => True | _ => False end) (concat (map (announce compute d) l)).
Proof.
  induction l as [|o l IH]; [constructor|]. cbn. apply Forall_app. split; [|done]. unfold announce. destruct (compute _ _) as [[? ?] ?], (compute _ _) as [[? ?] ?]. repeat constructor.
Qed.
Lemma view_events evs u : uinv u -> view (foldl ui_step u (map UEvent evs)) = foldl page_event (view u) evs.
Proof. revert u. induction evs as [|ev evs IH]; intros u J; [done|]. cbn. rewrite IH by by apply (inv_step u (UEvent ev)). by rewrite view_event. Qed.

Lemma pictures_macs u (w : web P) : distinct w -> pictures render u w -> NoDup (map s_mac (view u)).
Proof.
  intros D Pc. assert (map s_mac (view u) = (map (fun s => (s_mac s, s_position s)) (view u)).*1) as ->.
  { induction (view u) as [|s l IH]; [done|]. cbn. f_equal. exact IH. }
  unfold pictures in Pc. rewrite Pc. pose proof (scene_macs w D) as N.
  assert (forall l : list (device_information P), (map (fun i => (di_mac i, render (di_position i))) l).*1 = (map (fun i => (di_mac i, di_position i)) l).*1) as G.
  { induction l as [|j l IH]; [done|]. cbn. f_equal. exact IH. }
  by rewrite G.
Qed.
(** The page shows the device at another position, which it has asked for; the server obeys. *)
Lemma served_request (Sym : forall p q, (compute p q).1.1 = (compute q p).1.1) u u' (w w' : web P) order k s q p :
  uinv u' -> distinct w -> w_poisoned w = false -> 0 < w_subscribers w -> pictures render u w -> view u !! k = Some s ->
  view u' = <[k := set_pose (fun _ => q) s]> (view u) -> web_step default_position compute (WSetPosition order (s_mac s) p) w = Some w' ->
  exists evs, w_events w' = w_events w ++ evs /\ w_responses w' = w_responses w ++ [(w_next w, 200)]
  /\ (exists h i, w_devices w' !! h = Some i /\ di_mac i = s_mac s /\ di_position i = p)
  /\ pictures render (foldl ui_step u' (map (fun ev => UEvent (event_map render ev)) evs)) w'.
Proof.
  intros J D Ep Hs Pc V V' St.
  assert (exists h c, in_scene w h c (s_mac s)) as Sc.
  { assert ((s_mac s, s_position s) ∈ map (fun s => (s_mac s, s_position s)) (view u)) as H by (apply map_elem; exists s; split; [by eapply elem_of_list_lookup_2|done]).
    unfold pictures in Pc. rewrite Pc in H. apply map_elem in H as (i & Hi & E). injection E as E _. apply elem_of_list_fmap in Hi as ([h j] & -> & Hi). apply elem_of_map_to_list in Hi.
    exists h, (di_category j), j. by split. }
  destruct (set_position_run default_position compute Sym w w' order (s_mac s) p St Ep Hs Sc) as (h & i & L & M & ->).
  eexists. split; [cbn [w_events]; reflexivity|]. split; [done|]. split.
  { exists h. cbn [w_devices]. rewrite lookup_insert. eexists. split; [done|]. done. }
  unfold pictures. rewrite <- (map_map (event_map render) UEvent), view_events by done. cbn [map foldl event_map w_devices].
  rewrite neighbor_events_view by apply announce_only. cbn [page_event]. rewrite V'.
  assert (map s_mac (<[k := set_pose (fun _ => q) s]> (view u)) = map s_mac (view u)) as Em.
  { apply list_eq. intros j. rewrite !list_lookup_fmap. destruct (decide (j = k)) as [->|Ne]; [|by rewrite list_lookup_insert_ne].
    rewrite list_lookup_insert by by eapply lookup_lt_Some. rewrite V. done. }
  rewrite (update_first_map s_mac) by (rewrite Em; by eapply pictures_macs). rewrite scene_insert by done.
  unfold pictures in Pc. rewrite <- Pc. apply Permutation_refl'. by apply (moved_then_updated (view u) k s q (render p)).
Qed.
End Served.
