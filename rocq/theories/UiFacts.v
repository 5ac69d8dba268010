(** Proofs about the user's actions on the page. *)
From Verif Require Import Base Uci MacAddress Pica Http Page PageSpec PageFacts Ui UiSpec.

(** ** The objects and the references *)
Record uinv (u : ui) : Prop := {
  ui_range : Forall (fun r => (r < length (u_objects u))%nat) (u_devices u);
  ui_nodup : NoDup (u_devices u);
  ui_sel : forall r, u_selected u = Some r -> (r < length (u_objects u))%nat;
  ui_info : u_info u = None \/ u_info u = u_selected u }.

Lemma omap_view_other (f : shown pose -> shown pose) (r : nat) (objs : list (shown pose)) (ds : list nat) : r ∉ ds -> omap (fun x => alter f r objs !! x) ds = omap (fun x => objs !! x) ds.
Proof.
  induction ds as [|d ds IH]; intros N; [done|]. apply not_elem_of_cons in N as [N1 N2]. cbn. rewrite list_lookup_alter_ne by done. by rewrite IH.
Qed.
Lemma view_lookup u : uinv u -> forall k, view u !! k = u_devices u !! k ≫= fun r => u_objects u !! r.
Proof.
  intros [R _ _ _]. unfold view. revert R. generalize (u_objects u) as objs. intros objs. induction (u_devices u) as [|d ds IH]; intros R k; [done|].
  apply Forall_cons in R as [R1 R2]. cbn. destruct (lookup_lt_is_Some_2 objs d R1) as [o E]. rewrite E. destruct k as [|k]; cbn; [by rewrite E|by apply IH].
Qed.
Lemma view_elem u s : uinv u -> s ∈ view u <-> exists r, r ∈ u_devices u /\ u_objects u !! r = Some s.
Proof. intros I. unfold view. rewrite elem_of_list_omap. split; intros (r & ? & ?); by exists r. Qed.

Lemma view_alter_find m f u r : uinv u -> u_find m u = Some r ->
  view (u_alter f r u) = update_first (fun s => bool_decide (s_mac s = m)) f (view u).
Proof.
  intros [R Nd _ _] F. unfold view, u_alter, u_find in *. cbn. revert R Nd F. generalize (u_objects u) as objs. intros objs.
  induction (u_devices u) as [|d ds IH]; intros R Nd F; [done|]. apply Forall_cons in R as [R1 R2]. apply NoDup_cons in Nd as [Nd1 Nd2].
  cbn in F |- *. destruct (lookup_lt_is_Some_2 objs d R1) as [o E]. unfold u_has in F at 1. rewrite E in F. rewrite E. cbn.
  destruct (bool_decide (s_mac o = m)) eqn:B.
  - injection F as <-. rewrite list_lookup_alter, E. cbn. by rewrite omap_view_other.
  - assert (d <> r) as Ne. { intros <-. apply List.find_some in F as [_ F]. unfold u_has in F. rewrite E in F. congruence. }
    rewrite list_lookup_alter_ne, E by done. by rewrite IH.
Qed.
Lemma find_none m f u : uinv u -> u_find m u = None -> view u = update_first (fun s => bool_decide (s_mac s = m)) f (view u).
Proof.
  intros [R _ _ _] F. unfold view, u_find in *. revert R F. generalize (u_objects u) as objs. intros objs.
  induction (u_devices u) as [|d ds IH]; intros R F; [done|]. apply Forall_cons in R as [R1 R2]. cbn in F |- *. destruct (lookup_lt_is_Some_2 objs d R1) as [o E].
  unfold u_has in F at 1. rewrite E in F. rewrite E. cbn. destruct (bool_decide (s_mac o = m)) eqn:B; [done|]. by rewrite <- IH.
Qed.
Lemma view_removed m objs ds : Forall (fun r => (r < length objs)%nat) ds ->
  let kept := List.filter (fun r => negb (u_has objs m r)) ds in
  forall g, omap (fun r => imap (fun r o => if bool_decide (r ∈ kept) then g o else o) objs !! r) kept
  = map g (List.filter (fun d => negb (bool_decide (s_mac d = m))) (omap (fun r => objs !! r) ds)).
Proof.
  intros R kept g. assert (forall l, (forall r, r ∈ l -> r ∈ kept) ->
    omap (fun r => imap (fun r o => if bool_decide (r ∈ kept) then g o else o) objs !! r) l = map g (omap (fun r => objs !! r) l)) as H.
  { induction l as [|r l IH]; intros Sub; [done|]. cbn. rewrite list_lookup_imap. rewrite IH by (intros x Hx; apply Sub; by right).
    destruct (objs !! r); [|done]. cbn. rewrite bool_decide_true; [done|]. apply Sub. by left. }
  rewrite H by done. f_equal. subst kept. clear H. induction ds as [|d ds IH]; [done|]. apply Forall_cons in R as [R1 R2].
  destruct (lookup_lt_is_Some_2 objs d R1) as [o E]. assert (u_has objs m d = bool_decide (s_mac o = m)) as U by (unfold u_has; by rewrite E).
  change (List.filter (fun r => negb (u_has objs m r)) (d :: ds)) with (if negb (u_has objs m d) then d :: List.filter (fun r => negb (u_has objs m r)) ds else List.filter (fun r => negb (u_has objs m r)) ds).
  rewrite U. destruct (negb (bool_decide (s_mac o = m))) eqn:Bm; cbn; rewrite E; cbn; rewrite Bm; [f_equal|]; by apply IH.
Qed.
Lemma omap_prefix (objs more : list (shown pose)) ds : Forall (fun r => (r < length objs)%nat) ds -> omap (fun r => (objs ++ more) !! r) ds = omap (fun r => objs !! r) ds.
Proof. induction ds as [|d ds IH]; intros R; [done|]. apply Forall_cons in R as [R1 R2]. cbn. rewrite lookup_app_l by done. by rewrite IH. Qed.
Lemma omap_seq (objs more : list (shown pose)) : omap (fun r => (objs ++ more) !! r) (seq (length objs) (length more)) = more.
Proof.
  revert objs. induction more as [|o more IH]; intros objs; [done|]. cbn. rewrite list_lookup_middle by done. f_equal.
  specialize (IH (objs ++ [o])). rewrite app_length, Nat.add_1_r, <- app_assoc in IH. exact IH.
Qed.

(** ** The invariant *)
Lemma inv_new : uinv ui_new.
Proof. split; [constructor|constructor|done|by left]. Qed.
Lemma inv_alter f r u : uinv u -> uinv (u_alter f r u).
Proof. intros [R N S I]. split; unfold u_alter; cbn; [by rewrite alter_length|done|by rewrite alter_length|done]. Qed.
Lemma inv_post r u : uinv u -> uinv (u_post r u).
Proof. intros [R N S I]. unfold u_post. destruct (_ ≫= _); by split. Qed.
Lemma inv_event ev u : uinv u -> uinv (u_event ev u).
Proof.
  intros J. pose proof J as [R N S I]. destruct ev as [c m q|c m|c m q|c m c' m' d a e]; cbn.
  - split; cbn.
    + apply Forall_app. rewrite app_length. cbn. split; [eapply Forall_impl; [done|]; cbn; lia|]. constructor; [lia|constructor].
    + apply NoDup_app. split; [done|]. split; [|apply NoDup_singleton]. intros x Hx ->%elem_of_list_singleton. rewrite Forall_forall in R. specialize (R _ Hx). cbn in R. lia.
    + intros r E. rewrite app_length. specialize (S r E). lia.
    + done.
  - set (u1 := match u_info u with Some r => if u_has (u_objects u) m r then u_set_info None u else u | None => u end).
    assert (u_objects u1 = u_objects u /\ u_devices u1 = u_devices u /\ u_selected u1 = u_selected u /\ (u_info u1 = None \/ u_info u1 = u_selected u)) as (E1 & E2 & E3 & E4).
    { subst u1. destruct (u_info u) as [r|] eqn:E; [destruct (u_has _ m r); cbn; rewrite ?E; by auto|]. by rewrite E; auto. }
    split; cbn; rewrite ?imap_length, ?E1, ?E2, ?E3; [|by apply NoDup_ListNoDup, List.NoDup_filter, NoDup_ListNoDup|done|done].
    apply Forall_forall. intros r Hr. apply filter_In_elem in Hr as [Hr _]. rewrite Forall_forall in R. by apply R.
  - destruct (u_find m u); [by apply inv_alter|done].
  - destruct (u_find m u); [by apply inv_alter|done].
Qed.
Lemma inv_step u i : uinv u -> uinv (ui_step u i).
Proof.
  intros J. pose proof J as [R N S I]. destruct i as [state|ev|t|dx dz mv| |v|v|v|]; cbn [ui_step].
  - split; cbn; [|apply NoDup_ListNoDup, seq_NoDup| |done].
    + rewrite app_length. unfold load. rewrite map_length. apply Forall_forall. intros r Hr. apply elem_of_seq in Hr. lia.
    + intros r E. rewrite app_length. specialize (S r E). lia.
  - by apply inv_event.
  - destruct t as [|key|]; cbn.
    + destruct (u_selected u) as [r|] eqn:E; [|done]. destruct (bool_decide _); [|done]. split; cbn; rewrite ?E; done.
    + destruct (u_devices u !! key) as [r|] eqn:E; [|done]. split; cbn; [done|done| |by right].
      intros r' [= <-]. rewrite Forall_lookup in R. by apply (R key).
    + split; cbn; [done|done|done|by left].
  - unfold u_move. destruct (u_selected u); [|done]. destruct (u_dragging u), (u_elevating _); repeat apply inv_alter; done.
  - unfold u_up. assert (uinv (if u_dragging u || u_elevating u then u_post (u_selected u) u else u)) as [R' N' S' I'] by (destruct (_ || _); [by apply inv_post|done]). by split.
  - unfold u_slide. destruct (u_info u); [by apply inv_alter|done].
  - unfold u_slide. destruct (u_info u); [by apply inv_alter|done].
  - unfold u_slide. destruct (u_info u); [by apply inv_alter|done].
  - by apply inv_post.
Qed.
Lemma ui_run_snoc is i : ui_run (is ++ [i]) = ui_step (ui_run is) i.
Proof. unfold ui_run. by rewrite foldl_app. Qed.
Lemma inv_run is : uinv (ui_run is).
Proof. induction is as [|i is IH] using rev_ind; [apply inv_new|]. rewrite ui_run_snoc. by apply inv_step. Qed.

(** ** What the page shows *)
Lemma view_event u ev : uinv u -> view (u_event ev u) = page_event (view u) ev.
Proof.
  intros J. pose proof J as [R N S I]. destruct ev as [c m q|c m|c m q|c m c' m' d a e]; cbn [u_event page_event].
  - unfold view. cbn. rewrite omap_app, omap_prefix by done. cbn. by rewrite list_lookup_middle.
  - set (u1 := match u_info u with Some r => if u_has (u_objects u) m r then u_set_info None u else u | None => u end).
    assert (u_objects u1 = u_objects u /\ u_devices u1 = u_devices u) as (E1 & E2) by (subst u1; destruct (u_info u) as [r|]; [by destruct (u_has _ m r)|done]).
    unfold view. cbn. rewrite E1, E2. rewrite view_removed by done. done.
  - destruct (u_find m u) eqn:F; [by rewrite (view_alter_find m) by done|by apply find_none].
  - destruct (u_find m u) eqn:F; [by rewrite (view_alter_find m) by done|by apply find_none].
Qed.
Lemma view_load u state : view (ui_step u (ULoad state)) = load state.
Proof. unfold view. cbn. replace (length state) with (length (load state)) by apply map_length. apply omap_seq. Qed.

(** ** A change of one object *)
Lemma view_alter u f r : uinv u -> forall k, view (u_alter f r u) !! k = if decide (u_devices u !! k = Some r) then f <$> view u !! k else view u !! k.
Proof.
  intros J k. rewrite view_lookup by by apply inv_alter. rewrite view_lookup by done. unfold u_alter. cbn. destruct (u_devices u !! k) as [r'|] eqn:E; cbn.
  - destruct (decide (Some r' = Some r)) as [[= ->]|Ne]; [by rewrite list_lookup_alter|]. rewrite list_lookup_alter_ne; [done|congruence].
  - by rewrite decide_False.
Qed.
Lemma view_alter_map u f r : uinv u -> forall k, map (fun s => (s_mac s, s_neighbors s)) (view (u_alter (set_pose f) r u)) !! k = map (fun s => (s_mac s, s_neighbors s)) (view u) !! k.
Proof.
  intros J k. rewrite !list_lookup_fmap, view_alter by done. destruct (decide (u_devices u !! k = Some r)); [|reflexivity].
  assert (forall x : option (shown pose), (fun s => (s_mac s, s_neighbors s)) <$> (set_pose f <$> x) = (fun s => (s_mac s, s_neighbors s)) <$> x) as H by by intros []. apply H.
Qed.

(** ** The selected device *)
Record selected (r : nat) (m : mac_address) (u : ui) : Prop := {
  sl_sel : u_selected u = Some r;
  sl_in : r ∈ u_devices u;
  sl_mac : exists o, u_objects u !! r = Some o /\ s_mac o = m }.
Lemma has_alter (f : shown pose -> shown pose) (objs : list (shown pose)) (r r' : nat) m : (forall o, s_mac (f o) = s_mac o) -> (exists o, objs !! r = Some o /\ s_mac o = m) ->
  exists o, alter f r' objs !! r = Some o /\ s_mac o = m.
Proof.
  intros F (o & E & M). destruct (decide (r' = r)) as [->|Ne].
  - exists (f o). rewrite list_lookup_alter, E. split; [done|]. by rewrite F.
  - exists o. by rewrite list_lookup_alter_ne.
Qed.
Lemma selected_alter f r r' m u : (forall o, s_mac (f o) = s_mac o) -> selected r m u -> selected r m (u_alter f r' u).
Proof. intros F [S I M]. split; cbn; [done|done|]. by apply has_alter. Qed.
Lemma selected_post r r' m u : selected r m u -> selected r m (u_post r' u).
Proof. intros [S I M]. unfold u_post. destruct (_ ≫= _); by split. Qed.
Lemma selected_step r m u i : undisturbed m i -> selected r m u -> selected r m (ui_step u i).
Proof.
  intros U K. pose proof K as [S I M]. destruct i as [state|ev|t|dx dz mv| |v|v|v|]; cbn [ui_step].
  - done.
  - destruct ev as [c m1 q|c m1|c m1 q|c m1 c' m' d a e]; cbn.
    + split; cbn; [done|apply elem_of_app; by left|]. destruct M as (o & E & M). exists o. split; [|done]. by apply lookup_app_l_Some.
    + set (u1 := match u_info u with Some r => if u_has (u_objects u) m1 r then u_set_info None u else u | None => u end).
      assert (u_objects u1 = u_objects u /\ u_devices u1 = u_devices u /\ u_selected u1 = u_selected u) as (E1 & E2 & E3)
        by (subst u1; destruct (u_info u) as [x|]; [by destruct (u_has _ m1 x)|done]).
      destruct M as (o & E & M). split; cbn; rewrite ?E1, ?E2, ?E3.
      * done.
      * apply filter_In_elem. split; [done|]. unfold u_has. rewrite E. rewrite bool_decide_false; [done|]. cbn in U. congruence.
      * rewrite list_lookup_imap, E. cbn. destruct (bool_decide _); eexists; split; done.
    + destruct (u_find m1 u); [by apply selected_alter|done].
    + destruct (u_find m1 u); [by apply selected_alter|done].
  - destruct t as [|key|]; [|done|done]. cbn. rewrite S. destruct (bool_decide _); [|done]. by split.
  - unfold u_move. rewrite S. destruct (u_dragging u), (u_elevating _); repeat apply selected_alter; done.
  - unfold u_up. assert (selected r m (if u_dragging u || u_elevating u then u_post (u_selected u) u else u)) as [S' I' M'] by (destruct (_ || _); [by apply selected_post|done]). by split.
  - unfold u_slide. destruct (u_info u); [by apply selected_alter|done].
  - unfold u_slide. destruct (u_info u); [by apply selected_alter|done].
  - unfold u_slide. destruct (u_info u); [by apply selected_alter|done].
  - by apply selected_post.
Qed.
Lemma selected_run r m is u : Forall (undisturbed m) is -> selected r m u -> selected r m (foldl ui_step u is).
Proof. revert u. induction is as [|i is IH]; intros u F K; [done|]. apply Forall_cons in F as [F1 F2]. cbn. apply IH; [done|]. by apply selected_step. Qed.
Lemma selected_down u k s : uinv u -> view u !! k = Some s -> exists r, u_devices u !! k = Some r /\ selected r (s_mac s) (ui_step u (UDown (Marker k))).
Proof.
  intros J V. rewrite view_lookup in V by done. destruct (u_devices u !! k) as [r|] eqn:E; [|done]. cbn in V. exists r. split; [done|].
  cbn. rewrite E. split; cbn; [done|by eapply elem_of_list_lookup_2|by exists s].
Qed.

(** ** The requests *)
Definition posted (r : option nat) (u : ui) : list (mac_address * pose) :=
  match r ≫= fun r => u_objects u !! r with Some o => [(s_mac o, s_position o)] | None => [] end.
Lemma post_requests r u : u_requests (u_post r u) = u_requests u ++ posted r u.
Proof. unfold u_post, posted. destruct (_ ≫= _); cbn; [done|by rewrite app_nil_r]. Qed.
Lemma post_view r u : view (u_post r u) = view u.
Proof. unfold u_post. by destruct (_ ≫= _). Qed.
(** The requests of one step. *)
Definition step_requests (u : ui) (i : input) : list (mac_address * pose) :=
  match i with
  | UUp => if u_dragging u || u_elevating u then posted (u_selected u) u else []
  | UChange => posted (u_info u) u
  | _ => []
  end.
Lemma step_requests_spec u i : u_requests (ui_step u i) = u_requests u ++ step_requests u i.
Proof.
  destruct i as [state|ev|t|dx dz mv| |v|v|v|]; cbn [ui_step step_requests]; try (rewrite app_nil_r).
  - done.
  - destruct ev as [c m q|c m|c m q|c m c' m' d a e]; cbn.
    + done.
    + by destruct (u_info u); [destruct (u_has _ _ _)|].
    + by destruct (u_find m u).
    + by destruct (u_find m u).
  - destruct t; cbn.
    + destruct (u_selected u); [|done]. by destruct (bool_decide _).
    + by destruct (u_devices u !! key).
    + done.
  - unfold u_move. destruct (u_selected u); [|done]. by destruct (u_dragging u), (u_elevating _).
  - unfold u_up. cbn. destruct (_ || _); [apply post_requests|by rewrite app_nil_r].
  - unfold u_slide. by destruct (u_info u).
  - unfold u_slide. by destruct (u_info u).
  - unfold u_slide. by destruct (u_info u).
  - apply post_requests.
Qed.
Lemma makes_spec is i rs : makes is i rs <-> rs = step_requests (ui_run is) i.
Proof. unfold makes. rewrite ui_run_snoc, step_requests_spec. split; [by intros ?%app_inv_head|by intros ->]. Qed.
Lemma up_view u : view (u_up u) = view u.
Proof. unfold u_up. destruct (_ || _); [|done]. unfold view. cbn. apply post_view. Qed.
Lemma selected_posted r m u x : uinv u -> selected r m u -> x = None \/ x = u_selected u ->
  posted x u = [] \/ exists q, posted x u = [(m, q)] /\ shown_at u m q.
Proof.
  intros J [S I (o & E & M)] [->| ->]; [by left|]. right. unfold posted. rewrite S. cbn. rewrite E. exists (s_position o). rewrite M. split; [done|].
  exists o. split; [|done]. apply view_elem; [done|]. by exists r.
Qed.

(** ** Flags *)
Lemma post_flags r u : u_dragging (u_post r u) = u_dragging u /\ u_elevating (u_post r u) = u_elevating u.
Proof. unfold u_post. by destruct (_ ≫= _). Qed.
Lemma dragging_step u i : i <> UUp -> u_dragging u = true -> u_dragging (ui_step u i) = true.
Proof.
  intros Ne D. destruct i as [state|ev|t|dx dz mv| |v|v|v|]; cbn [ui_step]; try done.
  - destruct ev as [c m q|c m|c m q|c m c' m' d a e]; cbn.
    + done.
    + by destruct (u_info u); [destruct (u_has _ _ _)|].
    + by destruct (u_find m u).
    + by destruct (u_find m u).
  - destruct t; cbn.
    + destruct (u_selected u); [|done]. by destruct (bool_decide _).
    + by destruct (u_devices u !! key).
    + done.
  - unfold u_move. destruct (u_selected u); [|done]. rewrite D. cbn. by destruct (u_elevating u).
  - unfold u_slide. by destruct (u_info u).
  - unfold u_slide. by destruct (u_info u).
  - unfold u_slide. by destruct (u_info u).
  - by rewrite (proj1 (post_flags _ _)).
Qed.
Lemma dragging_run is u : Forall (fun i => i <> UUp) is -> u_dragging u = true -> u_dragging (foldl ui_step u is) = true.
Proof. revert u. induction is as [|i is IH]; intros u F K; [done|]. apply Forall_cons in F as [F1 F2]. cbn. apply IH; [done|]. by apply dragging_step. Qed.

(** ** Gestures *)
(** One movement of the mouse, when the marker ([a]) or the handle ([b]) is held. *)
Definition moved_pose (a b : bool) (q : pose) (e : Z * Z * Z) : pose :=
  let '(dx, dz, mv) := e in
  let q := if a then move_pose (Drag dx dz) q else q in
  if b then move_pose (Elevate mv) q else q.
Definition mouse_moves (ms : list (Z * Z * Z)) : list input := map (fun '(dx, dz, mv) => UMove dx dz mv) ms.
Lemma set_pose_id o : set_pose (fun q => q) o = o.
Proof. by destruct o. Qed.
Lemma alter_none r u : u_alter (set_pose (fun q => q)) r u = u.
Proof. unfold u_alter. rewrite list_alter_id by apply set_pose_id. by destruct u. Qed.
Lemma alter_twice f g r u : u_alter (set_pose f) r (u_alter (set_pose g) r u) = u_alter (set_pose (fun q => f (g q))) r u.
Proof. unfold u_alter. cbn. rewrite <- list_alter_compose. done. Qed.
Lemma move_one r u dx dz mv : u_selected u = Some r -> ui_step u (UMove dx dz mv) = u_alter (set_pose (fun q => moved_pose (u_dragging u) (u_elevating u) q (dx, dz, mv))) r u.
Proof.
  intros S. cbn [ui_step]. unfold u_move. rewrite S. destruct (u_dragging u) eqn:D; cbn; destruct (u_elevating u) eqn:E.
  - by rewrite alter_twice.
  - done.
  - done.
  - by rewrite alter_none.
Qed.
Lemma moves_run r ms u : u_selected u = Some r ->
  foldl ui_step u (mouse_moves ms) = u_alter (set_pose (fun q => foldl (moved_pose (u_dragging u) (u_elevating u)) q ms)) r u.
Proof.
  revert u. induction ms as [|[[dx dz] mv] ms IH]; intros u S; [cbn; by rewrite alter_none|].
  cbn [mouse_moves map foldl]. fold (mouse_moves ms). rewrite (move_one r) by done. rewrite IH by done. by rewrite alter_twice.
Qed.
Lemma object_of u k s r : uinv u -> view u !! k = Some s -> u_devices u !! k = Some r -> u_objects u !! r = Some s.
Proof. intros J V E. rewrite view_lookup, E in V by done. exact V. Qed.
Lemma posted_alter f r u o : u_objects u !! r = Some o -> posted (Some r) (u_alter (set_pose f) r u) = [(s_mac o, f (s_position o))].
Proof. intros E. unfold posted. cbn. by rewrite list_lookup_alter, E. Qed.
Lemma view_alter_at u f r k s : uinv u -> u_devices u !! k = Some r -> view u !! k = Some s -> view (u_alter f r u) = <[k := f s]> (view u).
Proof.
  intros J E V. apply list_eq. intros j. rewrite view_alter by done. destruct (decide (j = k)) as [->|Ne].
  - rewrite decide_True by done. rewrite list_lookup_insert by by eapply lookup_lt_Some. by rewrite V.
  - rewrite list_lookup_insert_ne by done. rewrite decide_False; [done|]. intros E'. apply Ne. destruct J as [_ Nd _ _]. by eapply NoDup_lookup.
Qed.

(** A press on a marker, movements and the release. *)
Lemma drag_gesture u k s ms : uinv u -> idle u -> view u !! k = Some s ->
  let q := foldl (moved_pose true false) (s_position s) ms in
  let u' := foldl ui_step u (UDown (Marker k) :: mouse_moves ms ++ [UUp]) in
  u_requests u' = u_requests u ++ [(s_mac s, q)] /\ view u' = <[k := set_pose (fun _ => q) s]> (view u) /\ idle u'.
Proof.
  intros J [D E] V q u'. assert (exists r, u_devices u !! k = Some r) as [r Er] by (rewrite view_lookup in V by done; destruct (u_devices u !! k) as [r|]; [by exists r|done]).
  pose proof (object_of _ _ _ _ J V Er) as O. subst u'. cbn [foldl]. rewrite foldl_app. cbn [foldl].
  cbn [ui_step u_down]. rewrite Er. set (u1 := u_set_info (Some r) (u_set_dragging true (u_set_selected (Some r) u))).
  rewrite (moves_run r ms u1) by done. change (u_dragging u1) with true. change (u_elevating u1) with (u_elevating u). rewrite E.
  unfold u_up. cbn [u_dragging u_alter u_set_objects orb u1 u_set_info u_set_dragging]. split_and!; [| |done].
  - cbn. rewrite post_requests. cbn. f_equal. erewrite posted_alter; [|exact O]. done.
  - unfold view. cbn. fold (view (u_post (Some r) (u_alter (set_pose (fun q => foldl (moved_pose true false) q ms)) r u1))). rewrite post_view.
    erewrite (view_alter_at u1); [|by destruct J; split; [done..| |by right]; intros r' [= <-]; cbn; by eapply lookup_lt_Some|exact Er|exact V]. done.
Qed.
(** A press on the handle of the selected device, movements and the release. *)
Lemma lift_gesture u k r s ms : uinv u -> idle u -> u_selected u = Some r -> u_devices u !! k = Some r -> view u !! k = Some s ->
  let q := foldl (moved_pose false true) (s_position s) ms in
  let u' := foldl ui_step u (UDown Handle :: mouse_moves ms ++ [UUp]) in
  u_requests u' = u_requests u ++ [(s_mac s, q)] /\ view u' = <[k := set_pose (fun _ => q) s]> (view u) /\ idle u'.
Proof.
  intros J [D E] S Er V q u'. pose proof (object_of _ _ _ _ J V Er) as O. subst u'. cbn [foldl]. rewrite foldl_app. cbn [foldl].
  cbn [ui_step u_down]. rewrite S, bool_decide_true by by eapply elem_of_list_lookup_2. set (u1 := u_set_elevating true u).
  rewrite (moves_run r ms u1) by done. change (u_dragging u1) with (u_dragging u). change (u_elevating u1) with true. rewrite D.
  unfold u_up. cbn [u_dragging u_elevating u_alter u_set_objects u1 u_set_elevating]. rewrite D. cbn [orb]. change (u_selected (u_alter _ r u1)) with (u_selected u). rewrite S. split_and!; [| |done].
  - cbn. rewrite post_requests. cbn. f_equal. erewrite posted_alter; [|exact O]. done.
  - unfold view. cbn. fold (view (u_post (Some r) (u_alter (set_pose (fun q => foldl (moved_pose false true) q ms)) r u1))). rewrite post_view.
    erewrite (view_alter_at u1); [|by destruct J; split|exact Er|exact V]. done.
Qed.
Lemma idle_step u i : (forall t, i <> UDown t) -> idle u -> idle (ui_step u i).
Proof.
  intros Ne I. destruct i as [state|ev|t|dx dz mv| |v|v|v|]; cbn [ui_step]; try done.
  - destruct ev as [c m q|c m|c m q|c m c' m' d a e]; cbn.
    + done.
    + by destruct (u_info u); [destruct (u_has _ _ _)|].
    + by destruct (u_find m u).
    + by destruct (u_find m u).
  - by destruct (Ne t).
  - unfold u_move. destruct (u_selected u); [|done]. destruct I as [D E]. by destruct (u_dragging u) eqn:D'; cbn; rewrite ?E.
  - unfold u_slide. by destruct (u_info u).
  - unfold u_slide. by destruct (u_info u).
  - unfold u_slide. by destruct (u_info u).
  - destruct I. split; [by rewrite (proj1 (post_flags _ _))|by rewrite (proj2 (post_flags _ _))].
Qed.
Lemma idle_run is u : Forall (fun i => forall t, i <> UDown t) is -> idle u -> idle (foldl ui_step u is).
Proof. revert u. induction is as [|i is IH]; intros u F K; [done|]. apply Forall_cons in F as [F1 F2]. cbn. apply IH; [done|]. by apply idle_step. Qed.
(** What the user does changes at most one device, and of it only where it is. *)
Lemma user_alters u i : uinv u -> by_user i -> view (ui_step u i) = view u \/ exists f r, view (ui_step u i) = view (u_alter (set_pose f) r u).
Proof.
  intros J B. destruct i as [state|ev|t|dx dz mv| |v|v|v|]; cbn [ui_step]; try done.
  - left. destruct t; cbn.
    + destruct (u_selected u); [|done]. by destruct (bool_decide _).
    + by destruct (u_devices u !! key).
    + done.
  - destruct (u_selected u) as [r|] eqn:S; [|left; unfold u_move; by rewrite S]. right.
    exists (fun q => moved_pose (u_dragging u) (u_elevating u) q (dx, dz, mv)), r. f_equal. by apply (move_one r).
  - left. apply up_view.
  - unfold u_slide. destruct (u_info u) as [r|]; [right; by eexists _, r|by left].
  - unfold u_slide. destruct (u_info u) as [r|]; [right; by eexists _, r|by left].
  - unfold u_slide. destruct (u_info u) as [r|]; [right; by eexists _, r|by left].
  - left. apply post_view.
Qed.
