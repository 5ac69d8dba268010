(** Properties of what the user does on the page of the web interface: static/index.html, Map.js and
    DeviceInfo.js. *)
From Verif Require Import Base Uci MacAddress AppConfig Codec Session Device Pica CodecSpec ContextSpec HistorySpec Http HttpSpec Page PageSpec Ui UiSpec UiFacts UiFacts2 PropsHttp PropsPage.

(** ** C92: the requests of the page are about what it shows. *)
(** The events and the state do to what is shown what they do without a user (C71, C72), at every moment of every
    history. *)
Theorem C92_view : forall is, (forall ev, view (ui_run (is ++ [UEvent ev])) = page_event (view (ui_run is)) ev)
  /\ (forall state, view (ui_run (is ++ [ULoad state])) = load state).
Proof. intros is. split; intros x; rewrite ui_run_snoc; [apply view_event, inv_run|apply view_load]. Qed.
(** What the user does changes at most one device of the page, and of this device only where it is. *)
Theorem C92_alone : forall is i, by_user i ->
  map s_mac (view (ui_run (is ++ [i]))) = map s_mac (view (ui_run is))
  /\ map s_neighbors (view (ui_run (is ++ [i]))) = map s_neighbors (view (ui_run is))
  /\ exists k, forall k', k' <> k -> view (ui_run (is ++ [i])) !! k' = view (ui_run is) !! k'.
Proof.
  intros is i B. pose proof (inv_run is) as J. rewrite ui_run_snoc. destruct (user_alters (ui_run is) i J B) as [-> |(f & r & ->)].
  { split; [done|]. split; [done|]. by exists 0%nat. }
  set (u := ui_run is) in *. split_and!.
  - apply list_eq. intros k. rewrite !list_lookup_fmap, view_alter by done. destruct (decide _); [|done]. by destruct (view u !! k).
  - apply list_eq. intros k. rewrite !list_lookup_fmap, view_alter by done. destruct (decide _); [|done]. by destruct (view u !! k).
  - destruct (decide (r ∈ u_devices u)) as [I|I].
    + apply elem_of_list_lookup in I as [k Ek]. exists k. intros k' Ne. rewrite view_alter by done. rewrite decide_False; [done|]. intros E. apply Ne. eapply NoDup_lookup; [apply J|done|done].
    + exists 0%nat. intros k' _. rewrite view_alter by done. rewrite decide_False; [done|]. intros E. apply I. by eapply elem_of_list_lookup_2.
Qed.
(** At most one request is made at a time: when a button is released after something was pressed, or a slider. *)
Theorem C92_quiet : forall is i, exists rs, makes is i rs /\ (length rs <= 1)%nat
  /\ (i <> UUp -> i <> UChange -> rs = []) /\ (i = UUp -> forall is1 is2, is = is1 ++ is2 -> is1 = [] \/ last is1 = Some UUp -> Forall (fun j => forall t, j <> UDown t) is2 -> rs = []).
Proof.
  intros is i. exists (step_requests (ui_run is) i). split; [by apply makes_spec|].
  assert (forall x, (length (posted x (ui_run is)) <= 1)%nat) as L by (intros x; unfold posted; destruct (_ ≫= _); cbn; lia).
  split_and!.
  - unfold step_requests. destruct i; cbn; try lia; [destruct (_ || _); [apply L|cbn; lia]|apply L].
  - by destruct i.
  - intros -> is1 is2 -> H F. assert (idle (ui_run (is1 ++ is2))) as [D E].
    { unfold ui_run. rewrite foldl_app. apply idle_run; [done|]. destruct H as [-> |H]; [done|]. apply last_Some in H as [is1' ->]. rewrite foldl_app. done. }
    unfold step_requests. by rewrite D, E.
Qed.
(** The user presses the marker of a device. As long as they press nothing else than its handle, the device is not
    removed and the state is not loaded: every request is about this device, at the position and orientation which the
    page shows for it at this moment. Missing: see below. *)
Theorem C92_request_partial : forall is1 k s is2 i rs, view (ui_run is1) !! k = Some s ->
  Forall (undisturbed (s_mac s)) is2 -> makes (is1 ++ UDown (Marker k) :: is2) i rs ->
  rs = [] \/ exists q, rs = [(s_mac s, q)] /\ shown_at (ui_run (is1 ++ UDown (Marker k) :: is2)) (s_mac s) q.
Proof.
  intros is1 k s is2 i rs V F ->%makes_spec. destruct (selected_down (ui_run is1) k s (inv_run is1) V) as (r & _ & Sl).
  pose proof (selected_run r _ is2 _ F Sl) as Sl2. pose proof (inv_run (is1 ++ UDown (Marker k) :: is2)) as J.
  assert (ui_run (is1 ++ UDown (Marker k) :: is2) = foldl ui_step (ui_step (ui_run is1) (UDown (Marker k))) is2) as E by (unfold ui_run; by rewrite foldl_app).
  rewrite <- E in Sl2. set (u := ui_run (is1 ++ UDown (Marker k) :: is2)) in *. destruct i; try by left.
  - cbn. destruct (_ || _); [|by left]. apply (selected_posted r); [done|done|by right].
  - cbn. apply (selected_posted r); [done|done|]. apply J.
Qed.
(** And the first release does make a request. *)
Theorem C92_release : forall is1 k s is2, view (ui_run is1) !! k = Some s ->
  Forall (undisturbed (s_mac s)) is2 -> Forall (fun i => i <> UUp) is2 ->
  exists q, makes (is1 ++ UDown (Marker k) :: is2) UUp [(s_mac s, q)] /\ shown_at (ui_run (is1 ++ UDown (Marker k) :: is2 ++ [UUp])) (s_mac s) q.
Proof.
  intros is1 k s is2 V F Nu. destruct (selected_down (ui_run is1) k s (inv_run is1) V) as (r & Er & Sl).
  pose proof (selected_run r _ is2 _ F Sl) as Sl2. pose proof (inv_run (is1 ++ UDown (Marker k) :: is2)) as J.
  assert (ui_run (is1 ++ UDown (Marker k) :: is2) = foldl ui_step (ui_step (ui_run is1) (UDown (Marker k))) is2) as E by (unfold ui_run; by rewrite foldl_app).
  assert (u_dragging (ui_run (is1 ++ UDown (Marker k) :: is2)) = true) as D.
  { rewrite E. apply dragging_run; [done|]. cbn. by rewrite Er. }
  assert (ui_run (is1 ++ UDown (Marker k) :: is2 ++ [UUp]) = ui_step (ui_run (is1 ++ UDown (Marker k) :: is2)) UUp) as E'.
  { rewrite <- ui_run_snoc. f_equal. by rewrite <- app_assoc. }
  rewrite E'. rewrite <- E in Sl2. set (u := ui_run (is1 ++ UDown (Marker k) :: is2)) in *.
  pose proof Sl2 as [S I (o & O & M)]. exists (s_position o). split.
  - apply makes_spec. fold u. cbn. rewrite D. cbn. unfold posted. rewrite S. cbn. rewrite O. by rewrite M.
  - exists o. split; [|done]. cbn [ui_step]. rewrite up_view. apply view_elem; [done|]. by exists r.
Qed.
(** The other cases. A device which is removed while it is dragged: the page asks for a position for it although it shows
    none. The state is loaded while a device is dragged: what is asked for is not what is shown. Another button is pressed
    beside a device which is dragged: it is shown where it was dragged to and nothing is asked for. *)
Definition q0 : pose := Pose 0 0 0 0 0 0.
Definition one_device : list input := [UEvent (DeviceAdded CategoryUci (MShort [0; 1]) q0)].
Theorem C92_refuted :
  (exists is m q, makes is UUp [(m, q)] /\ forall q', ~ shown_at (ui_run is) m q')
  /\ (exists is m q, makes is UUp [(m, q)] /\ ~ shown_at (ui_run is) m q /\ exists q', shown_at (ui_run is) m q')
  /\ (exists is m q, idle (ui_run is) /\ u_requests (ui_run is) = [] /\ (forall c m' q', UEvent (DeviceUpdated c m' q') ∉ is) /\ Forall (fun i => match i with UEvent (DeviceAdded _ _ q') => q' <> q | ULoad _ => False | _ => True end) is /\ shown_at (ui_run is) m q).
Proof.
  split_and!.
  - exists (one_device ++ [UDown (Marker 0); UMove 5 5 0; UEvent (DeviceRemoved CategoryUci (MShort [0; 1]))]), (MShort [0; 1]), (Pose 5 0 5 0 0 0).
    split; [by vm_compute|]. intros q' (s & H & _). by apply elem_of_nil in H.
  - exists (one_device ++ [UDown (Marker 0); ULoad [DeviceInformation CategoryUci (MShort [0; 1]) q0]; UMove 5 5 0]), (MShort [0; 1]), (Pose 5 0 5 0 0 0).
    split; [by vm_compute|]. split.
    + intros (s & H & _ & E). assert (view (ui_run (one_device ++ [UDown (Marker 0); ULoad [DeviceInformation CategoryUci (MShort [0; 1]) q0]; UMove 5 5 0])) = [Shown (MShort [0; 1]) q0 []]) as V by by vm_compute.
      rewrite V in H. apply elem_of_list_singleton in H as ->. discriminate.
    + exists q0. eexists. split; [vm_compute; by left|done].
  - exists (one_device ++ [UDown (Marker 0); UMove 5 5 0; UDown Elsewhere; UUp; UUp]), (MShort [0; 1]), (Pose 5 0 5 0 0 0).
    split; [by split; vm_compute|]. split; [by vm_compute|]. split; [intros c m' q' H; cbn in H; repeat (apply elem_of_cons in H as [H|H]; [discriminate|]); by apply elem_of_nil in H|].
    split; [repeat constructor; discriminate|]. eexists. split; [vm_compute; by left|done].
Qed.
Example C92_example : view (ui_run one_device) !! 0%nat = Some (Shown (MShort [0; 1]) q0 [])
  /\ makes (one_device ++ UDown (Marker 0) :: [UMove 5 7 0; UEvent (DeviceAdded CategoryAnchor (MShort [0; 2]) q0)]) UUp [(MShort [0; 1], Pose 5 0 7 0 0 0)]
  /\ makes (one_device ++ UDown (Marker 0) :: [UMove 5 7 0; UUp; UDown Handle; UMove 0 0 (-4)]) UUp [(MShort [0; 1], Pose 5 8 7 0 0 0)].
Proof. by vm_compute. Qed.
Print Assumptions C92_view.
Print Assumptions C92_alone.
Print Assumptions C92_quiet.
Print Assumptions C92_request_partial.
Print Assumptions C92_release.
Print Assumptions C92_refuted.

(** ** C93: a device goes where the user puts it. *)
(** A marker is pressed, the mouse moves and the button is released: the page asks once, for this device, for the last
    position under the mouse (on the board, as high as before, with the same orientation), or for its position if the
    mouse did not move; the page shows it there, and everything else as before. *)
Definition within (v : Z) : Z := Z.min (Z.max v (-560)) 560.
Theorem C93_drag : forall is k s ms, idle (ui_run is) -> view (ui_run is) !! k = Some s ->
  let y := q_y (s_position s) in
  let q := match last ms with
           | Some (dx, dz, _) => Pose (within (dx + y)) y (within (dz + y)) (q_yaw (s_position s)) (q_pitch (s_position s)) (q_roll (s_position s))
           | None => s_position s
           end in
  let is' := is ++ UDown (Marker k) :: map (fun '(dx, dz, movement) => UMove dx dz movement) ms ++ [UUp] in
  u_requests (ui_run is') = u_requests (ui_run is) ++ [(s_mac s, q)]
  /\ view (ui_run is') = <[k := Shown (s_mac s) q (s_neighbors s)]> (view (ui_run is)) /\ idle (ui_run is').
Proof.
  intros is k s ms I V y q is'. destruct (drag_gesture (ui_run is) k s ms (inv_run is) I V) as (R & W & I').
  assert (forall q0, q_y (foldl (moved_pose true false) q0 ms) = q_y q0 /\ foldl (moved_pose true false) q0 ms
    = match last ms with Some (dx, dz, _) => Pose (within (dx + q_y q0)) (q_y q0) (within (dz + q_y q0)) (q_yaw q0) (q_pitch q0) (q_roll q0) | None => q0 end) as G.
  { clear. induction ms as [|[[dx dz] mv] ms IH] using rev_ind; intros q0; [done|]. rewrite foldl_app, last_snoc. cbn [foldl]. destruct (IH q0) as [Y E].
    assert (q_yaw (foldl (moved_pose true false) q0 ms) = q_yaw q0 /\ q_pitch (foldl (moved_pose true false) q0 ms) = q_pitch q0 /\ q_roll (foldl (moved_pose true false) q0 ms) = q_roll q0) as (A & B & C).
    { rewrite E. by destruct (last ms) as [[[? ?] ?]|]. }
    clear E. set (q1 := foldl (moved_pose true false) q0 ms) in *. clearbody q1. unfold moved_pose, move_pose, within. cbn. by rewrite Y, A, B, C. }
  destruct (G (s_position s)) as [_ E]. rewrite E in R, W. unfold is', ui_run. rewrite foldl_app. by split_and!.
Qed.
(** Then its handle is pressed, the mouse moves and the button is released: the device is lifted or lowered by twice each
    movement, not below the ground. *)
Theorem C93_lift : forall is k s ms, idle (ui_run is) -> view (ui_run is) !! k = Some s ->
  let y := foldl (fun y movement => Z.max 0 (y - 2 * movement))%Z (q_y (s_position s)) (map (fun '(_, _, movement) => movement) ms) in
  let q := Pose (q_x (s_position s)) y (q_z (s_position s)) (q_yaw (s_position s)) (q_pitch (s_position s)) (q_roll (s_position s)) in
  let is1 := is ++ [UDown (Marker k); UUp] in
  let is' := is1 ++ UDown Handle :: map (fun '(dx, dz, movement) => UMove dx dz movement) ms ++ [UUp] in
  u_requests (ui_run is') = u_requests (ui_run is1) ++ [(s_mac s, q)]
  /\ view (ui_run is') = <[k := Shown (s_mac s) q (s_neighbors s)]> (view (ui_run is)).
Proof.
  intros is k s ms I V y q is1 is'. destruct (drag_gesture (ui_run is) k s [] (inv_run is) I V) as (_ & W1 & I1).
  assert (foldl ui_step (ui_run is) (UDown (Marker k) :: mouse_moves [] ++ [UUp]) = ui_run is1) as E1 by (unfold is1, ui_run; by rewrite foldl_app).
  rewrite E1 in W1, I1. assert (set_pose (fun _ => foldl (moved_pose true false) (s_position s) []) s = s) as E2 by by destruct s. rewrite E2, list_insert_id in W1 by done.
  destruct (selected_down (ui_run is) k s (inv_run is) V) as (r & Er & Sl). apply (selected_step r (s_mac s) _ UUp ltac:(done)) in Sl.
  assert (ui_step (ui_step (ui_run is) (UDown (Marker k))) UUp = ui_run is1) as E3 by (unfold is1, ui_run; by rewrite foldl_app).
  assert (u_devices (ui_run is1) = u_devices (ui_run is)) as E4.
  { rewrite <- E3. cbn. rewrite Er. unfold u_up, u_post. cbn. by destruct (u_objects (ui_run is) !! r). }
  rewrite E3 in Sl. destruct (lift_gesture (ui_run is1) k r s ms (inv_run is1) I1 (sl_sel _ _ _ Sl) ltac:(by rewrite E4) ltac:(by rewrite W1)) as (R & W & _).
  assert (forall q0, foldl (moved_pose false true) q0 ms = Pose (q_x q0) (foldl (fun y movement => Z.max 0 (y - 2 * movement))%Z (q_y q0) (map (fun '(_, _, movement) => movement) ms)) (q_z q0) (q_yaw q0) (q_pitch q0) (q_roll q0)) as G.
  { clear. induction ms as [|[[dx dz] mv] ms IH]; intros q0; [by destruct q0|]. cbn [foldl map]. rewrite IH. unfold moved_pose. cbn. do 2 f_equal. lia. }
  rewrite G in R, W. rewrite W1 in W. unfold is'. unfold ui_run at 1 3. rewrite foldl_app. fold (ui_run is1). by split.
Qed.
(** The three sliders of the selected device. *)
Theorem C93_turn : forall is k s yaw pitch roll, view (ui_run is) !! k = Some s -> (-180 <= yaw <= 180)%Z -> (-90 <= pitch <= 90)%Z -> (-180 <= roll <= 180)%Z ->
  let q := Pose (q_x (s_position s)) (q_y (s_position s)) (q_z (s_position s)) yaw pitch roll in
  let is1 := is ++ [UDown (Marker k); UUp] in
  let is' := is1 ++ [UYaw yaw; UPitch pitch; URoll roll; UChange] in
  u_requests (ui_run is') = u_requests (ui_run is1) ++ [(s_mac s, q)]
  /\ view (ui_run is') = <[k := Shown (s_mac s) q (s_neighbors s)]> (view (ui_run is)).
Proof.
  intros is k s yaw pitch roll V Hy Hp Hr q is1 is'. pose proof (inv_run is) as J. pose proof (inv_run is1) as J1.
  destruct (selected_down (ui_run is) k s J V) as (r & Er & _). pose proof (object_of _ _ _ _ J V Er) as O.
  assert (ui_run is1 = ui_step (ui_step (ui_run is) (UDown (Marker k))) UUp) as E3 by (unfold is1, ui_run; by rewrite foldl_app).
  assert (u_devices (ui_run is1) = u_devices (ui_run is) /\ u_objects (ui_run is1) = u_objects (ui_run is) /\ u_info (ui_run is1) = Some r) as (E4 & E5 & E6).
  { rewrite E3. cbn. rewrite Er. unfold u_up, u_post. cbn. by destruct (u_objects (ui_run is) !! r). }
  assert (view (ui_run is1) = view (ui_run is)) as E7 by (unfold view; by rewrite E4, E5).
  assert (ui_run is' = u_post (Some r) (u_alter (set_pose (fun q0 => Pose (q_x q0) (q_y q0) (q_z q0) yaw pitch roll)) r (ui_run is1))) as E8.
  { unfold is'. unfold ui_run at 1. rewrite foldl_app. fold (ui_run is1). set (u := ui_run is1) in *. cbn [foldl ui_step].
    assert (forall f u', u_info u' = Some r -> u_slide f u' = u_alter (set_pose f) r u') as Sl by (intros f u' E; unfold u_slide; by rewrite E).
    rewrite (Sl _ u) by done. rewrite (Sl _ (u_alter _ r u)) by done. rewrite alter_twice. rewrite (Sl _ (u_alter _ r u)) by done. rewrite alter_twice.
    change (u_info (u_alter _ r u)) with (u_info u). rewrite E6. unfold slider.
    replace (Z.max (-180) (Z.min 180 yaw)) with yaw by lia. replace (Z.max (-90) (Z.min 90 pitch)) with pitch by lia. by replace (Z.max (-180) (Z.min 180 roll)) with roll by lia. }
  rewrite E8. rewrite post_requests, post_view. split.
  - cbn. f_equal. erewrite posted_alter; [|rewrite E5; exact O]. done.
  - erewrite view_alter_at; [|done|by rewrite E4|rewrite E7; exact V]. by rewrite E7.
Qed.
(** If what came from the server is what the server can send, then it can read every request, unless the device was lifted
    too high (C73). *)
Theorem C93_readable_partial : forall is m q, Forall sent_by_server is -> (m, q) ∈ u_requests (ui_run is) -> (q_y q <= 32767)%Z -> readable q.
Proof. intros is m q F H Hy. apply readable_nearly. split; [|done]. by eapply nearly_requests. Qed.
Theorem C93_readable_refuted : exists is m q, Forall sent_by_server is /\ (m, q) ∈ u_requests (ui_run is) /\ ~ readable q.
Proof.
  exists [UEvent (DeviceAdded CategoryUci (MShort [0; 1]) (Pose 0 32000 0 0 0 0)); UDown (Marker 0); UUp; UDown Handle; UMove 0 0 (-400); UUp], (MShort [0; 1]), (Pose 0 32800 0 0 0 0).
  split; [|split].
  - repeat constructor; unfold i16, i8; cbn; lia.
  - vm_compute. right. left.
  - unfold readable, i16. cbn. lia.
Qed.
(** The page shows the scene and the user puts a device elsewhere ([q]), by one of the three ways above. When the server
    has read the request (as the position [p]) and the page has got the events, the device is there in the scene, the
    answer is 200 and the page shows the scene again. [render] is what is sent for a position: the theorem is for every
    type of positions, and every computation of the measurements with a symmetric distance (C53). *)
Theorem C93_served : forall (P : Type) (render : P -> pose) (default_position : P) compute, (forall p q, (compute p q).1.1 = (compute q p).1.1) ->
  forall is is' k s q (w w' : web P) order p, view (ui_run is) !! k = Some s ->
  view (ui_run (is ++ is')) = <[k := Shown (s_mac s) q (s_neighbors s)]> (view (ui_run is)) ->
  distinct w -> w_poisoned w = false -> 0 < w_subscribers w -> pictures render (ui_run is) w ->
  web_step default_position compute (WSetPosition order (s_mac s) p) w = Some w' ->
  (exists h i, w_devices w' !! h = Some i /\ di_mac i = s_mac s /\ di_position i = p)
  /\ w_responses w' = w_responses w ++ [(w_next w, 200)]
  /\ exists evs, w_events w' = w_events w ++ evs /\ pictures render (ui_run (is ++ is' ++ map (fun ev => UEvent (event_map render ev)) evs)) w'.
Proof.
  intros P render dp co Sym is is' k s q w w' order p V V' D Ep Hs Pc St.
  destruct (served_request render dp co Sym (ui_run is) (ui_run (is ++ is')) w w' order k s q p (inv_run _) D Ep Hs Pc V V' St) as (evs & E & R & X & Y).
  split; [done|]. split; [done|]. exists evs. split; [done|]. rewrite app_assoc. unfold ui_run at 1. rewrite foldl_app. exact Y.
Qed.
(** Two devices are on the scene, which the page shows; one is dragged and the other one is turned. *)
Definition qrender (p : N) : pose := Pose (Z.of_N p) 0 0 0 0 0.
Definition scene2 : web N := web_after ([WSubscribe] ++ arrival ++ arrival).
Definition shown2 : list input := [UEvent (DeviceAdded CategoryUci (MShort [0; 0]) (qrender 0)); UEvent (DeviceAdded CategoryUci (MShort [0; 1]) (qrender 0))].
Example C93_example : idle (ui_run shown2) /\ view (ui_run shown2) !! 1%nat = Some (Shown (MShort [0; 1]) (qrender 0) [])
  /\ map (event_map qrender) (w_events scene2) = [DeviceAdded CategoryUci (MShort [0; 0]) (qrender 0); DeviceAdded CategoryUci (MShort [0; 1]) (qrender 0)]
  /\ u_requests (ui_run (shown2 ++ UDown (Marker 1) :: [UMove 900 30 5; UMove 50 700 5] ++ [UUp])) = [(MShort [0; 1], Pose 50 0 560 0 0 0)]
  /\ u_requests (ui_run ((shown2 ++ [UDown (Marker 0); UUp]) ++ [UYaw 90; UPitch (-90); URoll 5; UChange])) = [(MShort [0; 0], qrender 0); (MShort [0; 0], Pose 0 0 0 90 (-90) 5)]
  /\ Forall sent_by_server shown2.
Proof. split_and!; try by vm_compute. repeat constructor; unfold i16, i8; cbn; lia. Qed.
Example C93_served_example : distinct scene2 /\ w_poisoned scene2 = false /\ 0 < w_subscribers scene2 /\ pictures qrender (ui_run shown2) scene2
  /\ is_Some (web_step 0 line (WSetPosition (map_to_list (w_devices scene2)).*1 (MShort [0; 1]) 50) scene2).
Proof.
  split; [apply distinctb_spec; by vm_compute|]. split; [by vm_compute|]. split; [by vm_compute|]. split; [|eexists; vm_compute; reflexivity].
  unfold pictures. vm_compute. apply Permutation_refl.
Qed.
Print Assumptions C93_drag.
Print Assumptions C93_lift.
Print Assumptions C93_turn.
Print Assumptions C93_readable_partial.
Print Assumptions C93_readable_refuted.
Print Assumptions C93_served.
