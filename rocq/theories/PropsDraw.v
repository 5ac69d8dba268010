(** C96: what the web page draws is where the devices are and where they look. *)
From Coq Require Import ZArith NArith Reals List Lra Lia.
From Flocq Require Import Core.Core IEEE754.BinarySingleNaN.
From Verif Require Import Page Draw Position PositionSpec DirectionSpec DrawSpec DrawFacts PositionFacts DirectionFacts DirectionRotation DirectionExact PropsPosition PropsDirection DrawAhead.
Import ListNotations.
Open Scope R_scope.

(** The marker of a device is at the place which an isometric drawing of the scene gives to its position. *)
Theorem C96_marker : forall x y z, board_point (marker x y z) = isometric scale (x, y, z).
Proof. exact on_board. Qed.
Print Assumptions C96_marker.
(** The elevation arrow goes vertically from a corner of the marker to the same corner of the marker the device would have on the
    ground. *)
Theorem C96_arrow : forall x y z,
  let from := on_marker x y z (fst (arrow y)) in let to := on_marker x y z (snd (arrow y)) in
  from = on_marker x y z (-40, 40) /\ to = on_marker x 0 z (-40, 40)
  /\ fst (board_point to) = fst (board_point from) /\ snd (board_point to) = snd (board_point from) + scale * y.
Proof.
  intros x y z. unfold arrow, transformed. cbn [fold_right apply_transform flat fst snd]. replace (rad (-45)) with (- (Rtrigo1.PI / 4)) by (unfold rad; field).
  rewrite tan_neg, tan_PI4. unfold on_marker, marker, board_point. cbn [fst snd]. rewrite !project. unfold isometric. cbn [fst snd].
  split; [|split; [|split]]; [f_equal; ring|f_equal; ring| |].
  all: field.
Qed.
Print Assumptions C96_arrow.
(** While a device is dragged, its marker is under the mouse, up to one unit of the board in each direction, and its elevation is
    kept, as long as it does not reach the border. *)
Theorem C96_mouse : forall p to, let p' := dragged p to in
  (-560 < p_x p' < 560)%Z -> (-560 < p_z p' < 560)%Z ->
  let at_ := marker (IZR (p_x p')) (IZR (p_y p')) (IZR (p_z p')) in
  p_y p' = p_y p /\ Rabs (fst at_ - fst to) < 1 /\ Rabs (snd at_ - snd to) < 1.
Proof.
  intros p [tx tz]. unfold dragged, mouse_move, marker. cbn [p_x p_y p_z fst snd]. intros Bx Bz. split; [reflexivity|].
  assert (forall n, (-560 < Z.min (Z.max n (-600 + 40)) (600 - 40) < 560)%Z -> Z.min (Z.max n (-600 + 40)) (600 - 40) = n) as C by (intros n; lia).
  rewrite (C _ Bx), (C _ Bz), !plus_IZR.
  pose proof (Zfloor_lb (- tx)) as L1. pose proof (Zfloor_ub (- tx)) as U1. pose proof (Zfloor_lb tz) as L2. pose proof (Zfloor_ub tz) as U2.
  split; apply Rabs_def1; lra.
Qed.
Print Assumptions C96_mouse.
(** The three axes of the orientation are those of the scene: forwards ([z]), to the left ([x]) and upwards ([y]). *)
Theorem C96_axes : drawn axis_x tip = isometric scale (0, 0, 1) /\ drawn axis_y tip = isometric scale (1, 0, 0)
  /\ drawn axis_z tip = isometric scale (0, 1, 0).
Proof.
  unfold drawn, axis_x, axis_y, axis_z, tip. cbn [transformed fold_right apply_transform]. fold (transformed projection).
  replace (rad (-180)) with (- Rtrigo1.PI) by (unfold rad; field). replace (rad (-90)) with (- (Rtrigo1.PI / 2)) by (unfold rad; field).
  rewrite !cos_neg, !sin_neg, cos_PI, sin_PI, cos_PI2, sin_PI2.
  split; [|split]; (etransitivity; [apply project|]); unfold isometric; f_equal; ring.
Qed.
Print Assumptions C96_axes.
(** Both bars point in the direction which the device has straight ahead: that which it measures at azimuth 0 and elevation 0
    (below). The roll, which does not change it, is not shown. *)
Theorem C96_pointer : forall yaw pitch roll v, ahead yaw pitch roll v ->
  drawn (value_bar yaw pitch) tip = isometric scale v /\ drawn (value_bar_side yaw pitch) tip = isometric scale v.
Proof.
  intros yaw pitch roll v A. apply ahead_is in A as ->. unfold drawn, value_bar, value_bar_side. rewrite bar_shown, side_shown. unfold shown. rewrite project, !rad_IZR.
  split; reflexivity.
Qed.
Print Assumptions C96_pointer.
(** There is one such direction. *)
Theorem C96_one_direction : forall yaw pitch roll, exists v, ahead yaw pitch roll v /\ forall w roll', ahead yaw pitch roll' w -> w = v.
Proof. intros yaw pitch roll. eexists. split; [apply ahead_is; reflexivity|]. intros w roll' A. apply ahead_is in A. exact A. Qed.
Print Assumptions C96_one_direction.
Lemma dash_part n (P : R -> Prop) : (exists l, 0 <= l <= dash n /\ P (if (n <? 0)%Z then - l else l)) <-> exists k, 0 <= k <= 1 /\ P (k * IZR n).
Proof.
  unfold dash. split.
  - intros (l & B & H). destruct (Z.ltb_spec n 0) as [L|L].
    + apply IZR_lt in L. rewrite Rabs_left in B by exact L. exists (l / - IZR n). split.
      * split; [apply Rmult_le_pos; [lra|left; apply Rinv_0_lt_compat; lra]|]. apply (Rmult_le_reg_r (- IZR n)); [lra|]. unfold Rdiv. rewrite Rmult_assoc, Rinv_l by lra. lra.
      * replace (l / - IZR n * IZR n) with (- l) by (field; lra). exact H.
    + destruct (Z.eq_dec n 0) as [->|Hn].
      * rewrite Rabs_R0 in B. exists 0. split; [lra|]. replace (0 * 0) with l by lra. exact H.
      * assert (0 < n)%Z as G by lia. apply IZR_lt in G. rewrite Rabs_pos_eq in B by lra. exists (l / IZR n). split.
        -- split; [apply Rmult_le_pos; [lra|left; apply Rinv_0_lt_compat; lra]|]. apply (Rmult_le_reg_r (IZR n)); [lra|]. unfold Rdiv. rewrite Rmult_assoc, Rinv_l by lra. lra.
        -- replace (l / IZR n * IZR n) with l by (field; lra). exact H.
  - intros (k & B & H). exists (k * Rabs (IZR n)). pose proof (Rabs_pos (IZR n)) as G. split; [split; [apply Rmult_le_pos; lra|nra]|].
    destruct (Z.ltb_spec n 0) as [L|L]; [apply IZR_lt in L; rewrite Rabs_left by exact L|apply IZR_le in L; rewrite Rabs_pos_eq by exact L].
    + replace (- (k * - IZR n)) with (k * IZR n) by ring. exact H.
    + exact H.
Qed.
(** The blue arc covers exactly the directions between straight forwards and the yaw, in the plane of the board; the red arc those
    between that plane and the pitch. *)
Theorem C96_yaw_arc : forall yaw q, (exists l, 0 <= l <= dash yaw /\ q = drawn (yaw_arc yaw) (circle_point l)) <->
  exists k, 0 <= k <= 1 /\ q = isometric scale (turn_y (- (k * radians yaw)) (0, 0, 1)).
Proof.
  intros yaw q.
  assert (forall k, rad (k * IZR yaw) = k * radians yaw) as E by (intros k; unfold rad, radians; ring).
  transitivity (exists k, 0 <= k <= 1 /\ q = isometric scale (turn_y (- rad (k * IZR yaw)) (0, 0, 1))).
  2:{ split; intros (k & B & H); exists k; (split; [exact B|]); [rewrite <- E|rewrite E]; exact H. }
  rewrite <- (dash_part yaw (fun a => q = isometric scale (turn_y (- rad a) (0, 0, 1)))).
  assert (forall l, drawn (yaw_arc yaw) (circle_point l) = isometric scale (turn_y (- rad (if (yaw <? 0)%Z then - l else l)) (0, 0, 1))) as D.
  { intros l. unfold drawn. rewrite yaw_arc_shown. unfold shown. rewrite project, rad_0, cos_0, sin_0. unfold turn_y. rewrite cos_neg, sin_neg. unfold isometric. f_equal; field. }
  split; intros (l & B & H); exists l; (split; [exact B|]); [rewrite <- D|rewrite D]; exact H.
Qed.
Print Assumptions C96_yaw_arc.
Theorem C96_pitch_arc : forall yaw pitch q, (exists l, 0 <= l <= dash pitch /\ q = drawn (pitch_arc yaw pitch) (circle_point l)) <->
  exists k, 0 <= k <= 1 /\ q = isometric scale (turn_y (- radians yaw) (turn_x (- (k * radians pitch)) (0, 0, 1))).
Proof.
  intros yaw pitch q. set (G := fun a => isometric scale (turn_y (- radians yaw) (turn_x (- rad a) (0, 0, 1)))).
  assert (forall k, rad (k * IZR pitch) = k * radians pitch) as E by (intros k; unfold rad, radians; ring).
  transitivity (exists k, 0 <= k <= 1 /\ q = G (k * IZR pitch)).
  2:{ unfold G. split; intros (k & B & H); exists k; (split; [exact B|]); [rewrite <- E|rewrite E]; exact H. }
  rewrite <- (dash_part pitch (fun a => q = G a)).
  assert (forall a, flat (transformed projection (shown (IZR yaw) a)) = G a) as S.
  { intros a. unfold shown, G. rewrite project. unfold turn_x, turn_y. rewrite !cos_neg, !sin_neg, rad_IZR. unfold isometric. f_equal; field. }
  assert (forall l, 0 <= l <= dash pitch -> drawn (pitch_arc yaw pitch) (circle_point l) = G (if (pitch <? 0)%Z then - l else l)) as D.
  { intros l B. unfold drawn. destruct (Z.eq_dec pitch 0) as [->|Hp]; [|rewrite pitch_arc_shown by exact Hp; apply S].
    unfold dash in B. rewrite Rabs_R0 in B. assert (l = 0) as -> by lra. cbn [Z.ltb Z.compare]. rewrite <- S. f_equal. f_equal.
    unfold circle_point, pitch_arc, shown. rewrite circle_angle. cbn [transformed fold_right apply_transform Z.sgn].
    destruct (trig_90 (IZR yaw)) as [-> ->]. rewrite rad_0, cos_0, sin_0. do 2 f_equal; ring. }
  split; intros (l & B & H); exists l; (split; [exact B|]); [rewrite <- D by exact B|rewrite D by exact B]; exact H.
Qed.
Print Assumptions C96_pitch_arc.
(** A device which is drawn straight ahead of the pointer, at any distance, is measured at azimuth 0 and elevation 0. *)
Theorem C96_measured : forall fsin fcos fatan,
  accurate_trig fsin sin -> accurate_trig fcos cos -> accurate_atan fatan -> good_atan fatan ->
  forall x y z yaw pitch roll x' y' z' yaw' pitch' roll' r a e v k,
  i16 x -> i16 y -> i16 z -> i16 yaw -> i8 pitch -> i16 roll -> i16 x' -> i16 y' -> i16 z' ->
  ahead yaw pitch roll v -> 0 < k ->
  (IZR (x' - x), IZR (y' - y), IZR (z' - z)) = (k * fst (fst v), k * snd (fst v), k * snd v) ->
  compute_range_azimuth_elevation fatan (new fsin fcos x y z yaw pitch roll) (new fsin fcos x' y' z' yaw' pitch' roll') = Some (r, a, e) ->
  a = 0%Z /\ e = 0%Z.
Proof.
  intros fsin fcos fatan Hs Hc Ha Hg x y z yaw pitch roll x' y' z' yaw' pitch' roll' r a e v k Hx Hy Hz Hyaw Hp Hr Hx' Hy' Hz' A Hk Ev HC.
  destruct v as [[vx vy] vz]. cbn [fst snd] in Ev.
  assert (seen yaw pitch roll (k * vx, k * vy, k * vz) = (0, 0, k)) as Sk.
  { unfold ahead, seen, turn_x, turn_y, turn_z in *. injection A as A1 A2 A3. do 2 f_equal.
    - transitivity (k * 0); [rewrite <- A1|]; ring.
    - transitivity (k * 0); [rewrite <- A2|]; ring.
    - transitivity (k * 1); [rewrite <- A3|]; ring. }
  assert ((x', y', z') <> (x, y, z)) as Ne.
  { intros [= -> -> ->]. rewrite !Z.sub_diag in Ev. rewrite <- Ev in Sk. unfold seen, turn_x, turn_y, turn_z in Sk. injection Sk as _ _ S3. ring_simplify in S3. lra. }
  destruct (C81_direction fsin fcos fatan Hs Hc Ha Hg x y z yaw pitch roll x' y' z' yaw' pitch' roll' r a e Hx Hy Hz Hyaw Hp Hr Hx' Hy' Hz' Ne HC)
    as (dx & dy & dz & az & el & Hn & P & Na & Nel).
  rewrite Ev, Sk in Hn. apply compute_some in HC as (_ & Ba & Be).
  assert (norm (k * vx, k * vy, k * vz) = k) as Nk.
  { assert (vx * vx + vy * vy + vz * vz = 1) as V1.
    { apply ahead_is in A. injection A as -> -> ->. pose proof (sin2_cos2 (radians yaw)) as Ey. pose proof (sin2_cos2 (radians pitch)) as Ep. unfold Rsqr in *.
      set (cp := cos (radians pitch)) in *. set (sp := sin (radians pitch)) in *. set (cy := cos (radians yaw)) in *. set (sy := sin (radians yaw)) in *.
      transitivity (cp * cp * (sy * sy + cy * cy) + sp * sp); [ring|]. rewrite Ey. lra. }
    unfold norm. replace (k * vx * (k * vx) + k * vy * (k * vy) + k * vz * (k * vz)) with (k * k * (vx * vx + vy * vy + vz * vz)) by ring. rewrite V1, Rmult_1_r. apply sqrt_square. lra. }
  rewrite Nk in Hn. exact (ahead_degrees dx dy dz k az el a e Hk Hn P Na Nel Ba Be).
Qed.
Print Assumptions C96_measured.
(** A device at elevation 100 turned by 90 degrees to the right of the page has the direction of [-x] ahead. Dragged to the point
    (30.5, 20.2) of the board, its marker is at (31, 20). *)
Example C96_example : ahead 90 0 0 (-1, 0, 0) /\ ahead 90 0 45 (-1, 0, 0)
  /\ marker 10 100 30 = (90, -70)
  /\ dragged (Place 10 100 30) (30.5, 20.2) = Place 69 100 120 /\ marker 69 100 120 = (31, 20).
Proof.
  assert (forall roll, ahead 90 0 roll (-1, 0, 0)) as A.
  { intros roll. apply ahead_is. unfold radians. replace (90 * (Rtrigo1.PI / 180)) with (Rtrigo1.PI / 2) by field. replace (0 * (Rtrigo1.PI / 180)) with 0 by ring.
    rewrite sin_0, cos_0, sin_PI2, cos_PI2. do 2 f_equal; ring. }
  split; [apply A|]. split; [apply A|]. split; [unfold marker; f_equal; ring|]. split; [|unfold marker; f_equal; ring].
  unfold dragged. cbn [fst snd]. rewrite (Zfloor_imp (-31)), (Zfloor_imp 20); [reflexivity|rewrite plus_IZR; lra..].
Qed.
(** It measures a device 20 units further in that direction at azimuth 0 and elevation 0. *)
Example C96_measured_example : exists r, compute_range_azimuth_elevation atan32 (new sin32 cos32 0 0 0 90 0 0) (new sin32 cos32 (-20) 0 0 0 0 0) = Some (r, 0%Z, 0%Z).
Proof.
  destruct C81_functions as (Hs & Hc & Ha & Hg & _), trig32_good as [Gs Gc]. destruct C96_example as (A & _).
  destruct (C55_total sin32 cos32 atan32 Gs Gc Hg (new sin32 cos32 0 0 0 90 0 0) (new sin32 cos32 (-20) 0 0 0 0 0)) as (r & a & e & HC & _).
  - exists 0%Z, 0%Z, 0%Z, 90%Z, 0%Z, 0%Z. unfold i16, i8. repeat split; lia.
  - exists (-20)%Z, 0%Z, 0%Z, 0%Z, 0%Z, 0%Z. unfold i16, i8. repeat split; lia.
  - exists r. rewrite HC.
    destruct (C96_measured sin32 cos32 atan32 Hs Hc Ha Hg 0 0 0 90 0 0 (-20) 0 0 0 0 0 r a e (-1, 0, 0) 20) as [-> ->];
      try (unfold i16, i8; lia); [exact A|lra| |exact HC|reflexivity].
    change (-20 - 0)%Z with (-20)%Z. change (0 - 0)%Z with 0%Z. cbn [fst snd]. replace (20 * -1) with (-20) by lra. rewrite Rmult_0_r. reflexivity.
Qed.
