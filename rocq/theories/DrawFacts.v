(** Proofs about Draw.v. *)
From Coq Require Import ZArith Reals List Lra Lia.
From Flocq Require Import Core.Raux.
From Verif Require Import Page Draw DirectionSpec DrawSpec.
Import ListNotations.
Open Scope R_scope.

Lemma sqrt2_pos : 0 < sqrt 2. Proof. apply sqrt_lt_R0. lra. Qed.
Lemma sqrt3_pos : 0 < sqrt 3. Proof. apply sqrt_lt_R0. lra. Qed.
Lemma sqrt2_sq : sqrt 2 * sqrt 2 = 2. Proof. apply sqrt_sqrt. lra. Qed.
Lemma sqrt3_sq : sqrt 3 * sqrt 3 = 3. Proof. apply sqrt_sqrt. lra. Qed.
Lemma rad_angle : rad (atan (sqrt 2) * 180 / PI) = atan (sqrt 2).
Proof. unfold rad. field. apply PI_neq0. Qed.
Lemma cos_angle : cos (atan (sqrt 2)) = sqrt 3 / 3.
Proof.
  rewrite cos_atan. unfold Rsqr. rewrite sqrt2_sq. replace (1 + 2) with 3 by lra. pose proof sqrt3_pos. pose proof sqrt3_sq.
  apply (Rmult_eq_reg_l (sqrt 3)); [|lra]. field_simplify; [|lra]. rewrite <- Rsqr_pow2. unfold Rsqr. lra.
Qed.
Lemma sin_angle : sin (atan (sqrt 2)) = sqrt 2 * (sqrt 3 / 3).
Proof. rewrite <- cos_angle. rewrite <- (atan_right_inv (sqrt 2)) at 2. unfold tan. field. rewrite cos_angle. pose proof sqrt3_pos. lra. Qed.
Lemma rad_45 : rad (-45) = - (PI / 4). Proof. unfold rad. field. Qed.
Lemma half_sqrt2 : 1 / sqrt 2 = sqrt 2 / 2.
Proof. pose proof sqrt2_pos. apply (Rmult_eq_reg_l (sqrt 2)); [|lra]. replace (sqrt 2 * (sqrt 2 / 2)) with (sqrt 2 * sqrt 2 / 2) by field. rewrite sqrt2_sq. field. lra. Qed.
Lemma scale_eq : scale = 7 / 10 * (sqrt 2 * (sqrt 3 / 3)).
Proof.
  unfold scale. f_equal. rewrite sqrt_div by lra. pose proof sqrt3_pos. pose proof sqrt3_sq. unfold Rdiv. f_equal.
  apply (Rmult_eq_reg_l (sqrt 3)); [|lra]. rewrite Rinv_r by lra. lra.
Qed.
Lemma project x y z : flat (transformed projection (x, y, z)) = isometric scale (- x, z, y).
Proof.
  unfold transformed, projection, flat, isometric. cbn [fold_right apply_transform]. rewrite rad_angle, rad_45, cos_neg, sin_neg, cos_PI4, sin_PI4, cos_angle, sin_angle, half_sqrt2, scale_eq.
  pose proof sqrt2_sq as S2. pose proof sqrt3_sq as S3. f_equal.
  - transitivity (7 / 10 * sqrt 2 / 2 * (x + y)); [field|]. transitivity (7 / 10 * sqrt 2 / 6 * (sqrt 3 * sqrt 3) * (x + y)); [rewrite S3|]; field.
  - field.
Qed.
Lemma on_board x y z : board_point (marker x y z) = isometric scale (x, y, z).
Proof. unfold board_point, marker. cbn [fst snd]. rewrite project. unfold isometric. f_equal; field. Qed.
Lemma trig_180 a : cos (rad (180 - a)) = - cos (rad a) /\ sin (rad (180 - a)) = sin (rad a).
Proof. replace (rad (180 - a)) with (PI - rad a) by (unfold rad; field). split; [apply Rtrigo_facts.cos_pi_minus|apply Rtrigo_facts.sin_pi_minus]. Qed.
Lemma trig_90 a : cos (rad (90 - a)) = sin (rad a) /\ sin (rad (90 - a)) = cos (rad a).
Proof. replace (rad (90 - a)) with (PI / 2 - rad a) by (unfold rad; field). split; [apply cos_shift|apply sin_shift]. Qed.
Lemma rad_neg a : rad (- a) = - rad a. Proof. unfold rad. ring. Qed.
Lemma rad_0 : rad 0 = 0. Proof. unfold rad. ring. Qed.
Lemma rad_90 : rad 90 = PI / 2. Proof. unfold rad. field. Qed.
Lemma rad_180 : rad 180 = PI. Proof. unfold rad. field. Qed.
Lemma rad_IZR n : rad (IZR n) = radians n. Proof. reflexivity. Qed.

(** The direction shown by the bars, for real angles. *)
Definition shown (yaw pitch : R) : point := (cos (rad pitch) * sin (rad yaw), cos (rad pitch) * cos (rad yaw), sin (rad pitch)).
Lemma bar_shown yaw pitch : transformed [RotateZ (180 - yaw); RotateX (- pitch)] tip = shown yaw pitch.
Proof.
  unfold transformed, tip, shown. cbn [fold_right apply_transform]. rewrite rad_neg, cos_neg, sin_neg. destruct (trig_180 yaw) as [-> ->]. do 2 f_equal; ring.
Qed.
Lemma side_shown yaw pitch : transformed [RotateZ (180 - yaw); RotateX (- pitch); RotateY 90] tip = shown yaw pitch.
Proof.
  rewrite <- bar_shown. unfold transformed, tip. cbn [fold_right apply_transform]. do 2 f_equal; ring.
Qed.
Lemma ahead_is yaw pitch roll v : ahead yaw pitch roll v <->
  v = (- (cos (radians pitch) * sin (radians yaw)), sin (radians pitch), cos (radians pitch) * cos (radians yaw)).
Proof.
  destruct v as [[x y] z]. unfold ahead, seen, turn_x, turn_y, turn_z.
  set (cy := cos (radians yaw)). set (sy := sin (radians yaw)). set (cp := cos (radians pitch)). set (sp := sin (radians pitch)).
  set (cr := cos (radians roll)). set (sr := sin (radians roll)).
  assert (sy * sy + cy * cy = 1) as Ey by apply (sin2_cos2 (radians yaw)). assert (sp * sp + cp * cp = 1) as Ep by apply (sin2_cos2 (radians pitch)).
  assert (sr * sr + cr * cr = 1) as Er by apply (sin2_cos2 (radians roll)).
  split.
  - intros [= H1 H2 H3].
    set (a := x * cy + z * sy) in *. set (b := z * cy - x * sy) in *. set (c := y * cp - b * sp) in *. set (d := y * sp + b * cp) in *.
    assert (a = 0) as Ha. { replace a with ((sr * sr + cr * cr) * a) by (rewrite Er; ring). replace ((sr * sr + cr * cr) * a) with (cr * (a * cr - c * sr) + sr * (a * sr + c * cr)) by ring. rewrite H1, H2. ring. }
    assert (c = 0) as Hc. { replace c with ((sr * sr + cr * cr) * c) by (rewrite Er; ring). replace ((sr * sr + cr * cr) * c) with (cr * (a * sr + c * cr) - sr * (a * cr - c * sr)) by ring. rewrite H1, H2. ring. }
    assert (y = sp) as Hy. { replace y with ((sp * sp + cp * cp) * y) by (rewrite Ep; ring). replace ((sp * sp + cp * cp) * y) with (cp * c + sp * d) by (unfold c, d; ring). rewrite Hc, H3. ring. }
    assert (b = cp) as Hb. { replace b with ((sp * sp + cp * cp) * b) by (rewrite Ep; ring). replace ((sp * sp + cp * cp) * b) with (cp * d - sp * c) by (unfold c, d; ring). rewrite Hc, H3. ring. }
    rewrite Hy. do 2 f_equal.
    + replace x with ((sy * sy + cy * cy) * x) by (rewrite Ey; ring). replace ((sy * sy + cy * cy) * x) with (cy * a - sy * b) by (unfold a, b; ring). rewrite Ha, Hb. ring.
    + replace z with ((sy * sy + cy * cy) * z) by (rewrite Ey; ring). replace ((sy * sy + cy * cy) * z) with (sy * a + cy * b) by (unfold a, b; ring). rewrite Ha, Hb. ring.
  - intros [= -> -> ->].
    assert (cp * cy * cy - - (cp * sy) * sy = cp) as -> by (replace cp with (cp * (sy * sy + cy * cy)) at 3 by (rewrite Ey; ring); ring).
    assert (- (cp * sy) * cy + cp * cy * sy = 0) as -> by ring. assert (sp * cp - cp * sp = 0) as -> by ring. rewrite Ep. do 2 f_equal; ring.
Qed.
Lemma circle_angle l : l / (size_a / 4) = rad l.
Proof. unfold size_a, rad. field. apply PI_neq0. Qed.
Lemma yaw_arc_shown yaw l : transformed (yaw_arc yaw) (circle_point l) = shown (if (yaw <? 0)%Z then - l else l) 0.
Proof.
  unfold yaw_arc, circle_point, shown. rewrite circle_angle. cbn [transformed fold_right apply_transform].
  destruct (yaw <? 0)%Z; rewrite ?rad_neg, ?rad_0, ?rad_90, ?rad_180, ?cos_neg, ?sin_neg, ?cos_0, ?sin_0, ?cos_PI2, ?sin_PI2, ?cos_PI, ?sin_PI; do 2 f_equal; ring.
Qed.
Lemma pitch_arc_shown yaw pitch l : pitch <> 0%Z -> transformed (pitch_arc yaw pitch) (circle_point l) = shown (IZR yaw) (if (pitch <? 0)%Z then - l else l).
Proof.
  intros Hp. unfold pitch_arc, circle_point, shown. rewrite circle_angle. cbn [transformed fold_right apply_transform].
  destruct (trig_90 (IZR yaw)) as [-> ->]. destruct (Z.ltb_spec pitch 0).
  - rewrite Z.sgn_neg by assumption. replace (rad (IZR (-1) * 90)) with (- (PI / 2)) by (unfold rad; cbn; field). rewrite rad_neg, !cos_neg, !sin_neg, cos_PI2, sin_PI2. do 2 f_equal; ring.
  - rewrite Z.sgn_pos by lia. replace (IZR 1 * 90) with 90 by (cbn; lra). rewrite rad_90, cos_PI2, sin_PI2. do 2 f_equal; ring.
Qed.
