(** The measured azimuth and elevation are the angles under which the other device is seen (C81). *)
From Coq Require Import ZArith NArith Reals Lra Lia.
From Flocq Require Import Core.Core IEEE754.BinarySingleNaN.
From Verif Require Import Position PositionSpec PositionFacts DirectionSpec DirectionFacts DirectionRotation DirectionExact PropsPosition.
Open Scope R_scope.

(** ** C81: the measured angles are the true angles *)
(** A device of any yaw, pitch and roll measures another one, elsewhere: the angles reported are the whole degrees nearest
    to those of a direction that differs by at most a thousandth of the distance from the one in which it sees the other. *)
Theorem C81_direction : forall fsin fcos fatan,
  accurate_trig fsin sin -> accurate_trig fcos cos -> accurate_atan fatan -> good_atan fatan ->
  forall x y z yaw pitch roll x' y' z' yaw' pitch' roll' r a e,
  i16 x -> i16 y -> i16 z -> i16 yaw -> i8 pitch -> i16 roll -> i16 x' -> i16 y' -> i16 z' -> (x', y', z') <> (x, y, z) ->
  compute_range_azimuth_elevation fatan (new fsin fcos x y z yaw pitch roll) (new fsin fcos x' y' z' yaw' pitch' roll') = Some (r, a, e) ->
  let offset := (IZR (x' - x), IZR (y' - y), IZR (z' - z)) in
  exists dx dy dz azimuth elevation,
    norm (minus (dx, dy, dz) (seen yaw pitch roll offset)) <= norm offset / 1000
    /\ points dx dy dz azimuth elevation /\ nearest_degree a azimuth /\ nearest_degree e elevation.
Proof. intros fsin fcos fatan Hs Hc Ha Hg x y z yaw pitch roll x' y' z' yaw' pitch' roll' r a e. intros. eapply direction_rotated with (fsin := fsin) (fcos := fcos); eassumption. Qed.

(** A device that is not rotated reports the angles of the offset itself. *)
Theorem C81_unrotated : forall fsin fcos fatan, fsin zero = zero -> fcos zero = one -> accurate_atan fatan -> good_atan fatan ->
  forall x y z x' y' z' yaw' pitch' roll' r a e, i16 x -> i16 y -> i16 z -> i16 x' -> i16 y' -> i16 z' -> (x', y', z') <> (x, y, z) ->
  compute_range_azimuth_elevation fatan (new fsin fcos x y z 0 0 0) (new fsin fcos x' y' z' yaw' pitch' roll') = Some (r, a, e) ->
  exists azimuth elevation, points (IZR (x' - x)) (IZR (y' - y)) (IZR (z' - z)) azimuth elevation
    /\ nearest_degree a azimuth /\ nearest_degree e elevation.
Proof. intros. eapply direction_unrotated with (fsin := fsin) (fcos := fcos); eassumption. Qed.

(** In particular, an offset at a whole number of degrees gives these numbers. *)
Theorem C81_whole_degrees : forall fsin fcos fatan, fsin zero = zero -> fcos zero = one -> accurate_atan fatan -> good_atan fatan ->
  forall x y z x' y' z' yaw' pitch' roll' r a e, i16 x -> i16 y -> i16 z -> i16 x' -> i16 y' -> i16 z' -> (x', y', z') <> (x, y, z) ->
  compute_range_azimuth_elevation fatan (new fsin fcos x y z 0 0 0) (new fsin fcos x' y' z' yaw' pitch' roll') = Some (r, a, e) ->
  forall k j, (-180 < k < 180)%Z -> (-90 < j < 90)%Z -> points (IZR (x' - x)) (IZR (y' - y)) (IZR (z' - z)) (radians k) (radians j) ->
  a = k /\ e = j.
Proof.
  intros fsin fcos fatan Hs Hc Ha Hg x y z x' y' z' yaw' pitch' roll' r a e Hx Hy Hz Hx' Hy' Hz' Hne HC k j Bk Bj Q.
  destruct (C81_unrotated fsin fcos fatan Hs Hc Ha Hg x y z x' y' z' yaw' pitch' roll' r a e Hx Hy Hz Hx' Hy' Hz' Hne HC) as (az & el & P & Na & Ne).
  apply compute_some in HC as (_ & Ba & Be). eapply whole_degrees; try eassumption. rewrite <- !mult_IZR, <- !plus_IZR. apply IZR_lt.
  pose proof (apart _ _ _ _ _ _ Hne). lia.
Qed.

(** The hypotheses can be met: the exact functions, rounded to binary32. *)
Example C81_functions : accurate_trig sin32 sin /\ accurate_trig cos32 cos /\ accurate_atan atan32 /\ good_atan atan32
  /\ sin32 zero = zero /\ cos32 zero = one.
Proof. destruct trig32_ok, atan32_ok, trig32_zero. auto 8. Qed.
(** With them, a device at the origin measures one at 10, 0, 10 (centimetres): azimuth 45, elevation 0. *)
Lemma diagonal k : 0 < k -> points k 0 k (radians 45) (radians 0).
Proof.
  intros Hk. unfold points, radians. replace (45 * (Rtrigo1.PI / 180)) with (Rtrigo1.PI / 4) by field. replace (0 * (Rtrigo1.PI / 180)) with 0 by ring. rewrite sin_0, cos_0, sin_PI4, cos_PI4.
  replace (k * k + 0 * 0 + k * k) with (k * k + k * k) by ring. replace (k * k + k * k) with (2 * (k * k)) by ring.
  rewrite sqrt_mult, sqrt_square by nra. pose proof Rlt_sqrt2_0 as S. repeat split; try ring; field; lra.
Qed.
Example C81_diagonal : exists r, compute_range_azimuth_elevation atan32 (new sin32 cos32 0 0 0 0 0 0) (new sin32 cos32 10 0 10 0 0 0) = Some (r, 45%Z, 0%Z).
Proof.
  destruct C81_functions as (_ & _ & Ha & Hg & Zs & Zc), trig32_good as [Gs Gc].
  destruct (C55_total sin32 cos32 atan32 Gs Gc Hg (new sin32 cos32 0 0 0 0 0 0) (new sin32 cos32 10 0 10 0 0 0)) as (r & a & e & HC & _).
  - exists 0%Z, 0%Z, 0%Z, 0%Z, 0%Z, 0%Z. unfold i16, i8. repeat split; lia.
  - exists 10%Z, 0%Z, 10%Z, 0%Z, 0%Z, 0%Z. unfold i16, i8. repeat split; lia.
  - exists r. rewrite HC. destruct (C81_whole_degrees sin32 cos32 atan32 Zs Zc Ha Hg 0 0 0 10 0 10 0 0 0 r a e) with (k := 45%Z) (j := 0%Z) as [-> ->]; try (unfold i16; lia); [discriminate|exact HC|apply (diagonal 10); lra|reflexivity].
Qed.
(** The conventions: turned by a yaw of 90 degrees, a device sees what is in front of it at its side, at an azimuth of 90. *)
Example C81_conventions : seen 90 0 0 (0, 0, 10) = (10, 0, 0) /\ points 10 0 0 (Rtrigo1.PI / 2) 0
  /\ seen 0 90 0 (0, 10, 0) = (0, 0, 10) /\ points 0 10 0 0 (Rtrigo1.PI / 2) /\ seen 0 0 90 (10, 0, 0) = (0, 10, 0).
Proof.
  unfold seen, turn_x, turn_y, turn_z, points, radians. replace (90 * (Rtrigo1.PI / 180)) with (Rtrigo1.PI / 2) by field.
  replace (0 * (Rtrigo1.PI / 180)) with 0 by ring. rewrite sin_0, cos_0, sin_PI2, cos_PI2. replace (10 * 10 + 0 * 0) with (10 * 10) by ring. replace (10 * 10 + 0 * 0) with (10 * 10) by ring.
  replace (0 * 0 + 10 * 10 + 0 * 0) with (10 * 10) by ring. replace (10 * 10 + 0 * 0) with (10 * 10) by ring. replace (0 * 0 + 0 * 0) with 0 by ring. rewrite sqrt_square, sqrt_0 by lra.
  repeat split; try ring; repeat (apply f_equal2; [|ring]); ring.
Qed.

Print Assumptions C81_direction.
Print Assumptions C81_unrotated.
Print Assumptions C81_whole_degrees.
