(** Properties C53, C54, C55: the geometry of the web server, in binary32 arithmetic.
    [compute_range_azimuth_elevation] returns [None] when one of its assertions fails.
    These theorems rest on the axioms of the real numbers of the standard library. *)
From Coq Require Import ZArith NArith Reals Lra Lia.
From Flocq Require Import Core.Core IEEE754.BinarySingleNaN.
From Verif Require Import Position PositionSpec PositionFacts.
Open Scope R_scope.

(** ** C53: the measured range is symmetric *)
(** For all positions, of any coordinates (NaN and infinities included) and any orientation, whatever the library. *)
Theorem C53_symmetric : forall fatan p q r a e r' a' e',
  compute_range_azimuth_elevation fatan p q = Some (r, a, e) -> compute_range_azimuth_elevation fatan q p = Some (r', a', e') -> r = r'.
Proof. intros fatan p q r a e r' a' e' H H'. apply compute_some in H as [-> _]. apply compute_some in H' as [-> _]. now rewrite length_swap. Qed.

(** A position the web server can hold, and a measurement that has not panicked. *)
Definition placed (fsin fcos : f32 -> f32) (p : position) : Prop := exists x y z yaw pitch roll,
  i16 x /\ i16 y /\ i16 z /\ i16 yaw /\ i8 pitch /\ i16 roll /\ p = new fsin fcos x y z yaw pitch roll.
Definition measure fatan (p q : position) : N * Z * Z :=
  match compute_range_azimuth_elevation fatan p q with Some m => m | None => (0%N, 0%Z, 0%Z) end.

(** ** C55: azimuth and elevation stay in range *)
Theorem C55_total : forall fsin fcos fatan, good_trig fsin -> good_trig fcos -> good_atan fatan ->
  forall p q, placed fsin fcos p -> placed fsin fcos q ->
  exists r a e, compute_range_azimuth_elevation fatan p q = Some (r, a, e) /\ (-180 <= a <= 180)%Z /\ (-90 <= e <= 90)%Z.
Proof.
  intros fsin fcos fatan Hs Hc Ha p q (x & y & z & yaw & pitch & roll & Hx & Hy & Hz & H1 & H2 & H3 & ->) (x' & y' & z' & yaw' & pitch' & roll' & Hx' & Hy' & Hz' & _ & _ & _ & ->).
  destruct (compute_range_azimuth_elevation fatan (new fsin fcos x y z yaw pitch roll) (new fsin fcos x' y' z' yaw' pitch' roll')) as [[[r a] e]|] eqn:C.
  - exists r, a, e. apply compute_some in C as [_ C]. split; [reflexivity|exact C].
  - apply compute_total in C; [contradiction|exact Ha|now apply new_ok|].
    split; [|split]; now apply delta_bnd.
Qed.
(** Hence the hypothesis on distances in C51 and C52: the server's own comparison of the two distances does not fail. *)
Theorem C53_server : forall fsin fcos fatan, good_trig fsin -> good_trig fcos -> good_atan fatan ->
  forall p q : {p : position | placed fsin fcos p}, fst (fst (measure fatan (proj1_sig p) (proj1_sig q))) = fst (fst (measure fatan (proj1_sig q) (proj1_sig p))).
Proof.
  intros fsin fcos fatan Hs Hc Ha [p Hp] [q Hq]. cbn [proj1_sig]. unfold measure.
  destruct (C55_total fsin fcos fatan Hs Hc Ha p q Hp Hq) as (r & a & e & E & _), (C55_total fsin fcos fatan Hs Hc Ha q p Hq Hp) as (r' & a' & e' & E' & _).
  rewrite E, E'. exact (C53_symmetric _ _ _ _ _ _ _ _ _ E E').
Qed.

(** ** C54: the measured range is accurate *)
(** Within one centimetre and a sixty-fourth, and 65535 from 65536 on. *)
Theorem C54_accurate_partial : forall fsin fcos fatan x y z yaw pitch roll x' y' z' yaw' pitch' roll' r a e,
  i16 x -> i16 y -> i16 z -> i16 x' -> i16 y' -> i16 z' ->
  compute_range_azimuth_elevation fatan (new fsin fcos x y z yaw pitch roll) (new fsin fcos x' y' z' yaw' pitch' roll') = Some (r, a, e) ->
  let distance := euclid (x' - x) (y' - y) (z' - z) in
  (distance <= 65536 -> Rabs (IZR (Z.of_N r) - distance) < 1 + / 64) /\ (65536 <= distance -> r = 65535%N).
Proof.
  intros fsin fcos fatan x y z yaw pitch roll x' y' z' yaw' pitch' roll' r a e Hx Hy Hz Hx' Hy' Hz' C. apply compute_some in C as [-> _].
  destruct (delta_ok x' x Hx' Hx) as [E1 F1], (delta_ok y' y Hy' Hy) as [E2 F2], (delta_ok z' z Hz' Hz) as [E3 F3].
  unfold i16 in *. apply range_accurate; cbn [vsub new p_position vx vy vz]; try assumption; lia.
Qed.
(** Exact up to 40.96 m: the distance without its fraction. *)
Theorem C54_exact : forall fsin fcos fatan x y z yaw pitch roll x' y' z' yaw' pitch' roll' r a e,
  i16 x -> i16 y -> i16 z -> i16 x' -> i16 y' -> i16 z' ->
  compute_range_azimuth_elevation fatan (new fsin fcos x y z yaw pitch roll) (new fsin fcos x' y' z' yaw' pitch' roll') = Some (r, a, e) ->
  let square := ((x' - x) * (x' - x) + (y' - y) * (y' - y) + (z' - z) * (z' - z))%Z in
  (square < 4096 * 4096 -> Z.of_N r * Z.of_N r <= square < (Z.of_N r + 1) * (Z.of_N r + 1))%Z.
Proof.
  intros fsin fcos fatan x y z yaw pitch roll x' y' z' yaw' pitch' roll' r a e Hx Hy Hz Hx' Hy' Hz' C square B. apply compute_some in C as [-> _].
  destruct (delta_ok x' x Hx' Hx) as [E1 F1], (delta_ok y' y Hy' Hy) as [E2 F2], (delta_ok z' z Hz' Hz) as [E3 F3].
  rewrite (length_exact _ (x' - x) (y' - y) (z' - z)); cbn [vsub new p_position vx vy vz]; try assumption. fold square.
  assert (forall c, 0 <= c * c)%Z as Q by (intros c; apply Z.square_nonneg). assert (0 <= square)%Z as P by (pose proof (Q (x' - x)%Z); pose proof (Q (y' - y)%Z); pose proof (Q (z' - z)%Z); unfold square; lia). rewrite Z2N.id by apply Z.sqrt_nonneg. destruct (Z.sqrt_spec square P) as [S1 S2]. split; [exact S1|exact S2].
Qed.
(** Not within one centimetre: the distance is rounded down after having been rounded up or down. *)
Theorem C54_refuted : exists p q r a e, p = new (clamp one) (fun _ => one) (-23942) 0 0 0 0 0 /\ q = new (clamp one) (fun _ => one) 23941 523 118 0 0 0
  /\ compute_range_azimuth_elevation (clamp FRAC_PI_2) p q = Some (r, a, e) /\ euclid (23941 - -23942) (523 - 0) (118 - 0) - IZR (Z.of_N r) > 1.
Proof.
  eexists. eexists. eexists. eexists. eexists. split; [reflexivity|]. split; [reflexivity|]. split; [vm_compute; reflexivity|].
  unfold euclid. change (IZR (Z.of_N 47885)) with 47885. apply Rlt_gt, Rplus_lt_reg_r with 47885. replace (sqrt _ - 47885 + 47885) with (sqrt (IZR ((23941 - -23942) * (23941 - -23942) + (523 - 0) * (523 - 0) + (118 - 0) * (118 - 0)))) by ring.
  rewrite <- (sqrt_square (1 + 47885)) by lra. apply sqrt_lt_1_alt. cbn. lra.
Qed.

(** ** C70: the position shown is the position set *)
Theorem C70_coordinates : forall fsin fcos to_euler x y z yaw pitch roll, i16 x -> i16 y -> i16 z ->
  exists yaw' pitch' roll', serialize to_euler (new fsin fcos x y z yaw pitch roll) = (x, y, z, yaw', pitch', roll').
Proof.
  intros fsin fcos to_euler x y z yaw pitch roll Hx Hy Hz. unfold serialize. destruct (to_euler _) as [[r p] w].
  cbn [new p_position vx vy vz]. rewrite !as_i16_int by assumption. eauto.
Qed.
(** The angles are those of the rotation, in whole degrees: a half circle for yaw and roll, a quarter for the pitch. *)
Theorem C70_angles : forall to_euler p, good_euler to_euler ->
  exists x y z yaw pitch roll, serialize to_euler p = (x, y, z, yaw, pitch, roll)
    /\ (-180 <= yaw <= 180)%Z /\ (-90 <= pitch <= 90)%Z /\ (-180 <= roll <= 180)%Z.
Proof.
  intros to_euler p G. specialize (G (p_rotation p)). unfold serialize. destruct (to_euler _) as [[r t] w].
  destruct G as ((Fr & Br) & (Ft & Bt) & (Fw & Bw)). destruct PI_ok as [EP FP], FRAC_PI_2_ok as [EQ FQ].
  destruct (shown_angle PI 180 r FP ltac:(rewrite EP; lra) degrees_PI ltac:(lia) Fr Br) as [F1 B1].
  destruct (shown_angle FRAC_PI_2 90 t FQ ltac:(rewrite EQ; lra) degrees_FRAC_PI_2 ltac:(lia) Ft Bt) as [F2 B2].
  destruct (shown_angle PI 180 w FP ltac:(rewrite EP; lra) degrees_PI ltac:(lia) Fw Bw) as [F3 B3].
  do 6 eexists. split; [reflexivity|]. unfold as_i16, as_i8. rewrite !saturate_ok by assumption. lia.
Qed.
Example C70_example : serialize (fun _ => (zero, FRAC_PI_2, Bopp PI)) (new (clamp one) (fun _ => one) (-32768) 7 32767 0 0 0) = (-32768, 7, 32767, -180, 90, 0)%Z
  /\ good_euler (fun _ => (zero, FRAC_PI_2, Bopp PI)).
Proof.
  split; [vm_compute; reflexivity|]. intros q. destruct PI_ok as [EP FP], FRAC_PI_2_ok as [EQ FQ], zero_ok as [E0 F0].
  rewrite is_finite_Bopp, B2R_Bopp, Rabs_Ropp, E0, Rabs_R0, EP, EQ. rewrite !Rabs_pos_eq by lra. repeat split; try assumption; lra.
Qed.

(** The hypotheses can be met, and a measurement. *)
Example C53_example : good_trig (clamp one) /\ good_trig (fun _ => one) /\ good_atan (clamp FRAC_PI_2)
  /\ placed (clamp one) (fun _ => one) (new (clamp one) (fun _ => one) 10 0 0 0 0 0) /\ placed (clamp one) (fun _ => one) (new (clamp one) (fun _ => one) (-20) 0 (-40) 90 (-45) 0)
  /\ compute_range_azimuth_elevation (clamp FRAC_PI_2) (new (clamp one) (fun _ => one) 10 0 0 0 0 0) (new (clamp one) (fun _ => one) (-20) 0 (-40) 90 (-45) 0) = Some (50%N, (-137)%Z, 0%Z).
Proof.
  split; [exact clamp_sin|]. split; [exact one_cos|]. split; [exact clamp_atan|].
  split; [exists 10%Z, 0%Z, 0%Z, 0%Z, 0%Z, 0%Z; unfold i16, i8; repeat split; lia|].
  split; [exists (-20)%Z, 0%Z, (-40)%Z, 90%Z, (-45)%Z, 0%Z; unfold i16, i8; repeat split; lia|]. vm_compute. reflexivity.
Qed.
(** Two devices at the same place: the elevation is 90 degrees. *)
Example C55_coincident : compute_range_azimuth_elevation (clamp FRAC_PI_2) (new (clamp one) (fun _ => one) 1 2 3 0 0 0) (new (clamp one) (fun _ => one) 1 2 3 0 0 0) = Some (0%N, 0%Z, 90%Z).
Proof. vm_compute. reflexivity. Qed.
(** The farthest devices. *)
Example C54_example : compute_range_azimuth_elevation (clamp FRAC_PI_2) (new (clamp one) (fun _ => one) (-32768) (-32768) (-32768) 0 0 0) (new (clamp one) (fun _ => one) 32767 32767 32767 0 0 0) = Some (65535%N, 57%Z, 41%Z)
  /\ compute_range_azimuth_elevation (clamp FRAC_PI_2) (new (clamp one) (fun _ => one) (-32768) 0 0 0 0 0) (new (clamp one) (fun _ => one) 32766 0 0 0 0 0) = Some (65534%N, 90%Z, 0%Z).
Proof. split; vm_compute; reflexivity. Qed.

Print Assumptions C53_symmetric.
Print Assumptions C53_server.
Print Assumptions C54_accurate_partial.
Print Assumptions C54_exact.
Print Assumptions C54_refuted.
Print Assumptions C55_total.
Print Assumptions C70_coordinates.
Print Assumptions C70_angles.
