(** The direction between devices that are not rotated is exact, and functions that are as accurate as asked exist. *)
From Coq Require Import ZArith NArith Bool Reals Lra Lia Psatz.
From Flocq Require Import Core.Core IEEE754.BinarySingleNaN Relative.
From Verif Require Import Position PositionSpec PositionFacts DirectionSpec DirectionFacts DirectionRotation.
Open Scope R_scope.

(** ** Without rotation *)
Lemma identity_keeps (v : vec3) x y z : app (vx v) x 0 200000 -> app (vy v) y 0 200000 -> app (vz v) z 0 200000 ->
  let d := mul_vec3 (Quat zero zero zero one) v in
  bvec d 40 /\ B2R (vx d) = x /\ B2R (vy d) = y /\ B2R (vz d) = z.
Proof.
  destruct v as [X Y Z]. cbn [vx vy vz]. intros AX AY AZ. cbn zeta.
  assert (fsub (fmul one one) (dot (Vec3 zero zero zero) (Vec3 zero zero zero)) = one) as K by (apply B2SF_inj; vm_compute; reflexivity).
  unfold mul_vec3. cbn [qx qy qz qw]. rewrite K. destruct zero_ok as [E0 F0], one_ok as [E1 F1], two_ok as [E2 F2].
  assert (forall f : f32, is_finite f = true -> is_finite (fmul zero f) = true /\ B2R (fmul zero f) = 0 /\ is_finite (fmul f zero) = true /\ B2R (fmul f zero) = 0) as Z0.
  { intros f F. destruct (fmul_ok zero f 0 ltac:(lia) F0 F) as (E & G & _); [rewrite E0, Rmult_0_l, Rabs_R0; cbn; lra|].
    destruct (fmul_ok f zero 0 ltac:(lia) F F0) as (E' & G' & _); [rewrite E0, Rmult_0_r, Rabs_R0; cbn; lra|]. rewrite E, E', E0, Rmult_0_l, Rmult_0_r, rnd_0. auto. }
  assert (forall a b : f32, is_finite a = true -> B2R a = 0 -> is_finite b = true -> B2R b = 0 -> is_finite (fsub a b) = true /\ B2R (fsub a b) = 0 /\ is_finite (fadd a b) = true /\ B2R (fadd a b) = 0) as ZS.
  { intros a b Fa Ea Fb Eb. destruct (fsub_ok a b 0 ltac:(lia) Fa Fb) as (E & G); [rewrite Ea, Eb, Rminus_0_r, Rabs_R0; cbn; lra|].
    destruct (fadd_ok a b 0 ltac:(lia) Fa Fb) as (E' & G'); [rewrite Ea, Eb, Rplus_0_r, Rabs_R0; cbn; lra|]. rewrite E, E', Ea, Eb, Rminus_0_r, Rplus_0_r, rnd_0. auto. }
  assert (forall (A p q : f32) a, app A a 0 200000 -> is_finite p = true -> B2R p = 0 -> is_finite q = true -> B2R q = 0 ->
    bnd (fadd (fadd (fmul A one) p) q) 40 /\ B2R (fadd (fadd (fmul A one) p) q) = a) as T.
  { intros A p q a (FA & EA & BA) Fp Ep Fq Eq. assert (B2R A = a) as <-. { apply Rabs_le_inv in EA. lra. }
    assert (Rabs (B2R A) <= bpow radix2 40) as B40 by (change (bpow radix2 40) with 1099511627776; lra).
    destruct (fmul_ok A one 40 ltac:(lia) FA F1) as (Em & Fm & _); [rewrite E1, Rmult_1_r; exact B40|]. rewrite E1, Rmult_1_r, rnd_id in Em.
    destruct (fadd_ok (fmul A one) p 40 ltac:(lia) Fm Fp) as [Ea Fa]; [rewrite Em, Ep, Rplus_0_r; exact B40|]. rewrite Em, Ep, Rplus_0_r, rnd_id in Ea.
    destruct (fadd_ok (fadd (fmul A one) p) q 40 ltac:(lia) Fa Fq) as [Eb Fb]; [rewrite Ea, Eq, Rplus_0_r; exact B40|]. rewrite Ea, Eq, Rplus_0_r, rnd_id in Eb.
    split; [split; [exact Fb|rewrite Eb; exact B40]|exact Eb]. }
  pose proof (proj1 AX) as FX. pose proof (proj1 AY) as FY. pose proof (proj1 AZ) as FZ.
  destruct (Z0 X FX) as (f1 & e1 & f2 & e2), (Z0 Y FY) as (f3 & e3 & f4 & e4), (Z0 Z FZ) as (f5 & e5 & f6 & e6).
  assert (is_finite (fmul (dot (Vec3 X Y Z) (Vec3 zero zero zero)) two) = true) as FD.
  { destruct (ZS _ _ f2 e2 f4 e4) as (_ & _ & g1 & h1). destruct (ZS _ _ g1 h1 f6 e6) as (_ & _ & g2 & h2). unfold dot. cbn [vx vy vz].
    destruct (fmul_ok _ two 0 ltac:(lia) g2 F2) as (_ & G & _); [rewrite h2, Rmult_0_l, Rabs_R0; cbn; lra|exact G]. }
  destruct (Z0 _ FD) as (f7 & e7 & _).
  assert (forall c : f32, is_finite c = true -> B2R c = 0 -> is_finite (fmul c (fmul one two)) = true /\ B2R (fmul c (fmul one two)) = 0) as ZM.
  { intros c Fc Ec. assert (fmul one two = two) as -> by (apply B2SF_inj; vm_compute; reflexivity). destruct (fmul_ok c two 0 ltac:(lia) Fc F2) as (E & G & _); [rewrite Ec, Rmult_0_l, Rabs_R0; cbn; lra|]. rewrite E, Ec, Rmult_0_l, rnd_0. auto. }
  unfold vadd, vmul, cross, bvec. cbn [vx vy vz].
  destruct (ZS _ _ f5 e5 f4 e4) as (g1 & h1 & _), (ZS _ _ f1 e1 f6 e6) as (g2 & h2 & _), (ZS _ _ f3 e3 f2 e2) as (g3 & h3 & _).
  destruct (ZM _ g1 h1) as [k1 l1], (ZM _ g2 h2) as [k2 l2], (ZM _ g3 h3) as [k3 l3].
  destruct (T X _ _ x AX f7 e7 k1 l1) as [b1 r1], (T Y _ _ y AY f7 e7 k2 l2) as [b2 r2], (T Z _ _ z AZ f7 e7 k3 l3) as [b3 r3]. auto 8.
Qed.
Lemma unrotated fsin fcos x y z : fsin zero = zero -> fcos zero = one -> p_rotation (new fsin fcos x y z 0 0 0) = Quat zero zero zero one.
Proof.
  intros Hs Hc. unfold new, from_euler_zxy, rotation_x, rotation_y, rotation_z. cbn [p_rotation].
  assert (half (to_radians (of_int 0)) = zero) as -> by (apply B2SF_inj; vm_compute; reflexivity). rewrite Hs, Hc. unfold quat_mul. cbn [qx qy qz qw]. f_equal; apply B2SF_inj; vm_compute; reflexivity.
Qed.

(** ** Functions that satisfy what is asked of the library: the exact functions, rounded. *)
Definition of_real (r : R) : f32 := binary_normalize 24 128 _ _ mode_NE (ZnearestE (scaled_mantissa radix2 fexp32 r)) (cexp radix2 fexp32 r) false.
Lemma of_real_ok r : Rabs r <= bpow radix2 127 -> B2R (of_real r) = rnd r /\ is_finite (of_real r) = true.
Proof.
  intros B. generalize (binary_normalize_correct 24 128 _ _ mode_NE (ZnearestE (scaled_mantissa radix2 fexp32 r)) (cexp radix2 fexp32 r) false). cbn zeta. cbn [round_mode].
  change (F2R (Float radix2 (ZnearestE (scaled_mantissa radix2 fexp32 r)) (cexp radix2 fexp32 r))) with (rnd r).
  assert (rnd (rnd r) = rnd r) as -> by (apply round_generic; [typeclasses eauto|apply generic_format_round; typeclasses eauto]).
  rewrite (no_overflow r 127 ltac:(lia) B). now intros (? & ? & _).
Qed.
Definition atan32 (a : f32) : f32 := match a with B754_infinity s => if s then Bopp FRAC_PI_2 else FRAC_PI_2 | _ => of_real (atan (B2R a)) end.
Definition sin32 (a : f32) : f32 := of_real (sin (B2R a)).
Definition cos32 (a : f32) : f32 := of_real (cos (B2R a)).
Lemma small127 r : Rabs r <= 2 -> Rabs r <= bpow radix2 127.
Proof. intros H. apply Rle_trans with (1 := H). apply (bpow_le radix2 1 127). lia. Qed.
Lemma atan32_ok : accurate_atan atan32 /\ good_atan atan32.
Proof.
  pose proof pi_bounds as Pb. destruct FRAC_PI_2_ok as [Eh Fh], right_angle as [Rh _]. pose proof eta_small as Et.
  assert (forall r, is_finite (of_real (atan r)) = true /\ B2R (of_real (atan r)) = rnd (atan r) /\ Rabs (atan r) <= 1.6) as K.
  { intros r. pose proof (atan_bound r). assert (Rabs (atan r) <= 1.6) as B by (apply Rabs_le; lra). destruct (of_real_ok (atan r) (small127 _ (Rle_trans _ _ 2 ltac:(eassumption) ltac:(lra)))) as [E F]. auto. }
  split; intros a Na.
  - assert (forall r, is_finite (of_real (atan r)) = true /\ Rabs (B2R (of_real (atan r)) - atan r) <= / 2097152) as L.
    { intros r. destruct (K r) as (F & E & B). split; [exact F|]. rewrite E. eapply Rle_trans; [apply rnd_near|]. rewrite u_eq. lra. }
    destruct a as [s|s| |s m e Hb]; try discriminate Na; try apply L. cbn [atan32]. destruct s; rewrite ?is_finite_Bopp, ?B2R_Bopp; (split; [exact Fh|]); [apply near_opp in Rh|]; lra.
  - assert (forall b : f32, is_finite b = true -> is_finite (of_real (atan (B2R b))) = true /\ Rabs (B2R (of_real (atan (B2R b)))) <= B2R FRAC_PI_2 /\ (if Bsign b then B2R (of_real (atan (B2R b))) <= 0 else 0 <= B2R (of_real (atan (B2R b))))) as L.
    { intros b Fb. destruct (K (B2R b)) as (F & E & B). split; [exact F|]. rewrite E. split.
      - apply abs_round_le_generic; try typeclasses eauto; [apply b2r_format|]. rewrite Eh. pose proof (atan_bound (B2R b)). apply Rabs_le. lra.
      - pose proof (sign_of b Fb) as S. destruct (Bsign b).
        + apply rnd_le; [apply generic_format_0|]. rewrite <- atan_0. destruct S as [S|S]; [apply Rlt_le, atan_increasing, S|rewrite S; lra].
        + apply rnd_ge; [apply generic_format_0|]. rewrite <- atan_0. destruct S as [S|S]; [apply Rlt_le, atan_increasing, S|rewrite S; lra]. }
    destruct a as [s|s| |s m e Hb]; try discriminate Na; try (now apply L). cbn [atan32 Bsign]. destruct s; rewrite ?is_finite_Bopp, ?B2R_Bopp, ?Rabs_Ropp, Eh, Rabs_pos_eq by lra; repeat split; auto; lra.
Qed.
Lemma trig32_ok : accurate_trig sin32 sin /\ accurate_trig cos32 cos.
Proof.
  pose proof eta_small as Et.
  assert (forall r, -1 <= r <= 1 -> is_finite (of_real r) = true /\ Rabs (B2R (of_real r) - r) <= / 2097152) as K.
  { intros r B. assert (Rabs r <= 1) as B' by (apply Rabs_le; lra). destruct (of_real_ok r (small127 _ (Rle_trans _ _ 2 ltac:(eassumption) ltac:(lra)))) as [E F]. split; [exact F|]. rewrite E. eapply Rle_trans; [apply rnd_near|]. rewrite u_eq. lra. }
  split; intros a _; apply K; [apply SIN_bound|apply COS_bound].
Qed.
Lemma trig32_zero : sin32 zero = zero /\ cos32 zero = one.
Proof.
  destruct zero_ok as [E0 F0], one_ok as [E1 F1]. split.
  - unfold sin32. rewrite E0, sin_0. unfold of_real. rewrite scaled_mantissa_0. assert (ZnearestE 0 = 0%Z) as -> by (apply (Zrnd_IZR ZnearestE 0)). reflexivity.
  - unfold cos32. rewrite E0, cos_0. assert (Rabs 1 <= 2) as B by (rewrite Rabs_R1; lra). destruct (of_real_ok 1 (small127 1 B)) as [E F].
    assert (B2R (of_real 1) = B2R one) as H. { rewrite E, E1. change 1 with (IZR 1). now rewrite rnd_int by lia. }
    apply B2R_inj; [|reflexivity|exact H]. rewrite E1 in H. clear E. destruct (of_real 1); try discriminate F; cbn in *; [exfalso; lra|reflexivity].
Qed.

(** ** The theorems *)
Lemma delta_finite a b : i16 a -> i16 b -> B2R (fsub (of_int a) (of_int b)) = IZR (a - b) /\ is_finite (fsub (of_int a) (of_int b)) = true /\ (Z.abs (a - b) <= 65535)%Z.
Proof. unfold i16. intros Ha Hb. destruct (delta_ok a b) as [E F]; [lia|lia|]. repeat split; auto. lia. Qed.
Lemma direction_rotated fsin fcos fatan x y z yaw pitch roll x' y' z' yaw' pitch' roll' r a e :
  accurate_trig fsin sin -> accurate_trig fcos cos -> accurate_atan fatan -> good_atan fatan ->
  i16 x -> i16 y -> i16 z -> i16 yaw -> i8 pitch -> i16 roll -> i16 x' -> i16 y' -> i16 z' -> (x', y', z') <> (x, y, z) ->
  compute_range_azimuth_elevation fatan (new fsin fcos x y z yaw pitch roll) (new fsin fcos x' y' z' yaw' pitch' roll') = Some (r, a, e) ->
  exists dx dy dz az el, norm (minus (dx, dy, dz) (seen yaw pitch roll (IZR (x' - x), IZR (y' - y), IZR (z' - z)))) <= norm (IZR (x' - x), IZR (y' - y), IZR (z' - z)) / 1000
    /\ points dx dy dz az el /\ nearest_degree a az /\ nearest_degree e el.
Proof.
  intros Hs Hc Ha Hg Hx Hy Hz Hyaw Hp Hr Hx' Hy' Hz' Hne HC.
  destruct (delta_finite x' x Hx' Hx) as (Ex & Fx & Bx), (delta_finite y' y Hy' Hy) as (Ey & Fy & By), (delta_finite z' z Hz' Hz) as (Ez & Fz & Bz).
  assert ((x' - x, y' - y, z' - z)%Z <> (0, 0, 0)%Z) as Hd. { intros [= A B C]. apply Hne. f_equal; [f_equal|]; lia. }
  pose proof (rotated_direction fsin fcos Hs Hc x y z yaw pitch roll (vsub (p_position (new fsin fcos x' y' z' yaw' pitch' roll')) (p_position (new fsin fcos x y z yaw pitch roll)))
    (x' - x) (y' - y) (z' - z) Hyaw Hp Hr Fx Fy Fz Ex Ey Ez Bx By Bz Hd) as K. cbn zeta in K.
  pose proof (measured fatan (new fsin fcos x y z yaw pitch roll) (new fsin fcos x' y' z' yaw' pitch' roll') r a e Ha Hg) as M. cbn zeta in M.
  set (d := mul_vec3 _ _) in *. destruct K as (Bd & Hn & Hclose).
  assert (norm (seen yaw pitch roll (IZR (x' - x), IZR (y' - y), IZR (z' - z))) = norm (IZR (x' - x), IZR (y' - y), IZR (z' - z))) as Hk by apply turned_norm.
  assert (/ 4 <= B2R (vx d) * B2R (vx d) + B2R (vy d) * B2R (vy d) + B2R (vz d) * B2R (vz d)) as Q.
  { set (w := seen _ _ _ _) in *. set (n := norm (IZR _, _, _)) in *. set (D := (B2R (vx d), B2R (vy d), B2R (vz d))) in *.
    pose proof (norm_triangle w D (0, 0, 0)) as T.
    assert (forall v, norm (minus v (0, 0, 0)) = norm v) as Z0. { intros [[p q] s]. cbn [minus norm]. f_equal. ring. }
    assert (norm (minus w D) = norm (minus D w)) as Sy. { destruct w as [[p q] s]. subst D. cbn [minus norm]. f_equal. ring. }
    rewrite !Z0, Sy, Hk in T. pose proof (norm_sq D) as S. subst D. cbn beta iota in S. rewrite <- S.
    assert (/ 2 <= norm (B2R (vx d), B2R (vy d), B2R (vz d))) by lra. nra. }
  destruct (M Bd Q HC) as (az & el & P & Na & Ne). exists (B2R (vx d)), (B2R (vy d)), (B2R (vz d)), az, el. auto.
Qed.
Lemma apart x y z x' y' z' : (x', y', z') <> (x, y, z) -> (1 <= (x' - x) * (x' - x) + (y' - y) * (y' - y) + (z' - z) * (z' - z))%Z.
Proof.
  intros Hne. assert (forall n, 0 <= n * n /\ (n <> 0 -> 1 <= n * n))%Z as S by (intros n; split; nia).
  destruct (S (x' - x)%Z) as [A1 A2], (S (y' - y)%Z) as [B1 B2], (S (z' - z)%Z) as [C1 C2].
  destruct (Z.eq_dec (x' - x) 0) as [X|X]; [|specialize (A2 X); lia]. destruct (Z.eq_dec (y' - y) 0) as [Y|Y]; [|specialize (B2 Y); lia].
  destruct (Z.eq_dec (z' - z) 0) as [Z|Z]; [|specialize (C2 Z); lia]. exfalso. apply Hne. f_equal; [f_equal|]; lia.
Qed.
Lemma direction_unrotated fsin fcos fatan x y z x' y' z' yaw' pitch' roll' r a e :
  fsin zero = zero -> fcos zero = one -> accurate_atan fatan -> good_atan fatan ->
  i16 x -> i16 y -> i16 z -> i16 x' -> i16 y' -> i16 z' -> (x', y', z') <> (x, y, z) ->
  compute_range_azimuth_elevation fatan (new fsin fcos x y z 0 0 0) (new fsin fcos x' y' z' yaw' pitch' roll') = Some (r, a, e) ->
  exists az el, points (IZR (x' - x)) (IZR (y' - y)) (IZR (z' - z)) az el /\ nearest_degree a az /\ nearest_degree e el.
Proof.
  intros Hs Hc Ha Hg Hx Hy Hz Hx' Hy' Hz' Hne HC.
  destruct (delta_finite x' x Hx' Hx) as (Ex & Fx & Bx), (delta_finite y' y Hy' Hy) as (Ey & Fy & By), (delta_finite z' z Hz' Hz) as (Ez & Fz & Bz).
  assert (forall (f : f32) n, B2R f = IZR n -> is_finite f = true -> (Z.abs n <= 65535)%Z -> app f (IZR n) 0 200000) as A.
  { intros f n E F B. split; [exact F|]. rewrite E. split; [rewrite Rminus_eq_0, Rabs_R0; lra|]. rewrite <- abs_IZR. apply IZR_le. lia. }
  pose proof (measured fatan (new fsin fcos x y z 0 0 0) (new fsin fcos x' y' z' yaw' pitch' roll') r a e Ha Hg) as M. cbn zeta in M. rewrite unrotated in M by assumption.
  pose proof (identity_keeps (vsub (p_position (new fsin fcos x' y' z' yaw' pitch' roll')) (p_position (new fsin fcos x y z 0 0 0))) _ _ _ (A _ _ Ex Fx Bx) (A _ _ Ey Fy By) (A _ _ Ez Fz Bz)) as (Bd & E1 & E2 & E3).
  rewrite E1, E2, E3 in M. apply M; [exact Bd| |exact HC]. rewrite <- !mult_IZR, <- !plus_IZR.
  pose proof (apart _ _ _ _ _ _ Hne) as K.
  apply IZR_le in K. lra.
Qed.
Lemma trig32_good : good_trig sin32 /\ good_trig cos32.
Proof.
  assert (forall r, -1 <= r <= 1 -> is_finite (of_real r) = true /\ Rabs (B2R (of_real r)) <= 1) as K.
  { intros r B. assert (Rabs r <= 1) as B' by (apply Rabs_le; lra). destruct (of_real_ok r (small127 _ (Rle_trans _ _ 2 B' ltac:(lra)))) as [E F]. split; [exact F|]. rewrite E. apply (rnd_abs_le r 0); [lia|exact B']. }
  split; intros a _; apply K; [apply SIN_bound|apply COS_bound].
Qed.
Lemma same_angle t : cos t = 1 -> Rabs t < 2 * pi -> t = 0.
Proof.
  intros E B. assert (sin (t / 2) = 0) as S.
  { replace t with (2 * (t / 2)) in E by field. rewrite cos_2a_sin in E. assert (sin (t / 2) * sin (t / 2) = 0) as Q by lra. apply Rmult_integral in Q. tauto. }
  assert (- (2 * pi) < t < 2 * pi) as [B1 B2] by (revert B; unfold Rabs; destruct Rcase_abs; lra).
  destruct (Rtotal_order t 0) as [L|[Z|G]]; [|exact Z|].
  - assert (0 < sin (- (t / 2))) as P by (apply sin_gt_0; lra). rewrite sin_neg in P. lra.
  - assert (0 < sin (t / 2)) as P by (apply sin_gt_0; lra). lra.
Qed.
Lemma same_angles a b : sin a = sin b -> cos a = cos b -> Rabs (a - b) < 2 * pi -> a = b.
Proof. intros S C B. assert (a - b = 0) by (apply same_angle; [rewrite cos_minus, S, C; pose proof (sin2_cos2 b) as Q; unfold Rsqr in Q; lra|exact B]). lra. Qed.
Lemma whole_degrees x y z az el a e k j : points x y z az el -> nearest_degree a az -> nearest_degree e el -> (-180 <= a <= 180)%Z -> (-90 <= e <= 90)%Z ->
  0 < x * x + y * y + z * z -> points x y z (radians k) (radians j) -> (-180 < k < 180)%Z -> (-90 < j < 90)%Z -> a = k /\ e = j.
Proof.
  unfold nearest_degree, radians. intros (Px & Pz & Py & Ph) Na Ne Ba Be D (Qx & Qz & Qy & Qh) Bk Bj. pose proof pi_bounds as Pb.
  assert (0 < sqrt (x * x + y * y + z * z)) as Dp by (apply sqrt_lt_R0; exact D). set (d := sqrt (x * x + y * y + z * z)) in *. set (h := sqrt (x * x + z * z)) in *.
  assert (forall n t w, IZR n * (pi / 180) = t -> Rabs (IZR w - t * (180 / pi)) <= / 2 + / 1000 -> w = n) as W.
  { intros n t w <- N. replace (IZR n * (pi / 180) * (180 / pi)) with (IZR n) in N by (field; lra). rewrite <- minus_IZR, <- abs_IZR in N.
    assert (Z.abs (w - n) < 1)%Z as L by (apply lt_IZR; lra). lia. }
  assert (forall n w t m, Rabs (IZR w - t * (180 / pi)) <= / 2 + / 1000 -> (- m < n < m)%Z -> (- m <= w <= m)%Z -> (0 < m <= 180)%Z -> Rabs (t - IZR n * (pi / 180)) < 2 * pi) as C.
  { intros n w t m N Bn Bw Bm. destruct Bn as [n1 n2], Bw as [w1 w2]. assert (IZR n <= 179 /\ -179 <= IZR n) as [N1 N2] by (split; apply IZR_le; lia).
    assert (IZR w <= 180 /\ -180 <= IZR w) as [W1 W2] by (split; apply IZR_le; lia). apply Rabs_le_inv in N. remember (t * (180 / pi)) as s eqn:Es.
    assert (t = s * (pi / 180)) as -> by (subst s; field; lra). replace (s * (pi / 180) - IZR n * (pi / 180)) with ((s - IZR n) * (pi / 180)) by ring.
    rewrite Rabs_mult, (Rabs_pos_eq (pi / 180)) by lra. apply Rlt_le_trans with (360 * (pi / 180)); [|lra]. apply Rmult_lt_compat_r; [lra|]. apply Rabs_def1; lra. }
  assert (IZR j * (pi / 180) = el) as Ej.
  { symmetry. apply same_angles; [apply (Rmult_eq_reg_l d); [exact (eq_trans (eq_sym Py) Qy)|apply Rgt_not_eq; lra]|apply (Rmult_eq_reg_l d); [exact (eq_trans (eq_sym Ph) Qh)|apply Rgt_not_eq; lra]|]. apply (C j e el 90%Z); auto; lia. }
  assert (0 < h) as Hp. { rewrite Qh. apply Rmult_lt_0_compat; [exact Dp|]. destruct Bj as [B1 B2]. apply IZR_lt in B1. apply IZR_lt in B2. change (IZR (-90)) with (-90) in B1. apply cos_gt_0; nra. }
  assert (IZR k * (pi / 180) = az) as Ek.
  { symmetry. apply same_angles; [apply (Rmult_eq_reg_l h); [exact (eq_trans (eq_sym Px) Qx)|apply Rgt_not_eq; lra]|apply (Rmult_eq_reg_l h); [exact (eq_trans (eq_sym Pz) Qz)|apply Rgt_not_eq; lra]|]. apply (C k a az 180%Z); auto; lia. }
  split; [apply (W k az)|apply (W j el)]; assumption.
Qed.
