(** Proofs about the angles. *)
From Coq Require Import ZArith NArith Bool Reals Lra Lia Psatz Machin.
From Flocq Require Import Core.Core IEEE754.BinarySingleNaN Relative.
From Verif Require Import Position PositionSpec PositionFacts DirectionSpec.
Open Scope R_scope.
Notation pi := Rtrigo1.PI.

(** ** Real numbers *)
Lemma pi_bounds : 3.1415926 < pi < 3.1415927.
Proof.
  destruct (PI_2_3_7_ineq 4) as [A _]. destruct (PI_2_3_7_ineq 4) as [_ B].
  unfold PI_2_3_7_tg, Ratan_seq, tg_alt in A, B. cbn -[pi] in A, B. lra.
Qed.
Lemma atan_step a b : 0 <= a <= b -> 0 <= atan b - atan a <= (b - a) / (1 + a * a).
Proof.
  intros [Ha Hb]. destruct (Req_dec a b) as [->|N]. { unfold Rdiv. lra. }
  destruct (MVT_cor2 atan (fun x => / (1 + x ^ 2)) a b ltac:(lra)) as (c & E & Hc). { intros c _. apply derivable_pt_lim_atan. }
  rewrite E. assert (0 < 1 + a * a <= 1 + c ^ 2) as [P Q] by (split; [nra|cbn; nra]).
  assert (/ (1 + c ^ 2) <= / (1 + a * a)) as I by (apply Rinv_le_contravar; lra).
  assert (0 < / (1 + c ^ 2)) by (apply Rinv_0_lt_compat; lra). unfold Rdiv. split; [nra|]. rewrite Rmult_comm. apply Rmult_le_compat_l; lra.
Qed.
Lemma atan_rel_pos t q e : 0 <= t -> 0 <= e <= / 4 -> Rabs (q - t) <= e * t -> Rabs (atan q - atan t) <= e.
Proof.
  intros Ht He H. assert (t * (1 - e) <= q <= t * (1 + e)) as Q by (revert H; unfold Rabs; destruct Rcase_abs; lra).
  assert (forall a b, 0 <= a <= b -> b - a <= e * t -> 3 / 4 * t <= a -> 0 <= atan b - atan a <= e) as K.
  { intros a b Hab Hd Hl. destruct (atan_step a b Hab) as [A B]. split; [exact A|]. apply Rle_trans with (1 := B).
    apply (Rmult_le_reg_r (1 + a * a)); [nra|]. unfold Rdiv. rewrite Rmult_assoc, Rinv_l by nra. rewrite Rmult_1_r. apply Rle_trans with (1 := Hd). apply Rmult_le_compat_l; [lra|]. pose proof (Rle_0_sqr (a - 1)) as S. unfold Rsqr in S. lra. }
  destruct (Rle_dec t q) as [L|L].
  - destruct (K t q) as [A B]; [lra|lra|lra|]. rewrite Rabs_pos_eq; lra.
  - destruct (K q t) as [A B]; [nra|lra|nra|]. rewrite Rabs_left1; lra.
Qed.
Lemma atan_rel t q e : 0 <= e <= / 4 -> Rabs (q - t) <= e * Rabs t -> Rabs (atan q - atan t) <= e.
Proof.
  intros He H. destruct (Rle_dec 0 t) as [P|P]. { rewrite (Rabs_pos_eq t) in H by exact P. now apply atan_rel_pos. }
  rewrite (Rabs_left t) in H by lra. replace (atan q - atan t) with (- (atan (- q) - atan (- t))) by (rewrite !atan_opp; ring).
  rewrite Rabs_Ropp. apply atan_rel_pos; [lra|exact He|]. replace (- q - - t) with (- (q - t)) by ring. now rewrite Rabs_Ropp.
Qed.
Lemma atan_le x : 0 <= x -> 0 <= atan x <= x.
Proof. intros H. destruct (atan_step 0 x ltac:(lra)) as [A B]. rewrite atan_0 in A, B. unfold Rdiv in B. replace (1 + 0 * 0) with 1 in B by ring. rewrite Rinv_1 in B. lra. Qed.
(** Near a right angle. *)
Lemma atan_large t : 0 < t -> pi / 2 - / t <= atan t < pi / 2.
Proof. intros H. pose proof (atan_inv t H) as E. pose proof (Rinv_0_lt_compat t H). destruct (atan_le (/ t)) as [A B]; [lra|]. pose proof (atan_bound t). lra. Qed.
Lemma atan_lip a b : Rabs (atan a - atan b) <= Rabs (a - b).
Proof.
  assert (forall a b, a < b -> 0 <= atan b - atan a <= b - a) as K.
  { clear. intros a b H. destruct (MVT_cor2 atan (fun x => / (1 + x ^ 2)) a b H) as (c & E & _). { intros c _. apply derivable_pt_lim_atan. }
    rewrite E. assert (1 <= 1 + c ^ 2) by (cbn; nra). assert (0 < / (1 + c ^ 2)) by (apply Rinv_0_lt_compat; lra).
    assert (/ (1 + c ^ 2) <= 1) by (rewrite <- Rinv_1; apply Rinv_le_contravar; lra). nra. }
  destruct (Rtotal_order a b) as [L|[->|L]].
  - specialize (K a b L). rewrite !Rabs_left1 by lra. lra.
  - unfold Rminus. rewrite !Rplus_opp_r. lra.
  - specialize (K b a L). rewrite !Rabs_pos_eq by lra. lra.
Qed.
(** The angle of a vector of the plane. *)
Lemma angle_right x z : 0 < z -> x = sqrt (x * x + z * z) * sin (atan (x / z)) /\ z = sqrt (x * x + z * z) * cos (atan (x / z)).
Proof.
  intros Hz. rewrite sin_atan, cos_atan. set (t := x / z). assert (x = t * z) as E by (unfold t; field; lra). clearbody t. subst x.
  assert (0 < sqrt (1 + Rsqr t)) as P by (apply sqrt_lt_R0; pose proof (Rle_0_sqr t); lra).
  replace (t * z * (t * z) + z * z) with (z * z * (1 + Rsqr t)) by (unfold Rsqr; ring).
  rewrite sqrt_mult_alt by nra. rewrite sqrt_square by lra. split; field; lra.
Qed.
Lemma angle_left x z (s : bool) : z < 0 -> let a := atan (x / z) + (if s then - pi else pi) in
  x = sqrt (x * x + z * z) * sin a /\ z = sqrt (x * x + z * z) * cos a.
Proof.
  intros Hz a. destruct (angle_right (- x) (- z) ltac:(lra)) as [A B]. replace (- x * - x + - z * - z) with (x * x + z * z) in A, B by ring.
  replace (- x / - z) with (x / z) in A, B by (field; lra).
  assert (sin a = - sin (atan (x / z)) /\ cos a = - cos (atan (x / z))) as [-> ->].
  { unfold a. destruct s; [|split; [apply neg_sin|apply neg_cos]].
    set (b := atan (x / z)). replace b with (b + - pi + pi) at 2 4 by ring. rewrite neg_sin, neg_cos. split; ring. }
  split; lra.
Qed.

(** ** Rounding errors *)
Definition eta : R := bpow radix2 (-150).
Lemma eta_small : 0 < eta < / 1000000000000000000.
Proof.
  split; [apply bpow_gt_0|]. unfold eta. apply Rlt_trans with (bpow radix2 (-100)); [apply bpow_lt; lia|]. cbn. lra.
Qed.
Lemma u_eq : u = / 16777216.
Proof. unfold u. cbn. lra. Qed.
Lemma rnd_err r : exists e h, rnd r = r * (1 + e) + h /\ Rabs e <= u /\ Rabs h <= eta.
Proof.
  destruct (error_N_FLT radix2 (-149) 24 ltac:(lia) (fun x => negb (Z.even x)) r) as (e & h & He & Hh & _ & E). exists e, h.
  split; [exact E|]. split.
  - apply Rle_trans with (1 := He). unfold u. cbn. lra.
  - apply Rle_trans with (1 := Hh). unfold eta. change (-150)%Z with (-149 + -1)%Z. rewrite bpow_plus. change (bpow radix2 (-1)) with (/ 2). lra.
Qed.
Lemma rnd_near r : Rabs (rnd r - r) <= u * Rabs r + eta.
Proof.
  destruct (rnd_err r) as (e & h & -> & He & Hh). replace (r * (1 + e) + h - r) with (r * e + h) by ring.
  eapply Rle_trans; [apply Rabs_triang|]. rewrite Rabs_mult. pose proof (Rabs_pos r). pose proof (Rabs_pos e). nra.
Qed.
Lemma fdiv_cases (x y : f32) : is_finite x = true -> is_finite y = true -> B2R y <> 0 ->
  (is_finite (fdiv x y) = true /\ B2R (fdiv x y) = rnd (B2R x / B2R y))
  \/ exists s, fdiv x y = B754_infinity s /\ if s then B2R x / B2R y <= - bpow radix2 127 else bpow radix2 127 <= B2R x / B2R y.
Proof.
  intros Fx Fy Ny. generalize (Bdiv_correct 24 128 _ _ mode_NE x y Ny). cbn [round_mode]. change (Bdiv mode_NE x y) with (fdiv x y). case Rlt_bool_spec; intros O.
  - intros (E & F & _). rewrite Fx in F. now left.
  - right. exists (xorb (Bsign x) (Bsign y)). unfold binary_overflow in H. cbn [overflow_to_inf] in H.
    assert (fdiv x y = B754_infinity (xorb (Bsign x) (Bsign y))) as E. { destruct (fdiv x y); try discriminate H. cbn in H. injection H as ->. reflexivity. }
    split; [exact E|]. assert (bpow radix2 127 <= Rabs (B2R x / B2R y)) as L.
    { apply Rnot_lt_le. intros L. apply Rlt_le in L. apply (rnd_abs_le _ 127 ltac:(lia)) in L.
      pose proof (bpow_lt radix2 127 128 ltac:(lia)). lra. }
    pose proof (sign_of x Fx) as Sx. pose proof (sign_of y Fy) as Sy.
    assert (forall a b, 0 <= a -> 0 < b -> 0 <= a / b) as D. { intros a b Ha Hb. apply Rmult_le_pos; [exact Ha|]. apply Rlt_le, Rinv_0_lt_compat, Hb. }
    destruct (Bsign x), (Bsign y); cbn [xorb].
    + rewrite Rabs_pos_eq in L; [exact L|]. replace (B2R x / B2R y) with (- B2R x / - B2R y) by (field; lra). apply D; lra.
    + rewrite Rabs_left1 in L; [lra|]. specialize (D (- B2R x) (B2R y) ltac:(lra) ltac:(lra)). unfold Rdiv in *. lra.
    + rewrite Rabs_left1 in L; [lra|]. specialize (D (B2R x) (- B2R y) ltac:(lra) ltac:(lra)). replace (B2R x / - B2R y) with (- (B2R x / B2R y)) in D by (field; lra). lra.
    + rewrite Rabs_pos_eq in L; [exact L|]. apply D; lra.
Qed.

Section Angle.
Context (fatan : f32 -> f32) (Ha : accurate_atan fatan).
Lemma quotient_angle (x y : f32) : is_finite x = true -> is_finite y = true -> B2R y <> 0 ->
  is_finite (fatan (fdiv x y)) = true /\ Rabs (B2R (fatan (fdiv x y)) - atan (B2R x / B2R y)) <= / 1000000.
Proof.
  intros Fx Fy Ny. destruct (fdiv_ok x y Fx Fy Ny) as [Nn _]. destruct (Ha _ Nn) as [Fa A]. split; [exact Fa|]. pose proof eta_small as Et. pose proof u_pos as Up.
  destruct (fdiv_cases x y Fx Fy Ny) as [[F E]|(s & E & L)].
  - assert (Rabs (B2R (fatan (fdiv x y)) - atan (B2R (fdiv x y))) <= / 2097152) as A'. { destruct (fdiv x y); try discriminate F; exact A. }
    rewrite E in A'. destruct (rnd_err (B2R x / B2R y)) as (e & h & E' & He & Hh). rewrite E' in A'. set (t := B2R x / B2R y) in *.
    assert (Rabs (atan (t * (1 + e) + h) - atan (t * (1 + e))) <= eta) as B1.
    { eapply Rle_trans; [apply atan_lip|]. replace (t * (1 + e) + h - t * (1 + e)) with h by ring. exact Hh. }
    assert (Rabs (atan (t * (1 + e)) - atan t) <= u) as B2.
    { apply atan_rel; [lra|]. replace (t * (1 + e) - t) with (e * t) by ring. rewrite Rabs_mult. apply Rmult_le_compat_r; [apply Rabs_pos|exact He]. }
    set (a := B2R (fatan (fdiv x y))) in *. replace (a - atan t) with ((a - atan (t * (1 + e) + h)) + (atan (t * (1 + e) + h) - atan (t * (1 + e))) + (atan (t * (1 + e)) - atan t)) by ring.
    eapply Rle_trans; [apply Rabs_triang|]. eapply Rle_trans; [apply Rplus_le_compat_r, Rabs_triang|]. pose proof u_eq. lra.
  - rewrite E in A |- *. assert (bpow radix2 127 >= 1000000000) as P127. { apply Rle_ge. apply Rle_trans with (bpow radix2 40); [cbn; lra|apply bpow_le; lia]. }
    set (t := B2R x / B2R y) in *.
    assert (Rabs ((if s then - (pi / 2) else pi / 2) - atan t) <= / 1000000000) as B.
    { assert (forall t, 1000000000 <= t -> Rabs (pi / 2 - atan t) <= / 1000000000) as K.
      { clear. intros t H. destruct (atan_large t) as [A B]; [lra|]. assert (/ t <= / 1000000000) by (apply Rinv_le_contravar; lra). rewrite Rabs_pos_eq; lra. }
      destruct s; [|apply K; lra]. specialize (K (- t) ltac:(lra)). rewrite atan_opp in K. rewrite <- Rabs_Ropp. replace (- (- (pi / 2) - atan t)) with (pi / 2 - - atan t) by ring. exact K. }
    set (a := B2R (fatan _)) in *. set (c := if s then _ else _) in *. replace (a - atan t) with ((a - c) + (c - atan t)) by ring.
    eapply Rle_trans; [apply Rabs_triang|]. lra.
Qed.

Lemma right_angle : Rabs (B2R FRAC_PI_2 - pi / 2) <= / 10000000 /\ Rabs (B2R PI - pi) <= / 5000000.
Proof.
  destruct PI_ok as [-> _], FRAC_PI_2_ok as [-> _]. pose proof pi_bounds. split; apply Rabs_le; lra.
Qed.
Lemma near_trans a b c e f g : Rabs (a - b) <= e -> Rabs (b - c) <= f -> e + f <= g -> Rabs (a - c) <= g.
Proof. intros A B G. replace (a - c) with ((a - b) + (b - c)) by ring. eapply Rle_trans; [apply Rabs_triang|]. lra. Qed.
Lemma near_plus a b c d e f g : Rabs (a - b) <= e -> Rabs (c - d) <= f -> e + f <= g -> Rabs (a + c - (b + d)) <= g.
Proof. intros A B G. replace (a + c - (b + d)) with ((a - b) + (c - d)) by ring. eapply Rle_trans; [apply Rabs_triang|]. lra. Qed.
Lemma near_opp a b e : Rabs (a - b) <= e -> Rabs (- a - - b) <= e.
Proof. intros A. replace (- a - - b) with (- (a - b)) by ring. now rewrite Rabs_Ropp. Qed.
Lemma near_refl a e : 0 <= e -> Rabs (a - a) <= e.
Proof. intros A. unfold Rminus. now rewrite Rplus_opp_r, Rabs_R0. Qed.

Lemma azimuth_angle (v : vec3) : good_atan fatan -> is_finite (vx v) = true -> is_finite (vz v) = true ->
  exists a, let x := B2R (vx v) in let z := B2R (vz v) in
  x = sqrt (x * x + z * z) * sin a /\ z = sqrt (x * x + z * z) * cos a /\ Rabs (B2R (azimuth fatan v) - a) <= / 500000.
Proof.
  intros Hg Fx Fz. destruct zero_ok as [E0 F0], PI_ok as [Ep Fp], FRAC_PI_2_ok as [Eh Fh], right_angle as [Rh Rp].
  destruct (signum_mul (vx v) FRAC_PI_2 Fx Fh) as [F1 E1]; [rewrite Eh, Rabs_pos_eq; lra|].
  destruct (signum_mul (vx v) PI Fx Fp) as [F2 E2]; [rewrite Ep, Rabs_pos_eq; lra|].
  destruct (Req_dec (B2R (vz v)) 0) as [Hz|Hz]; [destruct (Req_dec (B2R (vx v)) 0) as [Hx|Hx]|].
  - exists (B2R (azimuth fatan v)). cbn zeta. rewrite Hx, Hz. replace (0 * 0 + 0 * 0) with 0 by ring. rewrite sqrt_0. repeat split; try ring. apply near_refl. lra.
  - exists (if Bsign (vx v) then - (pi / 2) else pi / 2). cbn zeta. rewrite Hz. replace (B2R (vx v) * B2R (vx v) + 0 * 0) with (Rsqr (B2R (vx v))) by (unfold Rsqr; ring). rewrite sqrt_Rsqr_abs.
    pose proof (sign_of _ Fx) as Sx. split; [|split].
    + destruct (Bsign (vx v)); rewrite ?sin_neg, sin_PI2; [rewrite Rabs_left1 by lra|rewrite Rabs_pos_eq by lra]; ring.
    + destruct (Bsign (vx v)); rewrite ?cos_neg, cos_PI2; ring.
    + unfold azimuth, checked_div. rewrite !Beqb_correct, Bleb_correct by assumption. rewrite E0, Hz, (Req_bool_true 0 0 eq_refl), (Req_bool_false _ _ Hx), Rle_bool_true by lra.
      destruct (fadd_ok (fmul (signum (vx v)) FRAC_PI_2) zero 2 ltac:(lia) F1 F0) as [E F].
      { rewrite E1, E0, Rplus_0_r. destruct (Bsign (vx v)); rewrite ?Rabs_Ropp, Rabs_pos_eq by lra; rewrite Eh; cbn; lra. }
      rewrite E, E0, Rplus_0_r, rnd_id, E1. destruct (Bsign (vx v)); [apply near_opp|]; lra.
  - destruct (quotient_angle _ _ Fx Fz Hz) as [Fq Q].
    assert (Beqb (vz v) zero = false) as Hb by (rewrite Beqb_correct by assumption; rewrite E0; now apply Req_bool_false).
    destruct (azimuth_ok fatan Hg v Fx Fz) as [_ Bz].
    destruct (Rle_dec 0 (B2R (vz v))) as [P|P].
    + exists (atan (B2R (vx v) / B2R (vz v))). cbn zeta. destruct (angle_right (B2R (vx v)) (B2R (vz v)) ltac:(lra)) as [A B]. split; [exact A|]. split; [exact B|].
      unfold azimuth, checked_div. rewrite Hb, Bleb_correct by assumption. rewrite E0, Rle_bool_true by lra.
      destruct (fadd_ok (fatan (fdiv (vx v) (vz v))) zero 2 ltac:(lia) Fq F0) as [E _].
      { rewrite E0, Rplus_0_r. destruct (fdiv_ok _ _ Fx Fz Hz) as [Nv _]. destruct (Hg _ Nv) as (_ & Ba & _). rewrite Eh in Ba. cbn. lra. }
      rewrite E, E0, Rplus_0_r, rnd_id. lra.
    + exists (atan (B2R (vx v) / B2R (vz v)) + (if Bsign (vx v) then - pi else pi)). cbn zeta. destruct (angle_left (B2R (vx v)) (B2R (vz v)) (Bsign (vx v)) ltac:(lra)) as [A B]. split; [exact A|]. split; [exact B|].
      revert Bz. unfold azimuth, checked_div. rewrite Hb, Bleb_correct by assumption. rewrite E0, Rle_bool_false by lra. intros Bz.
      set (s := B2R (fatan (fdiv (vx v) (vz v))) + B2R (fmul (signum (vx v)) PI)).
      assert (Rabs (s - (atan (B2R (vx v) / B2R (vz v)) + (if Bsign (vx v) then - pi else pi))) <= 12 / 10000000) as N.
      { unfold s. rewrite E2. eapply near_plus; [exact Q| |]; [instantiate (1 := / 5000000)|lra]. destruct (Bsign (vx v)); [apply near_opp|]; exact Rp. }
      assert (Rabs s <= 7) as B7.
      { unfold s. rewrite E2. eapply Rle_trans; [apply Rabs_triang|]. destruct (fdiv_ok _ _ Fx Fz Hz) as [Nv _]. destruct (Hg _ Nv) as (_ & Ba & _). rewrite Eh in Ba. rewrite Ep.
        destruct (Bsign (vx v)); rewrite ?Rabs_Ropp, (Rabs_pos_eq (13176795 / 4194304)) by lra; lra. }
      destruct (fadd_ok (fatan (fdiv (vx v) (vz v))) (fmul (signum (vx v)) PI) 3 ltac:(lia) Fq F2) as [E _]; [fold s; cbn; lra|]. rewrite E. fold s.
      eapply near_trans; [apply rnd_near|exact N|]. pose proof u_eq as U. pose proof eta_small. pose proof u_pos. nra.
Qed.

(** The horizontal distance. *)
Lemma horizontal_ok (v : vec3) : bnd (vx v) 40 -> bnd (vz v) 40 ->
  let h := sqrt (B2R (vx v) * B2R (vx v) + B2R (vz v) * B2R (vz v)) in
  let c := fsqrt (fadd (fmul (vx v) (vx v)) (fmul (vz v) (vz v))) in
  is_finite c = true /\ 0 <= B2R c /\ (bpow radix2 (-60) <= h -> Rabs (B2R c - h) <= 8 * u * h) /\ (h <= bpow radix2 (-60) -> B2R c <= bpow radix2 (-55)).
Proof.
  intros [Fx Bx] [Fz Bz]. cbn zeta. set (x := B2R (vx v)). set (z := B2R (vz v)).
  assert (forall w : f32, is_finite w = true -> Rabs (B2R w) <= bpow radix2 40 -> B2R (fmul w w) = rnd (B2R w * B2R w) /\ is_finite (fmul w w) = true /\ Rabs (B2R w * B2R w) <= bpow radix2 80) as Sq.
  { intros w Fw Bw. assert (Rabs (B2R w * B2R w) <= bpow radix2 80) as B. { rewrite Rabs_mult. change 80%Z with (40 + 40)%Z. rewrite bpow_plus. apply Rmult_le_compat; auto using Rabs_pos. }
    destruct (fmul_ok w w 80 ltac:(lia) Fw Fw B) as (E & F & _). auto. }
  destruct (Sq _ Fx Bx) as (E1 & F1 & B1), (Sq _ Fz Bz) as (E2 & F2 & B2). fold x in E1, B1. fold z in E2, B2. clear Sq.
  assert (0 <= rnd (x * x)) as P1. { rewrite <- rnd_0. apply round_le; try typeclasses eauto. nra. }
  assert (0 <= rnd (z * z)) as P2. { rewrite <- rnd_0. apply round_le; try typeclasses eauto. nra. }
  destruct (fadd_ok (fmul (vx v) (vx v)) (fmul (vz v) (vz v)) 81 ltac:(lia) F1 F2) as [E3 F3].
  { rewrite E1, E2. change 81%Z with (80 + 1)%Z. rewrite <- double. eapply Rle_trans; [apply Rabs_triang|]. apply Rplus_le_compat; apply rnd_abs_le; auto; lia. }
  rewrite E1, E2 in E3. set (s := fadd (fmul (vx v) (vx v)) (fmul (vz v) (vz v))) in *.
  assert (0 <= B2R s) as P3. { rewrite E3, <- rnd_0. apply round_le; try typeclasses eauto. lra. }
  destruct (fsqrt_ok s F3 P3) as [E4 F4]. split; [exact F4|].
  assert (0 <= B2R (fsqrt s)) as P4. { rewrite E4, <- rnd_0. apply round_le; try typeclasses eauto. apply sqrt_pos. }
  split; [exact P4|].
  pose proof (rnd_near (x * x)) as N1. pose proof (rnd_near (z * z)) as N2. pose proof (rnd_near (rnd (x * x) + rnd (z * z))) as N3. pose proof (rnd_near (sqrt (B2R s))) as N4.
  rewrite <- E3 in N3. rewrite <- E4 in N4. rewrite (Rabs_pos_eq (x * x)) in N1 by nra. rewrite (Rabs_pos_eq (z * z)) in N2 by nra. rewrite (Rabs_pos_eq (_ + _)) in N3 by lra. rewrite (Rabs_pos_eq (sqrt _)) in N4 by apply sqrt_pos.
  assert (0 <= x * x + z * z) as Ph by nra. set (q := x * x + z * z) in *. set (h := sqrt q) in *. assert (h * h = q) as Hq by (apply sqrt_sqrt; exact Ph). assert (0 <= h) as P0 by apply sqrt_pos.
  pose proof u_eq as U. pose proof eta_small as Et.
  assert (Rabs (B2R s - q) <= 3 * u * q + 4 * eta) as S.
  { apply Rabs_le_inv in N1, N2, N3. rewrite U in *. apply Rabs_le. unfold q in *. nra. }
  clear N1 N2 N3 E1 E2 E3 P1 P2 B1 B2. apply Rabs_le_inv in S.
  assert (sqrt (B2R s) * sqrt (B2R s) = B2R s) as Hs by (apply sqrt_sqrt; exact P3). assert (0 <= sqrt (B2R s)) as P5 by apply sqrt_pos. set (g := sqrt (B2R s)) in *.
  assert (bpow radix2 (-60) * bpow radix2 (-60) = bpow radix2 30 * eta) as Pw. { unfold eta. rewrite <- !bpow_plus. reflexivity. }
  assert (bpow radix2 30 = 1073741824) as P30 by reflexivity. assert (0 < bpow radix2 (-60)) as P60 by apply bpow_gt_0.
  apply Rabs_le_inv in N4. split; intros H.
  - assert (4 * eta <= u * q) as Eu. { rewrite U, <- Hq. assert (bpow radix2 (-60) * bpow radix2 (-60) <= h * h) by (apply Rmult_le_compat; lra). nra. }
    assert (eta <= u * h) as Eh. { assert (h <= 1 \/ 1 <= h) as [L|L] by lra; [|rewrite U; nra]. assert (h * h <= h) by nra. rewrite U in *. rewrite <- Hq in Eu. nra. }
    assert (h * (1 - 4 * u) <= g) as G1. { apply Rsqr_incr_0_var; [|exact P5]. unfold Rsqr. rewrite Hs. rewrite U in *. nra. }
    assert (g <= h * (1 + 4 * u)) as G2. { apply Rsqr_incr_0_var; [|rewrite U; nra]. unfold Rsqr. rewrite Hs. rewrite U in *. nra. }
    apply Rabs_le. rewrite U in *. split; nra.
  - assert (g <= 2 * bpow radix2 (-60)) as G. { apply Rsqr_incr_0_var; [|lra]. unfold Rsqr. rewrite Hs. assert (h * h <= bpow radix2 (-60) * bpow radix2 (-60)) by (apply Rmult_le_compat; lra). rewrite U in *. nra. }
    assert (eta <= bpow radix2 (-60)) as Ee by (apply bpow_le; lia).
    assert (bpow radix2 (-55) = 32 * bpow radix2 (-60)) as -> by (change (-55)%Z with (5 + -60)%Z; now rewrite bpow_plus). rewrite U in *. nra.
Qed.

Lemma steep y h : 0 < h -> h <= bpow radix2 (-54) -> / 8 <= Rabs y -> Rabs (atan (y / h) - (if Rle_dec 0 y then pi / 2 else - (pi / 2))) <= / 1000000000.
Proof.
  intros Ph Hh Hy.
  assert (forall y, / 8 <= y -> Rabs (atan (y / h) - pi / 2) <= / 1000000000) as K.
  { clear y Hy. intros y Hy. assert (0 < y / h) as P by (apply Rmult_lt_0_compat; [lra|now apply Rinv_0_lt_compat]).
    destruct (atan_large (y / h) P) as [A B]. assert (/ (y / h) <= / 1000000000) as C.
    { replace (/ (y / h)) with (h * / y) by (field; lra). assert (/ y <= / / 8) as D by (apply Rinv_le_contravar; lra). rewrite Rinv_inv in D.
      assert (bpow radix2 (-54) <= / 10000000000) as E. { apply Rle_trans with (bpow radix2 (-40)); [apply bpow_le; lia|cbn; lra]. }
      assert (0 < / y) by (apply Rinv_0_lt_compat; lra). apply Rle_trans with (h * 8); [apply Rmult_le_compat_l; lra|lra]. }
    apply Rabs_le. lra. }
  destruct (Rle_dec 0 y) as [P|P].
  - apply K. rewrite Rabs_pos_eq in Hy; lra.
  - rewrite Rabs_left in Hy by lra. specialize (K (- y) Hy). replace (- y / h) with (- (y / h)) in K by (field; lra). rewrite atan_opp in K.
    apply near_opp in K. now rewrite Ropp_involutive in K.
Qed.
Lemma elevation_angle (v : vec3) : good_atan fatan -> bnd (vx v) 40 -> is_finite (vy v) = true -> bnd (vz v) 40 ->
  let x := B2R (vx v) in let y := B2R (vy v) in let z := B2R (vz v) in
  / 4 <= x * x + y * y + z * z ->
  exists e, y = sqrt (x * x + y * y + z * z) * sin e /\ sqrt (x * x + z * z) = sqrt (x * x + y * y + z * z) * cos e
    /\ Rabs (B2R (elevation fatan v) - e) <= / 500000.
Proof.
  intros Hg Bx Fy Bz. cbn zeta. destruct zero_ok as [E0 F0], FRAC_PI_2_ok as [Eh Fh], right_angle as [Rh _].
  destruct (horizontal_ok v Bx Bz) as (Fc & Pc & Near & Far). set (x := B2R (vx v)) in *. set (y := B2R (vy v)) in *. set (z := B2R (vz v)) in *.
  set (c := fsqrt _) in *. intros Big. set (h := sqrt (x * x + z * z)) in *. assert (0 <= x * x + z * z) as Pq by nra. assert (0 <= h) as Ph by apply sqrt_pos.
  assert (h * h = x * x + z * z) as Hq by (apply sqrt_sqrt; exact Pq).
  replace (x * x + y * y + z * z) with (y * y + h * h) in * by lra.
  destruct (signum_mul (vy v) FRAC_PI_2 Fy Fh) as [F1 E1]; [rewrite Eh, Rabs_pos_eq; lra|]. pose proof (sign_of _ Fy) as Sy. fold y in Sy. pose proof u_eq as U.
  (* what is computed *)
  assert (B2R c = 0 \/ 0 < B2R c) as Cc by lra.
  assert (B2R c = 0 -> B2R (elevation fatan v) = if Bsign (vy v) then - B2R FRAC_PI_2 else B2R FRAC_PI_2) as V0.
  { intros C. unfold elevation, checked_div. fold c. rewrite Beqb_correct by assumption. rewrite E0, C, (Req_bool_true 0 0 eq_refl). exact E1. }
  assert (0 < B2R c -> Rabs (B2R (elevation fatan v) - atan (y / B2R c)) <= / 1000000) as V1.
  { intros C. unfold elevation, checked_div. fold c. rewrite Beqb_correct by assumption. rewrite E0, Req_bool_false by lra. now apply quotient_angle; try lra. }
  destruct (Rle_dec (bpow radix2 (-60)) h) as [L|L].
  - specialize (Near L). clear Far. assert (0 < h) as Ph' by (pose proof (bpow_gt_0 radix2 (-60)); lra). exists (atan (y / h)).
    destruct (angle_right y h Ph') as [A B]. split; [exact A|]. split; [exact B|]. apply Rabs_le_inv in Near. assert (h / 2 <= B2R c) as Lc by (rewrite U in Near; nra).
    eapply near_trans; [apply V1; lra|apply (atan_rel (y / h) (y / B2R c) (16 * u)); [rewrite U; lra|]|rewrite U; lra].
    replace (y / B2R c - y / h) with ((y / h) * ((h - B2R c) / B2R c)) by (field; lra). rewrite Rabs_mult, Rmult_comm. apply Rmult_le_compat_r; [apply Rabs_pos|].
    unfold Rdiv. rewrite Rabs_mult, (Rabs_pos_eq (/ _)) by (apply Rlt_le, Rinv_0_lt_compat; lra). apply (Rmult_le_reg_r (B2R c)); [lra|]. rewrite Rmult_assoc, Rinv_l by lra. rewrite Rmult_1_r.
    apply Rabs_le. rewrite U in *. split; nra.
  - specialize (Far ltac:(lra)). clear Near. assert (bpow radix2 (-60) <= / 1000) as P60. { apply Rle_trans with (bpow radix2 (-20)); [apply bpow_le; lia|cbn; lra]. }
    assert (bpow radix2 (-60) <= bpow radix2 (-54)) as P54 by (apply bpow_le; lia). assert (bpow radix2 (-55) <= bpow radix2 (-54)) as P55 by (apply bpow_le; lia).
    assert (/ 8 <= Rabs y) as Hy.
    { destruct (Rle_dec (/ 8) (Rabs y)) as [?|N]; [assumption|exfalso]. assert (y * y <= / 64) as Y2. { rewrite <- (Rabs_pos_eq (y * y)) by nra. rewrite Rabs_mult. pose proof (Rabs_pos y). nra. } nra. }
    assert (Rabs (B2R (elevation fatan v) - (if Rle_dec 0 y then pi / 2 else - (pi / 2))) <= 11 / 10000000) as V.
    { destruct Cc as [C|C].
      - rewrite (V0 C). destruct (Bsign (vy v)), (Rle_dec 0 y) as [Q|Q].
        + assert (y = 0) as Y0 by lra. rewrite Y0, Rabs_R0 in Hy. lra.
        + apply near_opp in Rh. lra.
        + lra.
        + lra.
      - eapply near_trans; [exact (V1 C)|apply steep; [exact C|lra|exact Hy]|lra]. }
    destruct (Req_dec h 0) as [H0|H0].
    + exists (if Rle_dec 0 y then pi / 2 else - (pi / 2)). rewrite H0. replace (y * y + 0 * 0) with (Rsqr y) by (unfold Rsqr; ring). rewrite sqrt_Rsqr_abs.
      split; [|split; [|lra]].
      * destruct (Rle_dec 0 y) as [Q|Q]; rewrite ?sin_neg, sin_PI2; [rewrite Rabs_pos_eq by lra|rewrite Rabs_left by lra]; ring.
      * destruct (Rle_dec 0 y) as [Q|Q]; rewrite ?cos_neg, cos_PI2; ring.
    + exists (atan (y / h)). assert (0 < h) as Ph' by lra. destruct (angle_right y h Ph') as [A B]. split; [exact A|]. split; [exact B|].
      eapply near_trans; [exact V| |]; [rewrite Rabs_minus_sym; apply steep; [exact Ph'|lra|exact Hy]|lra].
Qed.
End Angle.

(** ** Degrees *)
Lemma degree_ok (a : f32) b : is_finite a = true -> Rabs (B2R a) <= B2R PI -> Rabs (B2R a - b) <= / 500000 ->
  is_finite (fround (to_degrees a)) = true /\ nearest_degree (Ztrunc (B2R (fround (to_degrees a)))) b.
Proof.
  intros Fa Ba Hb. destruct PI_ok as [Ep Fp], DEG_ok as [ED FD]. rewrite Ep in Ba.
  destruct (fmul_ok a (lit 15019745 (-18)) 8 ltac:(lia) Fa FD) as (E & F & _).
  { rewrite Rabs_mult, ED. rewrite (Rabs_pos_eq (15019745 / 262144)) by lra. cbn. pose proof (Rabs_pos (B2R a)). nra. }
  change (fmul a (lit 15019745 (-18))) with (to_degrees a) in E, F. rewrite ED in E.
  destruct (Bnearbyint_correct 24 128 _ mode_NA (to_degrees a)) as (E3 & F3 & _). change (Bnearbyint mode_NA (to_degrees a)) with (fround (to_degrees a)) in E3, F3. rewrite F in F3. split; [exact F3|].
  cbn [round_mode] in E3.
  assert (Rabs (B2R (fround (to_degrees a)) - B2R (to_degrees a)) <= / 2) as R1.
  { rewrite E3. pose proof (error_le_half_ulp radix2 (FIX_exp 0) (Zle_bool 0) (B2R (to_degrees a))) as H. rewrite ulp_FIX in H. change (bpow radix2 0) with 1 in H. rewrite Rmult_1_r in H. exact H. }
  assert (B2R (fround (to_degrees a)) = IZR (Ztrunc (B2R (fround (to_degrees a))))) as I.
  { rewrite E3. unfold round, F2R. cbn [Fnum Fexp cexp FIX_exp]. unfold cexp, FIX_exp. change (bpow radix2 0) with 1. rewrite Rmult_1_r. now rewrite Ztrunc_IZR. }
  unfold nearest_degree. rewrite <- I. pose proof (rnd_near (B2R a * (15019745 / 262144))) as R2. rewrite <- E in R2.
  assert (Rabs (B2R a * (15019745 / 262144) - b * (180 / pi)) <= / 5000) as R3.
  { pose proof pi_bounds as Pb. set (d := 180 / pi).
    assert (57.2957786 <= d <= 57.2957805) as D.
    { assert (d * pi = 180) as Hd by (unfold d; field; lra). split; nra. }
    replace (B2R a * (15019745 / 262144) - b * d) with (B2R a * (15019745 / 262144 - d) + (B2R a - b) * d) by ring.
    eapply Rle_trans; [apply Rabs_triang|]. rewrite !Rabs_mult, (Rabs_pos_eq d) by lra.
    assert (Rabs (15019745 / 262144 - d) <= / 300000) as D' by (apply Rabs_le; lra).
    pose proof (Rabs_pos (B2R a)). pose proof (Rabs_pos (B2R a - b)). pose proof (Rabs_pos (15019745 / 262144 - d)).
    assert (Rabs (B2R a) * Rabs (15019745 / 262144 - d) <= 3.15 * / 300000) by (apply Rmult_le_compat; lra).
    assert (Rabs (B2R a - b) * d <= / 500000 * 57.2957805) by (apply Rmult_le_compat; lra). lra. }
  assert (Rabs (B2R a * (15019745 / 262144)) <= 181) as B1.
  { rewrite Rabs_mult, (Rabs_pos_eq (15019745 / 262144)) by lra. nra. }
  pose proof u_eq as U. pose proof eta_small as Et. rewrite U in R2.
  eapply near_trans; [exact R1| |]; [eapply near_trans; [exact R2|exact R3|apply Rle_refl]|]. lra.
Qed.
Lemma measured fatan self other r a e : accurate_atan fatan -> good_atan fatan ->
  let d := mul_vec3 (p_rotation self) (vsub (p_position other) (p_position self)) in
  bvec d 40 -> / 4 <= B2R (vx d) * B2R (vx d) + B2R (vy d) * B2R (vy d) + B2R (vz d) * B2R (vz d) ->
  compute_range_azimuth_elevation fatan self other = Some (r, a, e) ->
  exists az el, points (B2R (vx d)) (B2R (vy d)) (B2R (vz d)) az el /\ nearest_degree a az /\ nearest_degree e el.
Proof.
  intros Ha Hg d (Bx & By & Bz) Big C. pose proof (compute_some _ _ _ _ _ _ C) as (_ & Ra & Re).
  destruct (azimuth_angle fatan Ha d Hg (proj1 Bx) (proj1 Bz)) as (az & A1 & A2 & A3).
  destruct (elevation_angle fatan Ha d Hg Bx (proj1 By) Bz Big) as (el & L1 & L2 & L3).
  destruct (azimuth_ok fatan Hg d (proj1 Bx) (proj1 Bz)) as [Fz Hz]. destruct (elevation_ok fatan Hg d Bx (proj1 By) Bz) as [Fe He].
  destruct (degree_ok _ az Fz Hz A3) as [F1 D1]. destruct (degree_ok _ el Fe) as [F2 D2].
  { destruct PI_ok as [-> _], FRAC_PI_2_ok as [Eh _]. rewrite Eh in He. lra. }
  { exact L3. }
  exists az, el. split; [split; [exact A1|split; [exact A2|split; [exact L1|exact L2]]]|].
  revert C. unfold compute_range_azimuth_elevation. fold d. destruct (_ && _); [|discriminate]. intros [= _ <- <-].
  unfold as_i16, as_i8 in *. rewrite !saturate_ok in * by assumption. 
  split; [replace (Z.max _ _) with (Ztrunc (B2R (fround (to_degrees (azimuth fatan d))))) by lia; exact D1|].
  replace (Z.max _ _) with (Ztrunc (B2R (fround (to_degrees (elevation fatan d))))) by lia. exact D2.
Qed.
