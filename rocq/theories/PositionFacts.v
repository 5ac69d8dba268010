(** Proofs about the geometry. *)
From Coq Require Import ZArith NArith Bool Reals Lra Lia Psatz.
From Flocq Require Import Core.Core IEEE754.BinarySingleNaN Relative.
From Verif Require Import Position PositionSpec.
Open Scope R_scope.

Notation fexp32 := (SpecFloat.fexp 24 128).
Notation rnd := (round radix2 fexp32 ZnearestE).
#[global] Instance valid_fexp32 : Valid_exp fexp32 := fexp_correct 24 128 prec32.
#[global] Instance mono_fexp32 : Monotone_exp fexp32 := fexp_monotone 24 128.

Lemma bpow_format k : (-149 <= k)%Z -> generic_format radix2 fexp32 (bpow radix2 k).
Proof. intros H. apply generic_format_bpow. unfold SpecFloat.fexp, SpecFloat.emin. lia. Qed.
Lemma rnd_abs_le r k : (-149 <= k)%Z -> Rabs r <= bpow radix2 k -> Rabs (rnd r) <= bpow radix2 k.
Proof. intros Hk H. apply abs_round_le_generic; [typeclasses eauto|typeclasses eauto|now apply bpow_format|exact H]. Qed.
Lemma rnd_le r s : generic_format radix2 fexp32 s -> r <= s -> rnd r <= s.
Proof. intros. now apply round_le_generic; try typeclasses eauto. Qed.
Lemma rnd_ge r s : generic_format radix2 fexp32 s -> s <= r -> s <= rnd r.
Proof. intros. now apply round_ge_generic; try typeclasses eauto. Qed.
Lemma rnd_opp r : rnd (- r) = - rnd r.
Proof. apply round_NE_opp. Qed.
Lemma rnd_0 : rnd 0 = 0.
Proof. apply round_0. typeclasses eauto. Qed.
Lemma b2r_format (x : f32) : generic_format radix2 fexp32 (B2R x).
Proof. apply generic_format_B2R. Qed.
Lemma rnd_id (x : f32) : rnd (B2R x) = B2R x.
Proof. apply round_generic; [typeclasses eauto|apply b2r_format]. Qed.

Lemma no_overflow r k : (-149 <= k <= 127)%Z -> Rabs r <= bpow radix2 k -> Rlt_bool (Rabs (rnd r)) (bpow radix2 128) = true.
Proof. intros Hk H. apply Rlt_bool_true. apply Rle_lt_trans with (bpow radix2 k); [apply rnd_abs_le; [lia|exact H]|]. apply bpow_lt. lia. Qed.

(** ** Each operation, without overflow *)
Lemma fadd_ok (x y : f32) k : (-149 <= k <= 127)%Z -> is_finite x = true -> is_finite y = true -> Rabs (B2R x + B2R y) <= bpow radix2 k ->
  B2R (fadd x y) = rnd (B2R x + B2R y) /\ is_finite (fadd x y) = true.
Proof.
  intros Hk Fx Fy H. generalize (Bplus_correct 24 128 _ _ mode_NE x y Fx Fy). cbn [round_mode]. rewrite (no_overflow _ k Hk H). now intros (? & ? & _).
Qed.
Lemma fsub_ok (x y : f32) k : (-149 <= k <= 127)%Z -> is_finite x = true -> is_finite y = true -> Rabs (B2R x - B2R y) <= bpow radix2 k ->
  B2R (fsub x y) = rnd (B2R x - B2R y) /\ is_finite (fsub x y) = true.
Proof.
  intros Hk Fx Fy H. generalize (Bminus_correct 24 128 _ _ mode_NE x y Fx Fy). cbn [round_mode]. rewrite (no_overflow _ k Hk H). now intros (? & ? & _).
Qed.
Lemma fmul_ok (x y : f32) k : (-149 <= k <= 127)%Z -> is_finite x = true -> is_finite y = true -> Rabs (B2R x * B2R y) <= bpow radix2 k ->
  B2R (fmul x y) = rnd (B2R x * B2R y) /\ is_finite (fmul x y) = true /\ Bsign (fmul x y) = xorb (Bsign x) (Bsign y).
Proof.
  intros Hk Fx Fy H. generalize (Bmult_correct 24 128 _ _ mode_NE x y). cbn [round_mode]. rewrite (no_overflow _ k Hk H). rewrite Fx, Fy. intros (E & F & S).
  split; [exact E|]. split; [exact F|]. apply S. change (Bmult mode_NE x y) with (fmul x y) in *. now destruct (fmul x y).
Qed.
Lemma fsqrt_ok (x : f32) : is_finite x = true -> 0 <= B2R x -> B2R (fsqrt x) = rnd (sqrt (B2R x)) /\ is_finite (fsqrt x) = true.
Proof.
  intros Fx H. destruct (Bsqrt_correct 24 128 _ _ mode_NE x) as (E & F & _). split; [exact E|]. unfold fsqrt. rewrite F. destruct x as [s|s| |[|] m e B]; try easy.
  exfalso. assert (B2R (B754_finite true m e B : f32) < 0); [|lra]. apply F2R_lt_0. easy.
Qed.

(** ** Bounds by powers of two *)
Definition bnd (x : f32) (k : Z) : Prop := is_finite x = true /\ Rabs (B2R x) <= bpow radix2 k.
Lemma bnd_weaken x j k : (j <= k)%Z -> bnd x j -> bnd x k.
Proof. intros H [F B]. split; [exact F|]. apply Rle_trans with (1 := B). now apply bpow_le. Qed.
Lemma double k : bpow radix2 k + bpow radix2 k = bpow radix2 (k + 1).
Proof. rewrite bpow_plus. change (bpow radix2 1) with 2. lra. Qed.
Lemma bnd_add x y k : (-150 <= k <= 126)%Z -> bnd x k -> bnd y k -> bnd (fadd x y) (k + 1).
Proof.
  intros Hk [Fx Bx] [Fy By]. assert (Rabs (B2R x + B2R y) <= bpow radix2 (k + 1)) as H.
  { rewrite <- double. eapply Rle_trans; [apply Rabs_triang|]. lra. }
  destruct (fadd_ok x y (k + 1) ltac:(lia) Fx Fy H) as [E F]. split; [exact F|]. rewrite E. apply rnd_abs_le; [lia|exact H].
Qed.
Lemma bnd_sub x y k : (-150 <= k <= 126)%Z -> bnd x k -> bnd y k -> bnd (fsub x y) (k + 1).
Proof.
  intros Hk [Fx Bx] [Fy By]. assert (Rabs (B2R x - B2R y) <= bpow radix2 (k + 1)) as H.
  { rewrite <- double. unfold Rminus. eapply Rle_trans; [apply Rabs_triang|]. rewrite Rabs_Ropp. lra. }
  destruct (fsub_ok x y (k + 1) ltac:(lia) Fx Fy H) as [E F]. split; [exact F|]. rewrite E. apply rnd_abs_le; [lia|exact H].
Qed.
Lemma bnd_mul x y j k : (-149 <= j + k <= 127)%Z -> bnd x j -> bnd y k -> bnd (fmul x y) (j + k).
Proof.
  intros Hk [Fx Bx] [Fy By]. assert (Rabs (B2R x * B2R y) <= bpow radix2 (j + k)) as H.
  { rewrite Rabs_mult, bpow_plus. apply Rmult_le_compat; auto using Rabs_pos. }
  destruct (fmul_ok x y (j + k) Hk Fx Fy H) as (E & F & _). split; [exact F|]. rewrite E. apply rnd_abs_le; [lia|exact H].
Qed.

(** ** Literals *)
Lemma of_int_ok z : (Z.abs z <= 16777216)%Z -> B2R (of_int z) = IZR z /\ is_finite (of_int z) = true.
Proof.
  intros H. generalize (binary_normalize_correct 24 128 _ _ mode_NE z 0 false). cbn zeta. cbn [round_mode].
  replace (F2R (Float radix2 z 0)) with (IZR z) by (unfold F2R; cbn; lra).
  assert (rnd (IZR z) = IZR z) as E.
  { apply round_generic; [typeclasses eauto|]. destruct (Z.eq_dec (Z.abs z) 16777216) as [A|A].
    - assert (z = 16777216 \/ z = -16777216)%Z as [-> | ->] by lia; [|replace (IZR (-16777216)) with (- IZR 16777216) by (cbn; lra); apply generic_format_opp]; apply (bpow_format 24); lia.
    - replace (IZR z) with (F2R (Float radix2 z 0)) by (unfold F2R; cbn; lra). apply generic_format_F2R. intros Nz. cbn [Fnum Fexp].
      unfold cexp, SpecFloat.fexp, SpecFloat.emin. rewrite mag_F2R by exact Nz.
      assert (mag radix2 (IZR z) <= 24)%Z; [|cbn; lia]. apply mag_le_bpow; [now apply IZR_neq|]. rewrite <- abs_IZR.
      change (bpow radix2 24) with (IZR 16777216). apply IZR_lt. lia. }
  rewrite E. rewrite Rlt_bool_true; [now intros (? & ? & _)|]. rewrite <- abs_IZR. apply Rle_lt_trans with (IZR 16777216); [now apply IZR_le|].
  change (IZR 16777216) with (bpow radix2 24). apply bpow_lt. lia.
Qed.
Lemma zero_ok : B2R zero = 0 /\ is_finite zero = true.
Proof. apply (of_int_ok 0). lia. Qed.
Lemma one_ok : B2R one = 1 /\ is_finite one = true.
Proof. apply (of_int_ok 1). lia. Qed.
Lemma two_ok : B2R two = 2 /\ is_finite two = true.
Proof. apply (of_int_ok 2). lia. Qed.
Lemma bnd_zero k : bnd zero k.
Proof. destruct zero_ok as [E F]. split; [exact F|]. rewrite E, Rabs_R0. apply bpow_ge_0. Qed.
Lemma bnd_two : bnd two 1.
Proof. destruct two_ok as [E F]. split; [exact F|]. rewrite E, Rabs_pos_eq by lra. cbn. lra. Qed.
Lemma bnd_int z k : (Z.abs z <= 2 ^ k)%Z -> (0 <= k <= 24)%Z -> bnd (of_int z) k.
Proof.
  intros H Hk. assert (Z.abs z <= 16777216)%Z as H'. { apply Z.le_trans with (1 := H). change 16777216%Z with (2 ^ 24)%Z. apply Z.pow_le_mono_r; lia. }
  destruct (of_int_ok z H') as [E F]. split; [exact F|]. rewrite E, <- abs_IZR. rewrite <- IZR_Zpower by lia. apply IZR_le. exact H.
Qed.

(** ** The range is symmetric, for all the coordinates *)
Lemma mul_opp (a : f32) : fmul (Bopp a) (Bopp a) = fmul a a.
Proof.
  destruct a as [s|s| |s m e B]; try (destruct s); try reflexivity; apply B2SF_inj; cbn; rewrite !B2SF_SF2B; reflexivity.
Qed.
Lemma fsub_swap (x y : f32) : fsub y x = fsub x y \/ fsub y x = Bopp (fsub x y).
Proof.
  destruct (is_finite x) eqn:Fx; [|destruct x as [sx|sx| |], y as [sy|sy| |sy my ey By]; try discriminate Fx; try (destruct sx); try (destruct sy); first [left; reflexivity | right; reflexivity]].
  destruct (is_finite y) eqn:Fy; [|destruct x as [sx|sx| |sx mx ex Bx], y as [sy|sy| |]; try discriminate Fx; try discriminate Fy; try (destruct sx); try (destruct sy); first [left; reflexivity | right; reflexivity]].
  generalize (Bminus_correct 24 128 _ _ mode_NE x y Fx Fy) (Bminus_correct 24 128 _ _ mode_NE y x Fy Fx). cbn [round_mode].
  replace (B2R y - B2R x) with (- (B2R x - B2R y)) by lra. rewrite rnd_opp, Rabs_Ropp.
  change (Bminus mode_NE x y) with (fsub x y). change (Bminus mode_NE y x) with (fsub y x). generalize (fsub x y) (fsub y x). intros a b.
  destruct (Rlt_bool _ _).
  - intros (E1 & F1 & _) (E2 & F2 & _). destruct (Req_dec (B2R a) 0) as [Z|NZ].
    + assert (B2R b = 0) as Z' by lra.
      assert (forall c : f32, is_finite c = true -> B2R c = 0 -> exists s, c = B754_zero s) as G.
      { intros [s|s| |s m e Bc] Fc Zc; try discriminate; [now exists s|]. exfalso. revert Zc. apply F2R_neq_0. now destruct s. }
      destruct (G a F1 Z) as [[|] ->], (G b F2 Z') as [[|] ->]; first [left; reflexivity | right; reflexivity].
    + right. apply B2R_inj.
      * apply is_finite_strict_B2R. rewrite E2, <- E1. lra.
      * apply is_finite_strict_B2R. rewrite B2R_Bopp. lra.
      * rewrite B2R_Bopp. lra.
  - intros (E1 & S1) (E2 & S2). right. apply B2SF_inj. unfold binary_overflow in *. cbn [overflow_to_inf] in *. rewrite E2, S2.
    destruct a; try discriminate E1. cbn in *. now injection E1 as ->.
Qed.
Lemma square_swap (x y : f32) : fmul (fsub y x) (fsub y x) = fmul (fsub x y) (fsub x y).
Proof. destruct (fsub_swap x y) as [-> | ->]; [reflexivity|apply mul_opp]. Qed.
Lemma length_swap a b : length (vsub a b) = length (vsub b a).
Proof. unfold length, dot, vsub. cbn [vx vy vz]. now rewrite (square_swap (vx b)), (square_swap (vy b)), (square_swap (vz b)). Qed.

(** ** The accuracy of the range *)
Definition u : R := bpow radix2 (-24).
Lemma u_pos : 0 < u < / 16.
Proof. unfold u. cbn. lra. Qed.
Lemma rnd_rel r : r = 0 \/ 1 <= r -> Rabs (rnd r - r) <= u * r.
Proof.
  intros [-> | H]; [rewrite rnd_0, Rminus_0_r, Rabs_R0; lra|].
  pose proof (relative_error_N_FLT radix2 (-149) 24 eq_refl (fun x => negb (Z.even x)) r) as E.
  replace (/ 2 * bpow radix2 (- (24) + 1) * Rabs r) with (u * r) in E.
  - apply E. rewrite Rabs_pos_eq by lra. apply Rle_trans with (2 := H). apply (bpow_le radix2 _ 0). lia.
  - rewrite Rabs_pos_eq by lra. unfold u. f_equal. change (/ 2) with (bpow radix2 (-1)). rewrite <- bpow_plus. reflexivity.
Qed.
Lemma rnd_between r : r = 0 \/ 1 <= r -> r * (1 - u) <= rnd r <= r * (1 + u).
Proof. intros H. pose proof (rnd_rel r H) as E. apply Rabs_le_inv in E. lra. Qed.
Lemma rnd_zo r : r = 0 \/ 1 <= r -> rnd r = 0 \/ 1 <= rnd r.
Proof. intros [-> | H]; [left; apply rnd_0|right]. apply rnd_ge; [apply (bpow_format 0); lia|exact H]. Qed.
Lemma plus_zo r s : r = 0 \/ 1 <= r -> s = 0 \/ 1 <= s -> r + s = 0 \/ 1 <= r + s.
Proof. intros [-> | ?] [-> | ?]; [left|right|right|right]; lra. Qed.
Lemma square_zo z : IZR z * IZR z = 0 \/ 1 <= IZR z * IZR z.
Proof. rewrite <- mult_IZR. destruct (Z.eq_dec z 0) as [->|N]; [now left|right]. apply IZR_le. nia. Qed.

Lemma delta_ok a b : (-32768 <= a < 32768)%Z -> (-32768 <= b < 32768)%Z -> B2R (fsub (of_int a) (of_int b)) = IZR (a - b) /\ is_finite (fsub (of_int a) (of_int b)) = true.
Proof.
  intros Ha Hb. destruct (of_int_ok a ltac:(lia)) as [Ea Fa], (of_int_ok b ltac:(lia)) as [Eb Fb].
  assert (Rabs (B2R (of_int a) - B2R (of_int b)) <= bpow radix2 16) as H.
  { rewrite Ea, Eb, <- minus_IZR, <- abs_IZR. change (bpow radix2 16) with (IZR 65536). apply IZR_le. lia. }
  destruct (fsub_ok _ _ 16 ltac:(lia) Fa Fb H) as [E F]. split; [|exact F]. rewrite E, Ea, Eb, <- minus_IZR.
  destruct (of_int_ok (a - b) ltac:(lia)) as [<- _]. apply rnd_id.
Qed.
Lemma square_ok (x : f32) z : (Z.abs z <= 65535)%Z -> B2R x = IZR z -> is_finite x = true ->
  B2R (fmul x x) = rnd (IZR z * IZR z) /\ is_finite (fmul x x) = true /\ Rabs (IZR z * IZR z) <= bpow radix2 32.
Proof.
  intros Hz E F. assert (Rabs (IZR z * IZR z) <= bpow radix2 32) as H.
  { rewrite <- mult_IZR, <- abs_IZR. change (bpow radix2 32) with (IZR 4294967296). apply IZR_le. nia. }
  assert (Rabs (B2R x * B2R x) <= bpow radix2 32) as H' by now rewrite E.
  destruct (fmul_ok x x 32 ltac:(lia) F F H') as (E' & F' & _). rewrite E', E. auto.
Qed.
Lemma powers e : 0 < e < / 16 -> (1 - e) ^ 2 <= 1 - e /\ 1 + e <= (1 + e) ^ 2 /\ (1 - 2 * e) ^ 2 <= (1 - e) ^ 3 /\ (1 + e) ^ 3 <= (1 + 2 * e) ^ 2.
Proof. intros H. assert (0 <= e * e) by nra. assert (0 <= e * e * e) by nra. repeat split; nra. Qed.
Lemma last_step e Q q r : 0 < e < / 16 -> 0 <= Q -> Q * (1 - 2 * e) <= q <= Q * (1 + 2 * e) -> q * (1 - e) <= r <= q * (1 + e) -> Q * (1 - 4 * e) <= r <= Q * (1 + 4 * e).
Proof.
  intros He HQ Hq Hr. assert (0 <= Q * e) by nra. assert (0 <= Q * e * e) by nra. split.
  - apply Rle_trans with (2 := proj1 Hr). apply Rle_trans with (Q * (1 - 2 * e) * (1 - e)); [nra|]. apply Rmult_le_compat_r; lra.
  - apply Rle_trans with (1 := proj2 Hr). apply Rle_trans with (Q * (1 + 2 * e) * (1 + e)); [|nra]. apply Rmult_le_compat_r; lra.
Qed.
(** The exact distance. *)
Lemma length_ok (v : vec3) x y z : (Z.abs x <= 65535)%Z -> (Z.abs y <= 65535)%Z -> (Z.abs z <= 65535)%Z ->
  B2R (vx v) = IZR x -> B2R (vy v) = IZR y -> B2R (vz v) = IZR z -> is_finite (vx v) = true -> is_finite (vy v) = true -> is_finite (vz v) = true ->
  is_finite (length v) = true /\ euclid x y z * (1 - 4 * u) <= B2R (length v) <= euclid x y z * (1 + 4 * u).
Proof.
  intros Hx Hy Hz Ex Ey Ez Fx Fy Fz. pose proof u_pos as Hu. destruct (powers u Hu) as (Q1 & Q2 & Q3 & Q4).
  destruct (square_ok _ x Hx Ex Fx) as (Ea & Fa & Ba), (square_ok _ y Hy Ey Fy) as (Eb & Fb & Bb), (square_ok _ z Hz Ez Fz) as (Ec & Fc & Bc).
  set (X := IZR x * IZR x) in *. set (Y := IZR y * IZR y) in *. set (W := IZR z * IZR z) in *.
  pose proof (square_zo x : X = 0 \/ 1 <= X) as ZX. pose proof (square_zo y : Y = 0 \/ 1 <= Y) as ZY. pose proof (square_zo z : W = 0 \/ 1 <= W) as ZW.
  pose proof (rnd_zo _ ZX) as Za. pose proof (rnd_zo _ ZY) as Zb. pose proof (rnd_zo _ ZW) as Zc.
  pose proof (rnd_between _ ZX) as Ia. pose proof (rnd_between _ ZY) as Ib. pose proof (rnd_between _ ZW) as Ic.
  pose proof (rnd_abs_le _ 32 ltac:(lia) Ba) as Bra. pose proof (rnd_abs_le _ 32 ltac:(lia) Bb) as Brb. pose proof (rnd_abs_le _ 32 ltac:(lia) Bc) as Brc.
  assert (Rabs (B2R (fmul (vx v) (vx v)) + B2R (fmul (vy v) (vy v))) <= bpow radix2 33) as H1.
  { rewrite Ea, Eb. change 33%Z with (32 + 1)%Z. rewrite <- double. eapply Rle_trans; [apply Rabs_triang|]. lra. }
  destruct (fadd_ok _ _ 33 ltac:(lia) Fa Fb H1) as [Et Ft]. rewrite Ea, Eb in Et, H1. pose proof (rnd_abs_le _ 33 ltac:(lia) H1) as Brt.
  pose proof (plus_zo _ _ Za Zb) as Zt0. pose proof (rnd_zo _ Zt0) as Zt. pose proof (rnd_between _ Zt0) as It.
  set (t := rnd (rnd X + rnd Y)) in *.
  assert (Rabs (B2R (fadd (fmul (vx v) (vx v)) (fmul (vy v) (vy v))) + B2R (fmul (vz v) (vz v))) <= bpow radix2 34) as H2.
  { rewrite Et, Ec. change 34%Z with (33 + 1)%Z. rewrite <- double. eapply Rle_trans; [apply Rabs_triang|]. pose proof (bpow_le radix2 32 33 ltac:(lia)). lra. }
  destruct (fadd_ok _ _ 34 ltac:(lia) Ft Fc H2) as [Es Fs]. rewrite Et, Ec in Es.
  pose proof (plus_zo _ _ Zt Zc) as Zs0. pose proof (rnd_zo _ Zs0) as Zs. pose proof (rnd_between _ Zs0) as Is.
  set (s := rnd (t + rnd W)) in *. change (fadd (fadd (fmul (vx v) (vx v)) (fmul (vy v) (vy v))) (fmul (vz v) (vz v))) with (dot v v) in *.
  assert (0 <= s) as Ps by (destruct Zs; lra).
  destruct (fsqrt_ok (dot v v) Fs ltac:(rewrite Es; exact Ps)) as [Ed Fd]. split; [exact Fd|]. unfold length. rewrite Ed, Es.
  assert (IZR (x * x + y * y + z * z) = X + Y + W) as ES by (rewrite !plus_IZR, !mult_IZR; reflexivity). unfold euclid. rewrite ES.
  set (T := X + Y + W) in *. assert (0 <= X /\ 0 <= Y /\ 0 <= W) as (PX & PY & PW) by (destruct ZX, ZY, ZW; lra). assert (0 <= T) as PT by (unfold T; lra).
  assert (T * (1 - 2 * u) ^ 2 <= s <= T * (1 + 2 * u) ^ 2) as IS.
  { assert ((X + Y) * (1 - u) ^ 2 <= t <= (X + Y) * (1 + u) ^ 2) as It'.
    { split.
      - apply Rle_trans with ((rnd X + rnd Y) * (1 - u)); [|lra]. replace ((X + Y) * (1 - u) ^ 2) with ((X * (1 - u) + Y * (1 - u)) * (1 - u)) by ring. apply Rmult_le_compat_r; lra.
      - apply Rle_trans with ((rnd X + rnd Y) * (1 + u)); [lra|]. replace ((X + Y) * (1 + u) ^ 2) with ((X * (1 + u) + Y * (1 + u)) * (1 + u)) by ring. apply Rmult_le_compat_r; lra. }
    assert (T * (1 - u) ^ 3 <= s <= T * (1 + u) ^ 3) as Is'.
    { assert (W * (1 - u) ^ 2 <= rnd W) by (apply Rle_trans with (W * (1 - u)); [|lra]; apply Rmult_le_compat_l; assumption).
      assert (rnd W <= W * (1 + u) ^ 2) by (apply Rle_trans with (W * (1 + u)); [lra|]; apply Rmult_le_compat_l; assumption).
      split.
      - apply Rle_trans with ((t + rnd W) * (1 - u)); [|lra]. replace (T * (1 - u) ^ 3) with (((X + Y) * (1 - u) ^ 2 + W * (1 - u) ^ 2) * (1 - u)) by (unfold T; ring). apply Rmult_le_compat_r; lra.
      - apply Rle_trans with ((t + rnd W) * (1 + u)); [lra|]. replace (T * (1 + u) ^ 3) with (((X + Y) * (1 + u) ^ 2 + W * (1 + u) ^ 2) * (1 + u)) by (unfold T; ring). apply Rmult_le_compat_r; lra. }
    split.
    - apply Rle_trans with (T * (1 - u) ^ 3); [|lra]. apply Rmult_le_compat_l; assumption.
    - apply Rle_trans with (T * (1 + u) ^ 3); [lra|]. apply Rmult_le_compat_l; assumption. }
  assert (sqrt T * (1 - 2 * u) <= sqrt s <= sqrt T * (1 + 2 * u)) as IQ.
  { split.
    - rewrite <- (sqrt_pow2 (1 - 2 * u)) by lra. rewrite <- sqrt_mult_alt by exact PT. apply sqrt_le_1_alt. lra.
    - rewrite <- (sqrt_pow2 (1 + 2 * u)) by lra. rewrite <- sqrt_mult_alt by exact PT. apply sqrt_le_1_alt. lra. }
  assert (sqrt s = 0 \/ 1 <= sqrt s) as Zq.
  { destruct Zs as [-> | Hs]; [left; apply sqrt_0|right]. rewrite <- sqrt_1. now apply sqrt_le_1_alt. }
  exact (last_step u _ _ _ Hu (sqrt_pos T) IQ (rnd_between _ Zq)).
Qed.

Lemma trunc_ok (x : f32) : Btrunc x = Ztrunc (B2R x).
Proof. apply eq_IZR. rewrite Btrunc_correct. unfold round, F2R, scaled_mantissa, cexp, FIX_exp. cbn. rewrite !Rmult_1_r. reflexivity. exact emax32. Qed.
Lemma saturate_ok lo hi (x : f32) : is_finite x = true -> saturate lo hi x = Z.max lo (Z.min hi (Ztrunc (B2R x))).
Proof. intros F. rewrite <- trunc_ok. now destruct x. Qed.
Lemma finite_not_nan (x : f32) : is_finite x = true -> is_nan x = false.
Proof. now destruct x. Qed.
Lemma range_ok (D : f32) : is_finite D = true -> 0 <= B2R D ->
  (B2R D < 65535 -> IZR (Z.of_N (as_u16 (fmin D (of_int 65535)))) <= B2R D < IZR (Z.of_N (as_u16 (fmin D (of_int 65535)))) + 1)
  /\ (65535 <= B2R D -> as_u16 (fmin D (of_int 65535)) = 65535%N).
Proof.
  intros F P. destruct (of_int_ok 65535 ltac:(lia)) as [E5 F5].
  assert (fmin D (of_int 65535) = if Rlt_bool (B2R D) 65535 then D else of_int 65535) as ->.
  { unfold fmin. rewrite (finite_not_nan _ F), (finite_not_nan _ F5). rewrite Bltb_correct by assumption. now rewrite E5. }
  split; intros H.
  - rewrite Rlt_bool_true by exact H. unfold as_u16. rewrite saturate_ok by exact F. rewrite Ztrunc_floor by exact P.
    pose proof (Zfloor_lb (B2R D)) as L. pose proof (Zfloor_ub (B2R D)) as U.
    assert (0 <= Zfloor (B2R D))%Z by (apply Zfloor_lub; exact P).
    assert (Zfloor (B2R D) < 65535)%Z by (apply lt_IZR; lra).
    rewrite Z2N.id by lia. replace (Z.max 0 (Z.min 65535 (Zfloor (B2R D)))) with (Zfloor (B2R D)) by lia. lra.
  - rewrite Rlt_bool_false by exact H. unfold as_u16. rewrite saturate_ok by exact F5. rewrite E5, Ztrunc_IZR. reflexivity.
Qed.
Lemma euclid_pos x y z : 0 <= euclid x y z.
Proof. apply sqrt_pos. Qed.
Lemma range_accurate (v : vec3) x y z : (Z.abs x <= 65535)%Z -> (Z.abs y <= 65535)%Z -> (Z.abs z <= 65535)%Z ->
  B2R (vx v) = IZR x -> B2R (vy v) = IZR y -> B2R (vz v) = IZR z -> is_finite (vx v) = true -> is_finite (vy v) = true -> is_finite (vz v) = true ->
  (euclid x y z <= 65536 -> Rabs (IZR (Z.of_N (as_u16 (fmin (length v) (of_int 65535)))) - euclid x y z) < 1 + / 64)
  /\ (65536 <= euclid x y z -> as_u16 (fmin (length v) (of_int 65535)) = 65535%N).
Proof.
  intros Hx Hy Hz Ex Ey Ez Fx Fy Fz. destruct (length_ok v x y z Hx Hy Hz Ex Ey Ez Fx Fy Fz) as [F B].
  pose proof (euclid_pos x y z) as P. assert (u = / 16777216) as Eu by (unfold u; cbn; lra). rewrite Eu in B.
  destruct (range_ok (length v) F ltac:(nra)) as [R1 R2]. set (D := B2R (length v)) in *. set (d := euclid x y z) in *.
  set (r := as_u16 (fmin (length v) (of_int 65535))) in *. clearbody D d. split; intros H.
  - destruct (Rlt_le_dec D 65535) as [L|L].
    + specialize (R1 L). clear R2. apply Rabs_def1; nra.
    + rewrite (R2 L). change (IZR (Z.of_N 65535)) with 65535. apply Rabs_def1; nra.
  - apply R2. nra.
Qed.

(** Up to 40.96 m nothing is lost but the fraction. *)
Lemma rnd_int z : (Z.abs z <= 16777216)%Z -> rnd (IZR z) = IZR z.
Proof. intros H. destruct (of_int_ok z H) as [<- _]. apply rnd_id. Qed.
Lemma below_format K : (1 <= K <= 4096)%Z -> generic_format radix2 fexp32 (IZR K - / 4096).
Proof.
  intros H. replace (IZR K - / 4096) with (F2R (Float radix2 (K * 4096 - 1) (-12))).
  - apply generic_format_FLT. exists (Float radix2 (K * 4096 - 1) (-12)); [reflexivity| |]; cbn; lia.
  - unfold F2R. cbn. rewrite minus_IZR, mult_IZR. field.
Qed.
Lemma rnd_sqrt_below n K : (0 <= n < K * K)%Z -> (1 <= K <= 4096)%Z -> rnd (sqrt (IZR n)) < IZR K.
Proof.
  intros Hn HK. set (r := sqrt (IZR n)). set (p := IZR K - / 4096). pose proof (below_format K HK) as Fp. fold p in Fp.
  assert (1 <= IZR K <= 4096) as RK by (split; apply IZR_le; lia).
  assert (r < IZR K - / 8192) as Hr.
  { unfold r. rewrite <- (sqrt_square (IZR K - / 8192)) by lra. apply sqrt_lt_1_alt. split; [apply IZR_le; lia|].
    apply Rle_lt_trans with (IZR (K * K - 1)); [apply IZR_le; lia|]. rewrite minus_IZR, mult_IZR. nra. }
  destruct (Rle_lt_dec r p) as [L|L].
  - apply Rle_lt_trans with p; [now apply rnd_le|]. unfold p. lra.
  - destruct (Rlt_le_dec (rnd r) (IZR K)) as [?|G]; [assumption|]. exfalso.
    destruct (round_N_pt radix2 fexp32 (fun z => negb (Z.even z)) r) as [_ N]. specialize (N p Fp). change (round radix2 fexp32 (Znearest (fun z => negb (Z.even z))) r) with (rnd r) in N.
    unfold p in *. rewrite (Rabs_left (IZR K - / 4096 - r)), (Rabs_pos_eq (rnd r - r)) in N by lra. lra.
Qed.
Lemma length_exact (v : vec3) x y z : (x * x + y * y + z * z < 16777216)%Z ->
  B2R (vx v) = IZR x -> B2R (vy v) = IZR y -> B2R (vz v) = IZR z -> is_finite (vx v) = true -> is_finite (vy v) = true -> is_finite (vz v) = true ->
  as_u16 (fmin (length v) (of_int 65535)) = Z.to_N (Z.sqrt (x * x + y * y + z * z)).
Proof.
  intros H Ex Ey Ez Fx Fy Fz. set (n := (x * x + y * y + z * z)%Z) in *.
  assert (forall (a : f32) c, (c * c < 16777216)%Z -> B2R a = IZR c -> is_finite a = true -> B2R (fmul a a) = IZR (c * c) /\ is_finite (fmul a a) = true) as Sq.
  { intros a c Hc Ea Fa. destruct (fmul_ok a a 24 ltac:(lia) Fa Fa) as (E & F & _).
    - rewrite Ea, <- mult_IZR, <- abs_IZR. change (bpow radix2 24) with (IZR 16777216). apply IZR_le. rewrite Z.abs_eq by nia. lia.
    - split; [|exact F]. rewrite E, Ea, <- mult_IZR. apply rnd_int. rewrite Z.abs_eq by nia. lia. }
  assert (forall (a b : f32) c d, (0 <= c)%Z -> (0 <= d)%Z -> (c + d < 16777216)%Z -> B2R a = IZR c /\ is_finite a = true -> B2R b = IZR d /\ is_finite b = true -> B2R (fadd a b) = IZR (c + d) /\ is_finite (fadd a b) = true) as Ad.
  { intros a b c d Hc Hd Hs [Ea Fa] [Eb Fb]. destruct (fadd_ok a b 24 ltac:(lia) Fa Fb) as [E F].
    - rewrite Ea, Eb, <- plus_IZR, <- abs_IZR. change (bpow radix2 24) with (IZR 16777216). apply IZR_le. lia.
    - split; [|exact F]. rewrite E, Ea, Eb, <- plus_IZR. apply rnd_int. lia. }
  assert (B2R (dot v v) = IZR n /\ is_finite (dot v v) = true) as [En Fn].
  { unfold dot, n. apply Ad; try nia; [apply Ad; try nia|]; apply Sq; try assumption; nia. }
  destruct (fsqrt_ok _ Fn ltac:(rewrite En; apply IZR_le; nia)) as [El Fl]. change (fsqrt (dot v v)) with (length v) in El, Fl. rewrite En in El.
  assert (0 <= n)%Z as Pn by (unfold n; nia). pose proof (Z.sqrt_spec n Pn) as [S1 S2]. pose proof (Z.sqrt_nonneg n) as S0. set (k := Z.sqrt n) in *.
  assert (k < 4096)%Z as Hk by nia.
  assert (IZR k <= B2R (length v)) as L1.
  { rewrite El, <- (rnd_int k) by lia. apply round_le; try typeclasses eauto. rewrite <- (sqrt_square (IZR k)) by (apply IZR_le; lia). apply sqrt_le_1_alt. rewrite <- mult_IZR. apply IZR_le. lia. }
  assert (B2R (length v) < IZR (k + 1)) as L2 by (rewrite El; apply rnd_sqrt_below; lia).
  assert (IZR (k + 1) <= 4096) as Lk by (apply IZR_le; lia).
  assert (0 <= IZR k) as L0 by (apply IZR_le; lia).
  destruct (range_ok _ Fl ltac:(lra)) as [R _]. specialize (R ltac:(lra)). set (r := as_u16 _) in *.
  assert (Z.of_N r < k + 1)%Z by (apply lt_IZR; lra). assert (k < Z.of_N r + 1)%Z by (apply lt_IZR; rewrite plus_IZR; lra). lia.
Qed.

(** ** The angles *)
Lemma const_ok (x : f32) s m e : B2SF x = SpecFloat.S754_finite s m e -> B2R x = F2R (Float radix2 (cond_Zopp s (Zpos m)) e) /\ is_finite x = true.
Proof. intros E. split; [rewrite <- SF2R_B2SF, E; reflexivity|]. rewrite <- is_finite_SF_B2SF, E. reflexivity. Qed.
Lemma PI_ok : B2R PI = 13176795 / 4194304 /\ is_finite PI = true.
Proof. destruct (const_ok PI false 13176795 (-22)) as [E F]; [vm_compute; reflexivity|]. split; [|exact F]. rewrite E. unfold F2R. cbn. lra. Qed.
Lemma FRAC_PI_2_ok : B2R FRAC_PI_2 = 13176795 / 8388608 /\ is_finite FRAC_PI_2 = true.
Proof. destruct (const_ok FRAC_PI_2 false 13176795 (-23)) as [E F]; [vm_compute; reflexivity|]. split; [|exact F]. rewrite E. unfold F2R. cbn. lra. Qed.
Lemma DEG_ok : B2R (lit 15019745 (-18)) = 15019745 / 262144 /\ is_finite (lit 15019745 (-18)) = true.
Proof. destruct (const_ok (lit 15019745 (-18)) false 15019745 (-18)) as [E F]; [vm_compute; reflexivity|]. split; [|exact F]. rewrite E. unfold F2R. cbn. lra. Qed.
Lemma degrees_PI : B2R (to_degrees PI) = 180.
Proof. destruct (const_ok (to_degrees PI) false 11796480 (-16)) as [E F]; [vm_compute; reflexivity|]. rewrite E. unfold F2R. cbn. lra. Qed.
Lemma degrees_FRAC_PI_2 : B2R (to_degrees FRAC_PI_2) = 90.
Proof. destruct (const_ok (to_degrees FRAC_PI_2) false 11796480 (-17)) as [E F]; [vm_compute; reflexivity|]. rewrite E. unfold F2R. cbn. lra. Qed.
Lemma bnd_rad : bnd (fdiv PI (of_int 180)) 0.
Proof.
  destruct (const_ok (fdiv PI (of_int 180)) false 9370165 (-29)) as [E F]; [vm_compute; reflexivity|]. split; [exact F|]. rewrite E. unfold F2R. cbn. rewrite Rabs_pos_eq by lra. lra.
Qed.
Lemma bnd_half : bnd (lit 1 (-1)) 0.
Proof. destruct (const_ok (lit 1 (-1)) false 8388608 (-24)) as [E F]; [vm_compute; reflexivity|]. split; [exact F|]. rewrite E. unfold F2R. cbn. rewrite Rabs_pos_eq by lra. lra. Qed.

Lemma degrees_in (limit : f32) n (a : f32) : is_finite limit = true -> B2R limit <= 4 -> B2R (to_degrees limit) = IZR n -> (0 <= n <= 180)%Z ->
  is_finite a = true -> Rabs (B2R a) <= B2R limit -> contains (of_int (- n)) (of_int n) (fround (to_degrees a)) = true.
Proof.
  intros Fl Bl El Hn Fa Ba. destruct DEG_ok as [ED FD].
  assert (forall b : f32, is_finite b = true -> Rabs (B2R b) <= 4 -> B2R (to_degrees b) = rnd (B2R b * B2R (lit 15019745 (-18))) /\ is_finite (to_degrees b) = true) as G.
  { intros b Fb Bb. destruct (fmul_ok b (lit 15019745 (-18)) 8 ltac:(lia) Fb FD) as (E & F & _); [|auto]. rewrite Rabs_mult, ED. rewrite (Rabs_pos_eq (15019745 / 262144)) by lra. cbn. nra. }
  assert (0 <= B2R limit) as Pl by (eapply Rle_trans; [apply Rabs_pos|exact Ba]).
  destruct (G limit Fl ltac:(rewrite Rabs_pos_eq; lra)) as [E1 _], (G a Fa ltac:(lra)) as [E2 F2]. rewrite El in E1.
  assert (Rabs (B2R (to_degrees a)) <= IZR n) as B.
  { rewrite E2, E1. rewrite <- round_NE_abs by typeclasses eauto. apply round_le; try typeclasses eauto. rewrite Rabs_mult. rewrite (Rabs_pos_eq (B2R (lit _ _))) by (rewrite ED; lra).
    apply Rmult_le_compat_r; [rewrite ED; lra|exact Ba]. }
  destruct (Bnearbyint_correct 24 128 _ mode_NA (to_degrees a)) as (E3 & F3 & _). rewrite F2 in F3. fold (fround (to_degrees a)) in E3, F3.
  assert (Rabs (B2R (fround (to_degrees a))) <= IZR n) as B'.
  { rewrite E3. apply abs_round_le_generic; try typeclasses eauto; [|exact B]. apply generic_format_FIX. exists (Float radix2 n 0); [unfold F2R; cbn; lra|reflexivity]. }
  apply Rabs_le_inv in B'. destruct (of_int_ok n ltac:(lia)) as [En Fn], (of_int_ok (- n) ltac:(lia)) as [Em Fm].
  unfold contains. rewrite !Bleb_correct by assumption. rewrite En, Em, opp_IZR. rewrite !Rle_bool_true by lra. reflexivity.
Qed.

Lemma signum_mul (x c : f32) : is_finite x = true -> is_finite c = true -> Rabs (B2R c) <= 4 ->
  is_finite (fmul (signum x) c) = true /\ B2R (fmul (signum x) c) = if Bsign x then - B2R c else B2R c.
Proof.
  intros Fx Fc Bc. destruct one_ok as [E1 F1].
  assert (signum x = if Bsign x then Bopp one else one) as -> by now destruct x.
  destruct (Bsign x).
  - destruct (fmul_ok (Bopp one) c 2 ltac:(lia)) as (E & F & _); [now rewrite is_finite_Bopp|exact Fc| |].
    + rewrite B2R_Bopp, E1, Rabs_mult, Rabs_Ropp, Rabs_R1, Rmult_1_l. exact Bc.
    + split; [exact F|]. rewrite E, B2R_Bopp, E1. replace (- (1) * B2R c) with (- B2R c) by ring. rewrite rnd_opp, rnd_id. reflexivity.
  - destruct (fmul_ok one c 2 ltac:(lia) F1 Fc) as (E & F & _).
    + rewrite E1, Rabs_mult, Rabs_R1, Rmult_1_l. exact Bc.
    + split; [exact F|]. rewrite E, E1, Rmult_1_l, rnd_id. reflexivity.
Qed.
Lemma sign_of (x : f32) : is_finite x = true -> if Bsign x then B2R x <= 0 else 0 <= B2R x.
Proof. destruct x as [s|s| |s m e B]; intros F; try discriminate; destruct s; cbn [Bsign B2R]; try lra; [apply F2R_le_0|apply F2R_ge_0]; cbn; lia. Qed.
Lemma fdiv_ok (x y : f32) : is_finite x = true -> is_finite y = true -> B2R y <> 0 -> is_nan (fdiv x y) = false /\ Bsign (fdiv x y) = xorb (Bsign x) (Bsign y).
Proof.
  intros Fx Fy Ny. generalize (Bdiv_correct 24 128 _ _ mode_NE x y Ny). change (Bdiv mode_NE x y) with (fdiv x y). destruct (Rlt_bool _ _).
  - intros (_ & F & S). rewrite Fx in F. pose proof (finite_not_nan _ F) as N. auto.
  - unfold binary_overflow. cbn [overflow_to_inf]. intros E. destruct (fdiv x y); try discriminate E. cbn in E. injection E as ->. auto.
Qed.

Section Angles.
Context (fatan : f32 -> f32) (Ha : good_atan fatan).
Lemma azimuth_ok (v : vec3) : is_finite (vx v) = true -> is_finite (vz v) = true ->
  is_finite (azimuth fatan v) = true /\ Rabs (B2R (azimuth fatan v)) <= B2R PI.
Proof.
  intros Fx Fz. destruct zero_ok as [E0 F0], PI_ok as [Ep Fp], FRAC_PI_2_ok as [Eh Fh].
  set (A := match checked_div (vx v) (vz v) with None => if Beqb (vx v) zero then zero else fmul (signum (vx v)) FRAC_PI_2 | Some w => fatan w end).
  set (B := if Bleb zero (vz v) then zero else fmul (signum (vx v)) PI).
  change (azimuth fatan v) with (fadd A B).
  assert (is_finite A = true /\ is_finite B = true /\ Rabs (B2R A + B2R B) <= B2R PI) as (FA & FB & H).
  { destruct (signum_mul (vx v) FRAC_PI_2 Fx Fh) as [F1 E1]; [rewrite Eh, Rabs_pos_eq; lra|].
    destruct (signum_mul (vx v) PI Fx Fp) as [F2 E2]; [rewrite Ep, Rabs_pos_eq; lra|].
    unfold A, B, checked_div. rewrite !Beqb_correct, Bleb_correct by assumption. rewrite E0.
    case Req_bool_spec; intros Hz.
    - rewrite Hz, Rle_bool_true by lra. case Req_bool_spec; intros Hx.
      + rewrite E0, Ep. split; [exact F0|]. split; [exact F0|]. rewrite Rabs_pos_eq; lra.
      + rewrite E0, E1, Rplus_0_r. split; [exact F1|]. split; [exact F0|]. destruct (Bsign (vx v)); rewrite ?Rabs_Ropp, Rabs_pos_eq; lra.
    - destruct (fdiv_ok _ _ Fx Fz Hz) as [Nv Sv]. destruct (Ha _ Nv) as (Fa & Ba & Sa). rewrite Sv in Sa.
      pose proof (sign_of _ Fz) as Sz. apply Rabs_le_inv in Ba. case Rle_bool_spec; intros Hp.
      + rewrite E0, Rplus_0_r. split; [exact Fa|]. split; [exact F0|]. apply Rabs_le. lra.
      + split; [exact Fa|]. split; [exact F2|]. rewrite E2. destruct (Bsign (vz v)); [|lra]. destruct (Bsign (vx v)); cbn in Sa; apply Rabs_le; lra. }
  destruct (fadd_ok A B 2 ltac:(lia) FA FB) as [E F].
  { apply Rle_trans with (1 := H). rewrite Ep. cbn. lra. }
  split; [exact F|]. rewrite E. apply abs_round_le_generic; try typeclasses eauto; [apply b2r_format|exact H].
Qed.
Lemma elevation_ok (v : vec3) : bnd (vx v) 40 -> is_finite (vy v) = true -> bnd (vz v) 40 ->
  is_finite (elevation fatan v) = true /\ Rabs (B2R (elevation fatan v)) <= B2R FRAC_PI_2.
Proof.
  intros Bx Fy Bz. destruct zero_ok as [E0 F0], FRAC_PI_2_ok as [Eh Fh].
  set (s := fadd (fmul (vx v) (vx v)) (fmul (vz v) (vz v))).
  pose proof (bnd_mul _ _ 40 40 ltac:(lia) Bx Bx) as B1. pose proof (bnd_mul _ _ 40 40 ltac:(lia) Bz Bz) as B2.
  assert (forall x : f32, bnd x 40 -> 0 <= B2R (fmul x x)) as Sq.
  { intros x [Fx Hx]. destruct (fmul_ok x x 80 ltac:(lia) Fx Fx) as (E & _ & _).
    - rewrite Rabs_mult. change 80%Z with (40 + 40)%Z. rewrite bpow_plus. apply Rmult_le_compat; auto using Rabs_pos.
    - rewrite E, <- rnd_0. apply round_le; try typeclasses eauto. nra. }
  assert (is_finite s = true /\ 0 <= B2R s) as [Fs Ps].
  { destruct B1 as [F1 H1], B2 as [F2 H2]. destruct (fadd_ok _ _ 81 ltac:(lia) F1 F2) as [E F].
    - change 81%Z with (80 + 1)%Z. rewrite <- double. eapply Rle_trans; [apply Rabs_triang|]. change (40 + 40)%Z with 80%Z in H1, H2. lra.
    - split; [exact F|]. unfold s. rewrite E, <- rnd_0. apply round_le; try typeclasses eauto. pose proof (Sq _ Bx). pose proof (Sq _ Bz). lra. }
  destruct (fsqrt_ok s Fs Ps) as [_ Fq]. unfold elevation, checked_div. fold s. rewrite Beqb_correct by assumption. rewrite E0. case Req_bool_spec; intros Hq.
  - destruct (signum_mul (vy v) FRAC_PI_2 Fy Fh) as [F1 E1]; [rewrite Eh, Rabs_pos_eq; lra|]. split; [exact F1|]. rewrite E1. destruct (Bsign (vy v)); rewrite ?Rabs_Ropp, Rabs_pos_eq; lra.
  - destruct (fdiv_ok _ _ Fy Fq Hq) as [Nv _]. destruct (Ha _ Nv) as (Fa & Ba & _). auto.
Qed.
End Angles.

(** The rotation does not overflow. *)
Definition bvec (v : vec3) k : Prop := bnd (vx v) k /\ bnd (vy v) k /\ bnd (vz v) k.
Definition bquat (q : quat) k : Prop := bnd (qx q) k /\ bnd (qy q) k /\ bnd (qz q) k /\ bnd (qw q) k.
Lemma bdot a b j k : (-100 <= j + k <= 100)%Z -> bvec a j -> bvec b k -> bnd (dot a b) (j + k + 2).
Proof.
  intros H (Ax & Ay & Az) (Bx & By & Bz). unfold dot. replace (j + k + 2)%Z with (j + k + 1 + 1)%Z by lia. apply bnd_add; [lia| |].
  - apply bnd_add; [lia| |]; apply bnd_mul; auto; lia.
  - apply bnd_weaken with (j + k)%Z; [lia|]. apply bnd_mul; auto; lia.
Qed.
Lemma bcross a b j k : (-100 <= j + k <= 100)%Z -> bvec a j -> bvec b k -> bvec (cross a b) (j + k + 1).
Proof.
  intros H (Ax & Ay & Az) (Bx & By & Bz). unfold cross, bvec. cbn [vx vy vz].
  (split; [|split]); apply bnd_sub; try lia; try (apply bnd_mul; auto; lia); rewrite Z.add_comm; apply bnd_mul; auto; lia.
Qed.
Lemma bvmul a c j k : (-100 <= j + k <= 100)%Z -> bvec a j -> bnd c k -> bvec (vmul a c) (j + k).
Proof. intros H (Ax & Ay & Az) Bc. (split; [|split]); apply bnd_mul; auto; lia. Qed.
Lemma bvadd a b k : (-100 <= k <= 100)%Z -> bvec a k -> bvec b k -> bvec (vadd a b) (k + 1).
Proof. intros H (Ax & Ay & Az) (Bx & By & Bz). (split; [|split]); apply bnd_add; auto; lia. Qed.
Lemma bvec_weaken a j k : (j <= k)%Z -> bvec a j -> bvec a k.
Proof. intros H (Ax & Ay & Az). (split; [|split]); eapply bnd_weaken; eauto. Qed.
Lemma bmul_vec3 q v : bquat q 6 -> bvec v 16 -> bvec (mul_vec3 q v) 33.
Proof.
  intros (Qx & Qy & Qz & Qw) Bv. unfold mul_vec3. set (b := Vec3 (qx q) (qy q) (qz q)). assert (bvec b 6) as Bb by ((split; [|split]); assumption).
  change 33%Z with (32 + 1)%Z. apply bvadd; [lia| |].
  - change 32%Z with (31 + 1)%Z. apply bvadd; [lia| |].
    + change 31%Z with (16 + 15)%Z. apply bvmul; [lia|exact Bv|]. change 15%Z with (14 + 1)%Z. apply bnd_sub; [lia| |].
      * apply bnd_weaken with (6 + 6)%Z; [lia|]. apply bnd_mul; auto. lia.
      * change 14%Z with (6 + 6 + 2)%Z. apply bdot; auto. lia.
    + change 31%Z with (6 + 25)%Z. apply bvmul; [lia|exact Bb|]. change 25%Z with (24 + 1)%Z. apply bnd_mul; [lia| |apply bnd_two]. change 24%Z with (16 + 6 + 2)%Z. apply bdot; auto. lia.
  - apply bvec_weaken with (23 + 7)%Z; [lia|]. apply bvmul; [lia| |].
    + change 23%Z with (6 + 16 + 1)%Z. apply bcross; auto. lia.
    + change 7%Z with (6 + 1)%Z. apply bnd_mul; [lia|exact Qw|apply bnd_two].
Qed.
Lemma bquat_mul a b j : (0 <= j <= 60)%Z -> bquat a j -> bquat b 0 -> bquat (quat_mul a b) (j + 3).
Proof.
  intros Hj (Ax & Ay & Az & Aw) (Bx & By & Bz & Bw). destruct a as [ax ay az aw], b as [bx by' bz bw]. cbn [qx qy qz qw] in *.
  assert (forall x y, bnd x j -> bnd y 0 -> bnd (fmul x y) j) as M. { intros x y Hx Hy. replace j with (j + 0)%Z at 1 by lia. apply bnd_mul; auto. lia. }
  assert (forall x k, bnd x j -> (j <= k)%Z -> bnd x k) as W by (intros x k ? ?; apply bnd_weaken with j; auto).
  unfold quat_mul, bquat. cbn [qx qy qz qw]. replace (j + 3)%Z with (j + 1 + 1 + 1)%Z by lia.
  (split; [|split; [|split]]); repeat (first [apply bnd_add | apply bnd_sub]; [lia|..]); try (apply M; assumption); apply W; try lia; apply M; assumption.
Qed.
Lemma new_ok fsin fcos x y z yaw pitch roll : good_trig fsin -> good_trig fcos -> i16 x -> i16 y -> i16 z -> i16 yaw -> i8 pitch -> i16 roll ->
  bquat (p_rotation (new fsin fcos x y z yaw pitch roll)) 6.
Proof.
  intros Hs Hc _ _ _ Hyaw Hpitch Hroll. unfold i16, i8 in *.
  assert (forall a, (-32768 <= a < 32768)%Z -> is_finite (half (to_radians (of_int a))) = true) as F.
  { intros a H. apply (bnd_mul _ _ 15 0 ltac:(lia)); [|apply bnd_half]. apply (bnd_mul _ _ 15 0 ltac:(lia)); [|apply bnd_rad]. apply bnd_int; lia. }
  assert (forall f a, good_trig f -> (-32768 <= a < 32768)%Z -> bnd (f (half (to_radians (of_int a)))) 0) as T by (intros f a Hf H; apply Hf, F, H).
  unfold new, from_euler_zxy. cbn [p_rotation]. change 6%Z with (0 + 3 + 3)%Z. apply bquat_mul; [lia| |].
  - apply bquat_mul; [lia| |]; (split; [|split; [|split]]); try apply bnd_zero; apply T; auto; lia.
  - (split; [|split; [|split]]); try apply bnd_zero; apply T; auto; lia.
Qed.
Lemma delta_bnd a b : i16 a -> i16 b -> bnd (fsub (of_int a) (of_int b)) 16.
Proof. unfold i16. intros Ha Hb. change 16%Z with (15 + 1)%Z. apply bnd_sub; [lia| |]; apply bnd_int; lia. Qed.
Lemma contains_ok n lo hi (a : f32) : (0 <= n <= 180)%Z -> contains (of_int (- n)) (of_int n) a = true -> (- n <= saturate lo hi a <= n)%Z \/ (hi < - n)%Z \/ (n < lo)%Z.
Proof.
  intros Hn H. unfold contains in H. apply andb_true_iff in H as [H1 H2]. destruct (of_int_ok n ltac:(lia)) as [En Fn], (of_int_ok (- n) ltac:(lia)) as [Em Fm].
  assert (is_finite a = true) as Fa.
  { destruct a as [s|s| |s m e B]; try reflexivity; [destruct s|discriminate].
    - destruct (of_int (- n)); try discriminate Fm; discriminate H1.
    - destruct (of_int n) as [t|t| |t ? ? ?]; try discriminate Fn; [|destruct t]; discriminate H2. }
  rewrite Bleb_correct in H1, H2 by assumption. rewrite Em in H1. rewrite En in H2.
  revert H1 H2. case Rle_bool_spec; [|discriminate]. intros L1 _. case Rle_bool_spec; [|discriminate]. intros L2 _.
  rewrite saturate_ok by exact Fa. assert (- n <= Ztrunc (B2R a) <= n)%Z; [|lia].
  split.
  - rewrite <- (Ztrunc_IZR (- n)). now apply Ztrunc_le.
  - rewrite <- (Ztrunc_IZR n). now apply Ztrunc_le.
Qed.
Lemma compute_some fatan self other r a e : compute_range_azimuth_elevation fatan self other = Some (r, a, e) ->
  r = as_u16 (fmin (length (vsub (p_position other) (p_position self))) (of_int 65535)) /\ (-180 <= a <= 180)%Z /\ (-90 <= e <= 90)%Z.
Proof.
  unfold compute_range_azimuth_elevation. destruct (contains (of_int (-180)) _ _) eqn:C1; [|discriminate]. destruct (contains (of_int (-90)) _ _) eqn:C2; [|discriminate].
  cbn [andb]. intros [= <- <- <-]. split; [reflexivity|].
  destruct (contains_ok 180 (-32768) 32767 _ ltac:(lia) C1) as [?|[?|?]]; try lia. destruct (contains_ok 90 (-128) 127 _ ltac:(lia) C2) as [?|[?|?]]; try lia. split; assumption.
Qed.
Lemma compute_total fatan self other : good_atan fatan -> bquat (p_rotation self) 6 -> bvec (vsub (p_position other) (p_position self)) 16 ->
  compute_range_azimuth_elevation fatan self other <> None.
Proof.
  intros Ha Bq Bv. unfold compute_range_azimuth_elevation. pose proof (bmul_vec3 _ _ Bq Bv) as (Bx & By & Bz). destruct PI_ok as [Ep Fp], FRAC_PI_2_ok as [Eh Fh].
  set (d := mul_vec3 _ _) in *.
  destruct (azimuth_ok fatan Ha d (proj1 Bx) (proj1 Bz)) as [Fz Hz].
  destruct (elevation_ok fatan Ha d (bnd_weaken _ 33 40 ltac:(lia) Bx) (proj1 By) (bnd_weaken _ 33 40 ltac:(lia) Bz)) as [Fe He].
  change (-180)%Z with (- (180))%Z. change (-90)%Z with (- (90))%Z.
  rewrite (degrees_in PI 180 _ Fp ltac:(rewrite Ep; lra) degrees_PI ltac:(lia) Fz Hz).
  rewrite (degrees_in FRAC_PI_2 90 _ Fh ltac:(rewrite Eh; lra) degrees_FRAC_PI_2 ltac:(lia) Fe He). discriminate.
Qed.

(** Functions that satisfy what is asked of the library. *)
Definition clamp (c v : f32) : f32 := if Bleb (Babs v) c then v else if Bsign v then Bopp c else c.
Lemma clamp_ok c v : is_finite c = true -> 0 <= B2R c -> is_nan v = false ->
  is_finite (clamp c v) = true /\ Rabs (B2R (clamp c v)) <= B2R c /\ (if Bsign v then B2R (clamp c v) <= 0 else 0 <= B2R (clamp c v)).
Proof.
  intros Fc Pc Nv. unfold clamp. destruct (is_finite v) eqn:Fv.
  - rewrite Bleb_correct by (rewrite ?is_finite_Babs; assumption). rewrite B2R_Babs. pose proof (sign_of _ Fv) as Sv. case Rle_bool_spec; intros H.
    + split; [exact Fv|]. split; [exact H|exact Sv].
    + destruct (Bsign v); rewrite ?B2R_Bopp, ?is_finite_Bopp, ?Rabs_Ropp, Rabs_pos_eq by exact Pc; repeat split; auto; lra.
  - destruct v as [s|s| |s m e B]; try discriminate. assert (Bleb (Babs (B754_infinity s)) c = false) as ->.
    { destruct c as [t|t| |t m e B]; try discriminate Fc; [|destruct t]; reflexivity. }
    cbn [Bsign]. destruct s; rewrite ?B2R_Bopp, ?is_finite_Bopp, ?Rabs_Ropp, Rabs_pos_eq by exact Pc; repeat split; auto; lra.
Qed.
Lemma clamp_atan : good_atan (clamp FRAC_PI_2).
Proof. intros v N. destruct FRAC_PI_2_ok as [E F]. apply clamp_ok; [exact F|rewrite E; lra|exact N]. Qed.
Lemma clamp_sin : good_trig (clamp one).
Proof. intros v Fv. destruct one_ok as [E F]. rewrite <- E. split; apply clamp_ok; try exact F; try (rewrite E; lra); now apply finite_not_nan. Qed.
Lemma one_cos : good_trig (fun _ => one).
Proof. intros v _. destruct one_ok as [E F]. split; [exact F|]. rewrite E, Rabs_R1. lra. Qed.

(** ** The position shown *)
Lemma as_i16_int z : i16 z -> as_i16 (of_int z) = z.
Proof.
  unfold i16. intros H. destruct (of_int_ok z ltac:(lia)) as [E F]. unfold as_i16. rewrite saturate_ok by exact F. rewrite E, Ztrunc_IZR. lia.
Qed.
Lemma contains_int n (a : f32) : (0 <= n <= 180)%Z -> is_finite a = true -> contains (of_int (- n)) (of_int n) a = true -> (- n <= Ztrunc (B2R a) <= n)%Z.
Proof.
  intros Hn Fa. destruct (of_int_ok n ltac:(lia)) as [En Fn], (of_int_ok (- n) ltac:(lia)) as [Em Fm].
  unfold contains. rewrite !Bleb_correct by assumption. rewrite En, Em. intros C. apply Bool.andb_true_iff in C as [C1 C2].
  revert C1 C2. case Rle_bool_spec; [|discriminate]. intros C1 _. case Rle_bool_spec; [|discriminate]. intros C2 _.
  split; [rewrite <- (Ztrunc_IZR (- n))|rewrite <- (Ztrunc_IZR n)]; apply Ztrunc_le; assumption.
Qed.
Lemma degrees_finite (a : f32) : is_finite a = true -> Rabs (B2R a) <= 4 -> is_finite (fround (to_degrees a)) = true.
Proof.
  intros Fa Ba. destruct DEG_ok as [ED FD]. destruct (fmul_ok a (lit 15019745 (-18)) 8 ltac:(lia) Fa FD) as (_ & F & _).
  { rewrite Rabs_mult, ED. rewrite (Rabs_pos_eq (15019745 / 262144)) by lra. cbn. pose proof (Rabs_pos (B2R a)). nra. }
  destruct (Bnearbyint_correct 24 128 _ mode_NA (to_degrees a)) as (_ & F3 & _). rewrite <- F. exact F3.
Qed.
Lemma shown_angle (limit : f32) n (a : f32) : is_finite limit = true -> B2R limit <= 4 -> B2R (to_degrees limit) = IZR n -> (0 <= n <= 180)%Z ->
  is_finite a = true -> Rabs (B2R a) <= B2R limit ->
  is_finite (fround (to_degrees a)) = true /\ (- n <= Ztrunc (B2R (fround (to_degrees a))) <= n)%Z.
Proof.
  intros Fl Bl El Hn Fa Ba. assert (is_finite (fround (to_degrees a)) = true) as F by (apply degrees_finite; [assumption|lra]).
  split; [exact F|]. apply contains_int; [exact Hn|exact F|]. exact (degrees_in limit n a Fl Bl El Hn Fa Ba).
Qed.
