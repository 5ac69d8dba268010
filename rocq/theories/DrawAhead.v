(** What is straight ahead is measured at azimuth 0 and elevation 0. *)
From Coq Require Import ZArith NArith Reals Lra Lia.
From Flocq Require Import Core.Core IEEE754.BinarySingleNaN.
From Verif Require Import Position PositionSpec PositionFacts DirectionSpec DirectionFacts DirectionRotation DirectionExact PropsPosition.
Open Scope R_scope.

(** A small angle is 0 in whole degrees. *)
Lemma small_degree n m t s : (0 < m <= 180)%Z -> nearest_degree n t -> (- m <= n <= m)%Z -> sin t = sin s -> cos t = cos s -> Rabs s <= 2 / 1000 -> n = 0%Z.
Proof.
  intros Bm N [B1 B2] S C L. unfold nearest_degree in N. pose proof pi_bounds as Pb. apply Rabs_le_inv in N.
  assert (IZR n <= 180 /\ -180 <= IZR n) as [N1 N2] by (split; apply IZR_le; lia).
  pose proof (Rabs_le_inv _ _ L) as L'. set (q := t * (180 / Rtrigo1.PI)) in *.
  assert (t = q * (pi / 180)) as Et by (unfold q; field; lra).
  assert (t = s) as <-.
  { apply same_angles; [exact S|exact C|]. rewrite Et. apply Rabs_def1; nra. }
  assert (Rabs (IZR n) < 1) as K. { apply Rabs_def1; unfold q in N; assert (180 / Rtrigo1.PI < 58 /\ 0 < 180 / Rtrigo1.PI) as [K1 K2].
    1,3: split; [apply (Rmult_lt_reg_r pi); [lra|]; unfold Rdiv; rewrite Rmult_assoc, Rinv_l; lra|apply Rdiv_lt_0_compat; lra].
    all: nra. }
  rewrite <- abs_IZR in K. apply lt_IZR in K. lia.
Qed.
Lemma ahead_degrees dx dy dz k az el a e : 0 < k -> norm (minus (dx, dy, dz) (0, 0, k)) <= k / 1000 -> points dx dy dz az el ->
  nearest_degree a az -> nearest_degree e el -> (-180 <= a <= 180)%Z -> (-90 <= e <= 90)%Z -> a = 0%Z /\ e = 0%Z.
Proof.
  intros Hk Hn (Px & Pz & Py & Ph) Na Ne Ba Be. unfold norm, minus in Hn.
  assert (forall v w : R, 0 <= v * v + w * w) as Sq by (intros v w; pose proof (Rle_0_sqr v); pose proof (Rle_0_sqr w); unfold Rsqr in *; lra).
  assert (forall v w, sqrt (v * v + w) <= k / 1000 -> 0 <= w -> Rabs v <= k / 1000) as K.
  { intros v w Hv Hw. apply Rle_trans with (sqrt (v * v + w)); [|exact Hv]. rewrite <- (sqrt_Rsqr_abs v). pose proof (Rle_0_sqr v) as Hq. apply sqrt_le_1; unfold Rsqr in *; lra. }
  assert (Rabs dx <= k / 1000) as Bx. { apply (K dx (dy * dy + (dz - k) * (dz - k))); [|apply Sq]. replace (dx * dx + _) with ((dx - 0) * (dx - 0) + (dy - 0) * (dy - 0) + (dz - k) * (dz - k)) by ring. exact Hn. }
  assert (Rabs dy <= k / 1000) as By. { apply (K dy (dx * dx + (dz - k) * (dz - k))); [|apply Sq]. replace (dy * dy + _) with ((dx - 0) * (dx - 0) + (dy - 0) * (dy - 0) + (dz - k) * (dz - k)) by ring. exact Hn. }
  assert (Rabs (dz - k) <= k / 1000) as Bz. { apply (K (dz - k) (dx * dx + dy * dy)); [|apply Sq]. replace ((dz - k) * (dz - k) + _) with ((dx - 0) * (dx - 0) + (dy - 0) * (dy - 0) + (dz - k) * (dz - k)) by ring. exact Hn. }
  apply Rabs_le_inv in Bz. assert (0 < dz) as Dz by lra.
  set (h := sqrt (dx * dx + dz * dz)) in *.
  assert (dz <= h) as Hh. { unfold h. rewrite <- (sqrt_square dz) at 1 by lra. pose proof (Sq dx dz). pose proof (Rle_0_sqr dx) as S1. pose proof (Rle_0_sqr dz) as S2. unfold Rsqr in *. apply sqrt_le_1; lra. }
  assert (forall v w, Rabs v <= k / 1000 -> 999 / 1000 * k <= w -> Rabs (atan (v / w)) <= 2 / 1000) as Q.
  { intros v w Hv Hw. apply Rle_trans with (Rabs (v / w - 0)).
    - replace (atan (v / w)) with (atan (v / w) - atan 0) by (rewrite atan_0; ring). apply atan_lip.
    - rewrite Rminus_0_r. unfold Rdiv at 1. rewrite Rabs_mult, (Rabs_pos_eq (/ w)) by (left; apply Rinv_0_lt_compat; lra).
      apply (Rmult_le_reg_r w); [lra|]. rewrite Rmult_assoc, Rinv_l by lra. lra. }
  split.
  - destruct (angle_right dx dz Dz) as [E1 E2]. fold h in E1, E2.
    refine (small_degree a 180 az (atan (dx / dz)) _ Na Ba _ _ _); [lia| | |apply Q; [exact Bx|lra]]; apply (Rmult_eq_reg_l h); lra.
  - assert (0 < h) as Hp by lra. destruct (angle_right dy h Hp) as [E1 E2].
    assert (dy * dy + h * h = dx * dx + dy * dy + dz * dz) as Eh. { unfold h. rewrite sqrt_sqrt by apply Sq. ring. }
    rewrite Eh in E1, E2. set (d := sqrt (dx * dx + dy * dy + dz * dz)) in *.
    assert (0 < d) as Hd. { unfold d. apply sqrt_lt_R0. pose proof (Sq dx dy). pose proof (Rmult_lt_0_compat _ _ Dz Dz). lra. }
    refine (small_degree e 90 el (atan (dy / h)) _ Ne Be _ _ _); [lia| | |apply Q; [exact By|lra]]; apply (Rmult_eq_reg_l d); lra.
Qed.
