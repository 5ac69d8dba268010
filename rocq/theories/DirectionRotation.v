(** The rotation of the direction, in binary32 arithmetic and exactly. *)
From Coq Require Import ZArith NArith Bool Reals Lra Lia Psatz.
From Flocq Require Import Core.Core IEEE754.BinarySingleNaN Relative.
From Verif Require Import Position PositionSpec PositionFacts DirectionSpec DirectionFacts.
Open Scope R_scope.

(** ** Vectors of real numbers *)
Lemma norm_pos v : 0 <= norm v.
Proof. destruct v as [[x y] z]. apply sqrt_pos. Qed.
Lemma norm_sq v : norm v * norm v = let '(x, y, z) := v in x * x + y * y + z * z.
Proof. destruct v as [[x y] z]. apply sqrt_sqrt. nra. Qed.
Lemma norm_le v r : 0 <= r -> (let '(x, y, z) := v in x * x + y * y + z * z <= r * r) -> norm v <= r.
Proof. destruct v as [[x y] z]. intros Hr H. unfold norm. rewrite <- (sqrt_square r Hr). apply sqrt_le_1_alt. exact H. Qed.
Lemma cauchy a b c x y z p q : 0 <= p -> 0 <= q -> a * a + b * b + c * c <= p * p -> x * x + y * y + z * z <= q * q -> a * x + b * y + c * z <= p * q.
Proof.
  intros Hp Hq H1 H2. apply Rsqr_incr_0_var; [|nra]. unfold Rsqr.
  apply Rle_trans with ((a * a + b * b + c * c) * (x * x + y * y + z * z)).
  - assert (0 <= (a * y - b * x) * (a * y - b * x) + (a * z - c * x) * (a * z - c * x) + (b * z - c * y) * (b * z - c * y)) as P.
    { pose proof (Rle_0_sqr (a * y - b * x)) as S1. pose proof (Rle_0_sqr (a * z - c * x)) as S2. pose proof (Rle_0_sqr (b * z - c * y)) as S3. unfold Rsqr in *. lra. }
    match type of P with 0 <= ?k => replace ((a * a + b * b + c * c) * (x * x + y * y + z * z)) with ((a * x + b * y + c * z) * (a * x + b * y + c * z) + k) by ring end. lra.
  - replace (p * q * (p * q)) with ((p * p) * (q * q)) by ring. apply Rmult_le_compat; nra.
Qed.
Lemma norm_triangle u v w : norm (minus u w) <= norm (minus u v) + norm (minus v w).
Proof.
  pose proof (norm_sq (minus u v)) as A. pose proof (norm_sq (minus v w)) as B. pose proof (norm_pos (minus u v)) as PA. pose proof (norm_pos (minus v w)) as PB.
  destruct u as [[x y] z], v as [[x' y'] z'], w as [[x'' y''] z'']. apply norm_le; [lra|]. cbn [minus] in *.
  set (p := norm (x - x', y - y', z - z')) in *. set (q := norm (x' - x'', y' - y'', z' - z'')) in *.
  pose proof (cauchy (x - x') (y - y') (z - z') (x' - x'') (y' - y'') (z' - z'') p q PA PB ltac:(lra) ltac:(lra)) as C.
  replace ((p + q) * (p + q)) with (p * p + q * q + 2 * (p * q)) by ring. rewrite A, B. nra.
Qed.
Lemma norm_comp x y z : Rabs x <= norm (x, y, z) /\ Rabs y <= norm (x, y, z) /\ Rabs z <= norm (x, y, z).
Proof.
  pose proof (norm_sq (x, y, z)) as S. pose proof (norm_pos (x, y, z)) as P. set (n := norm _) in *.
  assert (forall a, a * a <= n * n -> Rabs a <= n) as K.
  { intros a H. apply Rsqr_incr_0_var; [|exact P]. rewrite <- Rsqr_abs. exact H. }
  repeat split; apply K; nra.
Qed.
Lemma norm_box x y z e : Rabs x <= e -> Rabs y <= e -> Rabs z <= e -> norm (x, y, z) <= 2 * e.
Proof.
  intros Hx Hy Hz. assert (0 <= e) by (pose proof (Rabs_pos x); lra).
  assert (forall a, Rabs a <= e -> a * a <= e * e) as K. { intros a Ha. pose proof (Rabs_pos a). rewrite <- (Rabs_pos_eq (a * a)) by nra. rewrite Rabs_mult. apply Rmult_le_compat; assumption. }
  apply norm_le; [lra|]. pose proof (K x Hx). pose proof (K y Hy). pose proof (K z Hz). nra.
Qed.

(** ** Turns: isometries, continuous in the angle *)
Lemma trig_one a : sin a * sin a + cos a * cos a = 1.
Proof. exact (sin2_cos2 a). Qed.
Lemma chord a b : (cos a - cos b) * (cos a - cos b) + (sin a - sin b) * (sin a - sin b) <= (a - b) * (a - b).
Proof.
  pose proof (trig_one a) as A. pose proof (trig_one b) as B. set (d := (a - b) / 2).
  assert (cos (a - b) = 1 - 2 * (sin d * sin d)) as C. { replace (a - b) with (2 * d) by (unfold d; field). rewrite cos_2a_sin. ring. }
  rewrite cos_minus in C.
  assert (sin d * sin d <= d * d) as S.
  { assert (Rabs (sin d) <= Rabs d) as L.
    { destruct (Rle_dec 0 d) as [P|P].
      - destruct (Req_dec d 0) as [->|N]; [rewrite sin_0; lra|]. rewrite (Rabs_pos_eq d P). pose proof (sin_lt_x d ltac:(lra)). apply Rabs_le. split; [|lra].
        destruct (Rle_dec d 1) as [Q|Q]; [pose proof (sin_ge_0 d P ltac:(pose proof pi_bounds; lra)); lra|pose proof (SIN_bound d); lra].
      - rewrite (Rabs_left d) by lra. pose proof (sin_lt_x (- d) ltac:(lra)) as K. rewrite sin_neg in K. apply Rabs_le. split; [lra|].
        destruct (Rle_dec (- d) 1) as [Q|Q]; [pose proof (sin_ge_0 (- d) ltac:(lra) ltac:(pose proof pi_bounds; lra)) as T; rewrite sin_neg in T; lra|pose proof (SIN_bound d); lra]. }
    rewrite <- (Rabs_pos_eq (sin d * sin d)), <- (Rabs_pos_eq (d * d)) by nra. rewrite !Rabs_mult. apply Rmult_le_compat; try apply Rabs_pos; exact L. }
  assert ((a - b) * (a - b) = 4 * (d * d)) as -> by (unfold d; field). nra.
Qed.
Ltac turns := intros [[x y] z]; unfold norm, minus, turn_x, turn_y, turn_z.
Lemma turn_x_norm a v w : norm (minus (turn_x a v) (turn_x a w)) = norm (minus v w).
Proof. revert v w. turns. intros [[x' y'] z']. pose proof (trig_one a). f_equal. set (s := sin a) in *. set (c := cos a) in *. transitivity ((x - x') * (x - x') + (s * s + c * c) * ((y - y') * (y - y') + (z - z') * (z - z'))); [ring|rewrite H; ring]. Qed.
Lemma turn_z_norm a v w : norm (minus (turn_z a v) (turn_z a w)) = norm (minus v w).
Proof. revert v w. turns. intros [[x' y'] z']. pose proof (trig_one a). f_equal. set (s := sin a) in *. set (c := cos a) in *. transitivity ((s * s + c * c) * ((y - y') * (y - y') + (x - x') * (x - x')) + (z - z') * (z - z')); [ring|rewrite H; ring]. Qed.
Lemma turn_keeps a v : norm (turn_x a v) = norm v /\ norm (turn_y a v) = norm v /\ norm (turn_z a v) = norm v.
Proof.
  pose proof (trig_one a) as H. revert v. turns. set (s := sin a) in *. set (c := cos a) in *.
  split; [|split]; f_equal.
  - transitivity (x * x + (s * s + c * c) * (y * y + z * z)); [ring|rewrite H; ring].
  - transitivity (y * y + (s * s + c * c) * (x * x + z * z)); [ring|rewrite H; ring].
  - transitivity (z * z + (s * s + c * c) * (x * x + y * y)); [ring|rewrite H; ring].
Qed.
Lemma turn_moves a b v : norm (minus (turn_x a v) (turn_x b v)) <= Rabs (a - b) * norm v /\ norm (minus (turn_y a v) (turn_y b v)) <= Rabs (a - b) * norm v
  /\ norm (minus (turn_z a v) (turn_z b v)) <= Rabs (a - b) * norm v.
Proof.
  pose proof (chord a b) as H. pose proof (norm_sq v) as S. pose proof (norm_pos v) as P. pose proof (Rabs_pos (a - b)) as Q.
  assert (Rabs (a - b) * Rabs (a - b) = (a - b) * (a - b)) as E by (rewrite <- Rabs_mult; apply Rabs_pos_eq, Rle_0_sqr).
  revert S P. set (n := norm v). destruct v as [[x y] z]. intros S P.
  set (k := (a - b) * (a - b)) in *. set (p := cos a - cos b) in *. set (q := sin a - sin b) in *.
  assert (forall r t, 0 <= r <= t -> (p * p + q * q) * r <= k * t) as K by (intros r t Hr; apply Rmult_le_compat; [nra|lra|exact H|lra]). pose proof (Rle_0_sqr x) as Sx. pose proof (Rle_0_sqr y) as Sy. pose proof (Rle_0_sqr z) as Sz. unfold Rsqr in Sx, Sy, Sz.
  repeat split; (apply norm_le; [nra|]); unfold minus, turn_x, turn_y, turn_z; replace (Rabs (a - b) * n * (Rabs (a - b) * n)) with (k * (n * n)) by (rewrite <- E; ring); rewrite S.
  - replace ((x - x) * (x - x) + _ + _) with ((p * p + q * q) * (y * y + z * z)) by (unfold p, q; ring). apply K; lra.
  - replace (_ + (y - y) * (y - y) + _) with ((p * p + q * q) * (x * x + z * z)) by (unfold p, q; ring). apply K; lra.
  - replace (_ + _ + (z - z) * (z - z)) with ((p * p + q * q) * (x * x + y * y)) by (unfold p, q; ring). apply K; lra.
Qed.
Definition turned (roll pitch yaw : R) (v : R * R * R) : R * R * R := turn_z roll (turn_x pitch (turn_y yaw v)).
Lemma turned_norm a b c v : norm (turned a b c v) = norm v.
Proof. unfold turned. destruct (turn_keeps a (turn_x b (turn_y c v))) as (_ & _ & ->). destruct (turn_keeps b (turn_y c v)) as (-> & _). now destruct (turn_keeps c v) as (_ & -> & _). Qed.
Lemma turned_moves a b c a' b' c' v : norm (minus (turned a b c v) (turned a' b' c' v)) <= (Rabs (a - a') + Rabs (b - b') + Rabs (c - c')) * norm v.
Proof.
  unfold turned. set (w := turn_x b (turn_y c v)). set (w' := turn_x b' (turn_y c' v)). eapply Rle_trans; [apply (norm_triangle _ (turn_z a' w))|].
  rewrite turn_z_norm. destruct (turn_moves a a' w) as (_ & _ & A). assert (norm w = norm v) as Ew. { unfold w. destruct (turn_keeps b (turn_y c v)) as (-> & _). now destruct (turn_keeps c v) as (_ & -> & _). }
  rewrite Ew in A. assert (norm (minus w w') <= (Rabs (b - b') + Rabs (c - c')) * norm v); [|lra]. unfold w, w'.
  eapply Rle_trans; [apply (norm_triangle _ (turn_x b' (turn_y c v)))|]. rewrite turn_x_norm.
  destruct (turn_moves b b' (turn_y c v)) as (B & _). destruct (turn_moves c c' v) as (_ & C & _). assert (norm (turn_y c v) = norm v) as Ev by (now destruct (turn_keeps c v) as (_ & -> & _)). rewrite Ev in B. lra.
Qed.

(** ** The computed rotation. [app f r e m]: [f] is the real [r] up to [e], and [r] is at most [m]. *)
Definition app (f : f32) (r e m : R) : Prop := is_finite f = true /\ Rabs (B2R f - r) <= e /\ Rabs r <= m.
Lemma app_bound f r e m : app f r e m -> is_finite f = true /\ Rabs (B2R f) <= m + e /\ 0 <= m /\ 0 <= e.
Proof.
  intros (F & E & M). split; [exact F|]. pose proof (Rabs_pos r). pose proof (Rabs_pos (B2R f - r)). split; [|lra].
  replace (B2R f) with ((B2R f - r) + r) by ring. eapply Rle_trans; [apply Rabs_triang|]. lra.
Qed.
Lemma app_weaken f r e m e' m' : app f r e m -> e <= e' -> m <= m' -> app f r e' m'.
Proof. intros (F & E & M) He Hm. repeat split; auto; lra. Qed.
Lemma big60 : bpow radix2 60 = 1152921504606846976.
Proof. reflexivity. Qed.
Lemma app_mul f g r s e e' m m' E M : app f r e m -> app g s e' m' -> (m + e) * (m' + e') <= 1000000000000000000 ->
  e * (m' + e') + m * e' + ((m + e) * (m' + e')) * / 16777216 + eta <= E -> m * m' <= M -> app (fmul f g) (r * s) E M.
Proof.
  intros A B L HE HM. destruct (app_bound _ _ _ _ A) as (Ff & Bf & Pm & Pe), (app_bound _ _ _ _ B) as (Fg & Bg & Pm' & Pe'). destruct A as (_ & Ef & Mr), B as (_ & Eg & Ms).
  assert (Rabs (B2R f * B2R g) <= (m + e) * (m' + e')) as Bp by (rewrite Rabs_mult; apply Rmult_le_compat; auto using Rabs_pos).
  destruct (fmul_ok f g 60 ltac:(lia) Ff Fg) as (Em & Fm & _); [rewrite big60; lra|]. split; [exact Fm|]. split.
  - rewrite Em. eapply near_trans; [apply rnd_near| |]; [instantiate (1 := e * (m' + e') + m * e')|].
    + replace (B2R f * B2R g - r * s) with ((B2R f - r) * B2R g + r * (B2R g - s)) by ring. eapply Rle_trans; [apply Rabs_triang|]. rewrite !Rabs_mult.
      apply Rplus_le_compat; apply Rmult_le_compat; auto using Rabs_pos.
    + rewrite u_eq. lra.
  - rewrite Rabs_mult. apply Rle_trans with (2 := HM). apply Rmult_le_compat; auto using Rabs_pos.
Qed.
Lemma app_add f g r s e e' m m' E M : app f r e m -> app g s e' m' -> m + e + (m' + e') <= 1000000000000000000 ->
  e + e' + (m + e + (m' + e')) * / 16777216 + eta <= E -> m + m' <= M -> app (fadd f g) (r + s) E M.
Proof.
  intros A B L HE HM. destruct (app_bound _ _ _ _ A) as (Ff & Bf & Pm & Pe), (app_bound _ _ _ _ B) as (Fg & Bg & Pm' & Pe'). destruct A as (_ & Ef & Mr), B as (_ & Eg & Ms).
  assert (Rabs (B2R f + B2R g) <= m + e + (m' + e')) as Bp by (eapply Rle_trans; [apply Rabs_triang|]; lra).
  destruct (fadd_ok f g 60 ltac:(lia) Ff Fg) as (Em & Fm); [rewrite big60; lra|]. split; [exact Fm|]. split.
  - rewrite Em. eapply near_trans; [apply rnd_near|eapply near_plus; [exact Ef|exact Eg|apply Rle_refl]|]. rewrite u_eq. lra.
  - eapply Rle_trans; [apply Rabs_triang|]. lra.
Qed.
Lemma app_sub f g r s e e' m m' E M : app f r e m -> app g s e' m' -> m + e + (m' + e') <= 1000000000000000000 ->
  e + e' + (m + e + (m' + e')) * / 16777216 + eta <= E -> m + m' <= M -> app (fsub f g) (r - s) E M.
Proof.
  intros A B L HE HM. destruct (app_bound _ _ _ _ A) as (Ff & Bf & Pm & Pe), (app_bound _ _ _ _ B) as (Fg & Bg & Pm' & Pe'). destruct A as (_ & Ef & Mr), B as (_ & Eg & Ms).
  assert (Rabs (B2R f - B2R g) <= m + e + (m' + e')) as Bp by (unfold Rminus; eapply Rle_trans; [apply Rabs_triang|]; rewrite Rabs_Ropp; lra).
  destruct (fsub_ok f g 60 ltac:(lia) Ff Fg) as (Em & Fm); [rewrite big60; lra|]. split; [exact Fm|]. split.
  - rewrite Em. eapply near_trans; [apply rnd_near|eapply near_plus; [exact Ef|apply near_opp; exact Eg|apply Rle_refl]|]. rewrite u_eq. lra.
  - unfold Rminus. eapply Rle_trans; [apply Rabs_triang|]. rewrite Rabs_Ropp. lra.
Qed.
Lemma app_zero : app zero 0 0 0.
Proof. destruct zero_ok as [E F]. split; [exact F|]. rewrite E, Rminus_0_r, Rabs_R0. lra. Qed.
Lemma app_two : app two 2 0 2.
Proof. destruct two_ok as [E F]. split; [exact F|]. rewrite E. unfold Rminus. rewrite Rplus_opp_r, Rabs_R0, Rabs_pos_eq; lra. Qed.
Lemma app_int f z : is_finite f = true -> B2R f = z -> app f z 0 (Rabs z).
Proof. intros F <-. split; [exact F|]. split; [apply near_refl; lra|lra]. Qed.
(** The same function with another bound on the exact value. *)
Lemma app_known f r e m m' : app f r e m -> Rabs r <= m' -> app f r e m'.
Proof. intros (F & E & _) M. repeat split; auto. Qed.
Lemma app_eq f r r' e m : app f r e m -> r = r' -> app f r' e m.
Proof. now intros A <-. Qed.

(** The quaternion of three half angles: [s1], [c1] of the roll, [s2], [c2] of the pitch, [s3], [c3] of the yaw. *)
Section Quaternion.
Context (s1 c1 s2 c2 s3 c3 : R) (H1 : s1 * s1 + c1 * c1 = 1) (H2 : s2 * s2 + c2 * c2 = 1) (H3 : s3 * s3 + c3 * c3 = 1).
Definition ex : R := c1 * s2 * c3 - s1 * c2 * s3.
Definition ey : R := c1 * c2 * s3 + s1 * s2 * c3.
Definition ez : R := c1 * s2 * s3 + s1 * c2 * c3.
Definition ew : R := c1 * c2 * c3 - s1 * s2 * s3.
Lemma unit_quaternion : ex * ex + ey * ey + ez * ez + ew * ew = 1.
Proof.
  transitivity ((s1 * s1 + c1 * c1) * (s2 * s2 + c2 * c2) * (s3 * s3 + c3 * c3)); [unfold ex, ey, ez, ew; ring|]. rewrite H1, H2, H3. ring.
Qed.
Lemma unit_le : Rabs ex <= 1 /\ Rabs ey <= 1 /\ Rabs ez <= 1 /\ Rabs ew <= 1 /\ Rabs (ex * ex + ey * ey + ez * ez) <= 1 /\ Rabs (ew * ew - (ex * ex + ey * ey + ez * ez)) <= 1.
Proof.
  pose proof unit_quaternion as Q. pose proof (Rle_0_sqr ex) as X. pose proof (Rle_0_sqr ey) as Y. pose proof (Rle_0_sqr ez) as Z. pose proof (Rle_0_sqr ew) as W. unfold Rsqr in *.
  assert (forall a, a * a <= 1 -> Rabs a <= 1) as K. { intros a H. apply Rsqr_incr_0_var; [|lra]. rewrite <- Rsqr_abs. unfold Rsqr. lra. }
  repeat split; try (apply K; lra); apply Rabs_le; lra.
Qed.
(** The rotation it stands for. *)
Lemma quaternion_turns x y z : let k := ew * ew - (ex * ex + ey * ey + ez * ez) in let p := x * ex + y * ey + z * ez in
  let C a b := b * b - a * a in let S a b := 2 * a * b in
  let v1 := x * C s3 c3 + z * S s3 c3 in let w1 := z * C s3 c3 - x * S s3 c3 in
  let y2 := y * C s2 c2 - w1 * S s2 c2 in let z2 := y * S s2 c2 + w1 * C s2 c2 in
  x * k + ex * (p * 2) + (ey * z - y * ez) * (ew * 2) = v1 * C s1 c1 - y2 * S s1 c1
  /\ y * k + ey * (p * 2) + (ez * x - z * ex) * (ew * 2) = v1 * S s1 c1 + y2 * C s1 c1
  /\ z * k + ez * (p * 2) + (ex * y - x * ey) * (ew * 2) = z2.
Proof.
  cbn zeta. set (C3 := c3 * c3 - s3 * s3). set (S3 := 2 * s3 * c3). set (C2 := c2 * c2 - s2 * s2). set (S2 := 2 * s2 * c2). set (C1 := c1 * c1 - s1 * s1). set (S1 := 2 * s1 * c1).
  set (G1 := s1 * s1 + c1 * c1) in *. set (G2 := s2 * s2 + c2 * c2) in *. set (G3 := s3 * s3 + c3 * c3) in *.
  repeat split.
  - transitivity ((x * C3 + z * S3) * G2 * C1 - (y * G3 * C2 - (z * C3 - x * S3) * S2) * S1); [unfold ex, ey, ez, ew, C1, C2, C3, S1, S2, S3, G1, G2, G3; ring|rewrite H2, H3; ring].
  - transitivity ((x * C3 + z * S3) * G2 * S1 + (y * G3 * C2 - (z * C3 - x * S3) * S2) * C1); [unfold ex, ey, ez, ew, C1, C2, C3, S1, S2, S3, G1, G2, G3; ring|rewrite H2, H3; ring].
  - transitivity ((y * G3 * S2 + (z * C3 - x * S3) * C2) * G1); [unfold ex, ey, ez, ew, C1, C2, C3, S1, S2, S3, G1, G2, G3; ring|rewrite H1, H3; ring].
Qed.
End Quaternion.
Lemma quaternion_turned a b c x y z :
  let q x y z := let '(ex, ey, ez, ew) := (ex (sin a) (cos a) (sin b) (cos b) (sin c) (cos c), ey (sin a) (cos a) (sin b) (cos b) (sin c) (cos c), ez (sin a) (cos a) (sin b) (cos b) (sin c) (cos c), ew (sin a) (cos a) (sin b) (cos b) (sin c) (cos c)) in
    let k := ew * ew - (ex * ex + ey * ey + ez * ez) in let p := x * ex + y * ey + z * ez in
    (x * k + ex * (p * 2) + (ey * z - y * ez) * (ew * 2), y * k + ey * (p * 2) + (ez * x - z * ex) * (ew * 2), z * k + ez * (p * 2) + (ex * y - x * ey) * (ew * 2)) in
  q x y z = turned (2 * a) (2 * b) (2 * c) (x, y, z).
Proof.
  cbn zeta. destruct (quaternion_turns (sin a) (cos a) (sin b) (cos b) (sin c) (cos c) (trig_one a) (trig_one b) (trig_one c) x y z) as (E1 & E2 & E3).
  rewrite E1, E2, E3. unfold turned, turn_x, turn_y, turn_z. rewrite !sin_2a, !cos_2a. assert (forall a a0 b b0 c c0 : R, a = a0 -> b = b0 -> c = c0 -> (a, b, c) = (a0, b0, c0)) as T by congruence. apply T; ring.
Qed.

Ltac app_step := match goal with
  | |- app zero _ _ _ => apply app_zero
  | |- app two _ _ _ => apply app_two
  | |- app (fmul _ _) _ _ _ => eapply app_mul; [app_step|app_step|lra|apply Rle_refl|apply Rle_refl]
  | |- app (fadd _ _) _ _ _ => eapply app_add; [app_step|app_step|lra|apply Rle_refl|apply Rle_refl]
  | |- app (fsub _ _) _ _ _ => eapply app_sub; [app_step|app_step|lra|apply Rle_refl|apply Rle_refl]
  | H : app ?f _ _ _ |- app ?f _ _ _ => exact H
  end.
Ltac app_solve := eapply app_eq; [eapply app_weaken; [app_step|lra|lra]|ring].
Section Computed.
Context (S1 C1 S2 C2 S3 C3 : f32) (s1 c1 s2 c2 s3 c3 : R).
Notation d := (/ 2000000).
Context (A1 : app S1 s1 d 1) (B1 : app C1 c1 d 1) (A2 : app S2 s2 d 1) (B2 : app C2 c2 d 1) (A3 : app S3 s3 d 1) (B3 : app C3 c3 d 1).
Context (H1 : s1 * s1 + c1 * c1 = 1) (H2 : s2 * s2 + c2 * c2 = 1) (H3 : s3 * s3 + c3 * c3 = 1).
Lemma first_product : let q := quat_mul (Quat zero zero S1 C1) (Quat S2 zero zero C2) in
  app (qx q) (c1 * s2) (3 * d) 1 /\ app (qy q) (s1 * s2) (3 * d) 1 /\ app (qz q) (s1 * c2) (3 * d) 1 /\ app (qw q) (c1 * c2) (3 * d) 1.
Proof.
  cbn zeta. cbn [quat_mul qx qy qz qw]. pose proof eta_small as Et.
  split; [app_solve|]. split; [app_solve|]. split; app_solve.
Qed.
Notation x0 := (ex s1 c1 s2 c2 s3 c3). Notation y0 := (ey s1 c1 s2 c2 s3 c3). Notation z0 := (ez s1 c1 s2 c2 s3 c3). Notation w0 := (ew s1 c1 s2 c2 s3 c3).
Notation full := (quat_mul (quat_mul (Quat zero zero S1 C1) (Quat S2 zero zero C2)) (Quat zero S3 zero C3)).
Lemma second_product : app (qx full) x0 (10 * d) 1 /\ app (qy full) y0 (10 * d) 1 /\ app (qz full) z0 (10 * d) 1 /\ app (qw full) w0 (10 * d) 1.
Proof.
  destruct first_product as (X & Y & Z & W). destruct (quat_mul (Quat zero zero S1 C1) (Quat S2 zero zero C2)) as [x y z w]. cbn [quat_mul qx qy qz qw] in *. pose proof eta_small as Et.
  destruct (unit_le _ _ _ _ _ _ H1 H2 H3) as (L1 & L2 & L3 & L4 & _).
  split; [|split; [|split]]; (eapply app_known; [|eassumption]); eapply app_eq.
  1: eapply (app_weaken _ _ _ _ (10 * d) 5); [app_step|lra|lra]. 1: unfold ex; ring.
  1: eapply (app_weaken _ _ _ _ (10 * d) 5); [app_step|lra|lra]. 1: unfold ey; ring.
  1: eapply (app_weaken _ _ _ _ (10 * d) 5); [app_step|lra|lra]. 1: unfold ez; ring.
  1: eapply (app_weaken _ _ _ _ (10 * d) 5); [app_step|lra|lra]. unfold ew; ring.
Qed.
Context (X Y Z : f32) (x y z N : R) (HN : 1 <= N <= 200000) (AX : app X x 0 N) (AY : app Y y 0 N) (AZ : app Z z 0 N).
Lemma rotated_close : let v := mul_vec3 full (Vec3 X Y Z) in
  let k := w0 * w0 - (x0 * x0 + y0 * y0 + z0 * z0) in let p := x * x0 + y * y0 + z * z0 in
  app (vx v) (x * k + x0 * (p * 2) + (y0 * z - y * z0) * (w0 * 2)) (320 * d * N) (20 * N)
  /\ app (vy v) (y * k + y0 * (p * 2) + (z0 * x - z * x0) * (w0 * 2)) (320 * d * N) (20 * N)
  /\ app (vz v) (z * k + z0 * (p * 2) + (x0 * y - x * y0) * (w0 * 2)) (320 * d * N) (20 * N).
Proof.
  destruct second_product as (QX & QY & QZ & QW). destruct full as [qX qY qZ qW]. cbn [qx qy qz qw] in *. cbn zeta. unfold mul_vec3. cbn [qx qy qz qw]. pose proof eta_small as Et.
  destruct (unit_le _ _ _ _ _ _ H1 H2 H3) as (_ & _ & _ & _ & L5 & L6).
  set (b := Vec3 qX qY qZ). assert (app (dot b b) (x0 * x0 + y0 * y0 + z0 * z0) (64 * d) 1) as D.
  { eapply app_known; [|exact L5]. eapply (app_weaken _ _ _ _ (64 * d) 5); [unfold dot, b; cbn [vx vy vz]; app_step|lra|lra]. }
  assert (app (fsub (fmul qW qW) (dot b b)) (w0 * w0 - (x0 * x0 + y0 * y0 + z0 * z0)) (86 * d) 1) as K.
  { eapply app_known; [|exact L6]. eapply (app_weaken _ _ _ _ (86 * d) 5); [app_step|lra|lra]. }
  assert (app (fmul (dot (Vec3 X Y Z) b) two) ((x * x0 + y * y0 + z * z0) * 2) (65 * d * N) (6 * N)) as Pp.
  { assert (app (dot (Vec3 X Y Z) b) (x * x0 + y * y0 + z * z0) (32 * d * N) (3 * N)) as Q; [eapply app_weaken; [unfold dot, b; cbn [vx vy vz]; app_step|lra|lra]|].
    eapply app_weaken; [app_step|lra|lra]. }
  assert (app (fmul qW two) (w0 * 2) (21 * d) 2) as W2 by (eapply app_weaken; [app_step|lra|lra]).
  assert (app (vx (cross b (Vec3 X Y Z))) (y0 * z - y * z0) (21 * d * N) (2 * N)) as CX by (eapply app_weaken; [unfold cross, b; cbn [vx vy vz]; app_step|lra|lra]).
  assert (app (vy (cross b (Vec3 X Y Z))) (z0 * x - z * x0) (21 * d * N) (2 * N)) as CY by (eapply app_eq; [eapply app_weaken; [unfold cross, b; cbn [vx vy vz]; app_step|lra|lra]|ring]).
  assert (app (vz (cross b (Vec3 X Y Z))) (x0 * y - x * y0) (21 * d * N) (2 * N)) as CZ by (eapply app_eq; [eapply app_weaken; [unfold cross, b; cbn [vx vy vz]; app_step|lra|lra]|ring]).
  cbv zeta. unfold vadd, vmul. cbn [vx vy vz]. set (cr := cross b (Vec3 X Y Z)) in *. set (kk := fsub (fmul qW qW) (dot b b)) in *. set (pp := fmul (dot (Vec3 X Y Z) b) two) in *. set (ww := fmul qW two) in *. unfold b. cbn [vx vy vz].
  clearbody cr kk pp ww. clear D b.
  assert (forall (A B C : f32) a bb c, app A a 0 N -> app B bb (10 * d) 1 -> app C c (21 * d * N) (2 * N) ->
    app (fadd (fadd (fmul A kk) (fmul B pp)) (fmul C ww)) (a * (w0 * w0 - (x0 * x0 + y0 * y0 + z0 * z0)) + bb * ((x * x0 + y * y0 + z * z0) * 2) + c * (w0 * 2)) (320 * d * N) (20 * N)) as T.
  { clear AX AY AZ QX QY QZ CX CY CZ. intros A B C a bb c HA HB HC.
    assert (app (fmul A kk) (a * (w0 * w0 - (x0 * x0 + y0 * y0 + z0 * z0))) (87 * d * N) N) as T1 by (eapply app_weaken; [app_step|lra|lra]).
    assert (app (fmul B pp) (bb * ((x * x0 + y * y0 + z * z0) * 2)) (127 * d * N) (6 * N)) as T2 by (eapply app_weaken; [app_step|lra|lra]).
    assert (app (fmul C ww) (c * (w0 * 2)) (86 * d * N) (4 * N)) as T3 by (eapply app_weaken; [app_step|lra|lra]).
    eapply app_weaken; [app_step|lra|lra]. }
  split; [|split]; apply T; assumption.
Qed.
End Computed.

(** ** The half angles *)
Lemma half_angle n : i16 n -> is_finite (half (to_radians (of_int n))) = true /\ Rabs (2 * B2R (half (to_radians (of_int n))) - radians n) <= 9 / 100000.
Proof.
  intros Hn. unfold i16 in Hn. destruct (of_int_ok n ltac:(lia)) as [En Fn].
  destruct (const_ok (fdiv PI (of_int 180)) false 9370165 (-29)) as [Ec Fc]; [vm_compute; reflexivity|].
  assert (B2R (fdiv PI (of_int 180)) = 9370165 / 536870912) as Ec' by (rewrite Ec; unfold F2R; cbn; lra). clear Ec.
  destruct (const_ok (lit 1 (-1)) false 8388608 (-24)) as [Eh Fh]; [vm_compute; reflexivity|].
  assert (B2R (lit 1 (-1)) = / 2) as Eh' by (rewrite Eh; unfold F2R; cbn; lra). clear Eh.
  assert (Rabs (IZR n) <= 32768) as Bn by (rewrite <- abs_IZR; apply IZR_le; lia).
  assert (app (of_int n) (IZR n) 0 32768) as An by (split; [exact Fn|split; [rewrite En; apply near_refl; lra|exact Bn]]).
  assert (app (fdiv PI (of_int 180)) (9370165 / 536870912) 0 (2 / 100)) as Ac by (split; [exact Fc|split; [rewrite Ec'; apply near_refl; lra|apply Rabs_le; lra]]).
  assert (app (lit 1 (-1)) (/ 2) 0 (/ 2)) as Ah by (split; [exact Fh|split; [rewrite Eh'; apply near_refl; lra|apply Rabs_le; lra]]).
  pose proof eta_small as Et. pose proof pi_bounds as Pb.
  assert (app (to_radians (of_int n)) (IZR n * (9370165 / 536870912)) (4 / 100000) 572) as At.
  { eapply app_known; [eapply (app_weaken _ _ _ _ _ 1000); [unfold to_radians; app_step|lra|lra]|]. rewrite Rabs_mult, (Rabs_pos_eq (9370165 / 536870912)) by lra. lra. }
  assert (app (half (to_radians (of_int n))) (IZR n * (9370165 / 536870912) * / 2) (375 / 10000000) 286) as Af.
  { unfold half. eapply app_weaken; [app_step|lra|lra]. }
  destruct Af as (Ff & Ef & _). split; [exact Ff|]. apply Rabs_le_inv in Ef. apply Rabs_le_inv in Bn. unfold radians.
  assert (Rabs (9370165 / 536870912 - pi / 180) <= / 2500000000) as D by (apply Rabs_le; lra). apply Rabs_le_inv in D.
  assert (Rabs (IZR n * (9370165 / 536870912 - pi / 180)) <= 32768 * / 2500000000) as M.
  { rewrite Rabs_mult. apply Rmult_le_compat; try apply Rabs_pos; apply Rabs_le; lra. }
  apply Rabs_le_inv in M. apply Rabs_le. lra.
Qed.

Section Rotated.
Context (fsin fcos : f32 -> f32) (Hs : accurate_trig fsin sin) (Hc : accurate_trig fcos cos).
Lemma app_sin h : is_finite h = true -> app (fsin h) (sin (B2R h)) (/ 2000000) 1.
Proof. intros F. destruct (Hs h F) as [Fs E]. split; [exact Fs|]. split; [lra|]. apply Rabs_le. pose proof (SIN_bound (B2R h)). lra. Qed.
Lemma app_cos h : is_finite h = true -> app (fcos h) (cos (B2R h)) (/ 2000000) 1.
Proof. intros F. destruct (Hc h F) as [Fs E]. split; [exact Fs|]. split; [lra|]. apply Rabs_le. pose proof (COS_bound (B2R h)). lra. Qed.
Lemma rotated_direction x y z yaw pitch roll (v : vec3) dx dy dz : i16 yaw -> i8 pitch -> i16 roll ->
  is_finite (vx v) = true -> is_finite (vy v) = true -> is_finite (vz v) = true -> B2R (vx v) = IZR dx -> B2R (vy v) = IZR dy -> B2R (vz v) = IZR dz ->
  (Z.abs dx <= 65535)%Z -> (Z.abs dy <= 65535)%Z -> (Z.abs dz <= 65535)%Z -> (dx, dy, dz) <> (0, 0, 0)%Z ->
  let d := mul_vec3 (p_rotation (new fsin fcos x y z yaw pitch roll)) v in
  let n := norm (IZR dx, IZR dy, IZR dz) in
  bvec d 40 /\ 1 <= n /\ norm (minus (B2R (vx d), B2R (vy d), B2R (vz d)) (seen yaw pitch roll (IZR dx, IZR dy, IZR dz))) <= n / 1000.
Proof.
  intros Hy Hp Hr Fx Fy Fz Ex Ey Ez Bx By Bz Nz d n. assert (i16 pitch) as Hp' by (unfold i8, i16 in *; lia).
  destruct (half_angle roll Hr) as [F1 E1], (half_angle pitch Hp') as [F2 E2], (half_angle yaw Hy) as [F3 E3].
  set (a := half (to_radians (of_int roll))) in *. set (b := half (to_radians (of_int pitch))) in *. set (c := half (to_radians (of_int yaw))) in *.
  assert (forall t, (Z.abs t <= 65535)%Z -> IZR t * IZR t <= 65535 * 65535) as Sq. { intros t Ht. rewrite <- !mult_IZR. apply IZR_le. nia. }
  assert (1 <= n <= 200000) as Hn.
  { unfold n. split.
    - rewrite <- sqrt_1. cbn [norm]. apply sqrt_le_1_alt. rewrite <- !mult_IZR, <- !plus_IZR. apply IZR_le. assert (dx <> 0 \/ dy <> 0 \/ dz <> 0)%Z as [?|[?|?]]; [|nia..].
      destruct (Z.eq_dec dx 0) as [->|]; [|now left]. destruct (Z.eq_dec dy 0) as [->|]; [|now right; left]. destruct (Z.eq_dec dz 0) as [->|]; [|now right; right]. now contradiction Nz.
    - apply norm_le; [lra|]. pose proof (Sq dx Bx). pose proof (Sq dy By). pose proof (Sq dz Bz). lra. }
  destruct (norm_comp (IZR dx) (IZR dy) (IZR dz)) as (N1 & N2 & N3). fold n in N1, N2, N3.
  assert (forall (f : f32) r, is_finite f = true -> B2R f = r -> Rabs r <= n -> app f r 0 n) as AI. { intros f r F <- B. split; [exact F|split; [apply near_refl; lra|exact B]]. }
  pose proof (rotated_close _ _ _ _ _ _ _ _ _ _ _ _ (app_sin a F1) (app_cos a F1) (app_sin b F2) (app_cos b F2) (app_sin c F3) (app_cos c F3) (trig_one _) (trig_one _) (trig_one _)
    _ _ _ _ _ _ n Hn (AI _ _ Fx Ex N1) (AI _ _ Fy Ey N2) (AI _ _ Fz Ez N3)) as R. cbn zeta in R.
  pose proof (quaternion_turned (B2R a) (B2R b) (B2R c) (IZR dx) (IZR dy) (IZR dz)) as T. cbn zeta in T.
  destruct v as [X Y Z]. cbn [vx vy vz] in *.
  change (quat_mul (quat_mul (Quat zero zero (fsin a) (fcos a)) (Quat (fsin b) zero zero (fcos b))) (Quat zero (fsin c) zero (fcos c))) with (p_rotation (new fsin fcos x y z yaw pitch roll)) in R.
  fold d in R. match type of T with (?p, ?q, ?r) = _ => set (tx := p) in *; set (ty := q) in *; set (tz := r) in * end. destruct R as (R1 & R2 & R3).
  split; [|split; [lra|]].
  - assert (forall f r, app f r (320 * / 2000000 * n) (20 * n) -> bnd f 40) as K.
    { intros f r A. destruct (app_bound _ _ _ _ A) as (F & B & _). split; [exact F|]. apply Rle_trans with (1 := B). change (bpow radix2 40) with 1099511627776. lra. }
    split; [eapply K, R1|split; [eapply K, R2|eapply K, R3]].
  - eapply Rle_trans; [apply (norm_triangle _ (tx, ty, tz))|].
    assert (norm (minus (B2R (vx d), B2R (vy d), B2R (vz d)) (tx, ty, tz)) <= 2 * (320 * / 2000000 * n)) as B1.
    { apply norm_box; [apply R1|apply R2|apply R3]. }
    assert (norm (minus (tx, ty, tz) (seen yaw pitch roll (IZR dx, IZR dy, IZR dz))) <= 27 / 100000 * n) as B2; [|lra].
    rewrite T. eapply Rle_trans; [apply turned_moves|]. fold n. apply Rmult_le_compat_r; lra.
Qed.
End Rotated.
