(** What the geometry of the web server promises, and what is asked of the library functions. *)
From Coq Require Import ZArith Reals.
From Flocq Require Import Core.Core IEEE754.BinarySingleNaN.
From Verif Require Import Position.
Open Scope R_scope.

(** Rust's [i16], [i8]. *)
Definition i16 (z : Z) : Prop := (-32768 <= z < 32768)%Z.
Definition i8 (z : Z) : Prop := (-128 <= z < 128)%Z.

(** The length of the vector [x, y, z], a real number. *)
Definition euclid (x y z : Z) : R := sqrt (IZR (x * x + y * y + z * z)).

(** Asked of [sin] and [cos]: a number between -1 and 1. *)
Definition good_trig (f : f32 -> f32) : Prop := forall a, is_finite a = true ->
  is_finite (f a) = true /\ Rabs (B2R (f a)) <= 1.
(** Asked of [atan]: a number no larger than the binary32 [FRAC_PI_2] (itself the largest value the exact function
    rounds to), with the sign of its argument. *)
Definition good_atan (f : f32 -> f32) : Prop := forall a, is_nan a = false ->
  is_finite (f a) = true /\ Rabs (B2R (f a)) <= B2R FRAC_PI_2 /\ (if Bsign a then B2R (f a) <= 0 else 0 <= B2R (f a)).

(** Asked of [to_euler]: roll and yaw between -PI and PI, pitch between -PI/2 and PI/2, as given by [atan2] and [asin]. *)
Definition good_euler (f : quat -> f32 * f32 * f32) : Prop := forall q, let '(roll, pitch, yaw) := f q in
  (is_finite roll = true /\ Rabs (B2R roll) <= B2R PI) /\ (is_finite pitch = true /\ Rabs (B2R pitch) <= B2R FRAC_PI_2)
  /\ (is_finite yaw = true /\ Rabs (B2R yaw) <= B2R PI).
