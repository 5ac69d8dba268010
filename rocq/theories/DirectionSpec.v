(** What the angles measured by the web server promise, and what is asked of the library functions. *)
From Coq Require Import ZArith Reals.
From Flocq Require Import Core.Core IEEE754.BinarySingleNaN.
From Verif Require Import Position.
Open Scope R_scope.

(** [azimuth] and [elevation], in radians, are the angles of the vector [x, y, z]: the azimuth is measured in the horizontal
    plane from the axis of [z] (0) towards the axis of [x] (a quarter turn), the elevation from that plane towards the axis of [y]. *)
Definition points (x y z azimuth elevation : R) : Prop :=
  let horizontal := sqrt (x * x + z * z) in
  let distance := sqrt (x * x + y * y + z * z) in
  x = horizontal * sin azimuth /\ z = horizontal * cos azimuth
  /\ y = distance * sin elevation /\ horizontal = distance * cos elevation.

(** A number of whole degrees is the nearest, up to a thousandth, to an angle in radians. *)
Definition nearest_degree (n : Z) (angle : R) : Prop := Rabs (IZR n - angle * (180 / Rtrigo1.PI)) <= / 2 + / 1000.

(** The rotations about the axes, counter-clockwise when the axis points to the viewer. *)
Definition turn_x (a : R) (v : R * R * R) : R * R * R :=
  let '(x, y, z) := v in (x, y * cos a - z * sin a, y * sin a + z * cos a).
Definition turn_y (a : R) (v : R * R * R) : R * R * R :=
  let '(x, y, z) := v in (x * cos a + z * sin a, y, z * cos a - x * sin a).
Definition turn_z (a : R) (v : R * R * R) : R * R * R :=
  let '(x, y, z) := v in (x * cos a - y * sin a, x * sin a + y * cos a, z).
Definition radians (n : Z) : R := IZR n * (Rtrigo1.PI / 180).
(** The direction [x, y, z] as seen by a device of that yaw, pitch and roll. *)
Definition seen (yaw pitch roll : Z) (v : R * R * R) : R * R * R :=
  turn_z (radians roll) (turn_x (radians pitch) (turn_y (radians yaw) v)).

(** The distance between two points. *)
Definition norm (v : R * R * R) : R := let '(x, y, z) := v in sqrt (x * x + y * y + z * z).
Definition minus (v w : R * R * R) : R * R * R := let '(x, y, z) := v in let '(x', y', z') := w in (x - x', y - y', z - z').

(** Asked of [atan], [sin] and [cos]: the value of the function, up to four units in the last place of 1; the arc tangent
    of an infinity is a right angle. *)
Definition accurate_atan (f : f32 -> f32) : Prop := forall a, is_nan a = false ->
  is_finite (f a) = true /\
  Rabs (B2R (f a) - (match a with B754_infinity s => if s then - (Rtrigo1.PI / 2) else Rtrigo1.PI / 2 | _ => atan (B2R a) end)) <= / 2097152.
Definition accurate_trig (f : f32 -> f32) (g : R -> R) : Prop := forall a, is_finite a = true ->
  is_finite (f a) = true /\ Rabs (B2R (f a) - g (B2R a)) <= / 2097152.
