(** What a drawing of the scene should show. *)
From Coq Require Import ZArith Reals.
From Verif Require Import DirectionSpec.
Open Scope R_scope.

(** An isometric drawing, with the first coordinate to the right and the second downwards: the three axes are drawn with the
    same length, 120 degrees apart; that of [y] is vertical, upwards, that of [x] goes to the left and that of [z] to the right. *)
Definition isometric (scale : R) (v : R * R * R) : R * R :=
  let '(x, y, z) := v in
  (scale * (x * - (sqrt 3 / 2) + y * 0 + z * (sqrt 3 / 2)), scale * (x * (1 / 2) + y * (-1) + z * (1 / 2))).
(** The scale of the page. *)
Definition scale : R := 7 / 10 * sqrt (2 / 3).
(** [ahead yaw pitch roll v]: the unit vector [v] is what a device of that orientation has straight ahead of it. *)
Definition ahead (yaw pitch roll : Z) (v : R * R * R) : Prop := seen yaw pitch roll v = (0, 0, 1).
