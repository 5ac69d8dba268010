(** Model of what the web page draws: the markers of static/src/components/Map.js and the orientation of
    static/src/components/Orientation.js. Lengths and angles are real numbers (the browser computes with floating point
    numbers); the sizes of the boxes and the thickness of the lines are left out: the centre of each drawing is the origin. *)
From Coq Require Import ZArith Reals List.
From Flocq Require Import Core.Raux.
From Verif Require Import Page.
Import ListNotations.
Open Scope R_scope.

Definition point : Type := R * R * R.
(** The transform functions of CSS, on points with the first axis to the right, the second downwards and the third towards the
    viewer (CSS Transforms Module Level 2, 3.1 and 12): angles in degrees. [skewY] is used in the plane only. *)
Inductive transform : Type :=
  | RotateX (degrees : R)
  | RotateY (degrees : R)
  | RotateZ (degrees : R)
  | Scale (factor : R)
  | SkewY (degrees : R)
  | Translate (dx dy : R).
Definition rad (degrees : R) : R := degrees * (PI / 180).
Definition apply_transform (t : transform) (p : point) : point :=
  let '(x, y, z) := p in
  match t with
  | RotateX d => (x, y * cos (rad d) - z * sin (rad d), y * sin (rad d) + z * cos (rad d))
  | RotateY d => (x * cos (rad d) + z * sin (rad d), y, z * cos (rad d) - x * sin (rad d))
  | RotateZ d => (x * cos (rad d) - y * sin (rad d), x * sin (rad d) + y * cos (rad d), z)
  | Scale k => (x * k, y * k, z * k)
  | SkewY d => (x, y + x * tan (rad d), z)
  | Translate dx dy => (x + dx, y + dy, z)
  end.
(** A list of functions is the product of their matrices in that order: the last one is applied first. *)
Definition transformed (ts : list transform) (p : point) : point := fold_right apply_transform p ts.

(** Map.js:17-29 [createIsometricMatrix], [PROJECTION]: [rotateAxisAngleSelf] and [scaleSelf] multiply on the right. *)
Definition projection : list transform := [RotateX (atan (sqrt 2) * 180 / PI); RotateZ (-45); Scale (7 / 10)].
(** There is no perspective: what is seen is the first two coordinates. *)
Definition flat (p : point) : R * R := let '(x, y, _) := p in (x, y).

(** Map.js:131-135: the board is an SVG whose transform is the planar part of [PROJECTION] (the entries [a] to [f] of a
    [DOMMatrix] are those which give the first two coordinates of a point of the plane). *)
Definition board_point (p : R * R) : R * R := flat (transformed projection (fst p, snd p, 0)).
(** Map.js:185-190: the [translate] of the marker of a device. *)
Definition marker (x y z : R) : R * R := (- x + y, z - y).
(** Map.js:213-221: the line of the elevation arrow, in the coordinates of the marker; drawn when [y] is not 0. *)
Definition arrow (y : R) : (R * R) * (R * R) :=
  (flat (transformed [SkewY (-45)] (-40, 0, 0)), flat (transformed [SkewY (-45)] (- (40 + y), 0, 0))).
(** A point in the coordinates of the marker, on the board. *)
Definition on_marker (x y z : R) (p : R * R) : R * R := let '(dx, dy) := marker x y z in (fst p + dx, snd p + dy).
(** Map.js:91-105: the mouse is at the point [to] of the board ([screenToSvg], Map.js:121-127) while the device is dragged. *)
Definition dragged (p : place) (to : R * R) : place := mouse_move p (Drag (Zfloor (- fst to)) (Zfloor (snd to))).

(** Orientation.js:24-42: an axis is a vertical bar whose lower end is the centre; its other end is the tip. *)
Definition tip : point := (0, -1, 0).
(** Orientation.js:17-24: the whole is transformed by [PROJECTION], in space ([preserve-3d]). *)
Definition drawn (ts : list transform) (p : point) : R * R := flat (transformed projection (transformed ts p)).
(** Orientation.js:94-96 *)
Definition axis_x : list transform := [RotateZ (-180)].
Definition axis_y : list transform := [RotateZ (-90)].
Definition axis_z : list transform := [RotateX (-90)].
(** Orientation.js:123-131: the two bars of the value. *)
Definition value_bar (yaw pitch : Z) : list transform := [RotateZ (180 - IZR yaw); RotateX (- IZR pitch)].
Definition value_bar_side (yaw pitch : Z) : list transform := [RotateZ (180 - IZR yaw); RotateX (- IZR pitch); RotateY 90].
(** Orientation.js:89: [a]; the circles have radius [a / 4]. SVG draws a circle from its rightmost point, clockwise. The dash
    covers the path from its start up to its length. *)
Definition size_a : R := (1 / 2 / PI) * 360 * 4.
Definition circle_point (length : R) : point := (cos (length / (size_a / 4)), sin (length / (size_a / 4)), 0).
(** Orientation.js:97-109, the transform of the blue arc, and :110-122 of the red arc; [dash] is their length. *)
Definition yaw_arc (yaw : Z) : list transform := [RotateZ 90; RotateX (if (yaw <? 0)%Z then 0 else 180)].
Definition pitch_arc (yaw pitch : Z) : list transform := [RotateZ (90 - IZR yaw); RotateX (IZR (Z.sgn pitch) * 90)].
Definition dash (angle : Z) : R := Rabs (IZR angle).
