(** Model of bin/http-server/position.rs in binary32 arithmetic (Flocq), round to nearest, ties to even. The library
    functions [sin_cos], [atan] are parameters. Not modelled: [Display]. *)
From Coq Require Import ZArith NArith Bool.
From Flocq Require Import Core.Core IEEE754.BinarySingleNaN.

#[global] Instance prec32 : Prec_gt_0 24 := eq_refl.
#[global] Instance emax32 : Prec_lt_emax 24 128 := eq_refl.
Definition f32 : Set := binary_float 24 128.

Definition fadd (a b : f32) : f32 := Bplus mode_NE a b.
Definition fsub (a b : f32) : f32 := Bminus mode_NE a b.
Definition fmul (a b : f32) : f32 := Bmult mode_NE a b.
Definition fdiv (a b : f32) : f32 := Bdiv mode_NE a b.
Definition fsqrt (a : f32) : f32 := Bsqrt mode_NE a.
(** [m * 2^e], rounded; in particular [m as f32]. *)
Definition lit (m e : Z) : f32 := binary_normalize 24 128 _ _ mode_NE m e false.
Definition of_int (m : Z) : f32 := lit m 0.
Definition zero : f32 := of_int 0.
Definition one : f32 := of_int 1.
Definition two : f32 := of_int 2.
(** [std::f32::consts::PI], [FRAC_PI_2] *)
Definition PI : f32 := lit 13176795 (-22).
Definition FRAC_PI_2 : f32 := lit 13176795 (-23).
(** [f32::to_degrees]: multiplication by the binary32 number next to 180/pi; [f32::to_radians]: by [PI / 180.0]. *)
Definition to_degrees (a : f32) : f32 := fmul a (lit 15019745 (-18)).
Definition to_radians (a : f32) : f32 := fmul a (fdiv PI (of_int 180)).
(** [f32::round]: ties away from zero. *)
Definition fround (a : f32) : f32 := Bnearbyint mode_NA a.
(** [f32::signum]: the sign of a zero counts. *)
Definition signum (a : f32) : f32 :=
  match a with B754_nan => B754_nan | _ => if Bsign a then Bopp one else one end.
(** [f32::min] *)
Definition fmin (a b : f32) : f32 :=
  if is_nan a then b else if is_nan b then a else if Bltb a b then a else b.
(** [as]: truncation, saturating; NaN is 0. *)
Definition saturate (lo hi : Z) (a : f32) : Z :=
  match a with
  | B754_nan => 0
  | B754_infinity s => if s then lo else hi
  | _ => Z.max lo (Z.min hi (Btrunc a))
  end.
Definition as_u16 (a : f32) : N := Z.to_N (saturate 0 65535 a).
Definition as_i16 (a : f32) : Z := saturate (-32768) 32767 a.
Definition as_i8 (a : f32) : Z := saturate (-128) 127 a.

(** glam 0.25.0 [Vec3], [Quat] (a dependency, not in the repository). *)
Record vec3 : Set := Vec3 { vx : f32; vy : f32; vz : f32 }.
Record quat : Set := Quat { qx : f32; qy : f32; qz : f32; qw : f32 }.
Definition vsub (a b : vec3) : vec3 := Vec3 (fsub (vx a) (vx b)) (fsub (vy a) (vy b)) (fsub (vz a) (vz b)).
Definition vadd (a b : vec3) : vec3 := Vec3 (fadd (vx a) (vx b)) (fadd (vy a) (vy b)) (fadd (vz a) (vz b)).
Definition vmul (a : vec3) (k : f32) : vec3 := Vec3 (fmul (vx a) k) (fmul (vy a) k) (fmul (vz a) k).
Definition dot (a b : vec3) : f32 := fadd (fadd (fmul (vx a) (vx b)) (fmul (vy a) (vy b))) (fmul (vz a) (vz b)).
Definition cross (a b : vec3) : vec3 :=
  Vec3 (fsub (fmul (vy a) (vz b)) (fmul (vy b) (vz a)))
       (fsub (fmul (vz a) (vx b)) (fmul (vz b) (vx a)))
       (fsub (fmul (vx a) (vy b)) (fmul (vx b) (vy a))).
Definition length (a : vec3) : f32 := fsqrt (dot a a).
Definition quat_mul (a b : quat) : quat :=
  let '(Quat x0 y0 z0 w0) := a in
  let '(Quat x1 y1 z1 w1) := b in
  Quat (fsub (fadd (fadd (fmul w0 x1) (fmul x0 w1)) (fmul y0 z1)) (fmul z0 y1))
       (fadd (fadd (fsub (fmul w0 y1) (fmul x0 z1)) (fmul y0 w1)) (fmul z0 x1))
       (fadd (fsub (fadd (fmul w0 z1) (fmul x0 y1)) (fmul y0 x1)) (fmul z0 w1))
       (fsub (fsub (fsub (fmul w0 w1) (fmul x0 x1)) (fmul y0 y1)) (fmul z0 z1)).
Definition mul_vec3 (q : quat) (rhs : vec3) : vec3 :=
  let b := Vec3 (qx q) (qy q) (qz q) in
  let w := qw q in
  vadd (vadd (vmul rhs (fsub (fmul w w) (dot b b))) (vmul b (fmul (dot rhs b) two)))
       (vmul (cross b rhs) (fmul w two)).

(** position.rs:20-24 [struct Position] *)
Record position : Set := Position { p_position : vec3; p_rotation : quat }.

Section Libm.
Context (fsin fcos fatan : f32 -> f32).

(** glam [Quat::from_rotation_x], [_y], [_z]; [from_euler(EulerRot::ZXY, ..)]. *)
Definition half (a : f32) : f32 := fmul a (lit 1 (-1)).
Definition rotation_x (a : f32) : quat := Quat (fsin (half a)) zero zero (fcos (half a)).
Definition rotation_y (a : f32) : quat := Quat zero (fsin (half a)) zero (fcos (half a)).
Definition rotation_z (a : f32) : quat := Quat zero zero (fsin (half a)) (fcos (half a)).
Definition from_euler_zxy (a b c : f32) : quat := quat_mul (quat_mul (rotation_z a) (rotation_x b)) (rotation_y c).

(** position.rs:90-101 [Position::new] *)
Definition new (x y z yaw pitch roll : Z) : position :=
  Position (Vec3 (of_int x) (of_int y) (of_int z))
    (from_euler_zxy (to_radians (of_int roll)) (to_radians (of_int pitch)) (to_radians (of_int yaw))).
(** position.rs:127-131 [Default] *)
Definition default : position := new 0 0 0 0 0 0.

(** position.rs:61-67 [checked_div] *)
Definition checked_div (num den : f32) : option f32 := if Beqb den zero then None else Some (fdiv num den).
(** position.rs:69-82 [azimuth] *)
Definition azimuth (delta : vec3) : f32 :=
  fadd
    (match checked_div (vx delta) (vz delta) with
     | None => if Beqb (vx delta) zero then zero else fmul (signum (vx delta)) FRAC_PI_2
     | Some v => fatan v
     end)
    (if Bleb zero (vz delta) then zero else fmul (signum (vx delta)) PI).
(** position.rs:84-87 [elevation]; [powi(2)] is a multiplication. *)
Definition elevation (delta : vec3) : f32 :=
  match checked_div (vy delta) (fsqrt (fadd (fmul (vx delta) (vx delta)) (fmul (vz delta) (vz delta)))) with
  | None => fmul (signum (vy delta)) FRAC_PI_2
  | Some v => fatan v
  end.
(** [(lo..=hi).contains(&a)] *)
Definition contains (lo hi a : f32) : bool := Bleb lo a && Bleb a hi.
(** position.rs:103-121 [compute_range_azimuth_elevation]; [None] is a failed assertion. *)
Definition compute_range_azimuth_elevation (self other : position) : option (N * Z * Z) :=
  let delta := vsub (p_position other) (p_position self) in
  let distance := length delta in
  let direction := mul_vec3 (p_rotation self) delta in
  let az := fround (to_degrees (azimuth direction)) in
  let el := fround (to_degrees (elevation direction)) in
  if contains (of_int (-180)) (of_int 180) az && contains (of_int (-90)) (of_int 90) el
  then Some (as_u16 (fmin distance (of_int 65535)), as_i16 az, as_i8 el)
  else None.
End Libm.

(** position.rs:42-60 [Serialize], the position shown to the clients: x, y, z, yaw, pitch, roll. glam's [to_euler(EulerRot::ZXY)], giving
    roll, pitch and yaw, is a parameter. *)
Definition serialize (to_euler : quat -> f32 * f32 * f32) (self : position) : Z * Z * Z * Z * Z * Z :=
  let '(roll, pitch, yaw) := to_euler (p_rotation self) in
  (as_i16 (vx (p_position self)), as_i16 (vy (p_position self)), as_i16 (vz (p_position self)),
   as_i16 (fround (to_degrees yaw)), as_i8 (fround (to_degrees pitch)), as_i16 (fround (to_degrees roll))).
