(** The measurements of a host and the places of the scene. *)
From Coq Require Import Reals.
From Verif Require Import Base Uci MacAddress AppConfig Codec Session Device Pica CodecSpec ContextSpec Http HttpSpec.
From Verif Require Position PositionSpec DirectionSpec.

(** A place and an orientation that a client can ask for: main.rs:372-400 [struct PositionBody]. The server holds
    [Position::new] of these numbers. *)
Record place : Set := Place {
  at_x : Z; at_y : Z; at_z : Z; yaw : Z; pitch : Z; roll : Z;
  in_range : PositionSpec.i16 at_x /\ PositionSpec.i16 at_y /\ PositionSpec.i16 at_z /\ PositionSpec.i16 yaw /\ PositionSpec.i8 pitch /\ PositionSpec.i16 roll }.
(** position.rs:127-131 [Default] *)
Program Definition origin : place := Place 0 0 0 0 0 0 _.
Next Obligation. unfold PositionSpec.i16, PositionSpec.i8. repeat split; discriminate. Qed.

(** position.rs:90-101, 103-121; a failed assertion, proved not to occur (C55), is no measurement. *)
Definition position_at (fsin fcos : Position.f32 -> Position.f32) (p : place) : Position.position :=
  Position.new fsin fcos (at_x p) (at_y p) (at_z p) (yaw p) (pitch p) (roll p).
Definition measure_places (fsin fcos fatan : Position.f32 -> Position.f32) (p q : place) : N * Z * Z :=
  default (0, 0%Z, 0%Z) (Position.compute_range_azimuth_elevation fatan (position_at fsin fcos p) (position_at fsin fcos q)).

(** The place the scene shows for [h]. *)
Definition shown (w : web place) (h : N) : option place := di_position <$> w_devices w !! h.

(** The distance in centimetres, up to one and a sixty-fourth; the largest value stands for what is farther. *)
Definition tells_distance (range : N) (p q : place) : Prop :=
  let distance := PositionSpec.euclid (at_x q - at_x p) (at_y q - at_y p) (at_z q - at_z p) in
  (distance <= 65536 -> Rabs (IZR (Z.of_N range) - distance) < 1 + / 64)%R /\ ((65536 <= distance)%R -> range = 65535).
(** The direction in which [q] is seen from [p], in whole degrees, up to a thousandth of the distance. *)
Definition tells_direction (azimuth elevation : Z) (p q : place) : Prop :=
  (at_x q, at_y q, at_z q) <> (at_x p, at_y p, at_z p) ->
  let offset := (IZR (at_x q - at_x p), IZR (at_y q - at_y p), IZR (at_z q - at_z p)) in
  exists dx dy dz az el,
    (DirectionSpec.norm (DirectionSpec.minus (dx, dy, dz) (DirectionSpec.seen (yaw p) (pitch p) (roll p) offset)) <= DirectionSpec.norm offset / 1000)%R
    /\ DirectionSpec.points dx dy dz az el /\ DirectionSpec.nearest_degree azimuth az /\ DirectionSpec.nearest_degree elevation el.
(** The measurement [x] is about the device or anchor [k] of address [m], as seen by the device [h]: the distance and the direction
    between the places which the scene shows, from here and from there. Angles are 16 bit two's complement. *)
Definition tells (w : web place) (h k : N) (m : mac_address) (x : measurement) : Prop :=
  exists p q a, shown w h = Some p /\ shown w k = Some q /\ m = MShort a /\ m_mac_address x = le_nat a /\ m_status x = 0x00
  /\ tells_distance (m_distance x) p q
  /\ (exists az el, Z.of_N (m_aoa_azimuth x) = (az mod 65536)%Z /\ Z.of_N (m_aoa_elevation x) = (el mod 65536)%Z /\ tells_direction az el p q)
  /\ (exists az el, Z.of_N (m_aoa_destination_azimuth x) = (az mod 65536)%Z /\ Z.of_N (m_aoa_destination_elevation x) = (el mod 65536)%Z /\ tells_direction az el q p).

(** An address which belongs to an anchor. *)
Definition is_anchor (p : pica) (m : mac_address) : Prop := is_Some (p_anchors p !! m).
#[global] Instance is_anchor_dec p m : Decision (is_anchor p m).
Proof. unfold is_anchor. apply _. Defined.
