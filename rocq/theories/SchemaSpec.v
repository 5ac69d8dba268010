(** Small specification: the schemas of the texts exchanged with the web server, static/openapi.yaml:35-104 and 174-271. *)
From Coq Require Import Strings.String.
From Verif Require Import Base MacAddress MacSpec Http JsonSpec.

(** The schemas used by the documentation (OpenAPI 3.0, Schema Object). *)
Inductive schema : Type :=
  | SAddress                                    (* openapi.yaml:61-67, the format in words *)
  | SEnum (values : list string)
  | SInteger (minimum maximum : option Z)
  | SArray (items : schema)
  | SObject (properties : list (string * schema)).
(** "XX:XX" or "XX:XX:XX:XX:XX:XX:XX:XX" *)
Definition address_format (s : bytes) : Prop := exists l, (length l = 2%nat \/ length l = 8%nat) /\ printed l s.
Definition at_least (b : option Z) (z : Z) : Prop := match b with Some b => (b <= z)%Z | None => True end.
Definition at_most (b : option Z) (z : Z) : Prop := match b with Some b => (z <= b)%Z | None => True end.
(** [valid all s v]: the value is as the schema says. A property may be missing, unless [all]; others may be there. *)
Fixpoint valid (all : bool) (s : schema) (v : json) : Prop :=
  match s with
  | SAddress => exists t, v = JString t /\ address_format t
  | SEnum values => exists t, t ∈ values /\ v = JString (str t)
  | SInteger minimum maximum => exists z, is_integer z v /\ at_least minimum z /\ at_most maximum z
  | SArray items => exists vs, v = JArray vs /\ Forall (valid all items) vs
  | SObject properties => exists ms, v = JObject ms /\
      (fix each (l : list (string * schema)) : Prop :=
         match l with
         | [] => True
         | (name, s) :: l => (all = true -> exists u, (str name, u) ∈ ms) /\ (forall u, (str name, u) ∈ ms -> valid all s u) /\ each l
         end) properties
  end.

(** openapi.yaml:50-104, 174-271; [category] is the schema of a category, [device] that of a device. *)
Local Open Scope string_scope.
Definition any : schema := SInteger None None.
Definition range (minimum maximum : Z) : schema := SInteger (Some minimum) (Some maximum).
Definition position_properties : list (string * schema) :=
  [("x", any); ("y", any); ("z", any); ("yaw", range (-180) 180); ("pitch", range (-90) 90); ("roll", range (-180) 180)].
Definition Position : schema := SObject position_properties.
Definition removed_properties (category : schema) : list (string * schema) := [("category", category); ("mac_address", SAddress)].
Definition neighbor (category : schema) : schema := SObject
  [("source_category", category); ("source_mac_address", SAddress); ("destination_category", category); ("destination_mac_address", SAddress);
   ("distance", range 0 65535); ("azimuth", range (-180) 180); ("elevation", range (-90) 90)].
Definition of_event (category device : schema) {P} (ev : event P) : schema :=
  match ev with
  | DeviceAdded _ _ _ | DeviceUpdated _ _ _ => device
  | DeviceRemoved _ _ => SObject (removed_properties category)
  | NeighborUpdated _ _ _ _ _ _ _ => neighbor category
  end.
(** As documented. *)
Definition Category : schema := SEnum ["uci"; "anchor"].
Definition Device : schema := SObject (removed_properties Category ++ [("position", Position)])%list.
Definition State : schema := SArray Device.
Definition Event {P} (ev : event P) : schema := of_event Category Device ev.
(** Corrected: the categories have capitals, the six numbers of the position are properties of the device itself, and the state has
    the list of devices under a name. *)
Definition actual_category : schema := SEnum ["Uci"; "Anchor"].
Definition actual_device : schema := SObject (removed_properties actual_category ++ position_properties)%list.
Definition actual_state : schema := SObject [("devices", SArray actual_device)].
Definition actual_event {P} (ev : event P) : schema := of_event actual_category actual_device ev.

(** The numbers which the server computes are within the documented bounds. *)
Definition bounded {P} (compute : P -> P -> N * Z * Z) : Prop := forall p q,
  let '(distance, azimuth, elevation) := compute p q in (distance <= 65535)%N /\ (-180 <= azimuth <= 180)%Z /\ (-90 <= elevation <= 90)%Z.
Definition bounded_fields {P} (fields : P -> Z * Z * Z * Z * Z * Z) : Prop := forall p,
  let '(_, _, _, yaw, pitch, roll) := fields p in (-180 <= yaw <= 180)%Z /\ (-90 <= pitch <= 90)%Z /\ (-180 <= roll <= 180)%Z.
