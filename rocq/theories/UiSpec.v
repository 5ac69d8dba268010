(** Vocabulary of the properties of the user's actions on the page. *)
From Verif Require Import Base Uci MacAddress Pica Http Page PageSpec Ui.

(** What the user does, as opposed to what comes from the server. *)
Definition by_user (i : input) : Prop := match i with ULoad _ | UEvent _ => False | _ => True end.
(** The requests which the page makes when [i] happens after [is]: those after are those before, and [rs]. *)
Definition makes (is : list input) (i : input) (rs : list (mac_address * pose)) : Prop :=
  u_requests (ui_run (is ++ [i])) = u_requests (ui_run is) ++ rs.
(** The page shows a device with the address [m] at [q]. *)
Definition shown_at (u : ui) (m : mac_address) (q : pose) : Prop := exists s, s ∈ view u /\ s_mac s = m /\ s_position s = q.
(** Nothing takes the device with the address [m] away from the user: neither do they press
    another thing than its handle, nor is the device removed, nor is the state loaded. *)
Definition undisturbed (m : mac_address) (i : input) : Prop :=
  match i with
  | ULoad _ | UDown (Marker _) | UDown Elsewhere => False
  | UEvent (DeviceRemoved _ m') => m' <> m
  | _ => True
  end.
(** No button is held: the last one was released. *)
Definition idle (u : ui) : Prop := u_dragging u = false /\ u_elevating u = false.

(** The numbers which the server reads (main.rs:372-380, [PositionBody]): x, y, z, yaw and roll
    are 16-bit and pitch is 8-bit. *)
Definition i16 (v : Z) : Prop := (-32768 <= v <= 32767)%Z.
Definition i8 (v : Z) : Prop := (-128 <= v <= 127)%Z.
Definition readable (q : pose) : Prop := i16 (q_x q) /\ i16 (q_y q) /\ i16 (q_z q) /\ i16 (q_yaw q) /\ i8 (q_pitch q) /\ i16 (q_roll q).
(** What comes from the server is of this form (position.rs:42-58, [Serialize]). *)
Definition sent_by_server (i : input) : Prop :=
  match i with
  | ULoad state => forall d, d ∈ state -> readable (di_position d)
  | UEvent (DeviceAdded _ _ q) | UEvent (DeviceUpdated _ _ q) => readable q
  | _ => True
  end.

(** An event of the server, as the page gets it: [render] is what [Serialize] makes of a
    position. *)
Definition event_map {P} (render : P -> pose) (ev : event P) : event pose :=
  match ev with
  | DeviceAdded c m p => DeviceAdded c m (render p)
  | DeviceRemoved c m => DeviceRemoved c m
  | DeviceUpdated c m p => DeviceUpdated c m (render p)
  | NeighborUpdated c m c' m' d a e => NeighborUpdated c m c' m' d a e
  end.
(** The page shows exactly the devices and anchors of the scene, each where it is. *)
Definition pictures {P} (render : P -> pose) (u : ui) (w : web P) : Prop :=
  map (fun s => (s_mac s, s_position s)) (view u) ≡ₚ map (fun i => (di_mac i, render (di_position i))) (map_to_list (w_devices w)).*2.
