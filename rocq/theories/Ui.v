(** Model of what the user does on the page of the web interface: the selection of a device, the
    dragging of a marker or of its handle, and the sliders. static/index.html (its script),
    static/src/components/Map.js (the mouse handlers) and DeviceInfo.js (the sliders).
    The objects of JavaScript are in [u_objects] and a reference is an index in it, because the
    page keeps references: [map.devices], [map.selected] and [info.device] may refer to the same
    object or not. What the events and the state do is that of Page.v, here on the objects.
    Simplified: numbers are integers (see Page.v); the rendering is not modelled, but only what is
    rendered can be pressed or moved. An exception ([TypeError]) ends the handler and nothing
    else. *)
From Verif Require Import Base Uci MacAddress Pica Http Page.

(** The position and the orientation of an object: [position], [yaw], [pitch], [roll].
    index.html:79-91 *)
Record pose : Set := Pose { q_x : Z; q_y : Z; q_z : Z; q_yaw : Z; q_pitch : Z; q_roll : Z }.
(** Map.js:94-119 on [this.selected.position]: see [mouse_move]. *)
Definition move_pose (e : mouse) (q : pose) : pose :=
  let p := mouse_move (Place (q_x q) (q_y q) (q_z q)) e in
  Pose (p_x p) (p_y p) (p_z p) (q_yaw q) (q_pitch q) (q_roll q).
Definition set_pose (f : pose -> pose) (o : shown pose) : shown pose :=
  Shown (s_mac o) (f (s_position o)) (s_neighbors o).
Definition set_neighbors (f : list neighbor -> list neighbor) (o : shown pose) : shown pose :=
  Shown (s_mac o) (s_position o) (f (s_neighbors o)).

(** Map.js:46-53 [devices], [selected], [dragging], [changingElevation]; DeviceInfo.js:93-96
    [device]; [u_requests]: the requests which index.html:110-132 [set_position] has made. *)
Record ui : Type := Ui {
  u_objects : list (shown pose);
  u_devices : list nat;
  u_selected : option nat;
  u_info : option nat;
  u_dragging : bool;
  u_elevating : bool;
  u_requests : list (mac_address * pose) }.
Definition ui_new : ui := Ui [] [] None None false false [].

Definition u_set_objects v u := Ui v (u_devices u) (u_selected u) (u_info u) (u_dragging u) (u_elevating u) (u_requests u).
Definition u_set_devices v u := Ui (u_objects u) v (u_selected u) (u_info u) (u_dragging u) (u_elevating u) (u_requests u).
Definition u_set_selected v u := Ui (u_objects u) (u_devices u) v (u_info u) (u_dragging u) (u_elevating u) (u_requests u).
Definition u_set_info v u := Ui (u_objects u) (u_devices u) (u_selected u) v (u_dragging u) (u_elevating u) (u_requests u).
Definition u_set_dragging v u := Ui (u_objects u) (u_devices u) (u_selected u) (u_info u) v (u_elevating u) (u_requests u).
Definition u_set_elevating v u := Ui (u_objects u) (u_devices u) (u_selected u) (u_info u) (u_dragging u) v (u_requests u).
Definition u_set_requests v u := Ui (u_objects u) (u_devices u) (u_selected u) (u_info u) (u_dragging u) (u_elevating u) v.

(** What can be under the mouse when a button is pressed: the handle of the selected device, the
    marker of the device with this index in [devices], or neither. *)
Inductive target : Set := Handle | Marker (key : nat) | Elsewhere.
(** What happens to the page. *)
Inductive input : Type :=
  | ULoad (state : list (device_information pose))   (* the response to /get-state *)
  | UEvent (ev : event pose)                         (* an event of the server *)
  | UDown (t : target)                               (* a button of the mouse is pressed *)
  | UMove (dx dz movement : Z)                       (* the mouse moves: see [mouse] *)
  | UUp                                              (* a button is released *)
  | UYaw (v : Z) | UPitch (v : Z) | URoll (v : Z)    (* a slider is moved *)
  | UChange.                                         (* a slider is released *)

(** [map.devices.find(device => device.mac_address === m)] *)
Definition u_has (objects : list (shown pose)) (m : mac_address) (r : nat) : bool :=
  match objects !! r with Some o => bool_decide (s_mac o = m) | None => false end.
Definition u_find (m : mac_address) (u : ui) : option nat := List.find (u_has (u_objects u) m) (u_devices u).
(** The object is changed. *)
Definition u_alter (f : shown pose -> shown pose) (r : nat) (u : ui) : ui := u_set_objects (alter f r (u_objects u)) u.

(** index.html:110-132 [set_position]; a [TypeError] if there is no device. *)
Definition u_post (r : option nat) (u : ui) : ui :=
  match r ≫= fun r => u_objects u !! r with
  | Some o => u_set_requests (u_requests u ++ [(s_mac o, s_position o)]) u
  | None => u
  end.

(** index.html:145-225: the listeners of the four events. *)
Definition u_event (ev : event pose) (u : ui) : ui :=
  match ev with
  | DeviceAdded _ m q =>                                                       (* 145-153 *)
      u_set_devices (u_devices u ++ [length (u_objects u)]) (u_set_objects (u_objects u ++ [parse_device m q]) u)
  | DeviceRemoved _ m =>                                                       (* 155-175 *)
      let u := match u_info u with
               | Some r => if u_has (u_objects u) m r then u_set_info None u else u
               | None => u end in
      let devices := List.filter (fun r => negb (u_has (u_objects u) m r)) (u_devices u) in
      let u := u_set_devices devices u in
      u_set_objects (imap (fun r o => if bool_decide (r ∈ devices)
                                      then set_neighbors (List.filter (fun n => negb (bool_decide (n_mac n = m)))) o
                                      else o) (u_objects u)) u
  | DeviceUpdated _ m q =>                                                     (* 177-196 *)
      match u_find m u with Some r => u_alter (set_pose (fun _ => q)) r u | None => u end
  | NeighborUpdated _ source _ destination distance azimuth elevation =>       (* 198-225 *)
      match u_find source u with
      | Some r => u_alter (set_neighbors (set_neighbor (Neighbor destination distance azimuth elevation))) r u
      | None => u
      end
  end.

(** Map.js:65-82 [onMouseDown], with index.html:103-106: [info.device] follows the selection. The
    handle is rendered for the selected device only, if it is among [devices]. *)
Definition u_down (t : target) (u : ui) : ui :=
  match t with
  | Handle =>
      match u_selected u with
      | Some r => if bool_decide (r ∈ u_devices u) then u_set_elevating true u else u
      | None => u
      end
  | Marker key =>
      match u_devices u !! key with
      | Some r => u_set_info (Some r) (u_set_dragging true (u_set_selected (Some r) u))
      | None => u (* no such marker *)
      end
  | Elsewhere => u_set_info None (u_set_selected None u)
  end.
(** Map.js:94-119 [onMouseMove]; nothing is selected: a [TypeError] before anything is changed. *)
Definition u_move (dx dz movement : Z) (u : ui) : ui :=
  match u_selected u with
  | None => u
  | Some r =>
      let u := if u_dragging u then u_alter (set_pose (move_pose (Drag dx dz))) r u else u in
      if u_elevating u then u_alter (set_pose (move_pose (Elevate movement))) r u else u
  end.
(** Map.js:84-92 [onMouseUp], with index.html:134-136. *)
Definition u_up (u : ui) : ui :=
  let u := if u_dragging u || u_elevating u then u_post (u_selected u) u else u in
  u_set_elevating false (u_set_dragging false u).
(** The value of a slider is between its bounds, which are the attributes [min] and [max]. *)
Definition slider (lo hi v : Z) : Z := Z.max lo (Z.min hi v).
(** DeviceInfo.js:98-110 [setYaw], [setPitch], [setRoll], 147-181 the sliders, which are rendered
    if a device is selected. *)
Definition u_slide (f : pose -> pose) (u : ui) : ui :=
  match u_info u with Some r => u_alter (set_pose f) r u | None => u end.

Definition ui_step (u : ui) (i : input) : ui :=
  match i with
  | ULoad state =>                                                             (* index.html:93-97 *)
      u_set_devices (seq (length (u_objects u)) (length state)) (u_set_objects (u_objects u ++ load state) u)
  | UEvent ev => u_event ev u
  | UDown t => u_down t u
  | UMove dx dz movement => u_move dx dz movement u
  | UUp => u_up u
  | UYaw v => u_slide (fun q => Pose (q_x q) (q_y q) (q_z q) (slider (-180) 180 v) (q_pitch q) (q_roll q)) u
  | UPitch v => u_slide (fun q => Pose (q_x q) (q_y q) (q_z q) (q_yaw q) (slider (-90) 90 v) (q_roll q)) u
  | URoll v => u_slide (fun q => Pose (q_x q) (q_y q) (q_z q) (q_yaw q) (q_pitch q) (slider (-180) 180 v)) u
  | UChange => u_post (u_info u) u                                             (* index.html:138-141 *)
  end.
Definition ui_run (is : list input) : ui := foldl ui_step ui_new is.

(** The devices which are shown: [map.devices]. *)
Definition view (u : ui) : list (shown pose) := omap (fun r => u_objects u !! r) (u_devices u).
