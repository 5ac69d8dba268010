(** Model of the page of the web interface: static/index.html (its script) and the mouse handlers of
    static/src/components/Map.js. The text of the events and of the state (JSON, server-sent events) is in Json.v; the
    rendering is not modelled; an address is compared as a value (the page compares its text, from which the address can be read
    back: C08). The selected device and the sliders are in Ui.v. *)
From Verif Require Import Base Uci MacAddress Pica Http.

(** [find] and then an assignment of fields of the object: the first element with the property is changed. *)
Fixpoint update_first {A} (test : A -> bool) (f : A -> A) (l : list A) : list A :=
  match l with
  | [] => []
  | x :: l => if test x then f x :: l else x :: update_first test f l
  end.

(** An entry of [neighbors]. index.html:214-224 *)
Record neighbor : Set := Neighbor { n_mac : mac_address; n_distance : N; n_azimuth : Z; n_elevation : Z }.

Section Page.
Context {P : Type}.

(** An element of [map.devices]. index.html:79-91 *)
Record shown : Type := Shown { s_mac : mac_address; s_position : P; s_neighbors : list neighbor }.
(** [map.devices]; Map.js:46-53 (empty at first). *)
Definition page : Type := list shown.

(** index.html:79-91 [parse_device] *)
Definition parse_device (m : mac_address) (position : P) : shown := Shown m position [].
(** index.html:93-97 [update_state], when the response has come. *)
Definition load (devices : list (device_information P)) : page := map (fun i => parse_device (di_mac i) (di_position i)) devices.

(** index.html:214-224: the neighbor is found or made, changed, and appended if it is new. *)
Definition set_neighbor (n : neighbor) (l : list neighbor) : list neighbor :=
  let same := fun x => bool_decide (n_mac x = n_mac n) in
  if existsb same l then update_first same (fun _ => n) l else l ++ [n].

(** index.html:145-225: the listeners of the four events. A [TypeError] (no device has the address) leaves the page as
    it is. *)
Definition page_event (l : page) (ev : event P) : page :=
  match ev with
  | DeviceAdded _ m position => l ++ [parse_device m position]                            (* 145-153 *)
  | DeviceRemoved _ m =>                                                                  (* 155-175 *)
      map (fun d => Shown (s_mac d) (s_position d) (List.filter (fun n => negb (bool_decide (n_mac n = m))) (s_neighbors d)))
        (List.filter (fun d => negb (bool_decide (s_mac d = m))) l)
  | DeviceUpdated _ m position =>                                                         (* 177-196 *)
      update_first (fun d => bool_decide (s_mac d = m)) (fun d => Shown (s_mac d) position (s_neighbors d)) l
  | NeighborUpdated _ source _ destination distance azimuth elevation =>                  (* 198-225 *)
      update_first (fun d => bool_decide (s_mac d = source))
        (fun d => Shown (s_mac d) (s_position d) (set_neighbor (Neighbor destination distance azimuth elevation) (s_neighbors d))) l
  end.
(** The page when the events [evs] have come since it was subscribed and the response to its request for the state has
    come after the first [n] of them: the state replaces what was there. *)
Definition page_after (state : list (device_information P)) (n : nat) (evs : list (event P)) : page :=
  foldl page_event (load state) (drop n evs).
End Page.
Arguments shown : clear implicits.
Arguments page : clear implicits.

(** ** Dragging. Map.js:94-119 [onMouseMove]: [dx], [dz] are [Math.floor(-to.x)] and [Math.floor(to.y)] of the point
    under the mouse, [movement] is [event.movementY]. Numbers are integers here (exact in JavaScript up to 2^53). *)
Record place : Set := Place { p_x : Z; p_y : Z; p_z : Z }.
Inductive mouse : Set :=
  | Drag (dx dz : Z)              (* [this.dragging] *)
  | Elevate (movement : Z).       (* [this.changingElevation] *)
Definition mouse_move (p : place) (e : mouse) : place :=
  match e with
  | Drag dx dz => Place (Z.min (Z.max (dx + p_y p) (-600 + 40)) (600 - 40)) (p_y p) (Z.min (Z.max (dz + p_y p) (-600 + 40)) (600 - 40))
  | Elevate movement => Place (p_x p) (p_y p - Z.min (movement * 2) (p_y p)) (p_z p)
  end.
(** index.html:110-136 [set_position] posts the position, which the server reads as three numbers of type i16
    (bin/http-server/position.rs, [Position]; main.rs:382-400): otherwise it answers 406 and the page does not look. *)
Definition accepted (p : place) : bool :=
  forallb (fun v => (-32768 <=? v)%Z && (v <=? 32767)%Z) [p_x p; p_y p; p_z p].
