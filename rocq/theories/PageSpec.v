(** Vocabulary of the properties of the page of the web interface. *)
From Verif Require Import Base Uci MacAddress Pica Http HttpSpec Page.

Section Spec.
Context {P : Type}.

(** The page shows exactly the devices and anchors of the scene, each once and at its position. *)
Definition shows (l : page P) (w : web P) : Prop :=
  map (fun s => (s_mac s, s_position s)) l ≡ₚ map (fun i => (di_mac i, di_position i)) (map_to_list (w_devices w)).*2.
(** Every neighbor which is shown for a device is another device of the page, no device is shown twice in a list, and
    the distance and the angles are those of the positions which are shown. *)
Definition accurate (compute : P -> P -> N * Z * Z) (l : page P) : Prop :=
  forall s, s ∈ l -> NoDup (map n_mac (s_neighbors s)) /\ forall n, n ∈ s_neighbors s ->
    n_mac n <> s_mac s /\ exists o, o ∈ l /\ s_mac o = n_mac n /\ (n_distance n, n_azimuth n, n_elevation n) = compute (s_position s) (s_position o).
(** No two devices or anchors have the same address. *)
Definition distinct (w : web P) : Prop :=
  forall h h' i i', w_devices w !! h = Some i -> w_devices w !! h' = Some i' -> di_mac i = di_mac i' -> h = h'.
(** A device or anchor with the address [m] is in the scene; the page lists [y] as a neighbor of [x]. *)
Definition on_scene (w : web P) (m : mac_address) : Prop := exists h i, w_devices w !! h = Some i /\ di_mac i = m.
Definition lists (l : page P) (x y : mac_address) : Prop := exists s n, s ∈ l /\ s_mac s = x /\ n ∈ s_neighbors s /\ n_mac n = y.
End Spec.

(** The board of the page. *)
Definition on_board (p : place) : Prop := (-560 <= p_x p <= 560 /\ -560 <= p_z p <= 560 /\ 0 <= p_y p)%Z.
