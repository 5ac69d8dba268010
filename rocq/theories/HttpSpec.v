(** Vocabulary of the properties of the web server. *)
From Verif Require Import Base Uci MacAddress AppConfig Codec Session Device Pica CodecSpec ContextSpec Http.

Section Spec.
Context {P : Type} (default_position : P) (compute : P -> P -> N * Z * Z).

(** The commands and requests have arguments of the right types. *)
Definition wf_request (r : anchor_request P) : Prop := match r with RqCreate m _ | RqDestroy m => wf_mac m end.
Definition wf_web_label (l : web_label P) : Prop :=
  match l with
  | WOp _ _ o => wf_op o
  | WSetPosition _ m _ => wf_mac m
  | WAnchor r => wf_request r
  | _ => True
  end.
(** [served ls w]: the server, from its start, has performed the actions [ls] and is in the state [w]. *)
Definition served (ls : list (web_label P)) (w : web P) : Prop :=
  Forall wf_web_label ls /\ web_run default_position compute ls web_new = Some w.
(** A condition on the actions, in the state in which each is performed. *)
Fixpoint throughout (Q : web P -> web_label P -> Prop) (ls : list (web_label P)) (w : web P) : Prop :=
  match ls with
  | [] => True
  | l :: ls => Q w l /\ match web_step default_position compute l w with Some w => throughout Q ls w | None => True end
  end.

(** The environment has the device or anchor [h], with its category and address; the scene shows it so. *)
Definition in_environment (p : pica) (h : N) (c : category) (m : mac_address) : Prop :=
  (c = CategoryUci /\ exists d, p_devices p !! h = Some d /\ d_mac d = m) \/ (c = CategoryAnchor /\ p_anchors p !! m = Some h).
Definition in_scene (w : web P) (h : N) (c : category) (m : mac_address) : Prop :=
  exists i, w_devices w !! h = Some i /\ di_category i = c /\ di_mac i = m.

(** The address of a request; the requests in progress. *)
Definition request_mac (r : anchor_request P) : mac_address := match r with RqCreate m _ | RqDestroy m => m end.
Definition in_progress (w : web P) (m : mac_address) : Prop :=
  exists k q, w_requests w !! k = Some q /\ match q with RqQueued r _ | RqReplied r _ => request_mac r = m end.
(** Clients wait for the answers of their requests, and do not send two requests about one address at the same time. *)
Definition one_at_a_time (w : web P) (l : web_label P) : Prop :=
  match l with WAnchor r => ~ in_progress w (request_mac r) | WAbandon _ => False | _ => True end.
(** Someone is subscribed to the events. *)
Definition listened (w : web P) (l : web_label P) : Prop := 0 < w_subscribers w \/ l = WSubscribe.
(** The events of the environment are read in time. *)
Definition read_in_time (w : web P) (l : web_label P) : Prop := (length (w_feed w) <= 16)%nat.
(** The position a request asks for: that of its body, or the default one if the body is empty or cut. *)
Definition asks_for (b : body P) (position : P) : Prop :=
  b = BodyPosition position \/ b = BodyEof /\ position = default_position.
End Spec.

(** The path "/command/argument", the first slash possibly missing or repeated; no slash in the argument. *)
Definition names (path command argument : bytes) : Prop :=
  exists n, path = replicate n CH_SLASH ++ command ++ CH_SLASH :: argument /\ CH_SLASH ∉ argument.
