(** Properties of the texts of the web interface: the events and the state which the server sends, the bodies of requests
    which it reads. [fields p] are the six numbers which are told of the position [p], [position_new] is the position made
    of six numbers. The JSON grammar (RFC 8259) and the event streams are in JsonSpec.v. *)
From Coq Require Import Strings.String.
From Verif Require Import Base Uci MacAddress AppConfig Codec Session Device Pica CodecSpec ContextSpec HistorySpec InvFacts PropsContext Http HttpSpec HttpFacts HttpFacts2 PropsHttp.
From Verif Require Import Json JsonSpec JsonFacts JsonUnique JsonFaithful JsonRead JsonRead2 JsonBody JsonSound JsonSound2 JsonCut JsonWeb.

(** ** C78. *)
(** A subscriber to whom the events [evs] of the server were sent gets exactly these events, in order. *)
Theorem C78_stream : forall (P : Type) (default_position : P) compute fields ls w evs, served default_position compute ls w -> evs ⊆ w_events w ->
  Forall2 (tells fields) (event_stream (concat (map (frame fields) evs))) evs.
Proof.
  intros P dp co fields ls w evs S H. rewrite stream_whole. apply told. apply Forall_forall. intros ev I.
  pose proof (ei_events _ (served_einv dp co ls w S)) as F. rewrite Forall_forall in F. by apply F, H.
Qed.
(** If the connection is lost in the middle of an event, the subscriber has got the events before it, and no part of it. *)
Theorem C78_cut : forall (P : Type) (default_position : P) compute fields ls w evs ev part, served default_position compute ls w -> evs ⊆ w_events w ->
  part `prefix_of` frame fields ev -> part <> frame fields ev ->
  Forall2 (tells fields) (event_stream (concat (map (frame fields) evs) ++ part)) evs.
Proof. intros P dp co fields ls w evs ev part S H A B. rewrite (stream_cut fields evs ev part A B), <-stream_whole. by eapply C78_stream. Qed.
(** What is told of an event tells which event it was, up to what its position is beyond the six numbers. *)
Theorem C78_faithful : forall (P : Type) (default_position : P) compute fields ls w got ev ev', served default_position compute ls w ->
  ev ∈ w_events w -> ev' ∈ w_events w -> tells fields got ev -> tells fields got ev' -> alike fields ev ev'.
Proof.
  intros P dp co fields ls w got ev ev' S I I'. pose proof (ei_events _ (served_einv dp co ls w S)) as F. rewrite Forall_forall in F. apply told_alike; by apply F.
Qed.
(** A text has at most one meaning. *)
Theorem C78_unambiguous : forall v v' t, json_text v t -> json_text v' t -> v = v'.
Proof. exact json_unique. Qed.
(** The response of get-state: the devices of the scene. *)
Theorem C78_state : forall (P : Type) (default_position : P) compute fields ls w order l, served default_position compute ls w -> get_state order w = Some l ->
  exists vs, json_text (JObject [(str "devices", JArray vs)]) (state_text fields l) /\ Forall2 (fun v i => says_device fields i v) vs l.
Proof.
  intros P dp co fields ls w order l S G. destruct (state_value fields l) as (v & vs & J & -> & F); [|by exists vs].
  unfold get_state in G. destruct (w_poisoned w); [discriminate|]. injection G as <-. apply Forall_forall. intros i Hi. apply elem_of_list_omap in Hi as (k & _ & Hk).
  by apply (ei_devices _ (served_einv dp co ls w S) k).
Qed.
(** Positions on a line, told by their x. *)
Definition told_x (p : N) : Z * Z * Z * Z * Z * Z := (Z.of_N p, 0, 0, 0, 0, 0)%Z.
Definition sent : list (event N) := w_events (web_after move).
Example C78_example : served 0 line move (web_after move) /\ length sent = 8%nat
  /\ nth 2 (event_stream (concat (map (frame told_x) sent))) ([], []) = (str "device-added", str "{""category"":""Anchor"",""mac_address"":""09:09"",""x"":5,""y"":0,""z"":0,""yaw"":0,""pitch"":0,""roll"":0}")
  /\ frame told_x (DeviceRemoved CategoryUci (MShort [0; 1])) = str "event: device-removed" ++ [10] ++ str "data: {""category"":""Uci"",""mac_address"":""00:01""}" ++ [10; 10]
  /\ length (event_stream (concat (map (frame told_x) sent) ++ str "event: device-removed")) = 8%nat
  /\ (exists order l, get_state order (web_after move) = Some l /\ length l = 3%nat).
Proof.
  split; [apply served_after; [unfold move, visit; repeat constructor|by vm_compute]|]. split; [by vm_compute|]. split; [by vm_compute|]. split; [by vm_compute|]. split; [by vm_compute|].
  exists (map_to_list (w_devices (web_after move))).*1. eexists. split; by vm_compute.
Qed.
Print Assumptions C78_stream.
Print Assumptions C78_cut.
Print Assumptions C78_faithful.
Print Assumptions C78_unambiguous.
Print Assumptions C78_state.

(** ** C79. *)
(** The requests with a position: what is done with the text [t] of the body. *)
Definition placing (P : Type) (path : bytes) (mac : bytes) (result : mac_address -> P -> route P) : Prop :=
  (names path (str "init-uci-device") mac \/ names path (str "set-position") mac) /\ result = RoSetPosition
  \/ names path (str "create-anchor") mac /\ result = RoCreateAnchor.
Lemma placing_route P (dp : P) path mac result m b : placing P path mac result -> mac_of_string mac = Some m ->
  (forall position, asks_for dp b position -> http_request dp path b = result m position) /\ (b = BodyInvalid -> http_request dp path b = RoNotAcceptable).
Proof.
  intros [[H ->]|[H ->]] M.
  - destruct (C51_route P dp path b mac H) as [A B]. split; [intros pos; by apply A|]. intros ->. apply B. by right.
  - destruct (C50_create_route P dp path b mac H) as [A B]. split; [intros pos; by apply A|]. intros ->. apply B. by right.
Qed.
(** A body in JSON which is a position: the request asks for exactly this position. A body in JSON which is not a position
    (a member is missing, given twice, not an integer or out of range; another kind of value) is refused. *)
Theorem C79_json : forall (P : Type) (default_position : P) position_new path mac result m v t,
  placing P path mac result -> mac_of_string mac = Some m -> json_text v t ->
  (forall x y z yaw pitch roll, is_position v x y z yaw pitch roll ->
     http_request default_position path (body_of position_new t) = result m (position_new x y z yaw pitch roll))
  /\ ((forall x y z yaw pitch roll, ~ is_position v x y z yaw pitch roll) -> http_request default_position path (body_of position_new t) = RoNotAcceptable).
Proof.
  intros P dp pn path mac result m v t H M J. destruct (placing_route P dp path mac result m (body_of pn t) H M) as [A B]. split.
  - intros x y z yaw pitch roll I. apply A. left. by apply (body_accepts pn v).
  - intros N. apply B. apply (body_refuses pn v); [done|]. intros (x & y & z & yaw & pitch & roll & I). by eapply N.
Qed.
(** Whatever the body is, if it is in UTF-8: a request which is not refused either asks for the position which its body is,
    or its body is not JSON and it asks for the default position. *)
Theorem C79_body : forall (P : Type) (default_position : P) position_new path mac result m t,
  placing P path mac result -> mac_of_string mac = Some m -> utf8_text t ->
  http_request default_position path (body_of position_new t) = RoNotAcceptable
  \/ (exists v x y z yaw pitch roll, json_text v t /\ is_position v x y z yaw pitch roll
        /\ http_request default_position path (body_of position_new t) = result m (position_new x y z yaw pitch roll))
  \/ (forall v, ~ json_text v t) /\ http_request default_position path (body_of position_new t) = result m default_position.
Proof.
  intros P dp pn path mac result m t H M U. destruct (placing_route P dp path mac result m (body_of pn t) H M) as [A B].
  destruct (body_of pn t) as [p| |] eqn:E; [right; left|right; right|left; by apply B].
  - destruct (body_sound pn t p U E) as (v & x & y & z & yaw & pitch & roll & J & I & ->). exists v, x, y, z, yaw, pitch, roll. split; [done|]. split; [done|]. apply A. by left.
  - split; [|by apply A; right]. intros v J. destruct (body_cases pn v t J) as [(? & ? & ? & ? & ? & ? & _ & X)|[_ X]]; by rewrite X in E.
Qed.
(** What the page sends is accepted, and means what the page meant. *)
Theorem C79_page : forall (P : Type) (default_position : P) position_new path mac result m x y z yaw pitch roll,
  placing P path mac result -> mac_of_string mac = Some m ->
  (-32768 <= x <= 32767 /\ -32768 <= y <= 32767 /\ -32768 <= z <= 32767 /\ -32768 <= yaw <= 32767 /\ -128 <= pitch <= 127 /\ -32768 <= roll <= 32767)%Z ->
  http_request default_position path (body_of position_new (stringify x y z yaw pitch roll)) = result m (position_new x y z yaw pitch roll).
Proof. intros P dp pn path mac result m x y z yaw pitch roll H M R. eapply placing_route; [done..|]. left. by apply page_accepted. Qed.
(** The request with a body which is cut anywhere is not refused: it moves the device to the default position. *)
Theorem C79_cut_refuted : forall (P : Type) (default_position : P) position_new path mac result m x y z yaw pitch roll part,
  placing P path mac result -> mac_of_string mac = Some m ->
  (-32768 <= x <= 32767 /\ -32768 <= y <= 32767 /\ -32768 <= z <= 32767 /\ -32768 <= yaw <= 32767 /\ -128 <= pitch <= 127 /\ -32768 <= roll <= 32767)%Z ->
  part `prefix_of` stringify x y z yaw pitch roll -> part <> stringify x y z yaw pitch roll ->
  http_request default_position path (body_of position_new part) = result m default_position.
Proof. intros P dp pn path mac result m x y z yaw pitch roll part H M R A B. eapply placing_route; [done..|]. right. split; [|done]. by eapply page_cut. Qed.
(** An empty body, which main.rs means to allow: the default position. *)
Theorem C79_empty : forall (P : Type) (default_position : P) position_new path mac result m t,
  placing P path mac result -> mac_of_string mac = Some m -> spaces t ->
  http_request default_position path (body_of position_new t) = result m default_position.
Proof. intros P dp pn path mac result m t H M W. eapply placing_route; [done..|]. right. split; [|done]. by apply blank_body. Qed.
(** A request to move 00:01; the order and the spaces of the members, and other members, do not matter; members which are
    missing, twice there, out of range or not integers do. *)
Definition six (x y z yaw pitch roll : Z) := (x, y, z, yaw, pitch, roll).
Definition asked (t : string) := http_request (six 0 0 0 0 0 0) (str "/set-position/00:01") (body_of six (str t)).
Example C79_example : placing (Z * Z * Z * Z * Z * Z) (str "/set-position/00:01") (str "00:01") RoSetPosition /\ mac_of_string (str "00:01") = Some (MShort [0; 1])
  /\ stringify 1 (-2) 3 (-32768) 127 0 = str "{""x"":1,""y"":-2,""z"":3,""yaw"":-32768,""pitch"":127,""roll"":0}"
  /\ asked "{""x"":1,""y"":-2,""z"":3,""yaw"":-32768,""pitch"":127,""roll"":0}" = RoSetPosition (MShort [0; 1]) (six 1 (-2) 3 (-32768) 127 0)
  /\ asked " { ""roll"" : 9 , ""other"" : [ { ""x"" : null } , -1.5e3 , ""é"" ] , ""yaw"":4,""pitch"":5, ""z"":3,""y"":2,""x"":1 } " = RoSetPosition (MShort [0; 1]) (six 1 2 3 4 5 9)
  /\ asked "[1,2,3,4,5,6]" = RoSetPosition (MShort [0; 1]) (six 1 2 3 4 5 6)
  /\ asked "{""x"":1,""y"":-2,""z"":3,""yaw"":4,""pitch"":128,""roll"":0}" = RoNotAcceptable
  /\ asked "{""x"":1,""y"":-2,""z"":3,""yaw"":4,""pitch"":12" = RoSetPosition (MShort [0; 1]) (six 0 0 0 0 0 0)
  /\ asked "{""x"":1,""x"":1,""y"":-2,""z"":3,""yaw"":4,""pitch"":12,""roll"":0}" = RoNotAcceptable
  /\ asked "{""x"":1.0,""y"":-2,""z"":3,""yaw"":4,""pitch"":12,""roll"":0}" = RoNotAcceptable
  /\ asked "{""x"":1,""y"":-2,""z"":3,""yaw"":4,""pitch"":12}" = RoNotAcceptable.
Proof.
  split; [left; split; [right; exists 1%nat; split; [by vm_compute|]; apply bool_decide_unpack with (dec := decide _); by vm_compute|done]|]. split_and!; by vm_compute.
Qed.
Print Assumptions C79_json.
Print Assumptions C79_body.
Print Assumptions C79_page.
Print Assumptions C79_cut_refuted.
Print Assumptions C79_empty.
