(** Model of bin/http-server/main.rs: the scene of the web interface, its requests and its coupling with the
    environment (Pica.v). The geometry (position.rs) is in Position.v; here a position is a value of an arbitrary type
    [P], [default_position] is [Position::default()] and [compute] is [compute_range_azimuth_elevation]. *)
From Coq Require Import Strings.String Strings.Ascii.
From Verif Require Import Base Uci MacAddress AppConfig Codec Session Device Pica.

(** A string literal as character codes. *)
Definition str (s : string) : bytes := map N_of_ascii (list_ascii_of_string s).

Section Http.
Context {P : Type} (default_position : P) (compute : P -> P -> N * Z * Z).

(** main.rs:69-76 [struct DeviceInformation] *)
Record device_information : Type := DeviceInformation {
  di_category : category;
  di_mac : mac_address;
  di_position : P }.

(** main.rs:79-107 [enum Event] *)
Inductive event : Type :=
  | DeviceAdded (c : category) (m : mac_address) (position : P)
  | DeviceRemoved (c : category) (m : mac_address)
  | DeviceUpdated (c : category) (m : mac_address) (position : P)
  | NeighborUpdated (source_category : category) (source : mac_address)
      (destination_category : category) (destination : mac_address)
      (distance : N) (azimuth elevation : Z).

(** lib.rs:133-144 [enum PicaEvent] *)
Inductive pica_event : Set :=
  | Connected (h : N) (m : mac_address)
  | Disconnected (h : N) (m : mac_address).

(** A create-anchor (with its position) or destroy-anchor request. *)
Inductive anchor_request : Type :=
  | RqCreate (m : mac_address) (position : P)
  | RqDestroy (m : mac_address).
(** Its progress: the command is in the queue of the environment (and the client may have left, which drops the handler
    but not the command); or the answer is in the oneshot channel and the handler has not yet resumed. *)
Inductive request : Type :=
  | RqQueued (r : anchor_request) (abandoned : bool)
  | RqReplied (r : anchor_request) (answer : reply).

(** Why the process has ended. [main] (main.rs:547-552) runs the event loop of the environment, the listener, the web
    server and [handle_connection_events] in one task: the first error or panic ends them all. *)
Inductive ending : Set :=
  | EndNoSubscriber   (* main.rs:151,164 [events.send(..).unwrap()] *)
  | EndPoisoned       (* main.rs:136,157 [devices.lock().unwrap()] *)
  | EndLagged         (* main.rs:166 [bail!]: more than 16 events of the environment were unread *)
  | EndPica (s : site). (* a panic of the event loop of the environment *)

(** main.rs:109-115 [struct Context] with the environment, the channel of its events, the requests in progress, and
    what was sent: the events to the subscribers, and the responses. [w_poisoned]: a thread panicked while it held the
    lock of [devices]. *)
Record web : Type := Web {
  w_pica : pica;
  w_feed : list pica_event;
  w_devices : gmap N device_information;
  w_poisoned : bool;
  w_subscribers : N;
  w_requests : gmap N request;
  w_next : N;
  w_events : list event;
  w_responses : list (N * N);
  w_end : option ending }.

(** main.rs:118-124 [Context::new]; main.rs:541-545. *)
Definition web_new : web := Web pica_new [] ∅ false 0 ∅ 0 [] [] None.

Definition w_set_pica v w := Web v (w_feed w) (w_devices w) (w_poisoned w) (w_subscribers w) (w_requests w) (w_next w) (w_events w) (w_responses w) (w_end w).
Definition w_set_feed v w := Web (w_pica w) v (w_devices w) (w_poisoned w) (w_subscribers w) (w_requests w) (w_next w) (w_events w) (w_responses w) (w_end w).
Definition w_set_devices v w := Web (w_pica w) (w_feed w) v (w_poisoned w) (w_subscribers w) (w_requests w) (w_next w) (w_events w) (w_responses w) (w_end w).
Definition w_set_poisoned v w := Web (w_pica w) (w_feed w) (w_devices w) v (w_subscribers w) (w_requests w) (w_next w) (w_events w) (w_responses w) (w_end w).
Definition w_set_subscribers v w := Web (w_pica w) (w_feed w) (w_devices w) (w_poisoned w) v (w_requests w) (w_next w) (w_events w) (w_responses w) (w_end w).
Definition w_set_requests v w := Web (w_pica w) (w_feed w) (w_devices w) (w_poisoned w) (w_subscribers w) v (w_next w) (w_events w) (w_responses w) (w_end w).
Definition w_set_next v w := Web (w_pica w) (w_feed w) (w_devices w) (w_poisoned w) (w_subscribers w) (w_requests w) v (w_events w) (w_responses w) (w_end w).
Definition w_set_events v w := Web (w_pica w) (w_feed w) (w_devices w) (w_poisoned w) (w_subscribers w) (w_requests w) (w_next w) v (w_responses w) (w_end w).
Definition w_set_responses v w := Web (w_pica w) (w_feed w) (w_devices w) (w_poisoned w) (w_subscribers w) (w_requests w) (w_next w) (w_events w) v (w_end w).
Definition w_set_end v w := Web (w_pica w) (w_feed w) (w_devices w) (w_poisoned w) (w_subscribers w) (w_requests w) (w_next w) (w_events w) (w_responses w) v.

(** [self.events.send(event)]: an error ([None]) when there is no receiver. *)
Definition broadcast (ev : event) (w : web) : option web :=
  if w_subscribers w =? 0 then None else Some (w_set_events (w_events w ++ [ev]) w).
Definition respond (k status : N) (w : web) : web := w_set_responses (w_responses w ++ [(k, status)]) w.

(** main.rs:126-169 [handle_connection_events], one event. Called in [main]: a panic ends the process. *)
Definition handle_connection_event (w : web) : option web :=
  match w_feed w with
  | [] => None
  | ev :: feed =>
      if (16 <? N.of_nat (length (w_feed w))) then Some (w_set_end (Some EndLagged) w)
      else if w_poisoned w then Some (w_set_end (Some EndPoisoned) w)
      else
        let w := w_set_feed feed w in
        let '(w, ev) :=
          match ev with
          | Connected h m => (w_set_devices (<[h := DeviceInformation CategoryUci m default_position]> (w_devices w)) w,
                              DeviceAdded CategoryUci m default_position)
          | Disconnected h m => (w_set_devices (delete h (w_devices w)) w, DeviceRemoved CategoryUci m)
          end in
        match broadcast ev w with
        | Some w => Some w
        | None => Some (w_set_end (Some EndNoSubscriber) w)
        end
  end.

(** A handler of a request panics: the client gets no response, and the lock is poisoned if it is held. *)
Definition panicked (w : web) : web := w_set_poisoned true w.

(** main.rs:214-250: the loop over the other devices; [None] is a panic ([unwrap] or [assert!]). *)
Fixpoint neighbors (device : device_information) (others : list device_information) (w : web) : option web :=
  match others with
  | [] => Some w
  | other :: others =>
      if bool_decide (di_mac other = di_mac device) then neighbors device others w
      else
        let '(local_d, local_a, local_e) := compute (di_position device) (di_position other) in
        let '(remote_d, remote_a, remote_e) := compute (di_position other) (di_position device) in
        if negb (local_d =? remote_d) then None
        else
          w ← broadcast (NeighborUpdated (di_category device) (di_mac device) (di_category other) (di_mac other) local_d local_a local_e) w;
          w ← broadcast (NeighborUpdated (di_category other) (di_mac other) (di_category device) (di_mac device) remote_d remote_a remote_e) w;
          neighbors device others w
  end.
(** main.rs:187-257 [http_set_position]. [order] is the iteration order of the map: the handles of its entries.
    If it panics, the events of the iterations before the panic are also sent: they are not represented in this case. *)
Definition first_with (m : mac_address) (devices : gmap N device_information) (order : list N) : option (N * device_information) :=
  head (omap (fun h => match devices !! h with
                       | Some d => if bool_decide (di_mac d = m) then Some (h, d) else None
                       | None => None end) order).
Definition set_position (k : N) (order : list N) (m : mac_address) (position : P) (w : web) : web :=
  if w_poisoned w then w (* main.rs:190 lock().unwrap() *)
  else
    match first_with m (w_devices w) order with
    | None => respond k 404 w
    | Some (h, d) =>
        let d := DeviceInformation (di_category d) (di_mac d) position in
        let w := w_set_devices (<[h := d]> (w_devices w)) w in
        match (w ← broadcast (DeviceUpdated (di_category d) m position) w;
               neighbors d (omap (fun h => w_devices w !! h) order) w) with
        | Some w => respond k 200 w
        | None => panicked w
        end
    end.

(** main.rs:259-299, 301-332 [http_create_anchor], [http_destroy_anchor] after the answer has come. The answer of a closed
    channel (status 500) occurs only when the process ends. *)
Definition finish_request (k : N) (r : anchor_request) (answer : reply) (w : web) : web :=
  match answer with
  | ReplyOk h =>
      if w_poisoned w then w (* lock().unwrap() *)
      else
        let '(w, ev) :=
          match r with
          | RqCreate m position => (w_set_devices (<[h := DeviceInformation CategoryAnchor m position]> (w_devices w)) w,
                                    DeviceAdded CategoryAnchor m position)
          | RqDestroy m => (w_set_devices (delete h (w_devices w)) w, DeviceRemoved CategoryAnchor m)
          end in
        match broadcast ev w with
        | Some w => respond k 200 w
        | None => panicked w
        end
  | ReplyAlreadyExists _ => respond k 409 w
  | ReplyNotFound _ => respond k 404 w
  end.

(** main.rs:334-351 [http_get_state]: the entries, in an arbitrary order. *)
Definition get_state (order : list N) (w : web) : option (list device_information) :=
  if w_poisoned w then None else Some (omap (fun h => w_devices w !! h) order).

(** main.rs:354-370 [RangingEstimator for Context]. *)
Definition estimate (w : web) (left right : N) : option ranging_measurement :=
  if w_poisoned w then None
  else
    l ← w_devices w !! left;
    r ← w_devices w !! right;
    let '(range, azimuth, elevation) := compute (di_position l) (di_position r) in
    Some (RangingMeasurement range azimuth elevation).

(** lib.rs:232-237 [send_event], for the outputs of one command. *)
Definition pica_events (outs : list out) : list pica_event :=
  omap (fun o => match o with OConnected h m => Some (Connected h m) | ODisconnected h m => Some (Disconnected h m) | _ => None end) outs.
(** The answer in the outputs of an anchor command. *)
Definition reply_of (outs : list out) : option reply :=
  head (omap (fun o => match o with OReply r => Some r | _ => None end) outs).

(** The environment processes one command. The scene is assumed not to change during the command.
    lib.rs:549-558, main.rs:547-552 *)
Definition process (order : list N -> list N) (perm : forall l, order l ≡ₚ l) (o : op) (w : web) : web * list out :=
  match step (Env (estimate w) order perm) (w_pica w) o with
  | Ret (p, outs) => (w_set_feed (w_feed w ++ pica_events outs) (w_set_pica p w), outs)
  | Crash s => (w_set_end (Some (EndPica s)) w, [])
  end.
Definition command_of (r : anchor_request) : op :=
  match r with RqCreate m _ => CreateAnchor m | RqDestroy m => DestroyAnchor m end.

(** ** Interleavings. Handlers hold the lock of [devices] from their first access until their end, so that each is one
    action; create-anchor and destroy-anchor wait for the environment in between. *)
Inductive web_label : Type :=
  | WOp (order : list N -> list N) (perm : forall l, order l ≡ₚ l) (o : op)   (* the environment processes a command of a connection or timer *)
  | WEvent                                                                     (* handle_connection_events *)
  | WSubscribe | WUnsubscribe                                                  (* main.rs:171-185 [http_events], and its end *)
  | WSetPosition (order : list N) (m : mac_address) (position : P)
  | WAnchor (r : anchor_request)                                               (* the command is sent *)
  | WProcess (k : N)                                                           (* the environment processes it *)
  | WFinish (k : N)                                                            (* the handler resumes *)
  | WAbandon (k : N).                                                          (* the client has left *)

Definition web_step (l : web_label) (w : web) : option web :=
  match w_end w with
  | Some _ => None
  | None =>
      match l with
      | WOp order perm o =>
          match o with
          | CreateAnchor _ | DestroyAnchor _ => None
          | _ => Some (process order perm o w).1
          end
      | WEvent => handle_connection_event w
      | WSubscribe => Some (w_set_subscribers (w_subscribers w + 1) w)
      | WUnsubscribe => if w_subscribers w =? 0 then None else Some (w_set_subscribers (w_subscribers w - 1) w)
      | WSetPosition order m position =>
          if bool_decide (order ≡ₚ (map_to_list (w_devices w)).*1)
          then Some (set_position (w_next w) order m position (w_set_next (w_next w + 1) w)) else None
      | WAnchor r => Some (w_set_requests (<[w_next w := RqQueued r false]> (w_requests w)) (w_set_next (w_next w + 1) w))
      | WProcess k =>
          match w_requests w !! k with
          | Some (RqQueued r abandoned) =>
              let '(w, outs) := process (fun l => l) (fun l => reflexivity l) (command_of r) w in
              match reply_of outs with
              | Some answer =>
                  Some (w_set_requests (if abandoned : bool then delete k (w_requests w) else <[k := RqReplied r answer]> (w_requests w)) w)
              | None => Some w
              end
          | _ => None
          end
      | WFinish k =>
          match w_requests w !! k with
          | Some (RqReplied r answer) => Some (finish_request k r answer (w_set_requests (delete k (w_requests w)) w))
          | _ => None
          end
      | WAbandon k =>
          match w_requests w !! k with
          | Some (RqQueued r false) => Some (w_set_requests (<[k := RqQueued r true]> (w_requests w)) w)
          | Some (RqReplied r answer) => Some (w_set_requests (delete k (w_requests w)) w)
          | _ => None
          end
      end
  end.
Fixpoint web_run (ls : list web_label) (w : web) : option web :=
  match ls with
  | [] => Some w
  | l :: ls => w ← web_step l w; web_run ls w
  end.

(** ** main.rs:426-476 [http_request]: the requests, by path and body. Static files have their own paths
    (main.rs:40-67); the body is represented by the result of its deserialisation (Json.v). *)
Inductive body : Type :=
  | BodyPosition (position : P)   (* Position::new of the fields *)
  | BodyEof                       (* the body ends too early, for example because it is empty *)
  | BodyInvalid.
Inductive route : Type :=
  | RoStatic
  | RoEvents
  | RoSetPosition (m : mac_address) (position : P)
  | RoCreateAnchor (m : mac_address) (position : P)
  | RoDestroyAnchor (m : mac_address)
  | RoGetState
  | RoNotFound                    (* 404 *)
  | RoNotAcceptable.              (* 406 *)

(** main.rs:40-67 [STATIC_FILES] *)
Definition static_paths : list bytes :=
  [str "/"; str "/openapi"; str "/openapi.yaml"; str "/src/components/Map.js"; str "/src/components/DeviceInfo.js";
   str "/src/components/Orientation.js"].
Definition CH_SLASH : N := 47.
(** [trim_start_matches('/')] *)
Fixpoint trim_slashes (s : bytes) : bytes :=
  match s with c :: t => if c =? CH_SLASH then trim_slashes t else s | [] => [] end.
(** [split('/')]: always at least one piece. *)
Fixpoint split_slash (s : bytes) : list bytes :=
  match s with
  | [] => [[]]
  | c :: t =>
      if c =? CH_SLASH then [] :: split_slash t
      else match split_slash t with piece :: l => (c :: piece) :: l | [] => [[c]] end
  end.
(** main.rs:382-400 [position!]: not mandatory, a body which ends too early is the default position. *)
Definition position_of (b : body) : option P :=
  match b with BodyPosition position => Some position | BodyEof => Some default_position | BodyInvalid => None end.
(** main.rs:402-413 [mac_address!], then [position!] *)
Definition with_position (f : mac_address -> P -> route) (mac : bytes) (b : body) : route :=
  match mac_of_string mac with
  | None => RoNotAcceptable
  | Some m => match position_of b with None => RoNotAcceptable | Some position => f m position end
  end.
(** main.rs:431-475 *)
Definition http_request (path : bytes) (b : body) : route :=
  if existsb (fun p => bool_decide (p = path)) static_paths then RoStatic
  else
    match split_slash (trim_slashes path) with
    | [command] =>
        if bool_decide (command = str "events") then RoEvents
        else if bool_decide (command = str "get-state") then RoGetState
        else RoNotFound
    | [command; mac] =>
        if bool_decide (command = str "init-uci-device") then with_position RoSetPosition mac b
        else if bool_decide (command = str "set-position") then with_position RoSetPosition mac b
        else if bool_decide (command = str "create-anchor") then with_position RoCreateAnchor mac b
        else if bool_decide (command = str "destroy-anchor") then
          match mac_of_string mac with None => RoNotAcceptable | Some m => RoDestroyAnchor m end
        else RoNotFound
    | _ => RoNotFound
    end.
End Http.
Arguments device_information : clear implicits.
Arguments event : clear implicits.
Arguments anchor_request : clear implicits.
Arguments request : clear implicits.
Arguments web : clear implicits.
Arguments web_label : clear implicits.
Arguments body : clear implicits.
Arguments route : clear implicits.
