(** Model of the requests to the web server, from their text to the status of the response: bin/http-server/main.rs:431-481
    [http_request] over the handlers of Http.v and the bodies of Json.v. *)
From Verif Require Import Base Uci MacAddress AppConfig Codec Session Device Pica Http Json.

(** A request. The query of the URI and the headers are not represented: the code does not read them. Neither does it
    read the method. *)
Inductive method : Set := GET | POST | PUT | DELETE | PATCH | HEAD | OPTIONS.
Record http : Set := HttpReq { q_method : method; q_path : bytes; q_body : bytes }.

Section Server.
Context {P : Type} (default_position : P) (compute : P -> P -> N * Z * Z) (position_new : Z -> Z -> Z -> Z -> Z -> Z -> P).

(** main.rs:431-481: a request arrives, and is answered at once but for those about anchors, that wait for the
    environment. Requests are numbered in the order of their arrival. [order]: the iteration order of the map of devices.
    main.rs:437-441 (static files), 171-185 [http_events], 334-351 [http_get_state] (it panics if the lock is poisoned: no
    response), 474-477. *)
Definition arrive (q : http) (order : list N) (w : web P) : option (web P) :=
  match w_end w with
  | Some _ => None
  | None =>
      let k := w_next w in
      let w1 := w_set_next (k + 1) w in
      match http_request default_position (q_path q) (body_of position_new (q_body q)) with
      | RoStatic => Some (respond k 200 w1)
      | RoEvents => Some (respond k 200 (w_set_subscribers (w_subscribers w + 1) w1))
      | RoSetPosition m position => web_step default_position compute (WSetPosition order m position) w
      | RoCreateAnchor m position => web_step default_position compute (WAnchor (RqCreate m position)) w
      | RoDestroyAnchor m => web_step default_position compute (WAnchor (RqDestroy m)) w
      | RoGetState => Some (if w_poisoned w then w1 else respond k 200 w1)
      | RoNotFound => Some (respond k 404 w1)
      | RoNotAcceptable => Some (respond k 406 w1)
      end
  end.

(** What happens in the server: a request arrives, or an action of Http.v that is not the arrival of a request. *)
Inductive server_label : Type :=
  | SRequest (q : http) (order : list N)
  | SOther (l : web_label P).
Definition server_step (l : server_label) (w : web P) : option (web P) :=
  match l with
  | SRequest q order => arrive q order w
  | SOther l =>
      match l with
      | WSubscribe | WSetPosition _ _ _ | WAnchor _ => None
      | _ => web_step default_position compute l w
      end
  end.
Fixpoint server_run (ls : list server_label) (w : web P) : option (web P) :=
  match ls with
  | [] => Some w
  | l :: ls => w ← server_step l w; server_run ls w
  end.
End Server.
Arguments server_label : clear implicits.
