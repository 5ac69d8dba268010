(** Small specification: the documentation of the requests, static/openapi.yaml:111-209. *)
From Coq Require Import Strings.String.
From Verif Require Import Base MacAddress Codec Pica CodecSpec ContextSpec Http OpenApi.

(** The requests received, in the order of their arrival. *)
Definition requests {P} (ls : list (server_label P)) : list http := omap (fun l => match l with SRequest q _ => Some q | _ => None end) ls.
(** [handled ls w]: the server, from its start, has performed the actions [ls] and is in the state [w]. *)
Definition wf_server_label {P} (l : server_label P) : Prop := match l with SOther (WOp _ _ o) => wf_op o | _ => True end.
Definition handled {P} default_position compute position_new (ls : list (server_label P)) (w : web P) : Prop :=
  Forall wf_server_label ls /\ server_run default_position compute position_new ls web_new = Some w.
(** Request number [k] was [q], and was answered with [status]. *)
Definition answered {P} (ls : list (server_label P)) (w : web P) (q : http) (status : N) : Prop :=
  exists k, requests ls !! N.to_nat k = Some q /\ (k, status) ∈ w_responses w.

(** The paths of the operations, with a mac address, and those without. *)
Inductive operation : Set := InitUciDevice | SetPosition | CreateAnchor | DestroyAnchor | GetState | Events.
Definition path_of (o : operation) (mac : bytes) : bytes :=
  match o with
  | InitUciDevice => str "/init-uci-device/" ++ mac
  | SetPosition => str "/set-position/" ++ mac
  | CreateAnchor => str "/create-anchor/" ++ mac
  | DestroyAnchor => str "/destroy-anchor/" ++ mac
  | GetState => str "/get-state"
  | Events => str "/events"
  end.
Definition documented_method (o : operation) : method :=
  match o with
  | InitUciDevice | SetPosition | CreateAnchor => POST
  | DestroyAnchor => DELETE
  | GetState | Events => GET
  end.
Definition documented_statuses (o : operation) : list N :=
  match o with
  | InitUciDevice => [200; 403; 500]
  | SetPosition => [200; 404; 500]
  | CreateAnchor => [200; 406; 409]
  | DestroyAnchor => [200; 404; 500]
  | GetState | Events => [200; 500]
  end.
(** The request [q] asks for the operation [o], as documented. [mac] has no slash. *)
Definition asks (q : http) (o : operation) (mac : bytes) : Prop :=
  q_method q = documented_method o /\ q_path q = path_of o mac /\ 47 ∉ mac.
(** The files of the page and of the documentation: what a browser asks for when it opens the page (/), which imports Map.js and
    DeviceInfo.js (static/index.html:73-74), which imports Orientation.js (DeviceInfo.js:17), and the documentation (/openapi), which
    loads openapi.yaml (static/openapi.html). *)
Definition page_files : list bytes :=
  [str "/"; str "/src/components/Map.js"; str "/src/components/DeviceInfo.js"; str "/src/components/Orientation.js";
   str "/openapi"; str "/openapi.yaml"].
