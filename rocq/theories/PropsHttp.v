(** Properties of the web server (bin/http-server/main.rs), for every type of positions and every computation of the
    measurements. [served default compute ls w]: the server has performed the actions [ls] (HttpSpec.v). *)
From Coq Require Import Strings.String.
From Verif Require Import Base Uci MacAddress AppConfig Codec Session Device Pica CodecSpec ContextSpec HistorySpec InvFacts PropsContext Http HttpSpec HttpFacts HttpFacts2.

(** A server for the examples: positions on a line. *)
Definition line (p q : N) : N * Z * Z := (if p <=? q then q - p else p - q, 0%Z, 0%Z).
Notation demo_run := (web_run (0 : N) line).
Definition web_after (ls : list (web_label N)) : web N := default web_new (demo_run ls web_new).
Lemma served_after ls : Forall wf_web_label ls -> (if demo_run ls web_new then true else false) = true -> served 0 line ls (web_after ls).
Proof. intros F R. split; [done|]. unfold web_after. by destruct (demo_run ls web_new). Qed.
Definition connect : web_label N := WOp (fun l => l) (fun l => reflexivity l) Connect.
(** Two devices, an anchor at 5 and a position request for the second device. *)
Definition visit : list (web_label N) :=
  [WSubscribe; connect; WEvent; connect; WEvent; WAnchor (RqCreate (MShort [9; 9]) 5); WProcess 0; WFinish 0].
Definition move : list (web_label N) := visit ++ [WSetPosition (map_to_list (w_devices (web_after visit))).*1 (MShort [0; 1]) 7].
Lemma wf_visit : Forall wf_web_label visit.
Proof. repeat constructor. Qed.

(** ** C49. *)
(** Once the events of the environment have been handled and no request is in progress, the scene is exactly the devices
    and the anchors of the environment, if clients have waited for their answers and have not sent two requests about one
    anchor at the same time, and no thread has panicked. *)
Theorem C49_scene_partial : forall (P : Type) (default_position : P) compute ls w, served default_position compute ls w ->
  throughout default_position compute one_at_a_time ls web_new -> w_end w = None -> w_poisoned w = false ->
  w_feed w = [] -> (forall m, ~ in_progress w m) ->
  forall h c m, in_scene w h c m <-> in_environment (w_pica w) h c m.
Proof.
  intros P dp co ls w Sv T En Ep Ef Np. eapply scene_exact; try done. apply map_eq. intros k. rewrite lookup_empty.
  destruct (w_requests w !! k) as [q|] eqn:L; [|done]. destruct (Np (mac_of_request q)). exists k, q. split; [done|]. by destruct q.
Qed.
(** The state which is reported has each entry of the scene once. *)
Theorem C49_get_state : forall (P : Type) (w : web P) order, w_poisoned w = false -> order ≡ₚ (map_to_list (w_devices w)).*1 ->
  exists l, get_state order w = Some l /\ l ≡ₚ (map_to_list (w_devices w)).*2.
Proof. intros P w order Ep Pm. unfold get_state. rewrite Ep. eexists. split; [done|]. by apply omap_keys. Qed.
(** The position of an entry is the last which was given to it: it changes only when the entry is made, with the default
    position for a device and the requested one for an anchor, or by a position request for its address. *)
Theorem C49_position : forall (P : Type) (default_position : P) compute l w w' h i,
  web_step default_position compute l w = Some w' -> w_devices w' !! h = Some i ->
  w_devices w !! h = Some i
  \/ (l = WEvent /\ di_position i = default_position /\ exists feed, w_feed w = Connected h (di_mac i) :: feed)
  \/ (exists order i0, l = WSetPosition order (di_mac i) (di_position i) /\ w_devices w !! h = Some i0 /\ di_mac i0 = di_mac i)
  \/ (exists k answer, l = WFinish k /\ w_requests w !! k = Some (RqReplied (RqCreate (di_mac i) (di_position i)) answer)).
Proof. intros. by eapply position_frame. Qed.
(** Two requests about one anchor at the same time: the anchor is destroyed before its creation has been recorded, and
    stays in the scene. *)
Definition race : list (web_label N) :=
  [WSubscribe; WAnchor (RqCreate (MShort [9; 9]) 5); WProcess 0; WAnchor (RqDestroy (MShort [9; 9])); WProcess 1; WFinish 1; WFinish 0].
(** A client leaves before its answer: the anchor never appears. *)
Definition impatient : list (web_label N) := [WSubscribe; WAnchor (RqCreate (MShort [9; 9]) 5); WAbandon 0; WProcess 0].
Lemma requests_none (w : web N) : map_to_list (w_requests w) = [] -> forall m, ~ in_progress w m.
Proof. intros E m (k & q & L & _). apply map_to_list_empty_iff in E. by rewrite E, lookup_empty in L. Qed.
Theorem C49_refuted :
  (exists w h c m, served 0 line race w /\ w_end w = None /\ w_poisoned w = false /\ w_feed w = [] /\ (forall m, ~ in_progress w m)
     /\ in_scene w h c m /\ ~ in_environment (w_pica w) h c m)
  /\ (exists w h c m, served 0 line impatient w /\ w_end w = None /\ w_poisoned w = false /\ w_feed w = [] /\ (forall m, ~ in_progress w m)
     /\ ~ in_scene w h c m /\ in_environment (w_pica w) h c m).
Proof.
  split.
  - exists (web_after race), 0, CategoryAnchor, (MShort [9; 9]). split_and!; try by vm_compute.
    + apply served_after; [repeat constructor|by vm_compute].
    + apply requests_none. by vm_compute.
    + eexists. split_and!; [vm_compute; reflexivity|done|done].
    + intros [[? _]|[_ L]]; [done|]. by vm_compute in L.
  - exists (web_after impatient), 0, CategoryAnchor, (MShort [9; 9]). split_and!; try by vm_compute.
    + apply served_after; [repeat constructor|by vm_compute].
    + apply requests_none. by vm_compute.
    + intros (i & L & _). by vm_compute in L.
    + right. split; [done|]. by vm_compute.
Qed.
Example C49_example : served 0 line move (web_after move) /\ throughout 0 line one_at_a_time move web_new
  /\ w_end (web_after move) = None /\ w_poisoned (web_after move) = false /\ w_feed (web_after move) = [] /\ (forall m, ~ in_progress (web_after move) m)
  /\ in_scene (web_after move) 1 CategoryUci (MShort [0; 1]) /\ in_scene (web_after move) 2 CategoryAnchor (MShort [9; 9])
  /\ option_map (map di_position) (get_state [2; 1; 0] (web_after move)) = Some [5; 7; 0].
Proof.
  split_and!; try by vm_compute.
  - apply served_after; [|by vm_compute]. apply Forall_app. split; [apply wf_visit|]. by repeat constructor.
  - unfold move, visit. cbn [app throughout].
    repeat match goal with |- _ /\ _ => split; [first [exact I | intros (k & q & L & _); by vm_compute in L]|] | |- match ?x with _ => _ end => let v := eval vm_compute in x in change x with v; cbv iota beta end.
    all: try exact I.
  - apply requests_none. by vm_compute.
  - eexists. split_and!; [vm_compute; reflexivity|done|done].
  - eexists. split_and!; [vm_compute; reflexivity|done|done].
Qed.

(** ** C50. *)
(** The requests, by their path and body. *)
Theorem C50_create_route : forall (P : Type) (default_position : P) path b mac, names path (str "create-anchor") mac ->
  (forall m position, mac_of_string mac = Some m -> asks_for default_position b position -> http_request default_position path b = RoCreateAnchor m position)
  /\ (mac_of_string mac = None \/ b = BodyInvalid -> http_request default_position path b = RoNotAcceptable).
Proof.
  intros P dp path b mac Hn. rewrite (http_two dp path b (str "create-anchor") mac) by (done || (unfold commands; set_solver)).
  rewrite !bool_decide_false, bool_decide_true by (by vm_compute). unfold with_position. split.
  - by intros m pos -> [-> | [-> ->]].
  - intros [-> | ->]; [done|]. by destruct (mac_of_string mac).
Qed.
Theorem C50_destroy_route : forall (P : Type) (default_position : P) path b mac, names path (str "destroy-anchor") mac ->
  http_request default_position path b = match mac_of_string mac with Some m => RoDestroyAnchor m | None => RoNotAcceptable end.
Proof.
  intros P dp path b mac Hn. rewrite (http_two dp path b (str "destroy-anchor") mac) by (done || (unfold commands; set_solver)).
  rewrite !bool_decide_false by (by vm_compute). by destruct (mac_of_string mac).
Qed.
(** The two requests that move a device or anchor. *)
Theorem C51_route : forall (P : Type) (default_position : P) path b mac, names path (str "init-uci-device") mac \/ names path (str "set-position") mac ->
  (forall m position, mac_of_string mac = Some m -> asks_for default_position b position -> http_request default_position path b = RoSetPosition m position)
  /\ (mac_of_string mac = None \/ b = BodyInvalid -> http_request default_position path b = RoNotAcceptable).
Proof.
  intros P dp path b mac [Hn|Hn].
  - rewrite (http_two dp path b (str "init-uci-device") mac) by (done || (unfold commands; set_solver)).
    rewrite bool_decide_true by done. unfold with_position. split; [by intros m pos -> [-> | [-> ->]]|intros [-> | ->]; [done|by destruct (mac_of_string mac)]].
  - rewrite (http_two dp path b (str "set-position") mac) by (done || (unfold commands; set_solver)).
    rewrite bool_decide_false, bool_decide_true by (by vm_compute). unfold with_position. split; [by intros m pos -> [-> | [-> ->]]|intros [-> | ->]; [done|by destruct (mac_of_string mac)]].
Qed.
Print Assumptions C51_route.
(** No other request creates, destroys or moves, or is not acceptable; an unknown path is not found. *)
Theorem C50_routes : forall (P : Type) (default_position : P) path b, match http_request default_position path b with
  | RoSetPosition m position => exists mac, (names path (str "init-uci-device") mac \/ names path (str "set-position") mac) /\ mac_of_string mac = Some m /\ asks_for default_position b position
  | RoCreateAnchor m position => exists mac, names path (str "create-anchor") mac /\ mac_of_string mac = Some m /\ asks_for default_position b position
  | RoDestroyAnchor m => exists mac, names path (str "destroy-anchor") mac /\ mac_of_string mac = Some m
  | RoNotAcceptable => exists command mac, command ∈ [str "init-uci-device"; str "set-position"; str "create-anchor"; str "destroy-anchor"]
      /\ names path command mac /\ (mac_of_string mac = None \/ command <> str "destroy-anchor" /\ b = BodyInvalid)
  | RoNotFound => forall command mac, command ∈ [str "init-uci-device"; str "set-position"; str "create-anchor"; str "destroy-anchor"] -> ~ names path command mac
  | _ => True
  end.
Proof. exact @http_route. Qed.
(** The decision of the environment about a create-anchor request: refused if the address is in use, and then nothing
    changes; otherwise the anchor exists. *)
Theorem C50_create : forall (P : Type) (default_position : P) compute w w' k m position,
  w_requests w !! k = Some (RqQueued (RqCreate m position) false) -> web_step default_position compute (WProcess k) w = Some w' ->
  w_devices w' = w_devices w /\ w_responses w' = w_responses w /\ w_events w' = w_events w
  /\ (in_use (w_pica w) m -> w_pica w' = w_pica w /\ w_requests w' = <[k := RqReplied (RqCreate m position) (ReplyAlreadyExists m)]> (w_requests w))
  /\ (~ in_use (w_pica w) m -> exists h, w_requests w' = <[k := RqReplied (RqCreate m position) (ReplyOk h)]> (w_requests w)
        /\ p_anchors (w_pica w') = <[m := h]> (p_anchors (w_pica w)) /\ p_devices (w_pica w') = p_devices (w_pica w)).
Proof.
  intros P dp co w w' k m pos Lk S. unfold web_step in S. destruct (w_end w); [discriminate|]. rewrite Lk in S. cbn [command_of] in S.
  destruct (process_fields co (fun l => l) (fun l => reflexivity l) (CreateAnchor m) w) as (F1 & _ & _ & _ & _ & F2 & F3).
  unfold process in *. match type of S with context [step ?e _ _] => set (e0 := e) in * end. destruct (C36_create e0 (w_pica w) m) as [CU CN].
  destruct (create_cases (w_pica w) m) as [[_ E]|[_ E]]; rewrite E in S; cbn in S; injection S as <-; cbn; (split_and!; [done|done|done|..]).
  - by intros U.
  - intros N. destruct (CN N) as (p' & h & E' & _). rewrite E in E'. apply Ret_inj in E'. by injection E' as _ E'.
  - intros U. rewrite E in CU. specialize (CU U). apply Ret_inj in CU. by injection CU as _ E'.
  - intros _. by eexists.
Qed.
(** And about a destroy-anchor request. *)
Theorem C50_destroy : forall (P : Type) (default_position : P) compute w w' k m,
  w_requests w !! k = Some (RqQueued (RqDestroy m) false) -> web_step default_position compute (WProcess k) w = Some w' ->
  w_devices w' = w_devices w /\ w_responses w' = w_responses w /\ w_events w' = w_events w
  /\ match p_anchors (w_pica w) !! m with
     | None => w_pica w' = w_pica w /\ w_requests w' = <[k := RqReplied (RqDestroy m) (ReplyNotFound m)]> (w_requests w)
     | Some h => w_requests w' = <[k := RqReplied (RqDestroy m) (ReplyOk h)]> (w_requests w)
         /\ p_anchors (w_pica w') = delete m (p_anchors (w_pica w)) /\ p_devices (w_pica w') = p_devices (w_pica w)
     end.
Proof.
  intros P dp co w w' k m Lk S. unfold web_step in S. destruct (w_end w); [discriminate|]. rewrite Lk in S. cbn [command_of] in S.
  unfold process in S. cbn [step] in S. unfold destroy_anchor in S. destruct (p_anchors (w_pica w) !! m) as [h|]; cbn in S; injection S as <-; by split_and!.
Qed.
(** The response and its effect on the scene, with a subscriber to the events: 200, or 409 or 404 and then nothing
    changes. *)
Theorem C50_response_partial : forall (P : Type) (default_position : P) compute w w' k r answer,
  w_requests w !! k = Some (RqReplied r answer) -> web_step default_position compute (WFinish k) w = Some w' ->
  w_poisoned w = false -> 0 < w_subscribers w ->
  w_pica w' = w_pica w /\ w_poisoned w' = false
  /\ match answer with
     | ReplyOk h => w_responses w' = w_responses w ++ [(k, 200)]
         /\ match r with
            | RqCreate m position => w_devices w' = <[h := DeviceInformation CategoryAnchor m position]> (w_devices w)
                /\ w_events w' = w_events w ++ [DeviceAdded CategoryAnchor m position]
            | RqDestroy m => w_devices w' = delete h (w_devices w) /\ w_events w' = w_events w ++ [DeviceRemoved CategoryAnchor m]
            end
     | ReplyAlreadyExists _ => w_responses w' = w_responses w ++ [(k, 409)] /\ w_devices w' = w_devices w /\ w_events w' = w_events w
     | ReplyNotFound _ => w_responses w' = w_responses w ++ [(k, 404)] /\ w_devices w' = w_devices w /\ w_events w' = w_events w
     end.
Proof.
  intros P dp co w w' k r answer Lk S Ep Hs. unfold web_step in S. destruct (w_end w); [discriminate|]. rewrite Lk in S. injection S as <-.
  unfold finish_request. destruct answer; cbn [w_poisoned w_set_requests]; rewrite ?Ep; try by split_and!.
  destruct r; rewrite broadcast_some by done; by split_and!.
Qed.
(** At most one response to a request; none while it is in progress. *)
Theorem C50_once : forall (P : Type) (default_position : P) compute ls w, served default_position compute ls w ->
  NoDup (w_responses w).*1 /\ forall k status, (k, status) ∈ w_responses w -> w_requests w !! k = None.
Proof.
  intros P dp co ls w Sv. destruct (served_rinv _ _ _ _ Sv) as [_ _ I3 I4]. split; [done|]. intros k s Hk. by destruct (I4 _ _ Hk).
Qed.
(** A decision is answered when it is a refusal, or when the lock is not poisoned and there is a subscriber; otherwise the request
    ends without a response. *)
Theorem C50_response : forall (P : Type) (default_position : P) compute w w' k r answer,
  w_requests w !! k = Some (RqReplied r answer) -> web_step default_position compute (WFinish k) w = Some w' ->
  w_requests w' !! k = None
  /\ ((forall h, answer <> ReplyOk h) \/ w_poisoned w = false /\ 0 < w_subscribers w -> exists status, w_responses w' = w_responses w ++ [(k, status)])
  /\ (forall h, answer = ReplyOk h -> w_poisoned w = true \/ w_subscribers w = 0 -> w_responses w' = w_responses w).
Proof.
  intros P dp co w w' k r answer Lk S. unfold web_step in S. destruct (w_end w); [discriminate|]. rewrite Lk in S. injection S as <-.
  unfold finish_request. destruct answer as [h|m|m]; cbn.
  - destruct (w_poisoned w) eqn:Ep; cbn; [|destruct r; cbn; unfold broadcast; cbn; destruct (w_subscribers w =? 0) eqn:Es; cbn].
    all: split_and!; [by rewrite lookup_delete| |]; try by eexists.
    all: first [intros [Hn|[Hp Hs]]; [by destruct (Hn h)|]|intros ? _ [Hp|Hs]]; try discriminate.
    all: try (apply N.eqb_eq in Es; lia); try (apply N.eqb_neq in Es; lia); done.
  - split_and!; [by rewrite lookup_delete|by eexists|done].
  - split_and!; [by rewrite lookup_delete|by eexists|done].
Qed.
(** A request in progress whose client is waiting can always be completed. *)
Theorem C50_answered_partial : forall (P : Type) (default_position : P) compute w k r, w_requests w !! k = Some (RqQueued r false) ->
  w_end w = None -> w_poisoned w = false -> 0 < w_subscribers w ->
  exists w' status, web_run default_position compute [WProcess k; WFinish k] w = Some w' /\ w_responses w' = w_responses w ++ [(k, status)].
Proof.
  intros P dp co w k r Lk En Ep Hs. cbn [web_run].
  assert (exists w1 answer, web_step dp co (WProcess k) w = Some w1 /\ w_requests w1 !! k = Some (RqReplied r answer) /\ w_end w1 = None /\ w_poisoned w1 = false
     /\ w_subscribers w1 = w_subscribers w /\ w_responses w1 = w_responses w) as (w1 & answer & S1 & L1 & E1 & P1 & U1 & R1).
  { unfold web_step. rewrite En, Lk. unfold process. destruct r as [m pos|m]; cbn [command_of].
    - match goal with |- context [step ?e _ _] => set (e0 := e) end. destruct (create_cases (w_pica w) m) as [[_ E]|[_ E]]; rewrite E; cbn; eexists _, _; (split; [done|]); cbn; (split; [by rewrite lookup_insert|]); done.
    - cbn [step]. unfold destroy_anchor. destruct (p_anchors (w_pica w) !! m); cbn; eexists _, _; (split; [done|]); cbn; (split; [by rewrite lookup_insert|]); done. }
  rewrite S1. cbn [mbind option_bind].
  assert (exists w2, web_step dp co (WFinish k) w1 = Some w2) as [w2 S2] by (unfold web_step; rewrite E1, L1; by eexists).
  rewrite S2. cbn [mbind option_bind]. exists w2. rewrite <- U1 in Hs.
  destruct (C50_response_partial _ _ _ _ _ _ _ _ L1 S2 P1 Hs) as (_ & _ & A). rewrite R1 in A. destruct answer; [exists 200|exists 409|exists 404]; (split; [done|]); by destruct A.
Qed.
(** The full statement is false: without a subscriber the anchor is created, its request is over and there is no response. *)
Theorem C50_refuted : exists w, served 0 line [WAnchor (RqCreate (MShort [9; 9]) 5); WProcess 0; WFinish 0] w
  /\ p_anchors (w_pica w) !! MShort [9; 9] = Some 0 /\ w_requests w !! 0 = None /\ w_responses w = [].
Proof. exists (web_after [WAnchor (RqCreate (MShort [9; 9]) 5); WProcess 0; WFinish 0]). split_and!; try by vm_compute. apply served_after; [repeat constructor|by vm_compute]. Qed.
Example C50_example :
  http_request (0 : N) (str "/create-anchor/00:09") (BodyPosition 5) = RoCreateAnchor (MShort [0; 9]) 5
  /\ http_request (0 : N) (str "/create-anchor/00:0") BodyEof = RoNotAcceptable
  /\ http_request (0 : N) (str "/create-anchor") BodyEof = RoNotFound
  /\ names (str "/create-anchor/00:09") (str "create-anchor") (str "00:09")
  /\ w_responses (web_after (visit ++ [WAnchor (RqCreate (MShort [9; 9]) 6); WProcess 1; WFinish 1; WAnchor (RqDestroy (MShort [9; 9])); WProcess 2; WFinish 2;
                                       WAnchor (RqDestroy (MShort [0; 1])); WProcess 3; WFinish 3])) = [(0, 200); (1, 409); (2, 200); (3, 404)].
Proof. split_and!; try by vm_compute. exists 1%nat. split; [by vm_compute|]. vm_compute. intros H. repeat (apply elem_of_cons in H as [H|H]; [discriminate|]). by apply elem_of_nil in H. Qed.

(** ** C51. *)
Lemma filter_perm {A} (f : A -> bool) l l' : l ≡ₚ l' -> List.filter f l ≡ₚ List.filter f l'.
Proof.
  induction 1 as [|x l l' _ IH|x y l|l l' l'' _ IH1 _ IH2]; cbn.
  - done.
  - destruct (f x); [by constructor|done].
  - destruct (f x), (f y); try done. constructor.
  - by etransitivity.
Qed.
(** With a subscriber, and if the computed distance is symmetric (C53): one device of this address has moved, nothing
    else has changed, the answer is 200, and the device and each neighbour, in both directions, are announced. *)
Theorem C51_known_partial : forall (P : Type) (default_position : P) compute w w' order m position,
  (forall p q, (compute p q).1.1 = (compute q p).1.1) ->
  web_step default_position compute (WSetPosition order m position) w = Some w' -> w_poisoned w = false -> 0 < w_subscribers w ->
  (exists h c, in_scene w h c m) ->
  exists h c old others, w_devices w !! h = Some (DeviceInformation c m old)
  /\ w_devices w' = <[h := DeviceInformation c m position]> (w_devices w)
  /\ w_responses w' = w_responses w ++ [(w_next w, 200)]
  /\ others ≡ₚ List.filter (fun o => negb (bool_decide (di_mac o = m))) (map_to_list (w_devices w)).*2
  /\ w_events w' = w_events w ++ DeviceUpdated c m position :: concat (map (fun o =>
       let '(distance, azimuth, elevation) := compute position (di_position o) in
       let '(distance', azimuth', elevation') := compute (di_position o) position in
       [NeighborUpdated c m (di_category o) (di_mac o) distance azimuth elevation;
        NeighborUpdated (di_category o) (di_mac o) c m distance' azimuth' elevation']) others)
  /\ w_pica w' = w_pica w /\ w_poisoned w' = false /\ w_requests w' = w_requests w /\ w_feed w' = w_feed w.
Proof.
  intros P dp co w w' order m position Sym S Ep Hs K. destruct (set_position_run _ _ Sym _ _ _ _ _ S Ep Hs K) as (h & i & L & Hm & ->).
  exists h, (di_category i), (di_position i), (List.filter (fun o => negb (bool_decide (di_mac o = m))) (omap (fun h => w_devices w !! h) order)).
  split; [rewrite L; destruct i; cbn in *; by subst|]. split_and!; try done. cbn.
  unfold web_step in S. destruct (w_end w); [discriminate|]. destruct (bool_decide_reflect (order ≡ₚ (map_to_list (w_devices w)).*1)) as [Pm|]; [|discriminate].
  by apply filter_perm, omap_keys.
Qed.
(** Unknown address: 404 and no change. *)
Theorem C51_unknown : forall (P : Type) (default_position : P) compute w w' order m position,
  web_step default_position compute (WSetPosition order m position) w = Some w' -> w_poisoned w = false -> ~ (exists h c, in_scene w h c m) ->
  w_devices w' = w_devices w /\ w_responses w' = w_responses w ++ [(w_next w, 404)] /\ w_events w' = w_events w
  /\ w_pica w' = w_pica w /\ w_poisoned w' = false /\ w_requests w' = w_requests w /\ w_feed w' = w_feed w.
Proof. intros P dp co w w' order m position S Ep No. by rewrite (set_position_unknown _ _ _ _ _ _ _ S Ep No). Qed.
(** An anchor and a device may have the same address, when the address was given to the anchor before the device
    connected: which of the two moves depends on the order of the map. *)
Definition twins : list (web_label N) := [WSubscribe; WAnchor (RqCreate (MShort [0; 1]) 5); WProcess 0; WFinish 0; connect; WEvent].
Theorem C51_ambiguous_refuted : exists w w1 w2 order1 order2, served 0 line twins w
  /\ in_scene w 0 CategoryAnchor (MShort [0; 1]) /\ in_scene w 1 CategoryUci (MShort [0; 1])
  /\ web_step 0 line (WSetPosition order1 (MShort [0; 1]) 7) w = Some w1 /\ web_step 0 line (WSetPosition order2 (MShort [0; 1]) 7) w = Some w2
  /\ di_position <$> w_devices w1 !! 0 = Some 7 /\ di_position <$> w_devices w2 !! 0 = Some 5.
Proof.
  exists (web_after twins), (web_after (twins ++ [WSetPosition [0; 1] (MShort [0; 1]) 7])), (web_after (twins ++ [WSetPosition [1; 0] (MShort [0; 1]) 7])), [0; 1], [1; 0].
  split_and!; try by vm_compute.
  - apply served_after; [repeat constructor|by vm_compute].
  - eexists. split_and!; [vm_compute; reflexivity|done|done].
  - eexists. split_and!; [vm_compute; reflexivity|done|done].
Qed.
Example C51_example : (forall p q, (line p q).1.1 = (line q p).1.1) /\ 0 < w_subscribers (web_after visit) /\ w_poisoned (web_after visit) = false
  /\ in_scene (web_after visit) 1 CategoryUci (MShort [0; 1])
  /\ drop 3 (w_events (web_after move)) = [DeviceUpdated CategoryUci (MShort [0; 1]) 7;
       NeighborUpdated CategoryUci (MShort [0; 1]) CategoryUci (MShort [0; 0]) 7 0 0; NeighborUpdated CategoryUci (MShort [0; 0]) CategoryUci (MShort [0; 1]) 7 0 0;
       NeighborUpdated CategoryUci (MShort [0; 1]) CategoryAnchor (MShort [9; 9]) 2 0 0; NeighborUpdated CategoryAnchor (MShort [9; 9]) CategoryUci (MShort [0; 1]) 2 0 0].
Proof.
  split_and!; try by vm_compute.
  - intros p q. unfold line. cbn. destruct (p <=? q) eqn:E, (q <=? p) eqn:E'; lia.
  - eexists. split_and!; [vm_compute; reflexivity|done|done].
Qed.

(** ** C52. *)
(** With a subscriber at every action, if the events of the environment are read in time and the distance is symmetric,
    no handler panics; the process ends only if the environment panics. *)
Theorem C52_listened_partial : forall (P : Type) (default_position : P) compute ls w,
  (forall p q, (compute p q).1.1 = (compute q p).1.1) -> served default_position compute ls w ->
  throughout default_position compute listened ls web_new -> throughout default_position compute read_in_time ls web_new ->
  w_poisoned w = false /\ (w_end w = None \/ exists s, w_end w = Some (EndPica s)).
Proof. intros P dp co ls w Sym. by apply alive. Qed.
(** Without a subscriber, the next connection or disconnection ends the process. *)
Theorem C52_fatal : forall (P : Type) (default_position : P) compute w, w_end w = None -> w_feed w <> [] -> w_subscribers w = 0 ->
  exists w' e, web_step default_position compute WEvent w = Some w' /\ w_end w' = Some e.
Proof.
  intros P dp co w En Ef Hs. unfold web_step. rewrite En. unfold handle_connection_event. destruct (w_feed w) as [|ev feed]; [done|].
  destruct (16 <? _); [by eexists _, _|]. destruct (w_poisoned w); [by eexists _, _|].
  destruct ev; cbn zeta; unfold broadcast; cbn [w_subscribers w_set_devices w_set_feed]; rewrite Hs; cbn; by eexists _, _.
Qed.
(** After a successful anchor request without a subscriber, the lock is poisoned: no response to it nor to any position
    request, and the next connection ends the process. *)
Definition unheard : list (web_label N) := [WAnchor (RqCreate (MShort [9; 9]) 5); WProcess 0; WFinish 0; WSubscribe; WSetPosition [0] (MShort [9; 9]) 7; connect; WEvent].
Theorem C52_refuted : exists w, served 0 line unheard w /\ w_responses w = [] /\ w_end w = Some EndPoisoned.
Proof. exists (web_after unheard). split_and!; try by vm_compute. apply served_after; [repeat constructor|by vm_compute]. Qed.
(** The first connection, before a browser is opened. *)
Theorem C52_first_connection_refuted : exists w, served 0 line [connect; WEvent] w /\ w_end w = Some EndNoSubscriber.
Proof. exists (web_after [connect; WEvent]). split_and!; try by vm_compute. apply served_after; [repeat constructor|by vm_compute]. Qed.
(** Seventeen connections before the task of the web server runs, with a subscriber. *)
Theorem C52_burst_refuted : exists w, served 0 line (WSubscribe :: replicate 17 connect ++ [WEvent]) w /\ w_end w = Some EndLagged.
Proof. exists (web_after (WSubscribe :: replicate 17 connect ++ [WEvent])). split_and!; try by vm_compute. apply served_after; [repeat constructor|by vm_compute]. Qed.
Ltac throughout_demo tac :=
  repeat match goal with
  | |- _ /\ _ => split; [tac|]
  | |- match ?x with _ => _ end => let v := eval vm_compute in x in change x with v; cbv iota beta
  end; try exact I.
Example C52_example : throughout 0 line listened move web_new /\ throughout 0 line read_in_time move web_new /\ length (w_responses (web_after move)) = 2%nat.
Proof.
  split_and!; [| |by vm_compute]; unfold move, visit; cbn [app throughout].
  - throughout_demo ltac:(first [by right | left; by vm_compute]).
  - throughout_demo ltac:(unfold read_in_time; vm_compute; lia).
Qed.

(** ** C56. *)
Theorem C56_estimate_partial : forall (P : Type) compute (w : web P) left right measurement, w_poisoned w = false ->
  estimate compute w left right = Some measurement <->
  exists l r, w_devices w !! left = Some l /\ w_devices w !! right = Some r
    /\ compute (di_position l) (di_position r) = (rm_range measurement, rm_azimuth measurement, rm_elevation measurement).
Proof.
  intros P co w left right [a b c] Ep. unfold estimate. rewrite Ep. split.
  - destruct (w_devices w !! left) as [l|]; [|done]. destruct (w_devices w !! right) as [r|]; [|done]. cbn [mbind option_bind].
    destruct (co _ _) as [[x y] z] eqn:E. intros H. injection H as <- <- <-. by exists l, r.
  - intros (l & r & -> & -> & E). cbn [mbind option_bind] in *. rewrite E. done.
Qed.
(** With a poisoned lock, no measurement is made and no state is shown. *)
Theorem C56_poisoned_refuted : exists w l, served 0 line [WAnchor (RqCreate (MShort [9; 9]) 5); WProcess 0; WFinish 0] w
  /\ in_scene w l CategoryAnchor (MShort [9; 9]) /\ estimate line w l l = None /\ forall order, get_state order w = None.
Proof.
  exists (web_after [WAnchor (RqCreate (MShort [9; 9]) 5); WProcess 0; WFinish 0]), 0. split_and!; [|eexists; split_and!; [vm_compute; reflexivity|done|done]|by vm_compute|by intros order; vm_compute].
  apply served_after; [repeat constructor|by vm_compute].
Qed.
Example C56_example : w_poisoned (web_after move) = false /\ estimate line (web_after move) 1 2 = Some (RangingMeasurement 2 0 0) /\ estimate line (web_after move) 1 3 = None.
Proof. by vm_compute. Qed.

Print Assumptions C49_scene_partial.
Print Assumptions C49_position.
Print Assumptions C49_refuted.
Print Assumptions C50_create_route.
Print Assumptions C50_routes.
Print Assumptions C50_create.
Print Assumptions C50_destroy.
Print Assumptions C50_response_partial.
Print Assumptions C50_response.
Print Assumptions C50_refuted.
Print Assumptions C50_once.
Print Assumptions C50_answered_partial.
Print Assumptions C51_known_partial.
Print Assumptions C51_unknown.
Print Assumptions C51_ambiguous_refuted.
Print Assumptions C52_listened_partial.
Print Assumptions C52_fatal.
Print Assumptions C52_refuted.
Print Assumptions C52_burst_refuted.
Print Assumptions C56_estimate_partial.
Print Assumptions C56_poisoned_refuted.
