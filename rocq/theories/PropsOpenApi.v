(** The requests of the web server against their documentation, static/openapi.yaml (C88). *)
From Coq Require Import Strings.String.
From Verif Require Import Base Uci MacAddress AppConfig Codec Session Device Pica CodecSpec ContextSpec HistorySpec InvFacts MacFacts Http HttpSpec HttpFacts HttpFacts2 Json JsonSpec OpenApi OpenApiSpec OpenApiFacts PropsHttp.

Lemma path_names o mac : 47 ∉ mac -> match o with
  | InitUciDevice => names (path_of o mac) (str "init-uci-device") mac
  | SetPosition => names (path_of o mac) (str "set-position") mac
  | OpenApiSpec.CreateAnchor => names (path_of o mac) (str "create-anchor") mac
  | OpenApiSpec.DestroyAnchor => names (path_of o mac) (str "destroy-anchor") mac
  | _ => True
  end.
Proof. intros H. destruct o; try done; exists 1%nat; (split; [reflexivity|done]). Qed.

(** ** C88. The statuses of the responses are those of the documentation, but a request with a malformed address or body is
    answered 406 whatever the operation, and to initialise a device that is not connected is answered 404. *)
Theorem C88_statuses_partial : forall (P : Type) (default_position : P) compute position_new ls w q o mac status,
  handled default_position compute position_new ls w -> asks q o mac -> answered ls w q status ->
  status ∈ documented_statuses o
  \/ (o ∈ [InitUciDevice; SetPosition; OpenApiSpec.DestroyAnchor] /\ status = 406
      /\ (mac_of_string mac = None \/ o <> OpenApiSpec.DestroyAnchor /\ body_of position_new (q_body q) = BodyInvalid))
  \/ (o = InitUciDevice /\ status = 404).
Proof.
  intros P dp co pn ls w q o mac status H (_ & Ep & Hm) A. apply (answered_possible _ _ _ _ _ _ _ H) in A. unfold possible in A. rewrite Ep in A.
  pose proof (path_names o mac Hm) as N. unfold documented_statuses. destruct o.
  - rewrite (http_two dp _ _ (str "init-uci-device") mac) in A by (done || (unfold commands; set_solver)). rewrite bool_decide_true in A by done. unfold with_position in A.
    destruct (mac_of_string mac) as [m|]; [|right; left; split; [set_solver|by auto]]. destruct (body_of pn (q_body q)) eqn:B; cbn [position_of] in A.
    + destruct A as [->| ->]; [left; set_solver|by auto].
    + destruct A as [->| ->]; [left; set_solver|by auto].
    + right. left. split; [set_solver|]. split; [done|]. right. by split.
  - rewrite (http_two dp _ _ (str "set-position") mac) in A by (done || (unfold commands; set_solver)). rewrite bool_decide_false, bool_decide_true in A by done. unfold with_position in A.
    destruct (mac_of_string mac) as [m|]; [|right; left; split; [set_solver|by auto]]. destruct (body_of pn (q_body q)) eqn:B; cbn [position_of] in A.
    + left. destruct A as [->| ->]; set_solver.
    + left. destruct A as [->| ->]; set_solver.
    + right. left. split; [set_solver|]. split; [done|]. right. by split.
  - left. rewrite (http_two dp _ _ (str "create-anchor") mac) in A by (done || (unfold commands; set_solver)). rewrite !bool_decide_false, bool_decide_true in A by done. unfold with_position in A.
    destruct (mac_of_string mac) as [m|]; [|subst; set_solver]. destruct (position_of _ _); [destruct A as [->| ->]; set_solver|subst; set_solver].
  - rewrite (http_two dp _ _ (str "destroy-anchor") mac) in A by (done || (unfold commands; set_solver)). rewrite !bool_decide_false in A by done.
    destruct (mac_of_string mac) as [m|]; [left; destruct A as [->| ->]; set_solver|right; left; split; [set_solver|by auto]].
  - left. subst. set_solver.
  - left. subst. set_solver.
Qed.
Print Assumptions C88_statuses_partial.
(** The operations whose statuses are completely documented. *)
Theorem C88_documented : forall (P : Type) (default_position : P) compute position_new ls w q o mac status,
  handled default_position compute position_new ls w -> asks q o mac -> o ∈ [OpenApiSpec.CreateAnchor; GetState; Events] -> answered ls w q status ->
  status ∈ documented_statuses o.
Proof.
  intros P dp co pn ls w q o mac status H A O R. destruct (C88_statuses_partial _ _ _ _ _ _ _ _ _ _ H A R) as [X|[(X & _)|[-> _]]]; [done| |set_solver].
  repeat (apply elem_of_cons in O as [->|O]; [set_solver|]). by apply elem_of_nil in O.
Qed.
Print Assumptions C88_documented.
Lemma static_files path : path ∈ static_paths <-> path ∈ page_files.
Proof. unfold static_paths, page_files. set_solver. Qed.
(** The server has the files which the page loads, and no others; a file is found whatever the body of the request. *)
Theorem C88_files : forall (P : Type) (default_position : P) path b, http_request default_position path b = RoStatic <-> path ∈ page_files.
Proof.
  intros P dp path b. rewrite <- static_files. unfold http_request. destruct (existsb _ static_paths) eqn:Es.
  - apply existsb_exists in Es as (x & Ix & Ex). apply bool_decide_eq_true in Ex as ->. apply elem_of_list_In in Ix. done.
  - split; [|intros H; exfalso; assert (existsb (fun p => bool_decide (p = path)) static_paths = true) as X; [|by rewrite X in Es]].
    + unfold with_position. repeat (case_match; try done).
    + apply existsb_exists. exists path. split; [by apply elem_of_list_In|by apply bool_decide_eq_true].
Qed.
Print Assumptions C88_files.
(** A path that is neither documented nor that of a file of the page is answered 404. *)
Theorem C88_unknown : forall (P : Type) (default_position : P) compute position_new ls w q status,
  handled default_position compute position_new ls w -> answered ls w q status ->
  (forall command mac, command ∈ [str "init-uci-device"; str "set-position"; str "create-anchor"; str "destroy-anchor"] -> ~ names (q_path q) command mac) ->
  (forall n, q_path q <> replicate n 47 ++ str "events") -> (forall n, q_path q <> replicate n 47 ++ str "get-state") -> q_path q ∉ page_files -> status = 404.
Proof.
  intros P dp co pn ls w q status H A N1 N2 N3 N4. apply (answered_possible _ _ _ _ _ _ _ H) in A. unfold possible in A.
  pose proof (C50_routes P dp (q_path q) (body_of pn (q_body q))) as R.
  assert (forall s, exists n, s = replicate n 47 ++ trim_slashes s) as T.
  { intros s. induction s as [|c s [n IH]]; [by exists 0%nat|]. cbn [trim_slashes]. destruct (N.eqb_spec c CH_SLASH) as [->|Ne]; [exists (S n); cbn; by rewrite <- IH|by exists 0%nat]. }
  assert (forall s piece, split_slash s = [piece] -> s = piece) as Sp.
  { intros s. induction s as [|c s IH]; intros piece E; cbn in E; [by injection E as <-|]. destruct (c =? CH_SLASH); [destruct (split_slash s) eqn:Es; [|discriminate]; destruct s; cbn in Es; [discriminate|destruct (_ =? _); [discriminate|by destruct (split_slash s)]]|].
    destruct (split_slash s) as [|p l] eqn:Es; [destruct s; cbn in Es; [discriminate|destruct (_ =? _); [discriminate|by destruct (split_slash s)]]|]. injection E as <- ->. f_equal. by apply IH. }
  assert (forall piece, split_slash (trim_slashes (q_path q)) = [piece] -> exists n, q_path q = replicate n 47 ++ piece) as One.
  { intros piece E. destruct (T (q_path q)) as [n En]. exists n. apply Sp in E. by rewrite <- E. }
  revert A R. unfold http_request. destruct (existsb _ static_paths) eqn:Es.
  { apply existsb_exists in Es as (x & Ix & Ex). apply bool_decide_eq_true in Ex as ->. apply elem_of_list_In, static_files in Ix. done. }
  destruct (split_slash (trim_slashes (q_path q))) as [|command [|mac [|x l]]] eqn:Ep; [done| | |done].
  - destruct (One command eq_refl) as [n En]. case_bool_decide as C1; [subst command; by destruct (N2 n)|]. case_bool_decide as C2; [subst command; by destruct (N3 n)|]. done.
  - match goal with |- match ?r with _ => _ end -> _ => destruct r eqn:Er end; try done;
      try (exfalso; unfold with_position in Er; repeat case_bool_decide; destruct (mac_of_string mac); try discriminate Er; destruct (position_of _ _); discriminate Er).
    + intros _ (mac' & [X|X] & _); (exfalso; eapply N1; [|exact X]; set_solver).
    + intros _ (mac' & X & _); (exfalso; eapply N1; [|exact X]; set_solver).
    + intros _ (mac' & X & _); (exfalso; eapply N1; [|exact X]; set_solver).
    + intros _ (command' & mac' & Ic & X & _); by destruct (N1 _ mac' Ic X).
Qed.
Print Assumptions C88_unknown.

(** A refused request changes nothing. *)
Theorem C88_refused : forall (P : Type) (default_position : P) compute position_new q order w w' status,
  arrive default_position compute position_new q order w = Some w' -> w_responses w' = w_responses w ++ [(w_next w, status)] -> status <> 200 ->
  w_devices w' = w_devices w /\ w_pica w' = w_pica w /\ w_events w' = w_events w /\ w_requests w' = w_requests w /\ w_poisoned w' = w_poisoned w.
Proof.
  intros P dp co pn q order w w' status S R Ns. unfold arrive in S. destruct (w_end w) eqn:Ew; [discriminate|].
  destruct (http_request _ _ _) as [| |m p|m p|m| | |].
  - injection S as <-. by repeat split.
  - injection S as <-. by repeat split.
  - unfold web_step in S. rewrite Ew in S. destruct (bool_decide _); [|discriminate]. injection S as <-. revert R. unfold set_position. set (w1 := w_set_next _ w).
    destruct (w_poisoned w1); [by repeat split|]. destruct (first_with _ _ _) as [[h d]|]; [|by repeat split].
    destruct (broadcast _ _) as [w2|] eqn:B; cbn [mbind option_bind].
    + apply broadcast_inv in B as [-> _]. destruct (neighbors _ _ _ _) as [w3|] eqn:E.
      * apply neighbors_fields in E as (evs & ->). cbn. intros R. apply app_inj_tail in R as [_ R]. by injection R as <-.
      * cbn. intros R. apply (f_equal length) in R. rewrite app_length in R. cbn in R. lia.
    + cbn. intros R. apply (f_equal length) in R. rewrite app_length in R. cbn in R. lia.
  - unfold web_step in S. rewrite Ew in S. injection S as <-. cbn in R. apply (f_equal length) in R. rewrite app_length in R. cbn in R. lia.
  - unfold web_step in S. rewrite Ew in S. injection S as <-. cbn in R. apply (f_equal length) in R. rewrite app_length in R. cbn in R. lia.
  - injection S as <-. by destruct (w_poisoned w) eqn:?; repeat split; cbn.
  - injection S as <-. by repeat split.
  - injection S as <-. by repeat split.
Qed.
Print Assumptions C88_refused.

(** A server for the examples, with positions on a line. *)
Definition at_x (x y z yaw pitch roll : Z) : N := Z.to_N x.
Definition server_after (ls : list (server_label N)) : web N := default web_new (server_run 0 line at_x ls web_new).
Lemma handled_after ls : Forall wf_server_label ls -> (if server_run 0 line at_x ls web_new then true else false) = true -> handled 0 line at_x ls (server_after ls).
Proof. intros F R. split; [done|]. unfold server_after. by destruct (server_run 0 line at_x ls web_new). Qed.
Definition events : http := HttpReq GET (str "/events") [].
Definition moves (mac : string) (body : bytes) : http := HttpReq POST (str "/set-position/" ++ str mac) body.
Definition inits (mac : string) : http := HttpReq POST (str "/init-uci-device/" ++ str mac) [].
(** A browser, and a device, which is put at 7. *)
Definition server_visit : list (server_label N) :=
  [SRequest events []; SOther connect; SOther WEvent; SRequest (moves "00:00" (stringify 7 0 0 0 0 0)) [0]].
(** The documentation knows neither 406 for these operations, nor 404 to initialise a device; it promises 403 if a device
    is initialised twice, and that the position is required to move a device. *)
Theorem C88_refuted :
  (exists ls w q mac, handled 0 line at_x ls w /\ asks q SetPosition mac /\ answered ls w q 406 /\ 406 ∉ documented_statuses SetPosition)
  /\ (exists ls w q mac, handled 0 line at_x ls w /\ asks q InitUciDevice mac /\ answered ls w q 404 /\ 404 ∉ documented_statuses InitUciDevice)
  /\ (exists ls w q mac, handled 0 line at_x ls w /\ asks q InitUciDevice mac /\ requests ls = [events; q; q]
        /\ w_responses w = [(0, 200); (1, 200); (2, 200)])
  /\ (exists w w' q mac, handled 0 line at_x server_visit w /\ di_position <$> w_devices w !! 0 = Some 7
        /\ asks q SetPosition mac /\ q_body q = [] /\ arrive 0 line at_x q [0] w = Some w'
        /\ w_responses w' = w_responses w ++ [(2, 200)] /\ di_position <$> w_devices w' !! 0 = Some 0).
Proof.
  assert (forall q o mac, q_method q = documented_method o -> q_path q = path_of o (str mac) -> (if decide (47 ∈ str mac) then false else true) = true -> asks q o (str mac)) as As.
  { intros q o mac A B C. split; [done|]. split; [done|]. by destruct (decide (47 ∈ str mac)). }
  split; [|split; [|split]].
  - exists [SRequest (moves "ZZ:ZZ" []) []], (server_after [SRequest (moves "ZZ:ZZ" []) []]), (moves "ZZ:ZZ" []), (str "ZZ:ZZ").
    split; [apply handled_after; [repeat constructor|vm_compute; reflexivity]|]. split; [apply As; vm_compute; reflexivity|]. split; [|set_solver].
    exists 0. split; [reflexivity|]. apply elem_of_list_In. vm_compute. auto.
  - exists [SRequest (inits "00:00") []], (server_after [SRequest (inits "00:00") []]), (inits "00:00"), (str "00:00").
    split; [apply handled_after; [repeat constructor|vm_compute; reflexivity]|]. split; [apply As; vm_compute; reflexivity|]. split; [|set_solver].
    exists 0. split; [reflexivity|]. apply elem_of_list_In. vm_compute. auto.
  - set (ls := [SRequest events []; SOther connect; SOther WEvent; SRequest (inits "00:00") [0]; SRequest (inits "00:00") [0]]).
    exists ls, (server_after ls), (inits "00:00"), (str "00:00").
    split; [apply handled_after; [repeat constructor|vm_compute; reflexivity]|]. split; [apply As; vm_compute; reflexivity|]. split; [reflexivity|vm_compute; reflexivity].
  - exists (server_after server_visit), (server_after (server_visit ++ [SRequest (moves "00:00" []) [0]])), (moves "00:00" []), (str "00:00").
    split; [apply handled_after; [repeat constructor|vm_compute; reflexivity]|]. split; [vm_compute; reflexivity|]. split; [apply As; vm_compute; reflexivity|].
    split; [reflexivity|]. split; [vm_compute; reflexivity|]. split; vm_compute; reflexivity.
Qed.
Print Assumptions C88_refuted.
(** The method is not looked at: the same request with any other method has the same effect, so that a GET destroys an
    anchor. *)
Theorem C88_method : forall (P : Type) (default_position : P) compute position_new m m' path body order w,
  arrive default_position compute position_new (HttpReq m path body) order w = arrive default_position compute position_new (HttpReq m' path body) order w.
Proof. reflexivity. Qed.
Print Assumptions C88_method.
Definition anchor_made : list (server_label N) :=
  [SRequest events []; SRequest (HttpReq POST (str "/create-anchor/09:09") []) []; SOther (WProcess 1); SOther (WFinish 1)].
Definition anchor_gone : list (server_label N) :=
  anchor_made ++ [SRequest (HttpReq GET (str "/destroy-anchor/09:09") []) []; SOther (WProcess 2); SOther (WFinish 2)].
Theorem C88_method_refuted : exists w w', handled 0 line at_x anchor_made w /\ p_anchors (w_pica w) !! MShort [9; 9] = Some 0
  /\ handled 0 line at_x anchor_gone w' /\ p_anchors (w_pica w') !! MShort [9; 9] = None
  /\ requests anchor_gone = requests anchor_made ++ [HttpReq GET (path_of OpenApiSpec.DestroyAnchor (str "09:09")) []]
  /\ documented_method OpenApiSpec.DestroyAnchor <> GET.
Proof.
  exists (server_after anchor_made), (server_after anchor_gone). split; [apply handled_after; [repeat constructor|vm_compute; reflexivity]|].
  split; [vm_compute; reflexivity|]. split; [apply handled_after; [repeat constructor|vm_compute; reflexivity]|]. split; [vm_compute; reflexivity|]. by split.
Qed.
Print Assumptions C88_method_refuted.
Example C88_example : handled 0 line at_x anchor_made (server_after anchor_made) /\ asks (HttpReq POST (str "/create-anchor/09:09") []) OpenApiSpec.CreateAnchor (str "09:09")
  /\ w_responses (server_after (anchor_made ++ [SRequest (HttpReq POST (str "/create-anchor/09:09") []) []; SOther (WProcess 2); SOther (WFinish 2);
       SRequest (HttpReq GET (str "/get-state") []) []; SRequest (HttpReq GET (str "/nothing") []) []]))
     = [(0, 200); (1, 200); (2, 409); (3, 200); (4, 404)].
Proof.
  split; [apply handled_after; [repeat constructor|vm_compute; reflexivity]|]. split; [|vm_compute; reflexivity].
  split; [done|]. split; [reflexivity|]. intros H. by repeat (apply elem_of_cons in H as [H|H]; [discriminate H|]); apply elem_of_nil in H.
Qed.
