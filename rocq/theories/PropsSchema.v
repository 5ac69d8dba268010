(** C97: the texts exchanged with the web server against their documentation, static/openapi.yaml. *)
From Coq Require Import Strings.String Reals.
From Verif Require Import Base Uci MacAddress MacSpec MacFacts AppConfig Codec Session Device Pica CodecSpec ContextSpec InvFacts PropsContext Http HttpSpec HttpFacts
  Json JsonSpec JsonFacts JsonUnique JsonWeb PropsHttp PropsJson JsonFaithful JsonCut SchemaSpec SchemaFacts.
From Verif Require SceneSpec Position PositionSpec PositionFacts PropsPosition.

(** No event which the server sends is as documented: its categories are not. *)
Theorem C97_event_refuted : forall (P : Type) (default_position : P) compute fields ls w got ev v, served default_position compute ls w -> ev ∈ w_events w ->
  tells fields got ev -> json_text v got.2 -> ~ valid false (Event ev) v.
Proof.
  intros P dp co fields ls w got ev v S I (_ & v' & J & Sv) Jv V. rewrite (json_unique _ _ _ Jv J) in V. clear v Jv J.
  assert (forall says name c props, is_object ((name, is_category c) :: says) v' -> ~ valid false (SObject ((name, Category) :: props)) v') as No.
  { intros says name c props (ms & -> & F) (ms' & E & _ & V' & _). injection E as <-. inversion F as [|[k u] ? ? ? [Ek Hu]]; subst. cbn in Ek, Hu. subst k.
    apply (category_wrong false c u Hu). apply V'. left. }
  destruct ev; cbn in Sv; unfold Event, of_event in V; (eapply No; [exact Sv|exact V]).
Qed.
Print Assumptions C97_event_refuted.
(** The state is never as documented: it is not a list. *)
Theorem C97_state_refuted : forall (P : Type) (default_position : P) compute fields ls w order l v, served default_position compute ls w -> get_state order w = Some l ->
  json_text v (state_text fields l) -> ~ valid false State v.
Proof.
  intros P dp co fields ls w order l v S G J (vs & -> & _). destruct (C78_state P dp co fields ls w order l S G) as (vs' & J' & _).
  discriminate (json_unique _ _ _ J J').
Qed.
Print Assumptions C97_state_refuted.

Lemma device_valid {P} (fields : P -> Z * Z * Z * Z * Z * Z) all c m p v : bounded_fields fields -> wf_mac m ->
  is_object ([("category", is_category c); ("mac_address", is_address m)]%string ++ place_members fields p) v -> valid all actual_device v.
Proof.
  intros B W O. eapply object_valid; [exact O|repeat (constructor; [set_solver|]); constructor|]. unfold place_members. specialize (B p). destruct (fields p) as [[[[[x y] z] yaw] pitch] roll].
  repeat (apply Forall2_cons_2; [split; [done|]; intros u Hu; first [by eapply category_valid|by (eapply address_valid; [|exact Hu])|eapply integer_valid; [exact Hu|cbn; lia..]]|]). constructor.
Qed.
(** Once the documentation is corrected in these points, every event and every state has all the properties it names, with values of
    the types and in the bounds it names. *)
Theorem C97_event_partial : forall (P : Type) (default_position : P) compute fields ls w got ev v, served default_position compute ls w -> ev ∈ w_events w ->
  bounded compute -> bounded_fields fields -> tells fields got ev -> json_text v got.2 -> valid true (actual_event ev) v.
Proof.
  intros P dp co fields ls w got ev v S I Bc Bf (_ & v' & J & Sv) Jv. rewrite (json_unique _ _ _ Jv J). clear v Jv J.
  pose proof (ei_events _ (served_einv dp co ls w S)) as F. rewrite Forall_forall in F. specialize (F ev I).
  pose proof (served_computed dp co ls w S) as C. rewrite Forall_forall in C. specialize (C ev I).
  destruct ev; cbn in F, C; cbn [says_event] in Sv; unfold actual_event, of_event.
  - by eapply device_valid.
  - eapply object_valid; [exact Sv|repeat (constructor; [set_solver|]); constructor|]. repeat (apply Forall2_cons_2; [split; [done|]; intros u Hu; first [by eapply category_valid|by (eapply address_valid; [|exact Hu])|eapply integer_valid; [exact Hu|cbn; lia..]]|]). constructor.
  - by eapply device_valid.
  - destruct C as (p & q & C). specialize (Bc p q). rewrite C in Bc. destruct F as [F1 F2].
    eapply object_valid; [exact Sv|repeat (constructor; [set_solver|]); constructor|].
    repeat (apply Forall2_cons_2; [split; [done|]; intros u Hu; first [by eapply category_valid|by (eapply address_valid; [|exact Hu])|eapply integer_valid; [exact Hu|cbn; lia..]]|]). constructor.
Qed.
Print Assumptions C97_event_partial.
Theorem C97_state_partial : forall (P : Type) (default_position : P) compute fields ls w order l v, served default_position compute ls w -> get_state order w = Some l ->
  bounded_fields fields -> json_text v (state_text fields l) -> valid true actual_state v.
Proof.
  intros P dp co fields ls w order l v S G B J. destruct (C78_state P dp co fields ls w order l S G) as (vs & J' & F).
  rewrite (json_unique _ _ _ J J'). eexists. split; [reflexivity|]. split; [intros _; eexists; by left|]. split; [|done].
  intros u Hu. apply elem_of_list_singleton in Hu as [= ->]. exists vs. split; [done|].
  assert (Forall (fun i => wf_mac (di_mac i)) l) as W.
  { unfold get_state in G. destruct (w_poisoned w); [discriminate|]. injection G as <-. apply Forall_forall. intros i Hi. apply elem_of_list_omap in Hi as (k & _ & Hk).
    by apply (ei_devices _ (served_einv dp co ls w S) k). }
  clear - F B W. induction F as [|u i vs l Hu F IH]; [constructor|]. inversion W; subst. constructor; [|by apply IH]. by eapply device_valid.
Qed.
Print Assumptions C97_state_partial.
(** The bounds hold of what position.rs computes and shows. *)
Theorem C97_bounds : forall fsin fcos fatan to_euler,
  PositionSpec.good_trig fsin -> PositionSpec.good_trig fcos -> PositionSpec.good_atan fatan -> PositionSpec.good_euler to_euler ->
  bounded (SceneSpec.measure_places fsin fcos fatan) /\ bounded_fields (fun p => Position.serialize to_euler (SceneSpec.position_at fsin fcos p)).
Proof.
  intros fsin fcos fatan to_euler Gs Gc Ga Ge. split.
  - intros p q. unfold SceneSpec.measure_places, SceneSpec.position_at.
    destruct (PropsPosition.C55_total fsin fcos fatan Gs Gc Ga (SceneSpec.position_at fsin fcos p) (SceneSpec.position_at fsin fcos q)) as (r & a & e & E & Ba & Be).
    + destruct p as [x y z yaw pitch roll (? & ? & ? & ? & ? & ?)]. exists x, y, z, yaw, pitch, roll. done.
    + destruct q as [x y z yaw pitch roll (? & ? & ? & ? & ? & ?)]. exists x, y, z, yaw, pitch, roll. done.
    + unfold SceneSpec.position_at in E. rewrite E. cbn. split; [|done]. apply PositionFacts.compute_some in E as [-> _].
      unfold Position.as_u16, Position.saturate. destruct (Position.fmin _ _) as [| [] | |]; lia.
  - intros p. destruct (PropsPosition.C70_angles to_euler (SceneSpec.position_at fsin fcos p) Ge) as (x & y & z & yaw & pitch & roll & -> & B1 & B2 & B3). done.
Qed.
Print Assumptions C97_bounds.

(** ** The bodies of requests. *)
Lemma integer_is z u z' : is_integer z u -> is_integer z' u -> z = z'.
Proof. intros (t & -> & V) (t' & E & V'). injection E as <-. by eapply integer_value_fun. Qed.
Lemma stringify_object x y z yaw pitch roll : exists v, json_text v (stringify x y z yaw pitch roll)
  /\ is_object [("x", is_integer x); ("y", is_integer y); ("z", is_integer z); ("yaw", is_integer yaw); ("pitch", is_integer pitch); ("roll", is_integer roll)]%string v.
Proof.
  destruct (object_value [("x", is_integer x); ("y", is_integer y); ("z", is_integer z); ("yaw", is_integer yaw); ("pitch", is_integer pitch); ("roll", is_integer roll)]%string
    [(str "x", integer x); (str "y", integer y); (str "z", integer z); (str "yaw", integer yaw); (str "pitch", integer pitch); (str "roll", integer roll)]) as (v & V & I); [done|..].
  { repeat (apply Forall2_cons_2; [split; [done|]; split; [by apply ascii_dec|]; by apply integer_json|]). constructor. }
  exists v. split; [|done]. exists [], (stringify x y z yaw pitch roll), []. split; [constructor|]. split; [exact V|]. split; [constructor|]. by rewrite app_nil_r.
Qed.
(** A body which is as documented, with all six properties once, and whose coordinates have 16 bits, is accepted, and means what it
    says. ([-0] is not taken for an integer, and a name must not have a lone surrogate.) *)
Theorem C97_body_partial : forall (P : Type) (default_position : P) position_new path mac result m ms t,
  placing P path mac result -> mac_of_string mac = Some m -> json_text (JObject ms) t ->
  valid true SchemaSpec.Position (JObject ms) ->
  valid true (SObject [("x", range (-32768) 32767); ("y", range (-32768) 32767); ("z", range (-32768) 32767)]%string) (JObject ms) ->
  NoDup ms.*1 -> (forall k u, (k, u) ∈ ms -> unicode k /\ u <> JNumber (str "-0")) ->
  exists x y z yaw pitch roll, http_request default_position path (body_of position_new t) = result m (position_new x y z yaw pitch roll)
  /\ forall name n, (name, n) ∈ [("x", x); ("y", y); ("z", z); ("yaw", yaw); ("pitch", pitch); ("roll", roll)]%string -> exists u, (str name, u) ∈ ms /\ is_integer n u.
Proof.
  intros P dp pn path mac result m ms t Hp Hm J V1 V2 ND U.
  destruct (proj1 (valid_object _ _ _) V1) as (ms1 & E1 & W1). injection E1 as <-. destruct (proj1 (valid_object _ _ _) V2) as (ms1 & E1 & W2). injection E1 as <-. clear V1 V2.
  assert (forall props name lo hi, each true ms props -> (name, range lo hi) ∈ props ->
    exists n u, (str name, u) ∈ ms /\ is_integer n u /\ (lo <= n <= hi)%Z /\ forall lo' hi', (lo' <= lo)%Z -> (hi <= hi')%Z -> one_member ms name (integer_in lo' hi' n)) as One.
  { intros props name lo hi V I. apply each_iff in V. rewrite Forall_forall in V. apply V in I as [X I]. cbn [fst snd] in X, I. destruct (X eq_refl) as [u Hu]. destruct (I u Hu) as (n & In_ & L & H). cbn in L, H. clear X I. exists n, u. split; [done|]. split; [done|]. split; [done|]. intros lo' hi' L' H'. exists u. split.
    - clear - ND Hu. induction ms as [|[k w] ms IH]; [by apply elem_of_nil in Hu|]. cbn [fmap list_fmap fst] in ND. apply NoDup_cons in ND as [Nk ND]. rewrite filter_cons. cbn [fst].
      apply elem_of_cons in Hu as [[= <- <-]|Hu].
      + rewrite decide_True by done. f_equal. destruct (filter _ ms) as [|[k' w'] l] eqn:F; [done|]. assert ((k', w') ∈ filter (fun m => m.1 = str name) ms) as I by (rewrite F; left).
        apply elem_of_list_filter in I as [Ek I]. cbn in Ek. subst k'. destruct Nk. apply elem_of_list_fmap. by exists (str name, w').
      + rewrite decide_False; [by apply IH|]. intros ->. destruct Nk. apply elem_of_list_fmap. by exists (str name, u).
    - destruct In_ as (tx & -> & Vx). exists tx. split_and!; try done; try lia. intros ->. by destruct (U _ _ Hu) as [_ []]. }
  destruct (One [("x", range (-32768) 32767); ("y", range (-32768) 32767); ("z", range (-32768) 32767)]%string "x"%string (-32768)%Z 32767%Z W2 ltac:(set_solver)) as (x & ux & Ix & Nx & _ & Ox), (One [("x", range (-32768) 32767); ("y", range (-32768) 32767); ("z", range (-32768) 32767)]%string "y"%string (-32768)%Z 32767%Z W2 ltac:(set_solver)) as (y & uy & Iy & Ny & _ & Oy), (One [("x", range (-32768) 32767); ("y", range (-32768) 32767); ("z", range (-32768) 32767)]%string "z"%string (-32768)%Z 32767%Z W2 ltac:(set_solver)) as (z & uz & Iz & Nz & _ & Oz),
    (One position_properties "yaw"%string (-180)%Z 180%Z W1 ltac:(set_solver)) as (yaw & u4 & I4 & N4 & _ & O4), (One position_properties "pitch"%string (-90)%Z 90%Z W1 ltac:(set_solver)) as (pitch & u5 & I5 & N5 & _ & O5), (One position_properties "roll"%string (-180)%Z 180%Z W1 ltac:(set_solver)) as (roll & u6 & I6 & N6 & _ & O6).
  exists x, y, z, yaw, pitch, roll. split.
  - apply (C79_json P dp pn path mac result m _ t Hp Hm J). left. exists ms. split; [done|]. split; [intros k u Hk; by apply (U k u)|].
    split_and!; [apply Ox|apply Oy|apply Oz|apply O4|apply O5|apply O6]; lia.
  - intros name n I. repeat (apply elem_of_cons in I as [[= -> ->]|I]; [by eauto|]). by apply elem_of_nil in I.
Qed.
Print Assumptions C97_body_partial.
(** Bodies which are as documented and are refused: a coordinate which is too large; properties which are not there (none is marked as
    required). A body which is not as documented and is accepted: an angle out of bounds. A body which is documented as required, but
    need not be there. *)
Theorem C97_body_refuted :
  (exists v t, json_text v t /\ valid true SchemaSpec.Position v /\ http_request (six 0 0 0 0 0 0) (str "/set-position/00:01") (body_of six t) = RoNotAcceptable)
  /\ (exists v t, json_text v t /\ valid false SchemaSpec.Position v /\ http_request (six 0 0 0 0 0 0) (str "/set-position/00:01") (body_of six t) = RoNotAcceptable)
  /\ (exists v t, json_text v t /\ ~ valid false SchemaSpec.Position v
       /\ http_request (six 0 0 0 0 0 0) (str "/set-position/00:01") (body_of six t) = RoSetPosition (MShort [0; 1]) (six 1 2 3 200 0 0))
  /\ http_request (six 0 0 0 0 0 0) (str "/set-position/00:01") (body_of six []) = RoSetPosition (MShort [0; 1]) (six 0 0 0 0 0 0).
Proof.
  split; [|split; [|split]].
  - destruct (stringify_object 40000 0 0 0 0 0) as (v & J & O). exists v, (stringify 40000 0 0 0 0 0). split; [done|]. split; [|by vm_compute].
    eapply object_valid; [exact O|repeat (constructor; [set_solver|]); constructor|]. repeat (apply Forall2_cons_2; [split; [done|]; intros u Hu; first [by eapply category_valid|by (eapply address_valid; [|exact Hu])|eapply integer_valid; [exact Hu|cbn; lia..]]|]). constructor.
  - exists (JObject []), (str "{}"). split; [|split; [|by vm_compute]].
    + exists [], (str "{}"), []. split; [constructor|]. split; [apply (value_object_empty []); constructor|]. split; [constructor|done].
    + exists []. split; [done|]. cbn. repeat split; try done; intros u Hu; by apply elem_of_nil in Hu.
  - destruct (stringify_object 1 2 3 200 0 0) as (v & J & O). exists v, (stringify 1 2 3 200 0 0). split; [done|]. split; [|by vm_compute].
    destruct O as (ms & -> & F). intros (ms' & E & V). injection E as <-.
    repeat (apply Forall2_cons_inv_r in F as ([? ?] & ? & [Ek ?] & F & ->); cbn [fst snd] in Ek; subst). apply Forall2_nil_inv_r in F as ->.
    cbn in V. destruct V as (_ & _ & _ & _ & _ & _ & _ & V & _). edestruct V as (z0 & Hz & Lz & Hz2); [do 3 right; left|]. cbn in Hz2.
    cbn [fst snd] in *. match goal with K : is_integer 200 _ |- _ => pose proof (integer_is _ _ _ K Hz) end. lia.
  - by vm_compute.
Qed.
Print Assumptions C97_body_refuted.

(** Eight events are sent in a visit, and the state has three devices; both meet the hypotheses. *)
Example C97_example : served 0 line move (web_after move) /\ length sent = 8%nat /\ bounded_fields told_x
  /\ (exists order l, get_state order (web_after move) = Some l /\ length l = 3%nat).
Proof.
  split; [exact (proj1 C78_example)|]. split; [exact (proj1 (proj2 C78_example))|]. split; [intros p; cbn; lia|].
  exact (proj2 (proj2 (proj2 (proj2 (proj2 C78_example))))).
Qed.
(** The text of a category which the server sends is not documented. *)
Example C97_category_example : valid true actual_category (JString (str "Uci")) /\ ~ valid false Category (JString (str "Uci")).
Proof.
  split; [exists "Uci"%string; split; [left|reflexivity]|]. exact (category_wrong false CategoryUci _ eq_refl).
Qed.
