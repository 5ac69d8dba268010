(** Proofs about the page of the web interface. *)
From Verif Require Import Base Uci MacAddress AppConfig Codec Session Device Pica BaseFacts CodecSpec ContextSpec HistorySpec InvFacts Http HttpSpec HttpFacts HttpFacts2 Page PageSpec.

(** ** Lists *)
Lemma update_first_map {A B} (key : A -> B) `{EqDecision B} (k : B) f (l : list A) : NoDup (map key l) ->
  update_first (fun x => bool_decide (key x = k)) f l = map (fun x => if decide (key x = k) then f x else x) l.
Proof.
  induction l as [|x l IH]; intros N; [done|]. cbn in *. apply NoDup_cons in N as [Nx N]. destruct (decide (key x = k)) as [E|E].
  - rewrite bool_decide_true by done. f_equal. clear IH N. induction l as [|y l IH]; [done|]. cbn in *. apply not_elem_of_cons in Nx as [Ny Nx].
    rewrite decide_False by congruence. f_equal. by apply IH.
  - rewrite bool_decide_false by done. f_equal. by apply IH.
Qed.
Lemma update_first_elem {A B} (key : A -> B) `{EqDecision B} (k : B) f (l : list A) : NoDup (map key l) -> forall y,
  y ∈ update_first (fun x => bool_decide (key x = k)) f l <-> (y ∈ l /\ key y <> k) \/ exists x, x ∈ l /\ key x = k /\ y = f x.
Proof.
  intros N y. rewrite (update_first_map key) by done. rewrite elem_of_list_In, in_map_iff. split.
  - intros (x & E & I). apply elem_of_list_In in I. destruct (decide (key x = k)); [right; by exists x|left; by subst y].
  - intros [[I E]|(x & I & E & ->)].
    + exists y. rewrite decide_False by done. split; [done|]. by apply elem_of_list_In.
    + exists x. rewrite decide_True by done. split; [done|]. by apply elem_of_list_In.
Qed.
Lemma update_first_keys {A B} (key : A -> B) test f (l : list A) : (forall x, test x = true -> key (f x) = key x) -> map key (update_first test f l) = map key l.
Proof. intros H. induction l as [|x l IH]; [done|]. cbn. destruct (test x) eqn:T; cbn; [by rewrite H|by rewrite IH]. Qed.

Lemma set_neighbor_spec n l : NoDup (map n_mac l) -> NoDup (map n_mac (set_neighbor n l))
  /\ forall x, x ∈ set_neighbor n l <-> x = n \/ (x ∈ l /\ n_mac x <> n_mac n).
Proof.
  intros N. unfold set_neighbor. destruct (existsb _ l) eqn:E.
  - apply existsb_exists in E as (y & Iy & Ey). apply elem_of_list_In in Iy. apply bool_decide_eq_true in Ey. split.
    + rewrite update_first_keys; [done|]. intros x Hx. by apply bool_decide_eq_true in Hx.
    + intros x. rewrite (update_first_elem n_mac) by done. split; [intros [?|(z & Iz & Ez & ->)]; [by right|by left]|].
      intros [->|?]; [right; by exists y|by left].
  - assert (forall x, x ∈ l -> n_mac x <> n_mac n) as Ne.
    { intros x Ix Ex. assert (existsb (fun x => bool_decide (n_mac x = n_mac n)) l = true) as T; [|congruence].
      apply existsb_exists. exists x. split; [by apply elem_of_list_In|by apply bool_decide_eq_true]. }
    split.
    + rewrite map_app. apply NoDup_app. split; [done|]. split; [|apply NoDup_singleton].
      intros k Ik ->%elem_of_list_singleton. apply elem_of_list_In, in_map_iff in Ik as (x & Ex & Ix). apply (Ne x); [by apply elem_of_list_In|done].
    + intros x. rewrite elem_of_app, elem_of_list_singleton. split; [intros [I| ->]; [right; split; [done|by apply Ne]|by left]|intros [->|[I _]]; [by right|by left]].
Qed.

Lemma filter_In_elem {A} (f : A -> bool) l x : x ∈ List.filter f l <-> x ∈ l /\ f x = true.
Proof. rewrite !elem_of_list_In. apply List.filter_In. Qed.
Lemma map_elem {A B} (f : A -> B) l y : y ∈ map f l <-> exists x, x ∈ l /\ y = f x.
Proof. rewrite elem_of_list_In, in_map_iff. setoid_rewrite elem_of_list_In. split; intros (x & ? & ?); by exists x. Qed.
Lemma NoDup_filter_map {A B} (f : A -> bool) (key : A -> B) l : NoDup (map key l) -> NoDup (map key (List.filter f l)).
Proof.
  induction l as [|x l IH]; intros N; [done|]. cbn in *. apply NoDup_cons in N as [Nx N]. destruct (f x); [|by apply IH]. cbn. apply NoDup_cons. split; [|by apply IH].
  rewrite map_elem. intros (y & Iy & E). apply filter_In_elem in Iy as [Iy _]. destruct Nx. rewrite map_elem. by exists y.
Qed.

Section Facts.
Context {P : Type} (default_position : P) (compute : P -> P -> N * Z * Z).
Notation web_step := (web_step default_position compute).

(** ** The scene and the events of the environment which are not yet handled. *)
Fixpoint feed_ok (s : gmap N (device_information P)) (feed : list pica_event) : Prop :=
  match feed with
  | [] => True
  | ev :: feed =>
      match ev with Connected h m => shape s h = None | Disconnected h m => shape s h = Some (CategoryUci, m) end
      /\ feed_ok (replay1 default_position s ev) feed
  end.
Lemma feed_ok_ext feed s s' : (forall h, h ∈ handles_in feed -> shape s h = shape s' h) -> feed_ok s feed -> feed_ok s' feed.
Proof.
  revert s s'. induction feed as [|ev feed IH]; intros s s' E F; [done|]. cbn in *. destruct F as [F1 F2]. split.
  - destruct ev as [h m|h m]; (rewrite <- E; [done|left]).
  - eapply IH; [|exact F2]. intros h Hh. rewrite !shape_replay1. destruct (decide _); [done|]. apply E. by right.
Qed.
Lemma feed_ok_app feed feed' s : feed_ok s (feed ++ feed') <-> feed_ok s feed /\ feed_ok (replay default_position feed s) feed'.
Proof. revert s. induction feed as [|ev feed IH]; intros s; cbn [app feed_ok]; [cbn; tauto|]. rewrite IH. cbn [replay foldl]. tauto. Qed.

Record vinv (w : web P) : Prop := {
  vi_feed : feed_ok (w_devices w) (w_feed w);
  vi_created : forall m a, created w m a -> shape (w_devices w) a = None;
  vi_destroyed : forall m a, destroyed w m a -> shape (w_devices w) a = Some (CategoryAnchor, m) }.

Lemma vinv_new : vinv web_new.
Proof. split; cbn; [done| |]; [intros m a (k & pos & L)|intros m a (k & L)]; cbn in L; by rewrite lookup_empty in L. Qed.

Lemma vinv_ext (w w' : web P) : vinv w -> w_feed w' = w_feed w -> (forall m a, created w' m a -> created w m a) -> (forall m a, destroyed w' m a -> destroyed w m a) ->
  (forall h, shape (w_devices w') h = shape (w_devices w) h) -> vinv w'.
Proof.
  intros [V1 V2 V3] Ef Ec Ed Es. split.
  - rewrite Ef. eapply feed_ok_ext; [|exact V1]. intros h _. by rewrite Es.
  - intros m a C. rewrite Es. by eapply V2, Ec.
  - intros m a C. rewrite Es. by eapply V3, Ed.
Qed.

Lemma vinv_op (w : web P) order perm o : winv default_position w -> vinv w -> match o with CreateAnchor _ | DestroyAnchor _ => False | _ => True end ->
  let w' := (process compute order perm o w).1 in w_end w' = None -> vinv w'.
Proof.
  intros I V No w' En. unfold w', process in *. set (e := Env (estimate compute w) order perm) in *.
  destruct (step e (w_pica w) o) as [[p outs]|s] eqn:S; [|done]. cbn [fst] in *.
  pose proof (step_quiet _ _ _ _ _ (wi_pinv _ _ I) S) as Qt.
  enough (feed_ok (w_devices w) (w_feed w ++ pica_events outs)) as F by (destruct V as [V1 V2 V3]; by split).
  apply feed_ok_app. split; [apply V|].
  destruct o; try done; try (lazymatch type of Qt with _ /\ _ => destruct Qt as [-> _]; exact Logic.I end).
  - destruct (step_connect e (w_pica w)) as (p1 & outs1 & S1 & Ev & _). rewrite S1 in S. apply Ret_inj in S. injection S as <- <-. rewrite Ev.
    split; [|done]. rewrite shape_replay_ne.
    + unfold shape. rewrite (wi_fresh _ _ I) by done. done.
    + intros Hf. destruct (wi_feed _ _ I _ Hf). lia.
  - destruct (step_disconnect e (w_pica w) h (wi_pinv _ _ I)) as (p1 & outs1 & S1 & _ & [[Ev C]|[Ev C]]); rewrite S1 in S; apply Ret_inj in S; injection S as <- <-; rewrite Ev; [|done].
    split; [|done]. by apply (wi_dev _ _ I).
Qed.

Lemma event_inv (w w' : web P) : handle_connection_event default_position w = Some w' -> w_end w' = None ->
  exists ev feed, w_feed w = ev :: feed /\ w' = w_set_events (w_events w ++ [match ev with Connected _ m => DeviceAdded CategoryUci m default_position | Disconnected _ m => DeviceRemoved CategoryUci m end])
    (w_set_devices (replay1 default_position (w_devices w) ev) (w_set_feed feed w)).
Proof.
  intros E En. unfold handle_connection_event in E. destruct (w_feed w) as [|ev feed] eqn:Ef; [discriminate|].
  destruct (16 <? _); [injection E as <-; discriminate|]. destruct (w_poisoned w); [injection E as <-; discriminate|]. exists ev, feed. split; [done|].
  destruct ev; cbn zeta in E; match goal with E : match broadcast ?e ?v with _ => _ end = _ |- _ => destruct (broadcast e v) eqn:B end; injection E as <-; try discriminate En;
      apply broadcast_inv in B as [-> _]; reflexivity.
Qed.
Lemma vinv_event (w w' : web P) : winv default_position w -> vinv w -> handle_connection_event default_position w = Some w' -> w_end w' = None -> vinv w'.
Proof.
  intros I [V1 V2 V3] E En. destruct (event_inv _ _ E En) as (ev & feed & Ef & ->). rewrite Ef in V1. destruct V1 as [V0 V1].
  assert (ev_handle ev ∈ handles_in (w_feed w)) as Hf by (rewrite Ef; left).
  split; [exact V1| |]; intros m a C; cbn [w_devices w_set_events w_set_devices]; rewrite shape_replay1, decide_False; try (by eapply V2); try (by eapply V3); intros <-.
  - apply (wi_created _ _ I) in C. by apply (wi_feed _ _ I _ Hf) in C.
  - by destruct (wi_destroyed _ _ I _ _ C) as (_ & _ & _ & N & _).
Qed.

Lemma vinv_process (w w' : web P) k r : winv default_position w -> vinv w -> w_requests w !! k = Some (RqQueued r false) -> web_step (WProcess k) w = Some w' -> vinv w'.
Proof.
  intros I V Lk S. unfold Http.web_step in S. destruct (w_end w) eqn:Ew; [discriminate|]. rewrite Lk in S. unfold process in S. set (e := Env _ _ _) in S.
  assert (forall answer p' q, (forall a, answer <> ReplyOk a) ->
    vinv (w_set_requests (<[k := RqReplied r answer]> (w_requests w)) (w_set_feed (w_feed w ++ []) (w_set_pica p' w))) /\ q = q :> nat) as Same.
  { intros answer p' q No. split; [|done]. apply (vinv_ext w); [done|cbn; by rewrite app_nil_r| | |done].
    - intros m a (j & pos & L). cbn in L. apply lookup_insert_Some in L as [[_ L]|[_ L]]; [injection L as -> ->; by destruct (No a)|by exists j, pos].
    - intros m a (j & L). cbn in L. apply lookup_insert_Some in L as [[_ L]|[_ L]]; [injection L as -> ->; by destruct (No a)|by exists j]. }
  destruct r as [m pos|m]; cbn [command_of] in *.
  - destruct (create_cases (w_pica w) m) as [[_ St]|[Nu St]]; specialize (St e); rewrite St in S; cbn in S; injection S as <-; [by apply (Same _ _ O)|].
    destruct V as [V1 V2 V3]. split; cbn [w_feed w_devices w_set_requests w_set_feed w_set_pica].
    + by rewrite app_nil_r.
    + intros m' a (j & pos' & L). cbn in L. apply lookup_insert_Some in L as [[_ L]|[_ L]]; [injection L as <- <- <-|by eapply V2; exists j, pos'].
      unfold shape. by rewrite (wi_fresh _ _ I).
    + intros m' a (j & L). cbn in L. apply lookup_insert_Some in L as [[_ L]|[_ L]]; [done|by eapply V3; exists j].
  - assert (step e (w_pica w) (DestroyAnchor m) = Ret (destroy_anchor (w_pica w) m)) as St by done. rewrite St in S. unfold destroy_anchor in S.
    destruct (p_anchors (w_pica w) !! m) as [a|] eqn:L; cbn in S; injection S as <-; [|by apply (Same _ _ O)].
    destruct V as [V1 V2 V3]. split; cbn [w_feed w_devices w_set_requests w_set_feed w_set_pica].
    + by rewrite app_nil_r.
    + intros m' a' (j & pos' & L'). cbn in L'. apply lookup_insert_Some in L' as [[_ L']|[_ L']]; [done|by eapply V2; exists j, pos'].
    + intros m' a' (j & L'). cbn in L'. apply lookup_insert_Some in L' as [[_ L']|[_ L']]; [injection L' as <- <-|by eapply V3; exists j].
      destruct (wi_anchor _ _ I _ _ L) as [(j' & pos' & Lj)|?]; [|done].
      assert (j' = k) as -> by (by apply (wi_mac _ _ I _ _ _ _ Lj Lk)). congruence.
Qed.

(** What the end of a request does. *)
Lemma finish_inv k r answer (w : web P) : let w' := finish_request k r answer w in w_poisoned w' = false ->
  w_feed w' = w_feed w /\ w_requests w' = w_requests w
  /\ (((forall a, answer <> ReplyOk a) /\ w_devices w' = w_devices w /\ w_events w' = w_events w)
     \/ exists h, answer = ReplyOk h /\ match r with
        | RqCreate m position => w_devices w' = <[h := DeviceInformation CategoryAnchor m position]> (w_devices w) /\ w_events w' = w_events w ++ [DeviceAdded CategoryAnchor m position]
        | RqDestroy m => w_devices w' = delete h (w_devices w) /\ w_events w' = w_events w ++ [DeviceRemoved CategoryAnchor m]
        end).
Proof.
  cbn zeta. unfold finish_request. destruct answer as [h|m'|m']; [|intros _; split_and!; try done; by left..].
  destruct (w_poisoned w) eqn:Ep; [by rewrite Ep|]. intros Np.
  destruct r as [m pos|m]; match goal with Np : context [broadcast ?e ?v] |- _ => destruct (broadcast e v) as [w2|] eqn:B end; try discriminate Np; apply broadcast_inv in B as [-> _];
    (split_and!; [done|done|right; exists h; done]).
Qed.
Lemma vinv_finish (w : web P) k r answer : winv default_position w -> vinv w -> w_requests w !! k = Some (RqReplied r answer) ->
  let w' := finish_request k r answer (w_set_requests (delete k (w_requests w)) w) in
  w_poisoned w' = false -> vinv w'.
Proof.
  intros I V Lk w' Np. destruct (finish_inv _ _ _ _ Np) as (Ef & Er & Cases). fold w' in Ef, Er, Cases.
  cbn [w_feed w_requests w_devices w_events w_set_requests] in *.
  assert (forall m a, created w' m a -> created w m a /\ r <> RqDestroy m) as Cr.
  { intros m a (j & pos & L). rewrite Er in L. apply lookup_delete_Some in L as [Ne L]. split; [by exists j, pos|]. intros ->. apply Ne. by apply (wi_mac _ _ I _ _ _ _ Lk L). }
  assert (forall m a, created w' m a -> forall pos, r <> RqCreate m pos) as Cr2.
  { intros m a (j & pos & L) pos' ->. rewrite Er in L. apply lookup_delete_Some in L as [Ne L]. apply Ne. by apply (wi_mac _ _ I _ _ _ _ Lk L). }
  assert (forall m a, destroyed w' m a -> destroyed w m a /\ r <> RqDestroy m) as De.
  { intros m a (j & L). rewrite Er in L. apply lookup_delete_Some in L as [Ne L]. split; [by exists j|]. intros ->. apply Ne. by apply (wi_mac _ _ I _ _ _ _ Lk L). }
  destruct Cases as [(No & Ed & _)|(h & -> & Cases)].
  - apply (vinv_ext w); [done|done|intros m a C; by apply Cr|intros m a C; by apply De|intros h; by rewrite Ed].
  - destruct V as [V1 V2 V3], r as [m pos|m]; destruct Cases as [Ed _].
    + assert (created w m h) as C by (by exists k, pos). pose proof (wi_created _ _ I _ _ C) as La. split; rewrite ?Ed, ?Ef.
      * eapply feed_ok_ext; [|exact V1]. intros j Hj. rewrite shape_insert, decide_False; [done|]. intros <-. by apply (wi_feed _ _ I _ Hj) in La.
      * intros m' a C'. rewrite shape_insert, decide_False; [by eapply V2, Cr|]. intros <-. apply (Cr2 _ _ C' pos). f_equal.
        apply Cr in C' as [C' _]. apply (wi_created _ _ I) in C'. by apply (pi_anchors _ _ (wi_pinv _ _ I) _ _ h).
      * intros m' a D. rewrite shape_insert, decide_False; [by eapply V3, De|]. intros <-. apply De in D as [D _].
        by destruct (wi_destroyed _ _ I _ _ D) as (_ & _ & _ & _ & N); apply (N m).
    + assert (destroyed w m h) as D by (by exists k). destruct (wi_destroyed _ _ I _ _ D) as (_ & _ & _ & Nf & Na). split; rewrite ?Ed, ?Ef.
      * eapply feed_ok_ext; [|exact V1]. intros j Hj. rewrite shape_delete, decide_False; [done|]. by intros <-.
      * intros m' a C'. rewrite shape_delete, decide_False; [by eapply V2, Cr|]. intros <-. apply Cr in C' as [C' _]. apply (wi_created _ _ I) in C'. by apply (Na m').
      * intros m' a D'. rewrite shape_delete, decide_False; [by eapply V3, De|]. intros <-. apply De in D' as [D' N]. apply V3 in D'. rewrite (V3 _ _ D) in D'. apply N. congruence.
Qed.
Lemma vinv_step (w : web P) l w' : winv default_position w -> vinv w -> one_at_a_time w l -> web_step l w = Some w' ->
  w_end w' = None -> w_poisoned w' = false -> vinv w'.
Proof.
  intros I V One S En Ep. pose proof S as S0. unfold Http.web_step in S. destruct (w_end w) eqn:Ew; [discriminate|].
  destruct l as [order perm o| | | |order m position|r|k|k|k].
  - destruct o; try discriminate S; apply (inj Some) in S; subst w'; (apply vinv_op; [exact I|exact V|exact Logic.I|exact En]).
  - by eapply vinv_event.
  - injection S as <-. by apply (vinv_ext w).
  - destruct (w_subscribers w =? 0); [discriminate|]. injection S as <-. by apply (vinv_ext w).
  - destruct (bool_decide _); [|discriminate]. injection S as <-. set (w1 := w_set_next (w_next w + 1) w).
    destruct (set_position_fields compute (w_next w) order m position w1) as (E1 & E2 & E3 & E4 & _ & _ & E5).
    apply (vinv_ext w); [exact V|done| | |done]; unfold created, destroyed; by rewrite E3.
  - injection S as <-. apply (vinv_ext w); [done|done| | |done].
    + intros m a (j & pos & L). cbn in L. apply lookup_insert_Some in L as [[_ L]|[_ L]]; [done|by exists j, pos].
    + intros m a (j & L). cbn in L. apply lookup_insert_Some in L as [[_ L]|[_ L]]; [done|by exists j].
  - destruct (w_requests w !! k) as [[r ab|]|] eqn:Lk; [|discriminate..].
    assert (ab = false) as -> by (by destruct (wi_next _ _ I _ _ Lk)). by eapply vinv_process.
  - destruct (w_requests w !! k) as [[|r answer]|] eqn:Lk; [discriminate| |discriminate]. injection S as <-. by apply vinv_finish.
  - by destruct One.
Qed.

(** ** The page *)
Definition view (l : page P) : list (mac_address * P) := map (fun s => (s_mac s, s_position s)) l.
Definition scene_has (w : web P) (m : mac_address) (p : P) : Prop := exists h i, w_devices w !! h = Some i /\ di_mac i = m /\ di_position i = p.
Lemma view_macs l : (view l).*1 = map s_mac l.
Proof. unfold view. induction l as [|s l IH]; [done|]. cbn in *. by rewrite <- IH. Qed.
Lemma view_elem l m p : (m, p) ∈ view l <-> exists s, s ∈ l /\ s_mac s = m /\ s_position s = p.
Proof. unfold view. rewrite map_elem. split; intros (s & Hs & E); exists s; [by injection E as -> ->|by destruct E as [<- <-]]. Qed.
Lemma key_fun {A B} (l : list (A * B)) k x x' : NoDup l.*1 -> (k, x) ∈ l -> (k, x') ∈ l -> x = x'.
Proof.
  induction l as [|[a b] l IH]; intros N I I'; [by apply elem_of_nil in I|]. cbn in N. apply NoDup_cons in N as [Na N].
  assert (forall y, (a, y) ∉ l) as Nl by (intros y Hy; apply Na, elem_of_list_fmap; by exists (a, y)).
  apply elem_of_cons in I as [E|I], I' as [E'|I'].
  - congruence.
  - injection E as -> ->. by apply Nl in I'.
  - injection E' as -> ->. by apply Nl in I.
  - by apply IH.
Qed.
Lemma scene_macs (w : web P) : distinct w -> NoDup (map (fun i => (di_mac i, di_position i)) (map_to_list (w_devices w)).*2).*1.
Proof.
  intros D. assert (forall l : list (N * device_information P), NoDup l.*1 -> (forall x, x ∈ l -> w_devices w !! x.1 = Some x.2) -> NoDup (map (fun i => (di_mac i, di_position i)) l.*2).*1) as G.
  { induction l as [|[h i] l IH]; intros N H; [constructor|]. cbn in *. apply NoDup_cons in N as [Nh N]. apply NoDup_cons. split; [|apply IH; [done|intros x Hx; apply H; by right]].
    rewrite elem_of_list_fmap. intros ([m p] & E & Hm). apply map_elem in Hm as (j & Hj & E'). injection E' as -> ->. cbn in E.
    apply elem_of_list_fmap in Hj as ([h' j'] & -> & Hj). cbn in E. pose proof (H (h, i) ltac:(left)) as L. pose proof (H (h', j') ltac:(by right)) as L'. cbn in L, L'.
    assert (h = h') as <- by (by apply (D _ _ _ _ L L')). apply Nh, elem_of_list_fmap. by exists (h, j'). }
  apply G; [apply NoDup_fst_map_to_list|]. intros [h i] Hx. by apply elem_of_map_to_list in Hx.
Qed.
Lemma scene_elem (w : web P) m p : (m, p) ∈ map (fun i => (di_mac i, di_position i)) (map_to_list (w_devices w)).*2 <-> scene_has w m p.
Proof.
  rewrite map_elem. split.
  - intros (i & Hi & E). injection E as -> ->. apply elem_of_list_fmap in Hi as ([h j] & -> & Hi). apply elem_of_map_to_list in Hi. by exists h, j.
  - intros (h & i & L & <- & <-). exists i. split; [|done]. apply elem_of_list_fmap. exists (h, i). split; [done|]. by apply elem_of_map_to_list.
Qed.
Lemma shows_iff (l : page P) w : distinct w -> shows l w <-> NoDup (view l).*1 /\ forall m p, (m, p) ∈ view l <-> scene_has w m p.
Proof.
  intros D. unfold shows. fold (view l). split.
  - intros E. split; [rewrite E; by apply scene_macs|]. intros m p. by rewrite E, scene_elem.
  - intros [N H]. apply NoDup_Permutation; [by eapply NoDup_fmap_1|eapply NoDup_fmap_1; by apply scene_macs|]. intros [m p]. by rewrite H, scene_elem.
Qed.

(** The neighbors, except for some pairs. *)
Definition acc (bad : mac_address -> mac_address -> Prop) (l : page P) : Prop :=
  forall s, s ∈ l -> NoDup (map n_mac (s_neighbors s)) /\ forall n, n ∈ s_neighbors s -> n_mac n <> s_mac s /\
    exists p, (n_mac n, p) ∈ view l /\ (~ bad (s_mac s) (n_mac n) -> (n_distance n, n_azimuth n, n_elevation n) = compute (s_position s) p).
Lemma acc_accurate bad l : acc bad l -> (forall x y, x ∈ (view l).*1 -> y ∈ (view l).*1 -> x <> y -> ~ bad x y) -> accurate compute l.
Proof.
  intros A H s Hs. destruct (A s Hs) as [N B]. split; [done|]. intros n Hn. destruct (B n Hn) as (Ne & p & Hp & E). split; [done|].
  apply view_elem in Hp as Hp'. destruct Hp' as (o & Ho & Em & Ep). exists o. split; [done|]. split; [done|]. rewrite Ep. apply E.
  apply H; [|apply elem_of_list_fmap; by exists (n_mac n, p)|congruence]. rewrite view_macs. apply map_elem. by exists s.
Qed.
Lemma accurate_acc bad l : accurate compute l -> acc bad l.
Proof.
  intros A s Hs. destruct (A s Hs) as [N B]. split; [done|]. intros n Hn. destruct (B n Hn) as (Ne & o & Ho & Em & E). split; [done|].
  exists (s_position o). split; [|done]. apply view_elem. by exists o.
Qed.
Lemma acc_weaken (bad bad' : mac_address -> mac_address -> Prop) l : (forall x y, bad x y -> bad' x y) -> acc bad l -> acc bad' l.
Proof. intros H A s Hs. destruct (A s Hs) as [N B]. split; [done|]. intros n Hn. destruct (B n Hn) as (Ne & p & Hp & E). split; [done|]. exists p. split; [done|]. intros Nb. apply E. auto. Qed.

Definition has_neighbor (l : page P) (x y : mac_address) : Prop := exists s, s ∈ l /\ s_mac s = x /\ y ∈ map n_mac (s_neighbors s).

Lemma neighbor_view l c src c' dst dist az el : view (page_event l (NeighborUpdated c src c' dst dist az el)) = view l.
Proof. unfold view. cbn. by apply update_first_keys. Qed.
Lemma neighbor_acc bad l c src c' dst dist az el p q : NoDup (view l).*1 -> acc bad l -> (src, p) ∈ view l -> (dst, q) ∈ view l -> src <> dst ->
  (dist, az, el) = compute p q -> acc (fun x y => bad x y /\ ~ (x = src /\ y = dst)) (page_event l (NeighborUpdated c src c' dst dist az el)).
Proof.
  intros N A Hp Hq Ne E s Hs. unfold acc. setoid_rewrite neighbor_view. cbn in Hs. rewrite view_macs in N. rewrite (update_first_elem s_mac) in Hs by done.
  destruct Hs as [[Hs Nm]|(s0 & Hs & Em & ->)].
  - destruct (A s Hs) as [Nd B]. split; [done|]. intros n Hn. destruct (B n Hn) as (Nn & r & Hr & V). split; [done|]. exists r. split; [done|]. intros Nb. apply V. intros Hb. apply Nb. split; [done|]. by intros [? _].
  - destruct (A s0 Hs) as [Nd B]. cbn [s_neighbors s_mac s_position]. set (n0 := Neighbor dst dist az el). destruct (set_neighbor_spec n0 _ Nd) as [Nd' Sp]. split; [done|].
    intros n Hn. apply Sp in Hn as [->|[Hn Nn]].
    + cbn. split; [congruence|]. exists q. split; [done|]. intros _. rewrite E. f_equal. rewrite <- view_macs in N. apply (key_fun (view l) src); [done|done|]. apply view_elem. by exists s0.
    + destruct (B n Hn) as (Nn' & r & Hr & V). split; [done|]. exists r. split; [done|]. intros Nb. apply V. intros Hb. apply Nb. split; [done|]. intros [_ Ed]. by apply Nn.
Qed.
Lemma neighbor_has l c src c' dst dist az el : NoDup (view l).*1 -> acc (fun _ _ => True) l -> (forall x y, has_neighbor l x y -> has_neighbor (page_event l (NeighborUpdated c src c' dst dist az el)) x y)
  /\ (src ∈ (view l).*1 -> has_neighbor (page_event l (NeighborUpdated c src c' dst dist az el)) src dst).
Proof.
  intros N A. rewrite view_macs in N |- *. unfold has_neighbor. cbn. pose proof (fun f => update_first_elem s_mac src f l N) as U. setoid_rewrite U. clear U. set (n0 := Neighbor dst dist az el). split.
  - intros x y (s & Hs & <- & Hy). destruct (decide (s_mac s = src)) as [E|E]; [|exists s; split; [by left|done]].
    eexists. split; [right; exists s; split_and!; try done|]. split; [done|]. cbn [s_neighbors]. destruct (A s Hs) as [Nd _]. destruct (set_neighbor_spec n0 _ Nd) as [_ Sp].
    apply map_elem in Hy as (n & Hn & ->). apply map_elem. destruct (decide (n_mac n = dst)) as [->|Ne]; [exists n0; split; [apply Sp; by left|done]|].
    exists n. split; [|done]. apply Sp. by right.
  - intros Hm. apply map_elem in Hm as (s & Hs & ->). eexists. split; [right; by exists s|]. split; [done|]. cbn [s_neighbors]. destruct (A s Hs) as [Nd _].
    destruct (set_neighbor_spec n0 _ Nd) as [_ Sp]. apply map_elem. exists n0. split; [apply Sp; by left|done].
Qed.

Lemma announces_acc d others : forall l bad, NoDup (view l).*1 -> acc bad l -> (di_mac d, di_position d) ∈ view l ->
  (forall o, o ∈ others -> (di_mac o, di_position o) ∈ view l) ->
  let l' := foldl page_event l (concat (map (announce compute d) (List.filter (fun o => negb (bool_decide (di_mac o = di_mac d))) others))) in
  view l' = view l
  /\ acc (fun x y => bad x y /\ ~ exists o, o ∈ others /\ di_mac o <> di_mac d /\ ((x = di_mac d /\ y = di_mac o) \/ (x = di_mac o /\ y = di_mac d))) l'
  /\ (forall x y, has_neighbor l x y -> has_neighbor l' x y)
  /\ (forall o, o ∈ others -> di_mac o <> di_mac d -> has_neighbor l' (di_mac d) (di_mac o) /\ has_neighbor l' (di_mac o) (di_mac d)).
Proof.
  induction others as [|o others IH]; intros l bad N A Hd Ho l'.
  - cbn in l'. split; [done|]. split; [|split; [done|by intros ? ?%elem_of_nil]]. eapply acc_weaken; [|exact A]. intros x y Hb. split; [done|]. intros (o & Hx & _). by apply elem_of_nil in Hx.
  - cbn [List.filter] in l'. destruct (bool_decide_reflect (di_mac o = di_mac d)) as [E|E]; cbn [negb] in l'.
    + destruct (IH l bad N A Hd) as (I1 & I2 & I3 & I4); [intros o' H; apply Ho; by right|]. fold l' in I1, I2, I3, I4. split; [done|]. split; [|split; [done|]].
      * eapply acc_weaken; [|exact I2]. intros x y [Hb Nb]. split; [done|]. intros (o' & H & Ne & C). apply elem_of_cons in H as [->|H]; [done|]. apply Nb. by exists o'.
      * intros o' H Ne. apply elem_of_cons in H as [->|H]; [done|]. by apply I4.
    + assert ((di_mac o, di_position o) ∈ view l) as Hpo by (apply Ho; left).
      destruct (compute (di_position d) (di_position o)) as [[d1 a1] e1] eqn:C1, (compute (di_position o) (di_position d)) as [[d2 a2] e2] eqn:C2.
      set (ev1 := NeighborUpdated (di_category d) (di_mac d) (di_category o) (di_mac o) d1 a1 e1 : event P).
      set (ev2 := NeighborUpdated (di_category o) (di_mac o) (di_category d) (di_mac d) d2 a2 e2 : event P).
      set (l1 := page_event l ev1). set (l2 := page_event l1 ev2).
      assert (l' = foldl page_event l2 (concat (map (announce compute d) (List.filter (fun o => negb (bool_decide (di_mac o = di_mac d))) others)))) as El.
      { unfold l'. cbn [map concat]. rewrite foldl_app. f_equal. unfold announce. rewrite C1, C2. done. }
      assert (view l1 = view l) as V1 by apply neighbor_view. assert (view l2 = view l) as V2 by (unfold l2, ev2; by rewrite neighbor_view).
      pose proof (neighbor_acc bad l (di_category d) (di_mac d) (di_category o) (di_mac o) d1 a1 e1 _ _ N A Hd Hpo ltac:(congruence) ltac:(by rewrite C1)) as A1. fold ev1 l1 in A1.
      pose proof (neighbor_acc _ l1 (di_category o) (di_mac o) (di_category d) (di_mac d) d2 a2 e2 _ _ ltac:(by rewrite V1) A1 ltac:(rewrite V1; exact Hpo) ltac:(rewrite V1; exact Hd) E ltac:(by rewrite C2)) as A2. fold ev2 l2 in A2.
      destruct (neighbor_has l (di_category d) (di_mac d) (di_category o) (di_mac o) d1 a1 e1 N ltac:(by eapply acc_weaken; [|exact A])) as [K1 K2]. fold ev1 l1 in K1, K2.
      destruct (neighbor_has l1 (di_category o) (di_mac o) (di_category d) (di_mac d) d2 a2 e2 ltac:(by rewrite V1) ltac:(by eapply acc_weaken; [|exact A1])) as [K3 K4]. fold ev2 l2 in K3, K4.
      destruct (IH l2 _ ltac:(by rewrite V2) A2 ltac:(by rewrite V2)) as (I1 & I2 & I3 & I4); [intros o' H; rewrite V2; apply Ho; by right|]. rewrite <- El in I1, I2, I3, I4.
      split; [by rewrite I1|]. split; [|split].
      * eapply acc_weaken; [|exact I2]. intros x y [[[Hb B1] B2] B3]. split; [done|]. intros (o' & H & Ne & C). apply elem_of_cons in H as [->|H].
        -- destruct C; [by apply B1|by apply B2].
        -- apply B3. by exists o'.
      * auto.
      * intros o' H Ne. apply elem_of_cons in H as [->|H]; [|by apply I4]. split; apply I3.
        -- apply K3, K2. apply elem_of_list_fmap. by exists (di_mac d, di_position d).
        -- apply K4. rewrite V1. apply elem_of_list_fmap. by exists (di_mac o, di_position o).
Qed.

(** The events of a position request. *)
Lemma neighbors_events (d : device_information P) others (w w' : web P) : neighbors compute d others w = Some w' ->
  w' = w_set_events (w_events w ++ concat (map (announce compute d) (List.filter (fun o => negb (bool_decide (di_mac o = di_mac d))) others))) w.
Proof.
  revert w. induction others as [|o others IH]; intros w E; cbn in E |- *.
  - rewrite app_nil_r. injection E as <-. by destruct w.
  - destruct (bool_decide _) eqn:B; cbn [negb]; [by apply IH|]. cbn [map concat]. unfold announce at 1.
    destruct (compute (di_position d) (di_position o)) as [[d1 a1] e1], (compute (di_position o) (di_position d)) as [[d2 a2] e2].
    destruct (negb _); [discriminate|]. destruct (broadcast _ w) as [w1|] eqn:E1; [|discriminate]. cbn in E. destruct (broadcast _ w1) as [w2|] eqn:E2; [|discriminate]. cbn in E.
    apply broadcast_inv in E1 as [-> _], E2 as [-> _]. apply IH in E as ->. cbn. by rewrite <- !app_assoc.
Qed.
Lemma set_position_inv k order m position (w : web P) : let w' := set_position compute k order m position w in w_poisoned w' = false -> w_poisoned w = false /\
  ((first_with m (w_devices w) order = None /\ w_devices w' = w_devices w /\ w_events w' = w_events w)
  \/ exists h i, let d := DeviceInformation (di_category i) m position in let s := <[h := d]> (w_devices w) in
     first_with m (w_devices w) order = Some (h, i) /\ w_devices w !! h = Some i /\ di_mac i = m /\ w_devices w' = s
     /\ w_events w' = w_events w ++ DeviceUpdated (di_category i) m position :: concat (map (announce compute d)
          (List.filter (fun o => negb (bool_decide (di_mac o = m))) (omap (fun h => s !! h) order)))).
Proof.
  cbn zeta. unfold set_position. destruct (w_poisoned w) eqn:Ep; [by rewrite Ep|]. intros Np. split; [done|].
  destruct (first_with m (w_devices w) order) as [[h i]|] eqn:F; [|by left]. right. exists h, i. split; [done|].
  apply first_with_inv in F as (_ & L & Hm). split; [done|]. split; [done|].
  cbn [di_category di_mac di_position] in *. rewrite Hm in *. destruct (broadcast _ _) as [w1|] eqn:B; [|discriminate]. cbn [mbind option_bind] in *.
  apply broadcast_inv in B as [-> _]. destruct (neighbors _ _ _ _) as [w2|] eqn:Nb; [|discriminate]. apply neighbors_events in Nb as ->.
  cbn. split; [done|]. by rewrite <- app_assoc.
Qed.

Definition tracks (l : page P) (w : web P) : Prop := NoDup (view l).*1 /\ (forall m p, (m, p) ∈ view l <-> scene_has w m p) /\ accurate compute l.
Lemma tracks_same l (w w' : web P) : w_devices w' = w_devices w -> tracks l w -> tracks l w'.
Proof. intros E T. unfold tracks, scene_has. by rewrite E. Qed.
Lemma tracks_added l (w w' : web P) h c m p : tracks l w -> distinct w' -> shape (w_devices w) h = None ->
  w_devices w' = <[h := DeviceInformation c m p]> (w_devices w) -> tracks (page_event l (DeviceAdded c m p)) w'.
Proof.
  intros (N & V & A) D Sh E. assert (w_devices w !! h = None) as Ln by (unfold shape in Sh; by destruct (w_devices w !! h)).
  assert (forall q, ~ scene_has w m q) as Nm.
  { intros q (j & i & L & <- & _). assert (h <> j) as Ne by (intros ->; congruence). apply Ne. apply (D h j (DeviceInformation c (di_mac i) p) i); rewrite ?E; [by rewrite lookup_insert|by rewrite lookup_insert_ne|done]. }
  assert (view (page_event l (DeviceAdded c m p)) = view l ++ [(m, p)]) as Ev by (unfold view; cbn; by rewrite map_app).
  split; [|split].
  - rewrite Ev, fmap_app. apply NoDup_app. split; [done|]. split; [|apply NoDup_singleton]. intros x Hx Hx'. apply elem_of_list_singleton in Hx'. cbn in Hx'. subst x.
    apply elem_of_list_fmap in Hx as ([m' q] & -> & Hx). apply V in Hx. by apply (Nm q).
  - intros m' q. rewrite Ev, elem_of_app, V, elem_of_list_singleton. unfold scene_has. rewrite E. split.
    + intros [(j & i & L & <- & <-)|X].
      * exists j, i. rewrite lookup_insert_ne; [done|]. congruence.
      * injection X as -> ->. exists h. eexists. by rewrite lookup_insert.
    + intros (j & i & L & <- & <-). apply lookup_insert_Some in L as [[_ <-]|[_ L]]; [by right|left]. by exists j, i.
  - cbn. intros s Hs. apply elem_of_app in Hs as [Hs|Hs].
    + destruct (A s Hs) as [Nd B]. split; [done|]. intros n Hn. destruct (B n Hn) as (Ne & o & Ho & X). split; [done|]. exists o. split; [|done]. apply elem_of_app. by left.
    + apply elem_of_list_singleton in Hs as ->. cbn. split; [constructor|]. by intros n ?%elem_of_nil.
Qed.
Lemma tracks_removed l (w w' : web P) h c c' m : tracks l w -> distinct w -> shape (w_devices w) h = Some (c', m) ->
  w_devices w' = delete h (w_devices w) -> tracks (page_event l (DeviceRemoved c m)) w'.
Proof.
  intros (N & V & A) D Sh E. assert (exists i, w_devices w !! h = Some i /\ di_mac i = m) as (i & L & Em).
  { unfold shape in Sh. destruct (w_devices w !! h) as [i|]; [|done]. exists i. split; [done|]. by injection Sh. }
  assert (view (page_event l (DeviceRemoved c m)) = List.filter (fun x => negb (bool_decide (x.1 = m))) (view l)) as Ev.
  { unfold view. cbn. rewrite map_map. cbn. clear. induction l as [|s l IH]; [done|]. cbn. by destruct (bool_decide (s_mac s = m)); cbn; rewrite IH. }
  assert (forall m' q, (m', q) ∈ view (page_event l (DeviceRemoved c m)) <-> (m', q) ∈ view l /\ m' <> m) as Ve.
  { intros m' q. rewrite Ev, filter_In_elem. cbn. by destruct (bool_decide_reflect (m' = m)); cbn; intuition. }
  split; [|split].
  - rewrite Ev. by apply (NoDup_filter_map _ fst).
  - intros m' q. rewrite Ve, V. unfold scene_has. rewrite E. split.
    + intros [(j & k & Lj & <- & <-) Ne]. exists j, k. rewrite lookup_delete_ne; [done|]. intros <-. congruence.
    + intros (j & k & Lj & <- & <-). apply lookup_delete_Some in Lj as [Ne Lj]. split; [by exists j, k|]. intros X. apply Ne. apply (D h j i k); congruence.
  - cbn. intros s Hs. apply map_elem in Hs as (s0 & Hs & ->). apply filter_In_elem in Hs as [Hs _]. destruct (A s0 Hs) as [Nd B]. cbn.
    split; [by apply NoDup_filter_map|]. intros n Hn. apply filter_In_elem in Hn as [Hn Nn]. destruct (B n Hn) as (Ne & o & Ho & Eo & X). split; [done|].
    eexists. split; [apply map_elem; exists o; split; [apply filter_In_elem; split; [done|by rewrite Eo]|done]|]. done.
Qed.
Lemma updated_view l c m p : NoDup (view l).*1 -> forall m' q, (m', q) ∈ view (page_event l (DeviceUpdated c m p)) <-> ((m', q) ∈ view l /\ m' <> m) \/ (m' = m /\ q = p /\ m ∈ (view l).*1).
Proof.
  intros N m' q. rewrite !view_macs in *. rewrite !view_elem. cbn. pose proof (fun f => update_first_elem s_mac m f l N) as U. setoid_rewrite U. clear U. split.
  - intros (s & [[Hs Ne]|(s0 & Hs & E & ->)] & <- & <-); [left; split; [by exists s|done]|right]. cbn. split_and!; [done|done|]. apply map_elem. by exists s0.
  - intros [[(s & Hs & <- & <-) Ne]|(-> & -> & Hm)]; [exists s; split; [by left|done]|]. apply map_elem in Hm as (s & Hs & Em). eexists. split; [right; by exists s|]. by cbn.
Qed.
Lemma updated_acc l c m p : NoDup (view l).*1 -> accurate compute l -> acc (fun x y => x = m \/ y = m) (page_event l (DeviceUpdated c m p)).
Proof.
  intros N A s Hs. cbn in Hs. assert (NoDup (map s_mac l)) as N' by (by rewrite <- view_macs). rewrite (update_first_elem s_mac) in Hs by done.
  assert (exists s0, s0 ∈ l /\ s_mac s0 = s_mac s /\ s_neighbors s0 = s_neighbors s /\ (s_mac s <> m -> s0 = s)) as (s0 & H0 & E1 & E2 & E3).
  { destruct Hs as [[Hs Ne]|(s0 & Hs & E & ->)]; [by exists s|]. exists s0. by cbn. }
  destruct (A s0 H0) as [Nd B]. rewrite <- E2, <- E1. split; [done|]. intros n Hn. destruct (B n Hn) as (Ne & o & Ho & Eo & X). split; [done|].
  setoid_rewrite updated_view; [|done]. destruct (decide (n_mac n = m)) as [Em|Em].
  - exists p. split; [|intros Nb; by destruct Nb; right]. right. split_and!; [done|done|]. rewrite view_macs. apply map_elem. exists o. by rewrite Eo.
  - exists (s_position o). split; [left; split; [apply view_elem; by exists o|done]|]. intros Nb. rewrite X. rewrite E3; [done|]. intros Es. apply Nb. left. by rewrite E1.
Qed.
Lemma updated_has l c m p x y : NoDup (view l).*1 -> has_neighbor l x y -> has_neighbor (page_event l (DeviceUpdated c m p)) x y.
Proof.
  intros N (s & Hs & <- & Hy). rewrite view_macs in N. unfold has_neighbor. cbn. pose proof (fun f => update_first_elem s_mac m f l N) as U. setoid_rewrite U. clear U.
  destruct (decide (s_mac s = m)) as [E|E]; [|exists s; split; [by left|done]]. eexists. split; [right; by exists s|]. by cbn.
Qed.
Lemma added_has l c m p x y : has_neighbor l x y -> has_neighbor (page_event l (DeviceAdded c m p)) x y.
Proof. intros (s & Hs & X). exists s. split; [|done]. cbn. apply elem_of_app. by left. Qed.
Lemma removed_has l c m x y : x <> m -> y <> m -> has_neighbor l x y -> has_neighbor (page_event l (DeviceRemoved c m)) x y.
Proof.
  intros Nx Ny (s & Hs & <- & Hy). eexists. split; [cbn; apply map_elem; exists s; split; [apply filter_In_elem; split; [done|by rewrite bool_decide_false]|done]|]. split; [done|]. cbn.
  apply map_elem in Hy as (n & Hn & ->). apply map_elem. exists n. split; [|done]. apply filter_In_elem. split; [done|]. by rewrite bool_decide_false.
Qed.
(** The page after the events of a position request. *)
Lemma tracks_moved l (w w' : web P) h i m p order : tracks l w -> distinct w -> w_devices w !! h = Some i -> di_mac i = m ->
  let d := DeviceInformation (di_category i) m p in w_devices w' = <[h := d]> (w_devices w) -> order ≡ₚ (map_to_list (w_devices w)).*1 ->
  let l' := foldl page_event l (DeviceUpdated (di_category i) m p :: concat (map (announce compute d)
          (List.filter (fun o => negb (bool_decide (di_mac o = m))) (omap (fun k => <[h := d]> (w_devices w) !! k) order)))) in
  tracks l' w' /\ (forall x q, scene_has w' x q -> x <> m -> has_neighbor l' m x /\ has_neighbor l' x m)
  /\ forall x y, has_neighbor l x y -> has_neighbor l' x y.
Proof.
  intros (N & V & A) D L Em d E Pm l'. set (l1 := page_event l (DeviceUpdated (di_category i) m p)).
  set (others := omap (fun k => <[h := d]> (w_devices w) !! k) order).
  assert (m ∈ (view l).*1) as Hm. { apply elem_of_list_fmap. exists (m, di_position i). split; [done|]. apply V. by exists h, i. }
  assert (forall x q, (x, q) ∈ view l1 <-> scene_has w' x q) as V1.
  { intros x q. unfold l1. rewrite updated_view, V by done. unfold scene_has. rewrite E. split.
    - intros [[(j & k & Lj & <- & <-) Ne]|(-> & -> & _)]; [|exists h, d; by rewrite lookup_insert]. exists j, k. rewrite lookup_insert_ne; [done|]. intros <-. congruence.
    - intros (j & k & Lj & <- & <-). apply lookup_insert_Some in Lj as [[_ <-]|[Ne Lj]]; [by right|]. left. split; [by exists j, k|]. intros X. apply Ne, (D h j i k); congruence. }
  assert ((view l1).*1 = (view l).*1) as Em1. { rewrite !view_macs. unfold l1. cbn. by apply update_first_keys. }
  assert (forall o, o ∈ others <-> exists j, <[h := d]> (w_devices w) !! j = Some o) as Oth.
  { intros o. unfold others. rewrite elem_of_list_omap. split; [intros (j & _ & Lj); by exists j|]. intros (j & Lj). exists j. split; [|done].
    rewrite (keys_of w) by done. apply lookup_insert_Some in Lj as [[<- _]|[_ Lj]]; by eexists. }
  destruct (announces_acc d others l1 (fun x y => x = m \/ y = m)) as (J1 & J2 & J3 & J4).
  - by rewrite Em1.
  - by apply updated_acc.
  - apply V1. exists h, d. rewrite E. by rewrite lookup_insert.
  - intros o Ho. apply Oth in Ho as (j & Lj). apply V1. exists j, o. by rewrite E.
  - assert (l' = foldl page_event l1 (concat (map (announce compute d) (List.filter (fun o => negb (bool_decide (di_mac o = di_mac d))) others)))) as El by done.
    rewrite <- El in J1, J2, J3, J4. split; [split; [|split]|split].
    + by rewrite J1, Em1.
    + intros x q. by rewrite J1, V1.
    + eapply acc_accurate; [exact J2|]. cbn beta. intros x y Hx Hy Ne [Hb Nb]. apply Nb. rewrite J1 in Hx, Hy.
      assert (forall z, z ∈ (view l1).*1 -> z <> m -> exists o, o ∈ others /\ di_mac o = z) as Fo.
      { intros z Hz _. apply elem_of_list_fmap in Hz as ([z' q] & -> & Hz). apply V1 in Hz as (j & o & Lj & <- & _). exists o. split; [|done]. apply Oth. exists j. by rewrite <- E. }
      destruct Hb as [->| ->].
      * destruct (Fo y Hy ltac:(congruence)) as (o & Ho & <-). exists o. split; [done|]. split; [cbn; congruence|by left].
      * destruct (Fo x Hx Ne) as (o & Ho & <-). exists o. split; [done|]. split; [done|by right].
    + intros x q (j & o & Lj & <- & _) Ne. apply J4; [|done]. apply Oth. exists j. by rewrite <- E.
    + intros x y H. apply J3. by apply updated_has.
Qed.

(** Each action. *)
Lemma page_step l (w w' : web P) a : winv default_position w -> vinv w -> distinct w -> distinct w' -> one_at_a_time w a -> web_step a w = Some w' -> w_end w' = None -> w_poisoned w' = false ->
  tracks l w -> exists evs, w_events w' = w_events w ++ evs /\ tracks (foldl page_event l evs) w'
  /\ (forall x y q r, has_neighbor l x y -> scene_has w' x q -> scene_has w' y r -> has_neighbor (foldl page_event l evs) x y)
  /\ match a with WSetPosition _ m _ => forall q, scene_has w m q -> forall x q, scene_has w' x q -> x <> m -> has_neighbor (foldl page_event l evs) m x /\ has_neighbor (foldl page_event l evs) x m | _ => True end.
Proof.
  intros I V D D' One S En Ep T. pose proof S as S0. unfold Http.web_step in S. destruct (w_end w) eqn:Ew; [discriminate|].
  assert (forall v, w_devices w' = w_devices v -> w_events w' = w_events v -> w_devices v = w_devices w -> w_events v = w_events w -> exists evs, w_events w' = w_events w ++ evs /\ tracks (foldl page_event l evs) w'
    /\ (forall x y q r, has_neighbor l x y -> scene_has w' x q -> scene_has w' y r -> has_neighbor (foldl page_event l evs) x y) /\ True) as Same.
  { intros v E1 E2 E3 E4. exists []. rewrite app_nil_r. split; [congruence|]. split; [|done]. apply (tracks_same l w); [congruence|done]. }
  assert (forall h c m i, shape (w_devices w) h = Some (c, m) -> w_devices w' = delete h (w_devices w) -> w_devices w' !! i.1 = Some i.2 -> di_mac i.2 <> m) as Gone.
  { intros h c m [j i] Sh Ed L Em. cbn in *. rewrite Ed in L. apply lookup_delete_Some in L as [Ne L]. unfold shape in Sh. destruct (w_devices w !! h) as [i0|] eqn:L0; [|done].
    injection Sh as _ E. apply Ne, (D h j i0 i); congruence. }
  destruct a as [order perm o| | | |order m position|r|k|k|k].
  - destruct (process_fields compute order perm o w) as (E1 & _ & _ & _ & _ & E2 & _). destruct o; try discriminate S; apply (inj Some) in S; subst w'; by apply (Same w).
  - destruct (event_inv _ _ S En) as (ev & feed & Ef & ->). pose proof (vi_feed _ V) as F. rewrite Ef in F. destruct F as [F _]. eexists. split; [done|]. cbn [foldl].
    destruct ev as [h m|h m].
    + split; [by eapply tracks_added|]. split; [|done]. intros. by apply added_has.
    + split; [by eapply tracks_removed|]. split; [|done]. intros x y q r H (j & i & L & <- & _) (j' & i' & L' & <- & _). apply removed_has; [| |done].
      * by apply (Gone h CategoryUci m (j, i)).
      * by apply (Gone h CategoryUci m (j', i')).
  - injection S as <-. by apply (Same w).
  - destruct (w_subscribers w =? 0); [discriminate|]. injection S as <-. by apply (Same w).
  - destruct (bool_decide_reflect (order ≡ₚ (map_to_list (w_devices w)).*1)) as [Pm|]; [|discriminate]. apply (inj Some) in S. subst w'. set (w1 := w_set_next (w_next w + 1) w) in *.
    destruct (set_position_inv _ _ _ _ _ Ep) as [_ [(F & Ed & Ee)|(h & i & F & L & Em & Ed & Ee)]].
    + exists []. rewrite app_nil_r. split; [done|]. split; [by apply (tracks_same l w)|]. split; [done|]. intros q (h & i & L & Em & _).
      destruct (first_with_some m (w_devices w1) order) as (h' & d' & F'); [|cbn in F, F'; congruence]. exists h. split; [|by exists i]. apply (keys_of w); [done|]. by exists i.
    + eexists. split; [exact Ee|]. destruct (tracks_moved l w (set_position compute (w_next w) order m position w1) h i m position order T D L Em Ed Pm) as (T' & H & K). split; [exact T'|].
      split; [intros; by apply K|]. intros _ _. exact H.
  - injection S as <-. by apply (Same w).
  - destruct (w_requests w !! k) as [[r ab|]|] eqn:Lk; [|discriminate..].
    destruct (process_fields compute (fun l => l) (fun l => reflexivity l) (command_of r) w) as (E1 & _ & _ & _ & _ & E2 & _).
    destruct (process _ _ _ _ w) as [w1 outs]. cbn in E1, E2. destruct (reply_of outs); apply (inj Some) in S; subst w'; by apply (Same w1).
  - destruct (w_requests w !! k) as [[|r answer]|] eqn:Lk; [discriminate| |discriminate]. apply (inj Some) in S. subst w'.
    destruct (finish_inv _ _ _ _ Ep) as (_ & _ & [(_ & Ed & Ee)|(h & -> & Cases)]).
    + by apply (Same w).
    + destruct r as [m pos|m]; destruct Cases as [Ed Ee]; eexists; (split; [exact Ee|]); cbn [foldl].
      * split; [eapply tracks_added; [exact T|done| |exact Ed]; eapply (vi_created _ V m); by exists k, pos|]. split; [|done]. intros. by apply added_has.
      * assert (shape (w_devices w) h = Some (CategoryAnchor, m)) as Sh by (eapply (vi_destroyed _ V m); by exists k).
        split; [by eapply tracks_removed|]. split; [|done]. intros x y q r H (j & i & L & <- & _) (j' & i' & L' & <- & _). apply removed_has; [| |done].
        -- by apply (Gone h CategoryAnchor m (j, i)).
        -- by apply (Gone h CategoryAnchor m (j', i')).
  - by destruct One.
Qed.

Notation served := (served default_position compute).
Notation throughout := (throughout default_position compute).
Notation web_run := (web_run default_position compute).
Lemma before (w w' : web P) a : web_step a w = Some w' -> w_poisoned w' = false -> w_end w = None /\ w_poisoned w = false.
Proof.
  intros S Ep. split.
  - unfold Http.web_step in S. by destruct (w_end w).
  - destruct (w_poisoned w) eqn:E; [|done]. by rewrite (poisoned_mono _ _ _ _ _ S E) in Ep.
Qed.
Lemma served_vinv ls (w : web P) : served ls w -> throughout one_at_a_time ls web_new -> w_end w = None -> w_poisoned w = false -> vinv w.
Proof.
  revert ls w. apply (served_ind default_position compute (fun ls w => throughout one_at_a_time ls web_new -> w_end w = None -> w_poisoned w = false -> vinv w)).
  - intros _ _ _. apply vinv_new.
  - intros ls w l w' Sv IH Wl S T En Ep. destruct (throughout_app _ _ _ _ _ _ _ T (proj2 Sv)) as [T0 One]. destruct (before _ _ _ S Ep).
    eapply vinv_step; try done; [by eapply served_winv|by apply IH].
Qed.
Lemma throughout_split Q ls ls' (w w' : web P) : web_run ls w = Some w' -> throughout Q (ls ++ ls') w <-> throughout Q ls w /\ throughout Q ls' w'.
Proof.
  revert w. induction ls as [|a ls IH]; intros w R; cbn in *; [injection R as <-; tauto|].
  destruct (web_step a w) as [w1|]; [|discriminate]. cbn in R. rewrite (IH _ R). tauto.
Qed.
(** A run is cut before its last action. *)
Lemma served_snoc ls a (w' : web P) : served (ls ++ [a]) w' -> throughout one_at_a_time (ls ++ [a]) web_new -> w_end w' = None -> w_poisoned w' = false ->
  exists w, served ls w /\ web_step a w = Some w' /\ throughout one_at_a_time ls web_new /\ one_at_a_time w a /\ w_end w = None /\ w_poisoned w = false
  /\ winv default_position w /\ vinv w.
Proof.
  intros [F R] One En Ep. apply Forall_app in F as [F Fa]. rewrite web_run_app in R. destruct (web_run ls web_new) as [w|] eqn:Rw; [|discriminate].
  cbn in R. destruct (web_step a w) as [w1|] eqn:S; [|discriminate]. injection R as ->. destruct (before _ _ _ S Ep) as [En0 Ep0].
  assert (served ls w) as Sv by done. destruct (throughout_app _ _ _ _ _ _ _ One Rw) as [One0 Oa]. exists w. split_and!; try done; [by eapply served_winv|by eapply served_vinv].
Qed.
Lemma served_run ls1 (w1 : web P) ls2 w2 : served ls1 w1 -> served (ls1 ++ ls2) w2 -> web_run ls2 w1 = Some w2.
Proof. intros [_ R1] [_ R2]. rewrite web_run_app, R1 in R2. exact R2. Qed.
Lemma page_run ls1 (w1 : web P) l : served ls1 w1 -> tracks l w1 -> forall ls2 w2, served (ls1 ++ ls2) w2 -> throughout one_at_a_time (ls1 ++ ls2) web_new -> throughout (fun w _ => distinct w) ls2 w1 -> distinct w2 ->
  w_end w2 = None -> w_poisoned w2 = false -> exists evs, w_events w2 = w_events w1 ++ evs /\ tracks (foldl page_event l evs) w2
  /\ forall x y, has_neighbor l x y -> throughout (fun w _ => exists q r, scene_has w x q /\ scene_has w y r) ls2 w1 -> (exists q r, scene_has w2 x q /\ scene_has w2 y r) -> has_neighbor (foldl page_event l evs) x y.
Proof.
  intros S1 T1 ls2. induction ls2 as [|a ls2 IH] using rev_ind; intros w2 S2 One Ds D2 En Ep.
  - rewrite app_nil_r in S2. destruct S1 as [_ R1], S2 as [_ R2]. rewrite R1 in R2. injection R2 as <-. exists []. by rewrite app_nil_r.
  - rewrite app_assoc in S2, One. destruct (served_snoc _ _ _ S2 One En Ep) as (w & Sv & S & One0 & Oa & En0 & Ep0 & I & V).
    pose proof (served_run _ _ _ _ S1 Sv) as R2. apply (throughout_split _ _ _ _ _ R2) in Ds as [Ds Da]. cbn in Da. destruct Da as [Dw _].
    destruct (IH w Sv One0 Ds Dw En0 Ep0) as (evs & Ee & T & K).
    destruct (page_step _ w w2 a I V Dw D2 Oa S En Ep T) as (evs' & Ee' & T' & K' & _).
    exists (evs ++ evs'). rewrite foldl_app. split; [by rewrite Ee', Ee, app_assoc|]. split; [done|].
    intros x y H Th (q & r & Hq & Hr). apply (throughout_split _ _ _ _ _ R2) in Th as [Th Ta]. cbn in Ta. destruct Ta as [Ta _]. eapply K'; [|exact Hq|exact Hr]. by apply K.
Qed.
Lemma tracks_load (w : web P) order state : distinct w -> order ≡ₚ (map_to_list (w_devices w)).*1 -> get_state order w = Some state -> tracks (load state) w.
Proof.
  intros D Pm G. unfold get_state in G. destruct (w_poisoned w); [discriminate|]. injection G as <-. set (state := omap _ order).
  assert (shows (load state) w) as Sh. { unfold shows, load. rewrite map_map. cbn. apply Permutation_map. by apply omap_keys. }
  apply shows_iff in Sh as [N V]; [|done]. split; [done|]. split; [done|]. intros s Hs. apply map_elem in Hs as (i & _ & ->). cbn. split; [constructor|]. by intros n ?%elem_of_nil.
Qed.
Lemma tracks_shows l (w : web P) : distinct w -> tracks l w -> shows l w /\ accurate compute l.
Proof. intros D (N & V & A). split; [|done]. by apply shows_iff. Qed.
Lemma lists_has (l : page P) x y : lists l x y <-> has_neighbor l x y.
Proof.
  split; [intros (s & n & Hs & Ex & Hn & Ey); exists s; split_and!; try done; apply map_elem; by exists n|].
  intros (s & Hs & Ex & Hy). apply map_elem in Hy as (n & Hn & ->). by exists s, n.
Qed.
Lemma on_scene_has (w : web P) m : on_scene w m <-> exists p, scene_has w m p.
Proof. split; [intros (h & i & L & E); exists (di_position i), h, i; done|]. intros (p & h & i & L & E & _). by exists h, i. Qed.
Lemma throughout_impl (Q Q' : web P -> web_label P -> Prop) ls w : (forall w a, Q w a -> Q' w a) -> throughout Q ls w -> throughout Q' ls w.
Proof. intros H. revert w. induction ls as [|a ls IH]; intros w T; [done|]. cbn in *. destruct T as [Ta T]. split; [by apply H|]. destruct (web_step a w); [by apply IH|done]. Qed.
Lemma set_position_scene order m p (w w' : web P) x : web_step (WSetPosition order m p) w = Some w' -> on_scene w x <-> on_scene w' x.
Proof.
  intros S. unfold Http.web_step in S. destruct (w_end w); [discriminate|]. destruct (bool_decide _); [|discriminate]. injection S as <-.
  destruct (set_position_fields compute (w_next w) order m p (w_set_next (w_next w + 1) w)) as (_ & _ & _ & _ & _ & _ & Sh). cbn [w_devices w_set_next] in Sh.
  assert (forall v : web P, on_scene v x <-> exists h c, shape (w_devices v) h = Some (c, x)) as A.
  { intros v. unfold on_scene, shape. split; intros (h & i & L).
    - destruct L as [L <-]. exists h, (di_category i). by rewrite L.
    - destruct (w_devices v !! h) as [j|] eqn:L'; [|done]. injection L as _ <-. by exists h, j. }
  rewrite !A. by setoid_rewrite Sh.
Qed.
Lemma moved_run ls1 (w1 : web P) l lsa order m p lsb wb w2 x : served ls1 w1 -> tracks l w1 -> served (ls1 ++ lsa ++ [WSetPosition order m p]) wb -> served (ls1 ++ lsa ++ [WSetPosition order m p] ++ lsb) w2 ->
  throughout one_at_a_time (ls1 ++ lsa ++ [WSetPosition order m p] ++ lsb) web_new -> throughout (fun w _ => distinct w) (lsa ++ [WSetPosition order m p] ++ lsb) w1 -> distinct w2 ->
  w_end w2 = None -> w_poisoned w2 = false -> w_end wb = None -> w_poisoned wb = false -> distinct wb ->
  x <> m -> on_scene wb m -> on_scene wb x -> throughout (fun w _ => on_scene w m /\ on_scene w x) lsb wb -> on_scene w2 m -> on_scene w2 x ->
  exists evs, w_events w2 = w_events w1 ++ evs /\ lists (foldl page_event l evs) m x /\ lists (foldl page_event l evs) x m.
Proof.
  intros S1 T1 Sb S2 One Ds D2 En Ep Enb Epb Db Ne Mb Xb Th M2 X2. set (a := WSetPosition order m p) in *.
  assert (throughout one_at_a_time (ls1 ++ lsa ++ [a]) web_new) as Oneb. { rewrite !app_assoc in One. apply (throughout_split _ _ _ _ wb) in One as [One _]; [by rewrite app_assoc|]. rewrite <- app_assoc. apply Sb. }
  pose proof (served_run _ _ _ _ S1 Sb) as Rb.
  rewrite app_assoc in Ds. apply (throughout_split _ _ _ _ wb) in Ds as [Dsa Dsb]; [|done].
  rewrite app_assoc in Sb, Oneb. destruct (served_snoc _ _ _ Sb Oneb Enb Epb) as (wa & Sa & S & Onea & Oa & Ena & Epa & I & V).
  pose proof (served_run _ _ _ _ S1 Sa) as Ra. apply (throughout_split _ _ _ _ _ Ra) in Dsa as [Dsa Da]. cbn in Da. destruct Da as [Da _].
  destruct (page_run ls1 w1 l S1 T1 lsa wa Sa Onea Dsa Da Ena Epa) as (evs1 & E1 & Ta & _).
  destruct (page_step _ wa wb a I V Da Db Oa S Enb Epb Ta) as (evs2 & E2 & Tb & _ & H). unfold a in H.
  assert (on_scene wa m) as Ma by (by apply (set_position_scene order m p wa wb)). apply on_scene_has in Ma as [q Ma]. apply on_scene_has in Xb as [qx Xb].
  destruct (H q Ma x qx Xb Ne) as [H1 H2].
  assert (served ((ls1 ++ lsa ++ [a]) ++ lsb) w2) as S2' by (by rewrite <- !app_assoc). assert (throughout one_at_a_time ((ls1 ++ lsa ++ [a]) ++ lsb) web_new) as One' by (by rewrite <- !app_assoc).
  rewrite <- app_assoc in Sb.
  destruct (page_run _ wb _ Sb Tb lsb w2 S2' One' Dsb D2 En Ep) as (evs3 & E3 & _ & K).
  exists (evs1 ++ evs2 ++ evs3). rewrite !foldl_app, !lists_has. split; [by rewrite E3, E2, E1, <- !app_assoc|].
  split; (apply K; [done| |]); try (eapply throughout_impl; [|exact Th]; intros v b [A B]; apply on_scene_has in A as [q1 A], B as [q2 B]; by eexists _, _);
    apply on_scene_has in M2 as [q1 M2], X2 as [q2 X2]; by eexists _, _.
Qed.
End Facts.

(** ** Dragging *)
Lemma mouse_elevation p es : (0 <= p_y p)%Z -> (0 <= p_y (foldl mouse_move p es))%Z.
Proof. revert p. induction es as [|e es IH]; intros p H; [done|]. cbn. apply IH. destruct e as [dx dz|v]; cbn; lia. Qed.
Lemma mouse_board p es : (-560 <= p_x p <= 560 /\ -560 <= p_z p <= 560)%Z -> (-560 <= p_x (foldl mouse_move p es) <= 560 /\ -560 <= p_z (foldl mouse_move p es) <= 560)%Z.
Proof. revert p. induction es as [|e es IH]; intros p H; [done|]. cbn. apply IH. destruct e as [dx dz|v]; cbn; lia. Qed.
Lemma mouse_dragged p es dx dz es' : let p' := foldl mouse_move p (es ++ Drag dx dz :: es') in (-560 <= p_x p' <= 560 /\ -560 <= p_z p' <= 560)%Z.
Proof. cbn zeta. rewrite foldl_app. cbn [foldl]. apply mouse_board. cbn. lia. Qed.
