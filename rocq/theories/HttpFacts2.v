(** Proofs about the web server, continued: theorems for all the histories. *)
From Coq Require Import Strings.String.
From Verif Require Import Base Uci MacAddress AppConfig Codec Session Device Pica CodecSpec ContextSpec HistorySpec InvFacts StepFacts PropsContext Http HttpSpec HttpFacts.

Section Facts.
Context {P : Type} (default_position : P) (compute : P -> P -> N * Z * Z).
Notation web_step := (web_step default_position compute).
Notation web_run := (web_run default_position compute).
Notation served := (served default_position compute).
Notation throughout := (throughout default_position compute).

(** ** What an action changes *)
Lemma process_fields order perm o (w : web P) : let w' := (process compute order perm o w).1 in
  w_devices w' = w_devices w /\ w_poisoned w' = w_poisoned w /\ w_subscribers w' = w_subscribers w /\ w_requests w' = w_requests w
  /\ w_next w' = w_next w /\ w_events w' = w_events w /\ w_responses w' = w_responses w.
Proof. cbn zeta. unfold process. destruct (step _ _ _) as [[p outs]|s]; by cbn. Qed.

Lemma handle_event_inv (w w' : web P) : handle_connection_event default_position w = Some w' ->
  exists ev feed, w_feed w = ev :: feed /\ w_pica w' = w_pica w /\ w_poisoned w' = w_poisoned w /\ w_subscribers w' = w_subscribers w /\ w_requests w' = w_requests w
  /\ w_next w' = w_next w /\ w_responses w' = w_responses w /\ (w_end w = None -> w_end w' = None \/ w_subscribers w = 0 \/ w_poisoned w = true \/ (16 < length (w_feed w))%nat)
  /\ (w_devices w' = w_devices w \/ w_devices w' = replay1 default_position (w_devices w) ev).
Proof.
  unfold handle_connection_event. destruct (w_feed w) as [|ev feed] eqn:Ef; [discriminate|]. intros E. exists ev, feed.
  split; [done|]. destruct (16 <? _) eqn:E16; [injection E as <-; split_and!; try done; [|by left]; intros _; right; right; right; rewrite <- Ef; rewrite <- Ef in E16; lia|].
  destruct (w_poisoned w) eqn:Ep; [injection E as <-; cbn; rewrite Ep; split_and!; try done; [|by left]; intros _; auto|].
  destruct ev as [h m|h m]; cbn zeta in E; match goal with E : match broadcast ?e ?v with _ => _ end = _ |- _ => destruct (broadcast e v) eqn:B end; injection E as <-;
  try (apply broadcast_inv in B as [-> _]); try (apply broadcast_none in B; cbn in B); cbn; split_and!; auto.
Qed.

Lemma set_position_more k order m position (w : web P) : let w' := set_position compute k order m position w in
  (w_poisoned w = true -> w' = w)
  /\ (w_poisoned w = false -> w_poisoned w' = true -> w_responses w' = w_responses w)
  /\ (w_poisoned w = false -> w_poisoned w' = false -> exists status, w_responses w' = w_responses w ++ [(k, status)]).
Proof.
  cbn zeta. unfold set_position. destruct (w_poisoned w) eqn:Ep; [done|]. split; [done|].
  destruct (first_with _ _ _) as [[h d]|]; [|cbn; rewrite Ep; split; [done|]; intros _ _; by exists 404].
  destruct (broadcast _ _) as [w1|] eqn:B; cbn [mbind option_bind]; [|done]. apply broadcast_inv in B as [-> _].
  destruct (neighbors _ _ _ _) as [w2|] eqn:N; [|done]. apply neighbors_fields in N as (evs & ->). cbn. rewrite Ep. split; [done|]. intros _ _. by exists 200.
Qed.
Lemma finish_fields k r answer (w : web P) : let w' := finish_request k r answer w in
  w_pica w' = w_pica w /\ w_feed w' = w_feed w /\ w_requests w' = w_requests w /\ w_next w' = w_next w /\ w_subscribers w' = w_subscribers w /\ w_end w' = w_end w
  /\ (w_poisoned w = true -> w_poisoned w' = true)
  /\ (w_responses w' = w_responses w \/ exists status, w_responses w' = w_responses w ++ [(k, status)])
  /\ (forall h, w_devices w' !! h = w_devices w !! h \/ w_devices w' !! h = None \/ exists m pos, r = RqCreate m pos /\ w_devices w' !! h = Some (DeviceInformation CategoryAnchor m pos)).
Proof.
  cbn zeta. unfold finish_request. destruct answer as [a|m'|m'].
  - destruct (w_poisoned w) eqn:Ep; [rewrite Ep; split_and!; auto|]. destruct r as [m pos|m].
    + destruct (broadcast _ _) as [w1|] eqn:B; [apply broadcast_inv in B as [-> _]|]; cbn; (split_and!; try done; [by eauto|]);
        intros h; (destruct (decide (a = h)) as [<-|Ne]; [rewrite lookup_insert; eauto 10|rewrite lookup_insert_ne by done; by left]).
    + destruct (broadcast _ _) as [w1|] eqn:B; [apply broadcast_inv in B as [-> _]|]; cbn; (split_and!; try done; [by eauto|]);
        intros h; (destruct (decide (a = h)) as [<-|Ne]; [rewrite lookup_delete; auto|rewrite lookup_delete_ne by done; by left]).
  - cbn. split_and!; auto. right. by exists 409.
  - cbn. split_and!; auto. right. by exists 404.
Qed.
Lemma poisoned_mono l (w w' : web P) : web_step l w = Some w' -> w_poisoned w = true -> w_poisoned w' = true.
Proof.
  intros S Hp. unfold Http.web_step in S. destruct (w_end w) eqn:Ew; [discriminate|].
  destruct l as [order perm o| | | |order m position|r|k|k|k].
  - destruct (process_fields order perm o w) as (_ & E & _). rewrite <- E in Hp. destruct o; try discriminate S; apply (inj Some) in S; by rewrite <- S.
  - apply handle_event_inv in S as (? & ? & _ & _ & E & _). by rewrite E.
  - by injection S as <-.
  - destruct (_ =? _); [discriminate|]. by injection S as <-.
  - destruct (bool_decide _); [|discriminate]. injection S as <-. set (w1 := w_set_next _ w). destruct (set_position_more (w_next w) order m position w1) as (E & _). by rewrite E.
  - by injection S as <-.
  - destruct (w_requests w !! k) as [[r ab|]|]; [|discriminate..]. destruct (process_fields (fun l => l) (fun l => reflexivity l) (command_of r) w) as (_ & E & _).
    destruct (process _ _ _ _ _) as [w1 outs]. cbn in E. destruct (reply_of outs); injection S as <-; cbn; by rewrite E.
  - destruct (w_requests w !! k) as [[|r answer]|]; [discriminate| |discriminate]. injection S as <-. set (w1 := w_set_requests _ w).
    destruct (finish_fields k r answer w1) as (_ & _ & _ & _ & _ & _ & E & _). by apply E.
  - destruct (w_requests w !! k) as [[r [|]|r answer]|]; try discriminate; by injection S as <-.
Qed.

(** ** The requests and the responses *)
Record rinv (w : web P) : Prop := {
  ri_wf : forall k q, w_requests w !! k = Some q -> match q with RqQueued r _ | RqReplied r _ => wf_request r end;
  ri_next : forall k q, w_requests w !! k = Some q -> k < w_next w;
  ri_dup : NoDup (w_responses w).*1;
  ri_resp : forall k status, (k, status) ∈ w_responses w -> k < w_next w /\ w_requests w !! k = None }.
Lemma rinv_new : rinv web_new.
Proof. split; cbn; try by intros k q; rewrite lookup_empty. - constructor. - by intros ? ? ?%elem_of_nil. Qed.

Lemma rinv_eq (w w' : web P) : rinv w -> w_requests w' = w_requests w -> w_next w' = w_next w -> w_responses w' = w_responses w -> rinv w'.
Proof. intros [I1 I2 I3 I4] E1 E2 E3. split; by rewrite ?E1, ?E2, ?E3. Qed.
Lemma rinv_respond (w w' : web P) k status : rinv w -> k < w_next w -> w_requests w !! k = None -> (forall s, (k, s) ∉ w_responses w) ->
  w_requests w' = w_requests w -> w_next w' = w_next w -> w_responses w' = w_responses w ++ [(k, status)] -> rinv w'.
Proof.
  intros [I1 I2 I3 I4] Lt Ln Nin E1 E2 E3. split; rewrite ?E1, ?E2, ?E3; try done.
  - rewrite fmap_app. cbn. apply NoDup_app. split; [done|]. split; [|apply NoDup_singleton]. intros x Hx ->%elem_of_list_singleton.
    apply elem_of_list_fmap in Hx as ([j s] & -> & Hx). by apply (Nin s).
  - intros j s [Hj|Hj]%elem_of_app; [by eapply I4|]. apply elem_of_list_singleton in Hj. by injection Hj as -> ->.
Qed.
Lemma rinv_remove (w : web P) k : rinv w -> rinv (w_set_requests (delete k (w_requests w)) w).
Proof.
  intros [I1 I2 I3 I4]. split; cbn; try done.
  - intros j q [_ L]%lookup_delete_Some. by eapply I1.
  - intros j q [_ L]%lookup_delete_Some. by eapply I2.
  - intros j s Hj. destruct (I4 _ _ Hj). split; [done|]. apply lookup_delete_None. by right.
Qed.
Lemma rinv_change (w : web P) k q q' : rinv w -> w_requests w !! k = Some q -> match q with RqQueued r _ | RqReplied r _ => match q' with RqQueued r' _ | RqReplied r' _ => r' = r end end ->
  rinv (w_set_requests (<[k := q']> (w_requests w)) w).
Proof.
  intros [I1 I2 I3 I4] Lk Hq. split; cbn; try done.
  - intros j x [[<- <-]|[_ L]]%lookup_insert_Some; [|by eapply I1]. specialize (I1 _ _ Lk). destruct q, q'; by subst.
  - intros j x [[<- <-]|[_ L]]%lookup_insert_Some; [|by eapply I2]. by eapply I2.
  - intros j s Hj. destruct (I4 _ _ Hj). split; [done|]. rewrite lookup_insert_ne; [done|]. congruence.
Qed.
Lemma rinv_newnext (w w' : web P) : rinv w -> w_requests w' = w_requests w -> w_next w' = w_next w + 1 -> w_responses w' = w_responses w -> rinv w'.
Proof.
  intros [I1 I2 I3 I4] E1 E2 E3. split; rewrite ?E1, ?E2, ?E3; try done.
  - intros k q L. apply I2 in L. lia.
  - intros k s L. destruct (I4 _ _ L). split; [lia|done].
Qed.
Lemma rinv_step l (w w' : web P) : rinv w -> wf_web_label l -> web_step l w = Some w' -> rinv w'.
Proof.
  intros I Wl S. unfold Http.web_step in S. destruct (w_end w) eqn:Ew; [discriminate|].
  destruct l as [order perm o| | | |order m position|r|k|k|k].
  - destruct (process_fields order perm o w) as (_ & _ & _ & E1 & E2 & _ & E3). destruct o; try discriminate S; apply (inj Some) in S; rewrite <- S; by apply (rinv_eq w).
  - apply handle_event_inv in S as (? & ? & _ & _ & _ & _ & E1 & E2 & E3 & _). by apply (rinv_eq w).
  - injection S as <-. by apply (rinv_eq w).
  - destruct (_ =? _); [discriminate|]. injection S as <-. by apply (rinv_eq w).
  - destruct (bool_decide _); [|discriminate]. injection S as <-. set (w1 := w_set_next _ w).
    assert (rinv w1) as I1 by (by apply (rinv_newnext w)).
    destruct (set_position_fields compute (w_next w) order m position w1) as (_ & _ & E1 & E2 & _).
    destruct (set_position_more (w_next w) order m position w1) as (A & B & C).
    destruct (w_poisoned w1) eqn:Ep; [by rewrite (A eq_refl)|].
    destruct (w_poisoned (set_position compute (w_next w) order m position w1)) eqn:Ep'; [apply (rinv_eq w1); auto|].
    destruct (C eq_refl eq_refl) as [status E3]. apply (rinv_respond w1 _ (w_next w) status); try done; [cbn; lia| |].
    + destruct (w_requests w1 !! w_next w) as [q|] eqn:L; [|done]. apply (ri_next _ I) in L. lia.
    + intros s Hs. destruct (ri_resp _ I _ _ Hs). lia.
  - injection S as <-. destruct I as [I1 I2 I3 I4]. split; cbn; try done.
    + intros k q [[<- <-]|[_ L]]%lookup_insert_Some; [done|by eapply I1].
    + intros k q [[<- <-]|[_ L]]%lookup_insert_Some; [lia|]. apply I2 in L. lia.
    + intros k s Hk. destruct (I4 _ _ Hk). split; [lia|]. rewrite lookup_insert_ne; [done|lia].
  - destruct (w_requests w !! k) as [[r ab|]|] eqn:Lk; [|discriminate..]. destruct (process_fields (fun l => l) (fun l => reflexivity l) (command_of r) w) as (_ & _ & _ & E1 & E2 & _ & E3).
    destruct (process _ _ _ _ _) as [w1 outs]. cbn [fst] in *. assert (rinv w1) as I1 by (by apply (rinv_eq w)).
    destruct (reply_of outs); injection S as <-; [|done]. destruct ab; [by apply rinv_remove|]. apply (rinv_change w1 k (RqQueued r false)); [done|by rewrite E1|done].
  - destruct (w_requests w !! k) as [[|r answer]|] eqn:Lk; [discriminate| |discriminate]. injection S as <-. set (w1 := w_set_requests _ w).
    assert (rinv w1) as I1 by (by apply rinv_remove).
    destruct (finish_fields k r answer w1) as (_ & _ & E1 & E2 & _ & _ & _ & [E3|[status E3]] & _); [by apply (rinv_eq w1)|].
    apply (rinv_respond w1 _ k status); try done; [by apply (ri_next _ I _ _ Lk)|by apply lookup_delete|].
    intros s Hs. destruct (ri_resp _ I _ _ Hs). congruence.
  - destruct (w_requests w !! k) as [[r [|]|r answer]|] eqn:Lk; try discriminate; injection S as <-; [|by apply rinv_remove].
    by apply (rinv_change w k (RqQueued r false)).
Qed.
Lemma served_rinv ls (w : web P) : served ls w -> rinv w.
Proof. revert ls w. apply served_ind; [apply rinv_new|]. intros ls w l w' _ I Wl S. by eapply rinv_step. Qed.

(** ** The scene *)
Lemma served_winv ls (w : web P) : served ls w -> throughout one_at_a_time ls web_new -> w_end w = None -> w_poisoned w = false -> winv default_position w.
Proof.
  revert ls w. apply (served_ind default_position compute (fun ls w => throughout one_at_a_time ls web_new -> w_end w = None -> w_poisoned w = false -> winv default_position w)).
  - intros _ _ _. apply winv_new.
  - intros ls w l w' Sv IH Wl S T En Ep. destruct (throughout_app _ _ _ _ _ _ _ T (proj2 Sv)) as [T0 One].
    eapply winv_step; try done.
    + apply IH; [done| |].
      * unfold Http.web_step in S. by destruct (w_end w).
      * destruct (w_poisoned w) eqn:E; [|done]. by rewrite (poisoned_mono _ _ _ S E) in Ep.
    + intros k q L. by apply (ri_wf _ (served_rinv _ _ Sv) k q).
Qed.
Lemma scene_exact ls (w : web P) : served ls w -> throughout one_at_a_time ls web_new -> w_end w = None -> w_poisoned w = false ->
  w_feed w = [] -> w_requests w = ∅ -> forall h c m, in_scene w h c m <-> in_environment (w_pica w) h c m.
Proof.
  intros Sv T En Ep Ef Er. destruct (served_winv _ _ Sv T En Ep) as [I1 I2 I3 I4 I5 I6 I7 I8 I9 I10].
  assert (forall h c m, in_scene w h c m <-> shape (w_devices w) h = Some (c, m)) as Es.
  { intros h c m. unfold in_scene, shape. split.
    - intros (i & -> & <- & <-). done.
    - destruct (w_devices w !! h) as [i|]; [|done]. cbn. intros E. injection E as <- <-. by exists i. }
  rewrite Ef in *. cbn [replay foldl] in *. intros h c m. rewrite Es. split.
  - intros L. destruct (I6 _ _ _ L) as [(-> & [d Ld] & ->)|(-> & [La|D])].
    + left. split; [done|]. exists d. split; [done|]. by destruct (pi_device _ _ I1 _ _ Ld) as (_ & _ & ? & _).
    + by right.
    + destruct D as [k D]. by rewrite Er, lookup_empty in D.
  - intros [(-> & d & Ld & <-)|(-> & La)].
    + destruct (pi_device _ _ I1 _ _ Ld) as (_ & _ & -> & _). apply I2. by exists d.
    + destruct (I3 _ _ La) as [C|?]; [|done]. destruct C as (k & pos & C). by rewrite Er, lookup_empty in C.
Qed.
Lemma position_frame l (w w' : web P) h i : web_step l w = Some w' -> w_devices w' !! h = Some i ->
  w_devices w !! h = Some i
  \/ (l = WEvent /\ di_position i = default_position /\ exists feed, w_feed w = Connected h (di_mac i) :: feed)
  \/ (exists order i0, l = WSetPosition order (di_mac i) (di_position i) /\ w_devices w !! h = Some i0 /\ di_mac i0 = di_mac i)
  \/ (exists k answer, l = WFinish k /\ w_requests w !! k = Some (RqReplied (RqCreate (di_mac i) (di_position i)) answer)).
Proof.
  intros S L. unfold Http.web_step in S. destruct (w_end w) eqn:Ew; [discriminate|].
  destruct l as [order perm o| | | |order m position|r|k|k|k].
  - left. destruct (process_fields order perm o w) as (E & _). destruct o; try discriminate S; apply (inj Some) in S; rewrite <- S in L; congruence.
  - apply handle_event_inv in S as (ev & feed & Ef & _ & _ & _ & _ & _ & _ & _ & [E|E]); rewrite E in L; [by left|].
    destruct ev as [h' m|h' m]; cbn [replay1] in L.
    + apply lookup_insert_Some in L as [[<- <-]|[_ L]]; [right; left; split_and!; try done; by exists feed|by left].
    + apply lookup_delete_Some in L as [_ L]. by left.
  - injection S as <-. by left.
  - destruct (_ =? _); [discriminate|]. injection S as <-. by left.
  - destruct (bool_decide _); [|discriminate]. injection S as <-. set (w1 := w_set_next _ w) in *. unfold set_position in L.
    destruct (w_poisoned w1); [by left|]. destruct (first_with m (w_devices w1) order) as [[j d]|] eqn:F; [|by left]. apply first_with_inv in F as (_ & Lj & Hm).
    assert (<[j := DeviceInformation (di_category d) (di_mac d) position]> (w_devices w1) !! h = Some i) as L'.
    { destruct (broadcast _ _) as [w2|] eqn:B; cbn [mbind option_bind] in L; [|done]. apply broadcast_inv in B as [-> _].
      destruct (neighbors _ _ _ _) as [w2|] eqn:N; [|done]. by apply neighbors_fields in N as (evs & ->). }
    apply lookup_insert_Some in L' as [[<- <-]|[_ L']]; [|by left]. right. right. left. exists order, d. cbn. rewrite Hm. done.
  - injection S as <-. by left.
  - destruct (w_requests w !! k) as [[r ab|]|]; [|discriminate..]. destruct (process_fields (fun l => l) (fun l => reflexivity l) (command_of r) w) as (E & _).
    destruct (process _ _ _ _ _) as [w1 outs]. cbn in E. left. destruct (reply_of outs); injection S as <-; cbn in L; congruence.
  - destruct (w_requests w !! k) as [[|r answer]|] eqn:Lk; [discriminate| |discriminate]. injection S as <-. set (w1 := w_set_requests _ w) in *.
    destruct (finish_fields k r answer w1) as (_ & _ & _ & _ & _ & _ & _ & _ & D). destruct (D h) as [E|[E|(m & pos & -> & E)]]; rewrite E in L; [by left|done|].
    right. right. right. exists k, answer. split; [done|]. by injection L as <-.
  - left. destruct (w_requests w !! k) as [[r [|]|r answer]|]; try discriminate; by injection S as <-.
Qed.
Lemma omap_keys {A} (m : gmap N A) order : order ≡ₚ (map_to_list m).*1 -> omap (fun h => m !! h) order ≡ₚ (map_to_list m).*2.
Proof.
  intros ->. assert (forall l : list (N * A), (forall x, x ∈ l -> m !! x.1 = Some x.2) -> omap (fun h => m !! h) l.*1 = l.*2) as G.
  { induction l as [|[k a] l IH]; intros H; [done|]. pose proof (H (k, a) ltac:(left)) as E. cbn in E. cbn. rewrite E. f_equal. apply IH. intros x Hx. apply H. by right. }
  rewrite G; [done|]. intros [k a] Hx. by apply elem_of_map_to_list in Hx.
Qed.

(** ** set-position *)
(** The announcements about one neighbour. *)
Definition announce (d o : device_information P) : list (event P) :=
  let '(dist, az, el) := compute (di_position d) (di_position o) in
  let '(dist', az', el') := compute (di_position o) (di_position d) in
  [NeighborUpdated (di_category d) (di_mac d) (di_category o) (di_mac o) dist az el;
   NeighborUpdated (di_category o) (di_mac o) (di_category d) (di_mac d) dist' az' el'].
Lemma neighbors_run (Sym : forall p q, (compute p q).1.1 = (compute q p).1.1) d l (w : web P) : 0 < w_subscribers w ->
  neighbors compute d l w = Some (w_set_events (w_events w ++ concat (map (announce d) (List.filter (fun o => negb (bool_decide (di_mac o = di_mac d))) l))) w).
Proof.
  revert w. induction l as [|o l IH]; intros w Hs; cbn.
  - rewrite app_nil_r. by destruct w.
  - destruct (bool_decide _) eqn:B; cbn [negb]; [by apply IH|]. cbn [map concat]. unfold announce at 1. specialize (Sym (di_position d) (di_position o)).
    destruct (compute (di_position d) (di_position o)) as [[d1 a1] e1], (compute (di_position o) (di_position d)) as [[d2 a2] e2]. cbn in Sym. subst d2. rewrite N.eqb_refl. cbn [negb].
    rewrite broadcast_some by done. cbn [mbind option_bind]. rewrite broadcast_some by done. cbn [mbind option_bind]. rewrite IH by done. cbn. by rewrite <- !app_assoc.
Qed.
Lemma first_with_some m (s : gmap N (device_information P)) order : (exists h, h ∈ order /\ exists d, s !! h = Some d /\ di_mac d = m) -> exists h d, first_with m s order = Some (h, d).
Proof.
  intros (h & Hh & d & L & <-). unfold first_with.
  match goal with |- context [head ?l] => destruct l as [|[h' d'] t] eqn:E end; [|by exists h', d'].
  assert ((h, d) ∈ ([] : list (N * device_information P))) as X; [|by apply elem_of_nil in X]. rewrite <- E.
  apply elem_of_list_omap. exists h. split; [done|]. rewrite L. by rewrite bool_decide_true.
Qed.
Lemma keys_of (w : web P) order h : order ≡ₚ (map_to_list (w_devices w)).*1 -> h ∈ order <-> is_Some (w_devices w !! h).
Proof.
  intros ->. rewrite elem_of_list_fmap. split.
  - intros ([k i] & -> & H). apply elem_of_map_to_list in H. by eexists.
  - intros [i L]. exists (h, i). split; [done|]. by apply elem_of_map_to_list.
Qed.
Lemma set_position_run (Sym : forall p q, (compute p q).1.1 = (compute q p).1.1) (w w' : web P) order m position :
  web_step (WSetPosition order m position) w = Some w' -> w_poisoned w = false -> 0 < w_subscribers w -> (exists h c, in_scene w h c m) ->
  exists h i, w_devices w !! h = Some i /\ di_mac i = m
  /\ w' = Web (w_pica w) (w_feed w) (<[h := DeviceInformation (di_category i) m position]> (w_devices w)) false (w_subscribers w) (w_requests w) (w_next w + 1)
       (w_events w ++ DeviceUpdated (di_category i) m position :: concat (map (announce (DeviceInformation (di_category i) m position))
          (List.filter (fun o => negb (bool_decide (di_mac o = m))) (omap (fun h => w_devices w !! h) order)))) (w_responses w ++ [(w_next w, 200)]) (w_end w).
Proof.
  intros S Ep Hs (h0 & c & d0 & L0 & _ & Hm0). unfold Http.web_step in S. destruct (w_end w) eqn:Ew; [discriminate|].
  destruct (bool_decide_reflect (order ≡ₚ (map_to_list (w_devices w)).*1)) as [Pm|]; [|discriminate]. injection S as <-.
  destruct (first_with_some m (w_devices w) order) as (h & d & F). { exists h0. split; [|by exists d0]. apply (keys_of w _ _ Pm). by eexists. }
  pose proof F as F'. apply first_with_inv in F' as (_ & L & Hm). exists h, d. split; [done|]. split; [done|].
  unfold set_position. cbn [w_poisoned w_devices w_set_next]. rewrite Ep, F. rewrite broadcast_some by done. cbn [mbind option_bind].
  rewrite (neighbors_run Sym) by done. cbn [di_mac di_category]. rewrite Hm.
  assert (List.filter (fun o : device_information P => negb (bool_decide (di_mac o = m))) (omap (fun k => <[h := DeviceInformation (di_category d) m position]> (w_devices w) !! k) order)
    = List.filter (fun o => negb (bool_decide (di_mac o = m))) (omap (fun k => w_devices w !! k) order)) as E.
  { clear Pm F. induction order as [|k order IH]; [done|]. cbn [omap list_omap]. destruct (decide (h = k)) as [<-|Ne].
    - rewrite lookup_insert, L. cbn [List.filter di_mac]. rewrite !bool_decide_true by done. exact IH.
    - rewrite lookup_insert_ne by done. destruct (w_devices w !! k) as [i|]; [|exact IH]. cbn [List.filter]. destruct (negb _); [f_equal|]; exact IH. }
  cbn [w_devices w_set_events w_set_devices w_set_next]. rewrite E. unfold respond. unfold w_set_responses, w_set_events, w_set_devices, w_set_next. cbn [w_pica w_feed w_devices w_poisoned w_subscribers w_requests w_next w_events w_responses w_end]. by rewrite Ep, Ew, <- app_assoc.
Qed.
Lemma set_position_unknown (w w' : web P) order m position :
  web_step (WSetPosition order m position) w = Some w' -> w_poisoned w = false -> ~ (exists h c, in_scene w h c m) ->
  w' = Web (w_pica w) (w_feed w) (w_devices w) false (w_subscribers w) (w_requests w) (w_next w + 1) (w_events w) (w_responses w ++ [(w_next w, 404)]) (w_end w).
Proof.
  intros S Ep No. unfold Http.web_step in S. destruct (w_end w) eqn:Ew; [discriminate|]. destruct (bool_decide _); [|discriminate]. injection S as <-.
  unfold set_position. cbn [w_poisoned w_devices w_set_next]. rewrite Ep. destruct (first_with m (w_devices w) order) as [[h d]|] eqn:F.
  - destruct No. apply first_with_inv in F as (_ & L & Hm). by exists h, (di_category d), d.
  - unfold respond, w_set_responses, w_set_next. cbn [w_pica w_feed w_devices w_poisoned w_subscribers w_requests w_next w_events w_responses w_end]. by rewrite Ep, Ew.
Qed.

(** ** With a listener *)
Lemma alive_step (Sym : forall p q, (compute p q).1.1 = (compute q p).1.1) l (w w' : web P) : listened w l -> read_in_time w l -> w_poisoned w = false ->
  web_step l w = Some w' -> w_poisoned w' = false /\ (w_end w' = None \/ exists s, w_end w' = Some (EndPica s)).
Proof.
  intros Ls Rt Ep S. unfold read_in_time in Rt. assert (l = WSubscribe \/ l <> WSubscribe) as [-> | Nl] by (destruct l; auto).
  { unfold Http.web_step in S. destruct (w_end w) eqn:Ew; [discriminate|]. injection S as <-. cbn. auto. }
  destruct Ls as [Ls|]; [|done]. pose proof S as S0. unfold Http.web_step in S. destruct (w_end w) eqn:Ew; [discriminate|].
  assert (forall r : anchor_request P, let w1 := (process compute (fun l => l) (fun l => reflexivity l) (command_of r) w).1 in w_poisoned w1 = false /\ (w_end w1 = None \/ exists s, w_end w1 = Some (EndPica s))) as Pr.
  { intros r. cbn zeta. unfold process. destruct (step _ _ _) as [[p outs]|s]; cbn; rewrite Ep, ?Ew; eauto. }
  destruct l as [order perm o| | | |order m position|r|k|k|k]; try done.
  - assert (w' = (process compute order perm o w).1) as -> by (by destruct o; try discriminate S; injection S as <-).
    unfold process. destruct (step _ _ _) as [[p outs]|s]; cbn; rewrite Ep, ?Ew; eauto.
  - apply handle_event_inv in S as (? & ? & _ & _ & E & _ & _ & _ & _ & A & _). rewrite E. split; [done|]. destruct (A Ew) as [?|[?|[?|?]]]; [by left|lia|congruence|lia].
  - destruct (_ =? _); [discriminate|]. injection S as <-. cbn. auto.
  - destruct (bool_decide (order ≡ₚ (map_to_list (w_devices w)).*1)) eqn:Pm; [|discriminate]. apply bool_decide_eq_true in Pm.
    destruct (first_with m (w_devices w) order) as [[h d]|] eqn:F.
    + apply first_with_inv in F as (_ & L & Hm). destruct (set_position_run Sym _ _ _ _ _ S0 Ep Ls) as (? & ? & _ & _ & ->); [by exists h, (di_category d), d|]. cbn. auto.
    + injection S as <-. unfold set_position. cbn [w_poisoned w_devices w_set_next]. rewrite Ep, F. cbn. auto.
  - injection S as <-. cbn. auto.
  - destruct (w_requests w !! k) as [[r ab|]|]; [|discriminate..]. specialize (Pr r). destruct (process _ _ _ _ _) as [w1 outs]. cbn in Pr.
    destruct (reply_of outs); injection S as <-; done.
  - destruct (w_requests w !! k) as [[|r answer]|]; [discriminate| |discriminate]. injection S as <-. unfold finish_request.
    destruct answer as [a|m|m]; cbn [w_poisoned w_set_requests]; rewrite ?Ep; [|cbn; auto..].
    destruct r as [m pos|m]; rewrite broadcast_some by done; cbn; auto.
  - destruct (w_requests w !! k) as [[r [|]|r answer]|]; try discriminate; injection S as <-; cbn; auto.
Qed.
Lemma alive (Sym : forall p q, (compute p q).1.1 = (compute q p).1.1) ls (w : web P) : served ls w -> throughout listened ls web_new -> throughout read_in_time ls web_new ->
  w_poisoned w = false /\ (w_end w = None \/ exists s, w_end w = Some (EndPica s)).
Proof.
  revert ls w. apply (served_ind default_position compute (fun ls w => throughout listened ls web_new -> throughout read_in_time ls web_new -> w_poisoned w = false /\ (w_end w = None \/ exists s, w_end w = Some (EndPica s)))).
  - intros _ _. cbn. auto.
  - intros ls w l w' Sv IH Wl S T1 T2. destruct (throughout_app _ _ _ _ _ _ _ T1 (proj2 Sv)) as [T1' Q1], (throughout_app _ _ _ _ _ _ _ T2 (proj2 Sv)) as [T2' Q2].
    destruct (IH T1' T2') as [Ep _]. by eapply alive_step.
Qed.
End Facts.

(** ** Routes *)
Lemma trim_slashes_inv s : exists n, s = replicate n CH_SLASH ++ trim_slashes s.
Proof.
  induction s as [|c s [n IH]]; [by exists 0%nat|]. cbn [trim_slashes]. destruct (N.eqb_spec c CH_SLASH) as [->|Ne].
  - exists (S n). cbn. by rewrite <- IH.
  - by exists 0%nat.
Qed.
Lemma trim_slashes_replicate n s : trim_slashes (replicate n CH_SLASH ++ s) = trim_slashes s.
Proof. induction n as [|n IH]; [done|]. cbn. exact IH. Qed.
Lemma split_slash_one s : CH_SLASH ∉ s -> split_slash s = [s].
Proof.
  induction s as [|c s IH]; intros H; [done|]. apply not_elem_of_cons in H as [Hc Hs]. cbn [split_slash].
  destruct (N.eqb_spec c CH_SLASH) as [->|_]; [done|]. by rewrite IH.
Qed.
Lemma split_slash_app a b : CH_SLASH ∉ a -> split_slash (a ++ CH_SLASH :: b) = a :: split_slash b.
Proof.
  induction a as [|c a IH]; intros H; [done|]. apply not_elem_of_cons in H as [Hc Hs]. cbn [app split_slash].
  destruct (N.eqb_spec c CH_SLASH) as [->|_]; [done|]. by rewrite IH.
Qed.
Lemma split_slash_inv s : match split_slash s with [] => False | [a] => s = a /\ CH_SLASH ∉ a | a :: l => exists t, s = a ++ CH_SLASH :: t /\ split_slash t = l /\ CH_SLASH ∉ a end.
Proof.
  induction s as [|c s IH]; cbn [split_slash]; [split; [done|]; by intros ?%elem_of_nil|].
  destruct (N.eqb_spec c CH_SLASH) as [->|Ne].
  - destruct (split_slash s) as [|a l] eqn:E; [done|]. exists s. split; [done|]. split; [done|]. by intros ?%elem_of_nil.
  - destruct (split_slash s) as [|a [|b l]].
    + done.
    + destruct IH as [-> H]. split; [done|]. by apply not_elem_of_cons.
    + destruct IH as (t & -> & E & H). exists t. split; [done|]. split; [done|]. by apply not_elem_of_cons.
Qed.
Lemma split_two s a b : split_slash s = [a; b] -> s = a ++ CH_SLASH :: b /\ CH_SLASH ∉ b.
Proof.
  intros E. pose proof (split_slash_inv s) as H. rewrite E in H. destruct H as (t & -> & Et & Ha).
  pose proof (split_slash_inv t) as H. rewrite Et in H. destruct H as [-> Hb]. done.
Qed.

(** The commands with an argument. *)
Definition commands : list bytes := [str "init-uci-device"; str "set-position"; str "create-anchor"; str "destroy-anchor"].
Section Routes.
Context {P : Type} (default_position : P).
Notation http_request := (http_request default_position).
Notation position_of := (position_of default_position).
Notation with_position := (with_position default_position).

Lemma http_two path b command argument : command ∈ commands -> names path command argument ->
  http_request path b =
    if bool_decide (command = str "init-uci-device") then with_position RoSetPosition argument b
    else if bool_decide (command = str "set-position") then with_position RoSetPosition argument b
    else if bool_decide (command = str "create-anchor") then with_position RoCreateAnchor argument b
    else match mac_of_string argument with None => RoNotAcceptable | Some m => RoDestroyAnchor m end.
Proof.
  intros Hc (n & -> & Ha).
  assert (CH_SLASH ∉ command /\ exists c t, command = c :: t /\ c <> CH_SLASH) as (Hs & c & t & Ect & Hct).
  { assert (forall x, existsb (N.eqb CH_SLASH) x = false -> CH_SLASH ∉ x) as G.
    { intros x F Hx. assert (existsb (N.eqb CH_SLASH) x = true); [|congruence]. apply existsb_exists. exists CH_SLASH. split; [by apply elem_of_list_In|by apply N.eqb_refl]. }
    unfold commands in Hc. repeat (apply elem_of_cons in Hc as [->|Hc]; [split; [by apply G|]; eexists _, _; split; [reflexivity|by vm_compute]|]). by apply elem_of_nil in Hc. }
  set (path := replicate n CH_SLASH ++ command ++ CH_SLASH :: argument).
  assert (split_slash (trim_slashes path) = [command; argument]) as E.
  { unfold path. rewrite trim_slashes_replicate. rewrite Ect at 1. cbn [app trim_slashes]. destruct (N.eqb_spec c CH_SLASH); [done|].
    change (c :: t ++ CH_SLASH :: argument) with ((c :: t) ++ CH_SLASH :: argument). rewrite <- Ect, split_slash_app by done. by rewrite split_slash_one. }
  unfold Http.http_request. rewrite E.
  assert (existsb (fun p => bool_decide (p = path)) static_paths = false) as ->.
  { destruct (existsb _ _) eqn:X; [|done]. apply existsb_exists in X as (p & Hp & X). apply bool_decide_eq_true in X. rewrite <- X in E.
    assert (Forall (fun p => match split_slash (trim_slashes p) with [a; b] => a ∉ commands | _ => True end) static_paths) as F.
    { unfold static_paths. repeat constructor; vm_compute; intros Hx; repeat (apply elem_of_cons in Hx as [Hx|Hx]; [discriminate|]); by apply elem_of_nil in Hx. }
    rewrite List.Forall_forall in F. specialize (F _ Hp). rewrite E in F. done. }
  destruct (bool_decide (command = str "init-uci-device")) eqn:E1; [done|]. destruct (bool_decide (command = str "set-position")) eqn:E2; [done|].
  destruct (bool_decide (command = str "create-anchor")) eqn:E3; [done|]. apply bool_decide_eq_false in E1, E2, E3.
  rewrite bool_decide_true; [done|]. unfold commands in Hc. do 3 (apply elem_of_cons in Hc as [Hc|Hc]; [done|]). by apply elem_of_list_singleton in Hc.
Qed.
Lemma position_asks b position : position_of b = Some position -> asks_for default_position b position.
Proof. unfold asks_for. destruct b; [intros [= ->]; by left|intros [= ->]; by right|discriminate]. Qed.
Lemma position_invalid b : position_of b = None -> b = BodyInvalid.
Proof. by destruct b. Qed.
Lemma http_route path b : match http_request path b with
  | RoSetPosition m position => exists mac, (names path (str "init-uci-device") mac \/ names path (str "set-position") mac) /\ mac_of_string mac = Some m /\ asks_for default_position b position
  | RoCreateAnchor m position => exists mac, names path (str "create-anchor") mac /\ mac_of_string mac = Some m /\ asks_for default_position b position
  | RoDestroyAnchor m => exists mac, names path (str "destroy-anchor") mac /\ mac_of_string mac = Some m
  | RoNotAcceptable => exists command mac, command ∈ commands /\ names path command mac /\ (mac_of_string mac = None \/ command <> str "destroy-anchor" /\ b = BodyInvalid)
  | RoNotFound => forall command mac, command ∈ commands -> ~ names path command mac
  | _ => True
  end.
Proof.
  destruct (http_request path b) eqn:R; try done; cycle 3.
  { intros command mac Hc Hn. rewrite (http_two _ b _ _ Hc Hn) in R. unfold Http.with_position in R.
    repeat match type of R with context [bool_decide ?A] => destruct (bool_decide A) end; destruct (mac_of_string mac), (position_of b); discriminate R. }
  all: unfold Http.http_request in R; destruct (existsb _ _); [discriminate|];
    destruct (split_slash (trim_slashes path)) as [|command [|mac [|? ?]]] eqn:Sp; try discriminate R;
    [destruct (bool_decide _); [discriminate R|]; destruct (bool_decide _); discriminate R|];
    apply split_two in Sp as [Et Hm]; destruct (trim_slashes_inv path) as [n En]; rewrite Et in En;
    assert (names path command mac) as Hn by (by exists n);
    unfold Http.with_position in R.
  all: repeat (match type of R with context [bool_decide ?A] => destruct (bool_decide_reflect A) as [->|?] end; try discriminate R); try discriminate R.
  all: destruct (mac_of_string mac) as [m'|] eqn:Em; try discriminate R; try (destruct (position_of b) as [pos|] eqn:Ep; try discriminate R).
  all: try apply position_asks in Ep; try apply position_invalid in Ep.
  all: try (injection R as <- <-); try (injection R as <-).
  all: try (exists mac; split_and!; eauto; fail).
  all: try (eexists _, mac; split_and!; [|exact Hn|]; [unfold commands; set_solver|]; auto; fail).
  all: try (eexists _, mac; split_and!; [|exact Hn|]; [unfold commands; set_solver|]; right; split; [by vm_compute|done]).
Qed.
End Routes.
