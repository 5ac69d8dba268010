(** Proofs about the web server. *)
From Verif Require Import Base Uci MacAddress AppConfig Codec Session Device Pica CodecSpec ContextSpec HistorySpec InvFacts StepFacts PropsContext Http HttpSpec.

Section Facts.
Context {P : Type} (default_position : P) (compute : P -> P -> N * Z * Z).
Notation web_step := (web_step default_position compute).
Notation web_run := (web_run default_position compute).

(** ** Runs *)
Lemma web_run_app ls ls' w : web_run (ls ++ ls') w = (w' ← web_run ls w; web_run ls' w').
Proof. revert w. induction ls as [|l ls IH]; intros w; [done|]. cbn. destruct (web_step l w); [apply IH|done]. Qed.
Lemma served_ind (Q : list (web_label P) -> web P -> Prop) : Q [] web_new ->
  (forall ls w l w', served default_position compute ls w -> Q ls w -> wf_web_label l -> web_step l w = Some w' -> Q (ls ++ [l]) w') ->
  forall ls w, served default_position compute ls w -> Q ls w.
Proof.
  intros H0 HS ls. induction ls as [|l ls IH] using rev_ind; intros w [F R]; [by injection R as <-|].
  apply Forall_app in F as [F Fl]. inversion Fl; subst. rewrite web_run_app in R. destruct (web_run ls web_new) as [w0|] eqn:R0; [|discriminate].
  cbn in R. destruct (web_step l w0) as [w1|] eqn:S; [|discriminate]. injection R as <-. eapply HS; [split; [done|exact R0]|by apply IH|done|done].
Qed.
Lemma throughout_app Q ls l w w' : throughout default_position compute Q (ls ++ [l]) w -> web_run ls w = Some w' ->
  throughout default_position compute Q ls w /\ Q w' l.
Proof.
  revert w. induction ls as [|x ls IH]; intros w T R; cbn in T, R.
  - injection R as <-. by destruct T.
  - destruct T as [Qx T]. cbn. destruct (web_step x w) as [w1|] eqn:S; [|discriminate]. destruct (IH _ T R). by repeat split.
Qed.

(** ** Fields *)
Lemma broadcast_inv (ev : event P) (w w' : web P) : broadcast ev w = Some w' -> w' = w_set_events (w_events w ++ [ev]) w /\ w_subscribers w <> 0.
Proof. unfold broadcast. destruct (N.eqb_spec (w_subscribers w) 0); [discriminate|]. intros E. by injection E as <-. Qed.
Lemma broadcast_some (ev : event P) (w : web P) : 0 < w_subscribers w -> broadcast ev w = Some (w_set_events (w_events w ++ [ev]) w).
Proof. intros H. unfold broadcast. by destruct (N.eqb_spec (w_subscribers w) 0); [lia|]. Qed.
Lemma neighbors_fields (d : device_information P) l (w w' : web P) : neighbors compute d l w = Some w' -> exists evs, w' = w_set_events (w_events w ++ evs) w.
Proof.
  revert w. induction l as [|o l IH]; intros w E; cbn in E.
  - injection E as <-. exists []. rewrite app_nil_r. by destruct w.
  - destruct (bool_decide _); [by apply IH|]. destruct (compute _ _) as [[a b] c], (compute _ _) as [[a' b'] c']. destruct (negb _); [discriminate|].
    destruct (broadcast _ w) as [w1|] eqn:E1; [|discriminate]. cbn in E. destruct (broadcast _ w1) as [w2|] eqn:E2; [|discriminate]. cbn in E.
    apply broadcast_inv in E1 as [-> _], E2 as [-> _]. apply IH in E as (evs & ->). eexists. cbn. by rewrite <- !app_assoc.
Qed.

(** ** The scene and the pending events *)
Definition shape (s : gmap N (device_information P)) (h : N) : option (category * mac_address) :=
  (fun i => (di_category i, di_mac i)) <$> s !! h.
Definition replay1 (s : gmap N (device_information P)) (ev : pica_event) : gmap N (device_information P) :=
  match ev with
  | Connected h m => <[h := DeviceInformation CategoryUci m default_position]> s
  | Disconnected h _ => delete h s
  end.
Definition replay (feed : list pica_event) (s : gmap N (device_information P)) : gmap N (device_information P) := foldl replay1 s feed.
Definition ev_handle (ev : pica_event) : N := match ev with Connected h _ | Disconnected h _ => h end.
Definition handles_in (feed : list pica_event) : list N := map ev_handle feed.

Lemma shape_insert s h i k : shape (<[h := i]> s) k = if decide (h = k) then Some (di_category i, di_mac i) else shape s k.
Proof. unfold shape. destruct (decide (h = k)) as [->|N]; [by rewrite lookup_insert|by rewrite lookup_insert_ne]. Qed.
Lemma shape_delete s h k : shape (delete h s) k = if decide (h = k) then None else shape s k.
Proof. unfold shape. destruct (decide (h = k)) as [->|N]; [by rewrite lookup_delete|by rewrite lookup_delete_ne]. Qed.
Lemma shape_replay1 s ev k : shape (replay1 s ev) k =
  if decide (ev_handle ev = k) then match ev with Connected _ m => Some (CategoryUci, m) | Disconnected _ _ => None end else shape s k.
Proof. destruct ev; cbn; [rewrite shape_insert|rewrite shape_delete]; by destruct (decide _). Qed.
Lemma shape_replay_ne feed s k : k ∉ handles_in feed -> shape (replay feed s) k = shape s k.
Proof.
  revert s. induction feed as [|ev feed IH]; intros s N; [done|]. cbn [replay foldl handles_in map] in *. apply not_elem_of_cons in N as [N1 N2].
  fold (replay feed (replay1 s ev)). rewrite IH by done. rewrite shape_replay1, decide_False; [done|]. congruence.
Qed.
Lemma shape_replay_ext feed s s' : (forall k, shape s k = shape s' k) -> forall k, shape (replay feed s) k = shape (replay feed s') k.
Proof.
  revert s s'. induction feed as [|ev feed IH]; intros s s' E k; [apply E|]. cbn [replay foldl]. apply (IH (replay1 s ev) (replay1 s' ev)).
  intros j. rewrite !shape_replay1. by destruct (decide _).
Qed.
Lemma replay_snoc feed ev s : replay (feed ++ [ev]) s = replay1 (replay feed s) ev.
Proof. unfold replay. by rewrite foldl_app. Qed.
Lemma shape_replay_insert feed s h i k : h ∉ handles_in feed ->
  shape (replay feed (<[h := i]> s)) k = if decide (h = k) then Some (di_category i, di_mac i) else shape (replay feed s) k.
Proof.
  intros N. destruct (decide (h = k)) as [<-|Ne].
  - rewrite shape_replay_ne by done. by rewrite shape_insert, decide_True.
  - revert s. induction feed as [|ev feed IH] in N |- *; intros s; [cbn; by rewrite shape_insert, decide_False|].
    cbn [handles_in map] in N. apply not_elem_of_cons in N as [N1 N2]. cbn [replay foldl]. fold (replay feed (replay1 s ev)). rewrite <- (IH N2).
    apply shape_replay_ext. intros j. rewrite shape_replay1, !shape_insert, shape_replay1. destruct (decide (ev_handle ev = j)), (decide (h = j)); try done. congruence.
Qed.
Lemma shape_replay_delete feed s h k : h ∉ handles_in feed ->
  shape (replay feed (delete h s)) k = if decide (h = k) then None else shape (replay feed s) k.
Proof.
  intros N. destruct (decide (h = k)) as [<-|Ne].
  - rewrite shape_replay_ne by done. by rewrite shape_delete, decide_True.
  - revert s. induction feed as [|ev feed IH] in N |- *; intros s; [cbn; by rewrite shape_delete, decide_False|].
    cbn [handles_in map] in N. apply not_elem_of_cons in N as [N1 N2]. cbn [replay foldl]. fold (replay feed (replay1 s ev)). rewrite <- (IH N2).
    apply shape_replay_ext. intros j. rewrite shape_replay1, !shape_delete, shape_replay1. destruct (decide (ev_handle ev = j)), (decide (h = j)); try done. congruence.
Qed.

(** ** What the environment does, as seen by the server *)
Lemma pica_events_eff outs : Forall eff_out outs -> pica_events outs = [].
Proof. unfold pica_events. induction 1 as [|x l (h & y & ->) _ IH]; [done|]. exact IH. Qed.
Lemma pica_events_effs h e : pica_events (map (OEff h) e) = [].
Proof. apply pica_events_eff, effs_eff_out. Qed.
Lemma step_quiet e p o p' outs : pinv (fun _ => false) p -> step e p o = Ret (p', outs) ->
  match o with Connect | Disconnect _ | CreateAnchor _ | DestroyAnchor _ => True
  | _ => pica_events outs = [] /\ p_anchors p' = p_anchors p end.
Proof.
  intros I H. pose proof (step_eff_out _ _ _ _ _ H) as E. destruct o; try done; (split; [by apply pica_events_eff|]); cbn [step] in H.
  - apply ranging_inv in H as (d & s & ms1 & ms2 & peers & o1 & o2 & s' & L & Ls & _ & _ & _ & Si & -> & _). done.
  - apply Ret_inj in H. unfold stop_controlee_ranging in H. by injection H as <- _.
  - unfold uci_packet in H. destruct (p_devices p !! h); [|by injection H as <- _]. destruct (receive_packet _ _) as [[d1 e1]|]; [|discriminate]. by injection H as <- _.
  - apply Ret_inj in H. by injection H as <- _.
Qed.
Lemma step_connect e p : exists p' outs, step e p Connect = Ret (p', outs) /\ pica_events outs = [Connected (p_counter p) (mac_of_handle (p_counter p))] /\ p_anchors p' = p_anchors p.
Proof.
  cbn [step]. unfold add_device, device_init. rewrite device_set_state_eq. eexists _, _. split; [done|]. done.
Qed.
Lemma step_disconnect e p h : pinv (fun _ => false) p -> exists p' outs, step e p (Disconnect h) = Ret (p', outs) /\ p_anchors p' = p_anchors p
  /\ (pica_events outs = [Disconnected h (mac_of_handle h)] /\ connected p h \/ pica_events outs = [] /\ ~ connected p h).
Proof.
  intros I. cbn [step]. unfold disconnect. destruct (p_devices p !! h) as [d|] eqn:L; eexists _, _; (split; [done|]); (split; [done|]).
  - left. split; [|by exists d]. destruct (pi_device _ _ I _ _ L) as (_ & _ & -> & _). unfold pica_events. cbn [omap list_omap]. by rewrite pica_events_effs.
  - right. split; [done|]. intros [d L']. congruence.
Qed.

(** ** The invariant of the scene *)
Definition created (w : web P) (m : mac_address) (a : N) : Prop := exists k pos, w_requests w !! k = Some (RqReplied (RqCreate m pos) (ReplyOk a)).
Definition destroyed (w : web P) (m : mac_address) (a : N) : Prop := exists k, w_requests w !! k = Some (RqReplied (RqDestroy m) (ReplyOk a)).
Definition mac_of_request (q : request P) : mac_address := match q with RqQueued r _ | RqReplied r _ => request_mac r end.
Record winv (w : web P) : Prop := {
  wi_pinv : pinv (fun _ => false) (w_pica w);
  wi_dev : forall h, connected (w_pica w) h -> shape (replay (w_feed w) (w_devices w)) h = Some (CategoryUci, mac_of_handle h);
  wi_anchor : forall m a, p_anchors (w_pica w) !! m = Some a -> created w m a \/ shape (w_devices w) a = Some (CategoryAnchor, m);
  wi_created : forall m a, created w m a -> p_anchors (w_pica w) !! m = Some a;
  wi_destroyed : forall m a, destroyed w m a -> p_anchors (w_pica w) !! m = None /\ a < p_counter (w_pica w) /\ ~ connected (w_pica w) a
     /\ a ∉ handles_in (w_feed w) /\ forall m', p_anchors (w_pica w) !! m' <> Some a;
  wi_scene : forall h c m, shape (replay (w_feed w) (w_devices w)) h = Some (c, m) ->
     (c = CategoryUci /\ connected (w_pica w) h /\ m = mac_of_handle h) \/ (c = CategoryAnchor /\ (p_anchors (w_pica w) !! m = Some h \/ destroyed w m h));
  wi_feed : forall h, h ∈ handles_in (w_feed w) -> h < p_counter (w_pica w) /\ forall m, p_anchors (w_pica w) !! m <> Some h;
  wi_fresh : forall h, p_counter (w_pica w) <= h -> w_devices w !! h = None;
  wi_mac : forall k k' q q', w_requests w !! k = Some q -> w_requests w !! k' = Some q' -> mac_of_request q = mac_of_request q' -> k = k';
  wi_next : forall k q, w_requests w !! k = Some q -> k < w_next w /\ match q with RqQueued _ b => b = false | _ => True end }.

Lemma winv_new : winv web_new.
Proof.
  split; cbn.
  - apply pinv_new.
  - intros h [d L]. cbn in L. by rewrite lookup_empty in L.
  - intros m a L. by rewrite lookup_empty in L.
  - intros m a (k & pos & L). cbn in L. by rewrite lookup_empty in L.
  - intros m a (k & L). cbn in L. by rewrite lookup_empty in L.
  - intros h c m L. cbn [replay foldl w_feed w_devices web_new] in L. unfold shape in L. by rewrite lookup_empty in L.
  - intros h L. by apply elem_of_nil in L.
  - intros h _. by rewrite lookup_empty.
  - intros k k' q q' L. by rewrite lookup_empty in L.
  - intros k q L. by rewrite lookup_empty in L.
Qed.
(** Only these fields matter. *)
Lemma winv_ext w w' : winv w -> w_pica w' = w_pica w -> w_feed w' = w_feed w -> w_requests w' = w_requests w -> w_next w <= w_next w' ->
  (forall h, shape (w_devices w') h = shape (w_devices w) h) -> winv w'.
Proof.
  intros [I1 I2 I3 I4 I5 I6 I7 I8 I9 I10] E1 E2 E3 E4 E5.
  assert (forall m a, created w' m a <-> created w m a) as Ec by (intros; unfold created; by rewrite E3).
  assert (forall m a, destroyed w' m a <-> destroyed w m a) as Ed by (intros; unfold destroyed; by rewrite E3).
  pose proof (shape_replay_ext (w_feed w) _ _ E5) as Er.
  split; rewrite ?E1, ?E2, ?E3; try done.
  - intros h C. rewrite Er. by apply I2.
  - intros m a L. rewrite E5, Ec. by apply I3.
  - intros m a C. apply Ec in C. by apply I4.
  - intros m a C. apply Ed in C. by apply I5.
  - intros h c m L. rewrite Er in L. rewrite Ed. by apply I6.
  - intros h L. apply I8 in L. specialize (E5 h). unfold shape in E5. rewrite L in E5. by destruct (w_devices w' !! h).
  - intros k q L. apply I10 in L. split; [lia|]. by destruct L.
Qed.

(** The environment processes a command. *)
Lemma winv_pica w p' : winv w -> pinv (fun _ => false) p' -> p_anchors p' = p_anchors (w_pica w) -> p_counter p' = p_counter (w_pica w) ->
  (forall h, connected p' h <-> connected (w_pica w) h) -> winv (w_set_pica p' w).
Proof.
  intros [I1 I2 I3 I4 I5 I6 I7 I8 I9 I10] Ip Ea En Ec. split; cbn [w_pica w_feed w_devices w_requests w_next w_set_pica]; rewrite ?Ea, ?En; try done.
  - intros h C. apply I2. by apply Ec.
  - intros m a C. destruct (I5 m a C) as (? & ? & ? & ? & ?). split_and!; try done. by rewrite Ec.
  - intros h c m L. rewrite Ec. by apply I6.
Qed.
Lemma winv_op w order perm o w' : winv w -> wf_op o -> match o with CreateAnchor _ | DestroyAnchor _ => False | _ => True end ->
  (process compute order perm o w).1 = w' -> w_end w' = None -> winv w'.
Proof.
  intros I Wo No E En. unfold process in E. set (e := Env (estimate compute w) order perm) in *.
  destruct (step e (w_pica w) o) as [[p outs]|s] eqn:S; [|by subst w'; cbn in En].
  cbn [fst] in E. subst w'.
  assert (pinv (fun _ => false) p) as Ip by (eapply pinv_weaken; [eapply (pinv_step _ _ _ _ _ _ (wi_pinv _ I)); [done|exact S]|done]).
  destruct (step_devices _ _ _ _ _ _ (wi_pinv _ I) S) as [Cn Cc].
  pose proof (step_quiet _ _ _ _ _ (wi_pinv _ I) S) as Qt.
  assert (forall q : Prop, (pica_events outs = [] /\ p_anchors p = p_anchors (w_pica w)) -> p_counter p = p_counter (w_pica w) -> (forall h, connected p h <-> connected (w_pica w) h) ->
    winv (w_set_feed (w_feed w ++ pica_events outs) (w_set_pica p w))) as Q.
  { intros _ [-> Ea] Ec Eh. rewrite app_nil_r. apply (winv_ext (w_set_pica p w)); try done. by apply winv_pica. }
  destruct o; try done.
  - (* Connect *) clear Qt. destruct (step_connect e (w_pica w)) as (p1 & outs1 & S1 & Ev & Ea). rewrite S1 in S. apply Ret_inj in S. injection S as <- <-. rewrite Ev. clear S1 Q Ev En outs1.
    destruct I as [I1 I2 I3 I4 I5 I6 I7 I8 I9 I10]. set (c := p_counter (w_pica w)) in *. split; cbn [w_pica w_feed w_devices w_requests w_next w_set_pica w_set_feed]; rewrite ?Ea, ?Cn; try done.
    + intros h C. rewrite replay_snoc, shape_replay1. cbn [ev_handle]. destruct (decide (c = h)) as [<-|Ne]; [done|]. apply I2. apply Cc in C as [[C _]|[_ C]]; [done|congruence].
    + intros m a D. destruct (I5 m a D) as (A1 & A2 & A3 & A4 & A5). split_and!; try done; [lia| |].
      * intros C. apply Cc in C as [[C _]|[_ C]]; [done|]. subst a. lia.
      * unfold handles_in. rewrite map_app. apply not_elem_of_app. split; [done|]. cbn. intros X. apply elem_of_list_singleton in X. subst a. lia.
    + intros h k m. rewrite replay_snoc, shape_replay1. cbn [ev_handle]. destruct (decide (c = h)) as [<-|Ne].
      * intros X. injection X as <- <-. left. split; [done|]. split; [|done]. apply Cc. by right.
      * intros X. destruct (I6 _ _ _ X) as [(? & C & ?)|?]; [left|by right]. split; [done|]. split; [|done]. apply Cc. by left.
    + intros h X. unfold handles_in in X. rewrite map_app in X. apply elem_of_app in X as [X|X].
      * destruct (I7 _ X). split; [lia|done].
      * cbn in X. apply elem_of_list_singleton in X as ->. split; [lia|]. intros m L. destruct (pi_anchor _ _ I1 _ _ L) as (_ & ? & _). lia.
    + intros h Hh. apply I8. lia.
  - (* Disconnect *) clear Qt. destruct (step_disconnect e (w_pica w) h (wi_pinv _ I)) as (p1 & outs1 & S1 & Ea & [[Ev C]|[Ev C]]); rewrite S1 in S; apply Ret_inj in S; injection S as <- <-.
    + rewrite Ev. clear S1 Q Ev En outs1. destruct I as [I1 I2 I3 I4 I5 I6 I7 I8 I9 I10].
      assert (forall m, p_anchors (w_pica w) !! m <> Some h) as Na.
      { intros m L. destruct (pi_anchor _ _ I1 _ _ L) as (_ & _ & N). destruct C as [d Ld]. congruence. }
      split; cbn [w_pica w_feed w_devices w_requests w_next w_set_pica w_set_feed]; rewrite ?Ea, ?Cn, ?N.add_0_r; try done.
      * intros k Ck. rewrite replay_snoc, shape_replay1. cbn [ev_handle]. apply Cc in Ck as [[Ck Nk]|[? _]]; [|done]. rewrite decide_False by congruence. by apply I2.
      * intros m a D. destruct (I5 m a D) as (A1 & A2 & A3 & A4 & A5). split_and!; try done.
        -- intros X. apply Cc in X as [[X _]|[X _]]; done.
        -- unfold handles_in. rewrite map_app. apply not_elem_of_app. split; [done|]. cbn. intros X. apply elem_of_list_singleton in X. by subst a.
      * intros k c m. rewrite replay_snoc, shape_replay1. cbn [ev_handle]. destruct (decide (h = k)) as [<-|Ne]; [done|].
        intros X. destruct (I6 _ _ _ X) as [(? & Ck & ?)|?]; [left|by right]. split; [done|]. split; [|done]. apply Cc. left. split; [done|congruence].
      * intros k X. unfold handles_in in X. rewrite map_app in X. apply elem_of_app in X as [X|X]; [by apply I7|].
        cbn in X. apply elem_of_list_singleton in X as ->. split; [|done]. destruct C as [d Ld]. by destruct (pi_device _ _ I1 _ _ Ld) as (_ & _ & _ & ?).
    + apply (Q True); [done|lia|]. intros k. rewrite Cc. split; [intros [[? _]|[? _]]; done|]. intros Ck. left. split; [done|]. congruence.
  - apply (Q True); [done|lia|]. intros k. rewrite Cc. split; [intros [[? _]|[? _]]; done|]. intros Ck. by left.
  - apply (Q True); [done|lia|]. intros k. rewrite Cc. split; [intros [[? _]|[? _]]; done|]. intros Ck. by left.
  - apply (Q True); [done|lia|]. intros k. rewrite Cc. split; [intros [[? _]|[? _]]; done|]. intros Ck. by left.
  - apply (Q True); [done|lia|]. intros k. rewrite Cc. split; [intros [[? _]|[? _]]; done|]. intros Ck. by left.
Qed.

Lemma winv_event w w' : winv w -> handle_connection_event default_position w = Some w' -> w_end w' = None -> winv w'.
Proof.
  intros I E En. unfold handle_connection_event in E. destruct (w_feed w) as [|ev feed] eqn:Ef; [discriminate|].
  destruct (16 <? _); [injection E as <-; discriminate|]. destruct (w_poisoned w); [injection E as <-; discriminate|].
  assert (exists evs, w' = w_set_events evs (w_set_devices (replay1 (w_devices w) ev) (w_set_feed feed w))) as (evs & ->).
  { destruct ev; cbn zeta in E; match goal with E : match broadcast ?e ?v with _ => _ end = _ |- _ => destruct (broadcast e v) eqn:B end; injection E as <-; try discriminate En;
      apply broadcast_inv in B as [-> _]; eexists; reflexivity. }
  destruct I as [I1 I2 I3 I4 I5 I6 I7 I8 I9 I10]. rewrite Ef in *. cbn [replay foldl] in I2, I6. fold (replay feed (replay1 (w_devices w) ev)) in I2, I6.
  split; cbn [w_pica w_feed w_devices w_requests w_next w_set_events w_set_devices w_set_feed]; try done.
  - intros m a L. destruct (I3 m a L) as [C|Sh]; [by left|right]. rewrite shape_replay1, decide_False; [done|].
    intros <-. by destruct (I7 (ev_handle ev) ltac:(left)) as [_ N]; apply (N m).
  - intros m a D. destruct (I5 m a D) as (? & ? & ? & A4 & ?). split_and!; try done. intros X. apply A4. by right.
  - intros h X. apply I7. by right.
  - intros h Hh. destruct (I7 (ev_handle ev) ltac:(left)) as [Lt _].
    destruct ev; cbn [replay1 ev_handle] in *; [rewrite lookup_insert_ne by lia|rewrite lookup_delete_ne by lia]; by apply I8.
Qed.

Lemma first_with_inv m (s : gmap N (device_information P)) order h d : first_with m s order = Some (h, d) -> h ∈ order /\ s !! h = Some d /\ di_mac d = m.
Proof.
  unfold first_with. intros E. apply head_Some_elem_of in E. apply elem_of_list_omap in E as (k & Hk & E). destruct (s !! k) as [i|] eqn:L; [|discriminate].
  destruct (bool_decide_reflect (di_mac i = m)) as [Hm|]; [|discriminate]. injection E as <- <-. done.
Qed.
Lemma set_position_fields k order m position (w : web P) : let w' := set_position compute k order m position w in
  w_pica w' = w_pica w /\ w_feed w' = w_feed w /\ w_requests w' = w_requests w /\ w_next w' = w_next w /\ w_subscribers w' = w_subscribers w /\ w_end w' = w_end w
  /\ forall h, shape (w_devices w') h = shape (w_devices w) h.
Proof.
  cbn zeta. unfold set_position. destruct (w_poisoned w); [done|]. destruct (first_with m (w_devices w) order) as [[h d]|] eqn:F; [|done].
  apply first_with_inv in F as (_ & L & Hm).
  assert (forall j, shape (<[h := DeviceInformation (di_category d) (di_mac d) position]> (w_devices w)) j = shape (w_devices w) j) as Sh.
  { intros j. rewrite shape_insert. destruct (decide (h = j)) as [<-|]; [|done]. unfold shape. by rewrite L. }
  destruct (broadcast _ _) as [w1|] eqn:B; cbn [mbind option_bind]; [|done]. apply broadcast_inv in B as [-> _].
  destruct (neighbors _ _ _ _) as [w2|] eqn:N; [|done]. apply neighbors_fields in N as (evs & ->). done.
Qed.

(** Requests. *)
Local Ltac ins L := repeat (rewrite lookup_insert in L || rewrite lookup_insert_ne in L by done).

Lemma winv_request w r : winv w -> ~ in_progress w (request_mac r) ->
  winv (w_set_requests (<[w_next w := RqQueued r false]> (w_requests w)) (w_set_next (w_next w + 1) w)).
Proof.
  intros [I1 I2 I3 I4 I5 I6 I7 I8 I9 I10] Np.
  assert (w_requests w !! w_next w = None) as Fr. { destruct (w_requests w !! w_next w) as [q|] eqn:L; [|done]. apply I10 in L as [? _]. lia. }
  set (w' := w_set_requests _ _).
  assert (forall m a, created w' m a <-> created w m a) as Ec.
  { intros m a. unfold created, w'. cbn. split; intros (k & pos & L); exists k, pos; destruct (decide (w_next w = k)) as [<-|Ne]; rewrite ?lookup_insert, ?lookup_insert_ne in * by done; congruence. }
  assert (forall m a, destroyed w' m a <-> destroyed w m a) as Ed.
  { intros m a. unfold destroyed, w'. cbn. split; intros (k & L); exists k; destruct (decide (w_next w = k)) as [<-|Ne]; rewrite ?lookup_insert, ?lookup_insert_ne in * by done; congruence. }
  split; cbn [w' w_pica w_feed w_devices w_requests w_next w_set_requests w_set_next]; try done.
  - intros m a L. rewrite Ec. by apply I3.
  - intros m a C. apply Ec in C. by apply I4.
  - intros m a C. apply Ed in C. by apply I5.
  - intros h c m L. rewrite Ed. by apply I6.
  - assert (forall k q, w_requests w !! k = Some q -> mac_of_request q <> request_mac r) as Nm.
    { intros k q L E. apply Np. exists k, q. split; [done|]. by destruct q. }
    intros k k' q q' L L' E. destruct (decide (w_next w = k)) as [<-|Ne], (decide (w_next w = k')) as [<-|Ne']; try done;
      ins L; ins L'.
    + injection L as <-. exfalso. by apply (Nm _ _ L').
    + injection L' as <-. exfalso. by apply (Nm _ _ L).
    + by eapply I9.
  - intros k q L. destruct (decide (w_next w = k)) as [<-|Ne]; ins L.
    + injection L as <-. split; [lia|done].
    + apply I10 in L as [? ?]. split; [lia|done].
Qed.

(** The anchor commands of the environment. *)
Lemma create_cases p m : (get_category p m <> None /\ forall e, step e p (CreateAnchor m) = Ret (p, [OReply (ReplyAlreadyExists m)]))
  \/ (~ in_use p m /\ forall e, step e p (CreateAnchor m) = Ret (Pica (p_counter p + 1) (p_devices p) (<[m := p_counter p]> (p_anchors p)) (p_closed p), [OReply (ReplyOk (p_counter p))])).
Proof.
  cbn [step]. unfold create_anchor. destruct (get_category p m) eqn:G; [left; by split|].
  right. apply get_category_spec in G. split; [done|]. intros e.
  destruct (p_anchors p !! m) eqn:L; [|done]. destruct G. left. by eexists.
Qed.

(** The answer to a request is recorded. *)
Lemma winv_replied w k r p' answer : winv w -> w_requests w !! k = Some (RqQueued r false) -> pinv (fun _ => false) p' ->
  (forall h, connected p' h <-> connected (w_pica w) h) ->
  (p_anchors p' = p_anchors (w_pica w) /\ p_counter p' = p_counter (w_pica w) /\ (forall a, answer <> ReplyOk a))
  \/ (exists m pos, r = RqCreate m pos /\ p_anchors (w_pica w) !! m = None /\ p_anchors p' = <[m := p_counter (w_pica w)]> (p_anchors (w_pica w))
       /\ p_counter p' = p_counter (w_pica w) + 1 /\ answer = ReplyOk (p_counter (w_pica w)))
  \/ (exists m a, r = RqDestroy m /\ p_anchors (w_pica w) !! m = Some a /\ p_anchors p' = delete m (p_anchors (w_pica w))
       /\ p_counter p' = p_counter (w_pica w) /\ answer = ReplyOk a) ->
  winv (w_set_requests (<[k := RqReplied r answer]> (w_requests w)) (w_set_pica p' w)).
Proof.
  intros [I1 I2 I3 I4 I5 I6 I7 I8 I9 I10] Lk Ip Ec Cases. set (w' := w_set_requests _ _).
  assert (forall j j' q q', w_requests w' !! j = Some q -> w_requests w' !! j' = Some q' -> mac_of_request q = mac_of_request q' -> j = j') as J9.
  { intros j j' q q' L L' E. cbn in L, L'. destruct (decide (k = j)) as [<-|Ne], (decide (k = j')) as [<-|Ne']; try done; ins L; ins L'.
    - injection L as <-. by apply (I9 _ _ _ _ Lk L').
    - injection L' as <-. by apply (I9 _ _ _ _ L Lk).
    - by apply (I9 _ _ _ _ L L'). }
  assert (forall j q, w_requests w' !! j = Some q -> j < w_next w' /\ match q with RqQueued _ b => b = false | _ => True end) as J10.
  { intros j q L. cbn in L. destruct (decide (k = j)) as [<-|Ne]; ins L.
    - injection L as <-. split; [|done]. by destruct (I10 _ _ Lk).
    - by apply I10. }
  assert (forall m a, created w' m a <-> created w m a \/ exists pos, r = RqCreate m pos /\ answer = ReplyOk a) as Cr.
  { intros m a. unfold created. cbn. split.
    - intros (j & pos & L). destruct (decide (k = j)) as [<-|Ne]; ins L.
      + injection L as -> ->. right. by exists pos.
      + left. by exists j, pos.
    - intros [(j & pos & L)|(pos & -> & ->)].
      + exists j, pos. rewrite lookup_insert_ne; [done|]. congruence.
      + exists k, pos. by rewrite lookup_insert. }
  assert (forall m a, destroyed w' m a <-> destroyed w m a \/ (r = RqDestroy m /\ answer = ReplyOk a)) as De.
  { intros m a. unfold destroyed. cbn. split.
    - intros (j & L). destruct (decide (k = j)) as [<-|Ne]; ins L.
      + injection L as -> ->. by right.
      + left. by exists j.
    - intros [(j & L)|(-> & ->)].
      + exists j. rewrite lookup_insert_ne; [done|]. congruence.
      + exists k. by rewrite lookup_insert. }
  destruct Cases as [(Ea & En & No)|[(m & pos & -> & La & Ea & En & ->)|(m & a & -> & La & Ea & En & ->)]].
  - (* refused *)
    assert (forall m a, created w' m a <-> created w m a) as Cr' by (intros; rewrite Cr; split; [intros [?|(? & _ & E)]; [done|by apply No in E]|by left]).
    assert (forall m a, destroyed w' m a <-> destroyed w m a) as De' by (intros; rewrite De; split; [intros [?|(_ & E)]; [done|by apply No in E]|by left]).
    split; cbn [w_pica w_feed w_devices w' w_set_requests w_set_pica]; rewrite ?Ea, ?En; try done.
    + intros h C. apply I2. by apply Ec.
    + intros m a L. rewrite Cr'. by apply I3.
    + intros m a C. apply I4. by apply Cr'.
    + intros m a C. apply De' in C. destruct (I5 _ _ C) as (? & ? & ? & ? & ?). split_and!; try done. by rewrite Ec.
    + intros h c m L. rewrite Ec, De'. by apply I6.
  - (* created *)
    set (c := p_counter (w_pica w)) in *.
    assert (forall m' a, destroyed w' m' a <-> destroyed w m' a) as De' by (intros; rewrite De; split; [intros [?|(? & _)]; done|by left]).
    assert (forall m' a, p_anchors (w_pica w) !! m' = Some a -> a < c) as Lt by (intros m' a L; by destruct (pi_anchor _ _ I1 _ _ L) as (_ & ? & _)).
    assert (forall m' a, <[m := c]> (p_anchors (w_pica w)) !! m' = Some a -> p_anchors (w_pica w) !! m' = Some a \/ (m' = m /\ a = c)) as Ins.
    { intros m' a L. destruct (decide (m = m')) as [<-|Ne]; ins L; [right|by left]. by injection L as <-. }
    split; cbn [w_pica w_feed w_devices w' w_set_requests w_set_pica]; rewrite ?Ea, ?En; try done.
    + intros h C. apply I2. by apply Ec.
    + intros m' a L. rewrite Cr. apply Ins in L as [L|[-> ->]].
      * destruct (I3 _ _ L); [left; by left|by right].
      * left. right. by exists pos.
    + intros m' a C. apply Cr in C as [C|(pos' & E & E')].
      * apply I4 in C. rewrite lookup_insert_ne; [done|]. congruence.
      * injection E as <- _. injection E' as <-. by rewrite lookup_insert.
    + intros m' a C. apply De' in C as C'. destruct (I5 _ _ C') as (A1 & A2 & A3 & A4 & A5). split_and!.
      * rewrite lookup_insert_ne; [done|]. intros <-. destruct C' as [j Lj].
        assert (j = k) as -> by (by apply (I9 _ _ _ _ Lj Lk)). congruence.
      * lia.
      * by rewrite Ec.
      * done.
      * intros m'' L. apply Ins in L as [L|[_ ->]]; [by apply (A5 m'')|]. unfold c in A2. lia.
    + intros h k' m' L. rewrite Ec, De'. destruct (I6 _ _ _ L) as [?|[-> [L'|?]]]; [by left| |by right; split; [|right]].
      right. split; [done|]. left. rewrite lookup_insert_ne; [done|]. congruence.
    + intros h Hh. destruct (I7 _ Hh) as [? A]. split; [lia|]. intros m' L. apply Ins in L as [L|[_ ->]]; [by apply (A m')|]. unfold c in *. lia.
    + intros h Hh. apply I8. lia.
  - (* destroyed *)
    assert (forall m' a', created w' m' a' <-> created w m' a') as Cr' by (intros; rewrite Cr; split; [intros [?|(? & E & _)]; done|by left]).
    assert (~ created w m a) as Nc.
    { intros (j & pos & Lj). assert (j = k) as -> by (by apply (I9 _ _ _ _ Lj Lk)). congruence. }
    destruct (pi_anchor _ _ I1 _ _ La) as (_ & Lt & Nd).
    assert (forall m', delete m (p_anchors (w_pica w)) !! m' <> Some a) as Na.
    { intros m' L. destruct (decide (m = m')) as [<-|Ne]; rewrite ?lookup_delete, ?lookup_delete_ne in L by done; [done|]. by apply Ne, (pi_anchors _ _ I1 _ _ a). }
    split; cbn [w_pica w_feed w_devices w' w_set_requests w_set_pica]; rewrite ?Ea, ?En; try done.
    + intros h C. apply I2. by apply Ec.
    + intros m' a' L. rewrite Cr'. apply I3. apply lookup_delete_Some in L. by destruct L.
    + intros m' a' C. apply Cr', I4 in C as C'. rewrite lookup_delete_ne; [done|]. intros <-. apply Nc. apply Cr'. rewrite La in C'. by injection C' as ->.
    + intros m' a' C. apply De in C as [C|[E E']].
      * destruct (I5 _ _ C) as (A1 & A2 & A3 & A4 & A5). split_and!; try done.
        -- rewrite lookup_delete_None. by right.
        -- by rewrite Ec.
        -- intros m'' L. apply lookup_delete_Some in L as [_ L]. by apply (A5 m'').
      * injection E as <-. injection E' as <-. split_and!; try done.
        -- by rewrite lookup_delete.
        -- rewrite Ec. intros [d Ld]. congruence.
        -- intros Hf. by destruct (I7 _ Hf) as [_ A]; apply (A m).
    + intros h c m' L. rewrite Ec, De. destruct (I6 _ _ _ L) as [?|[-> [L'|?]]]; [by left| |by right; split; [|right; left]].
      right. split; [done|]. destruct (decide (m = m')) as [<-|Ne].
      * right. right. rewrite La in L'. by injection L' as ->.
      * left. by rewrite lookup_delete_ne.
    + intros h Hh. destruct (I7 _ Hh) as [? A]. split; [done|]. intros m' L. apply lookup_delete_Some in L as [_ L]. by apply (A m').
Qed.
Lemma winv_process w k r w' : winv w -> w_requests w !! k = Some (RqQueued r false) -> web_step (WProcess k) w = Some w' -> wf_request r -> w_end w' = None -> winv w'.
Proof.
  intros I Lk S Wr En. unfold Http.web_step in S. destruct (w_end w) eqn:Ew; [discriminate|]. rewrite Lk in S. unfold process in S. set (e := Env _ _ _) in S.
  assert (wf_op (command_of r)) as Wo by (by destruct r).
  destruct r as [m pos|m]; cbn [command_of] in *.
  - destruct (create_cases (w_pica w) m) as [[_ St]|[Nu St]]; specialize (St e); pose proof (pinv_step _ _ _ _ _ _ (wi_pinv _ I) Wo St) as Ip; rewrite St in S; cbn in S; injection S as <-.
    + apply (winv_ext (w_set_requests (<[k := RqReplied (RqCreate m pos) (ReplyAlreadyExists m)]> (w_requests w)) (w_set_pica (w_pica w) w))); try done; [|cbn; by rewrite app_nil_r].
      apply winv_replied; [exact I|exact Lk|exact (wi_pinv _ I)|done|]. left. done.
    + match goal with |- winv (w_set_requests _ (w_set_feed _ (w_set_pica ?q _))) => set (p' := q) in * end.
      apply (winv_ext (w_set_requests (<[k := RqReplied (RqCreate m pos) (ReplyOk (p_counter (w_pica w)))]> (w_requests w)) (w_set_pica p' w))); try done; [|cbn; by rewrite app_nil_r].
      apply winv_replied; [exact I|exact Lk|eapply pinv_weaken; [exact Ip|done]|done|]. right. left. exists m, pos. split_and!; try done.
      destruct (p_anchors (w_pica w) !! m) eqn:L; [|done]. destruct Nu. left. by eexists.
  - assert (step e (w_pica w) (DestroyAnchor m) = Ret (destroy_anchor (w_pica w) m)) as St by done.
    destruct (destroy_anchor (w_pica w) m) as [p' outs] eqn:D. pose proof (pinv_step _ _ _ _ _ _ (wi_pinv _ I) Wo St) as Ip. rewrite St in S.
    unfold destroy_anchor in D. destruct (p_anchors (w_pica w) !! m) as [a|] eqn:L; injection D as <- <-; cbn in S; injection S as <-.
    + match goal with |- winv (w_set_requests _ (w_set_feed _ (w_set_pica ?q _))) => set (p' := q) in * end.
      apply (winv_ext (w_set_requests (<[k := RqReplied (RqDestroy m) (ReplyOk a)]> (w_requests w)) (w_set_pica p' w))); try done; [|cbn; by rewrite app_nil_r].
      apply winv_replied; [exact I|exact Lk|eapply pinv_weaken; [exact Ip|done]|done|]. right. right. by exists m, a.
    + apply (winv_ext (w_set_requests (<[k := RqReplied (RqDestroy m) (ReplyNotFound m)]> (w_requests w)) (w_set_pica (w_pica w) w))); try done; [|cbn; by rewrite app_nil_r].
      apply winv_replied; [exact I|exact Lk|exact (wi_pinv _ I)|done|]. left. done.
Qed.

Lemma broadcast_none (ev : event P) w : broadcast ev w = None -> w_subscribers w = 0.
Proof. unfold broadcast. destruct (w_subscribers w =? 0) eqn:E; [|done]. intros _. by apply N.eqb_eq. Qed.

(** The handler resumes. *)
Lemma winv_finish w k r answer : winv w -> w_requests w !! k = Some (RqReplied r answer) ->
  let w' := finish_request k r answer (w_set_requests (delete k (w_requests w)) w) in
  w_poisoned w' = false -> winv w'.
Proof.
  intros I Lk w'. pose proof I as [I1 I2 I3 I4 I5 I6 I7 I8 I9 I10].
  set (w0 := w_set_requests (delete k (w_requests w)) w) in *.
  assert (forall v : web P, w_requests v = w_requests w0 -> forall m a, created v m a <-> created w m a /\ ~ (exists pos, r = RqCreate m pos /\ answer = ReplyOk a)) as Cr.
  { intros v Ev m a. unfold created. rewrite Ev. cbn. split.
    - intros (j & pos & L). apply lookup_delete_Some in L as [Ne L]. split; [by exists j, pos|]. intros (pos' & -> & ->). apply Ne. by apply (I9 _ _ _ _ Lk L).
    - intros [(j & pos & L) N]. exists j, pos. apply lookup_delete_Some. split; [|done]. intros <-. apply N. exists pos. rewrite Lk in L. by injection L as -> ->. }
  assert (forall v : web P, w_requests v = w_requests w0 -> forall m a, destroyed v m a <-> destroyed w m a /\ ~ (r = RqDestroy m /\ answer = ReplyOk a)) as De.
  { intros v Ev m a. unfold destroyed. rewrite Ev. cbn. split.
    - intros (j & L). apply lookup_delete_Some in L as [Ne L]. split; [by exists j|]. intros (-> & ->). apply Ne. by apply (I9 _ _ _ _ Lk L).
    - intros [(j & L) N]. exists j. apply lookup_delete_Some. split; [|done]. intros <-. apply N. rewrite Lk in L. by injection L as -> ->. }
  assert (forall j j' q q', w_requests w0 !! j = Some q -> w_requests w0 !! j' = Some q' -> mac_of_request q = mac_of_request q' -> j = j') as J9.
  { intros j j' q q' L L'. unfold w0 in L, L'. cbn [w_requests w_set_requests] in L, L'. apply lookup_delete_Some in L as [_ L], L' as [_ L']. by apply (I9 _ _ _ _ L L'). }
  assert (forall j q, w_requests w0 !! j = Some q -> j < w_next w0 /\ match q with RqQueued _ b => b = false | _ => True end) as J10.
  { intros j q L. unfold w0 in L. cbn [w_requests w_set_requests] in L. apply lookup_delete_Some in L as [_ L]. by apply I10. }
  assert ((forall a, answer <> ReplyOk a) -> winv w0) as Same.
  { intros No. specialize (Cr w0 eq_refl). specialize (De w0 eq_refl).
    assert (forall m a, created w0 m a <-> created w m a) as Cr' by (intros; rewrite Cr; split; [by intros [? _]|intros C; split; [done|intros (? & _ & E); by apply No in E]]).
    assert (forall m a, destroyed w0 m a <-> destroyed w m a) as De' by (intros; rewrite De; split; [by intros [? _]|intros C; split; [done|intros (_ & E); by apply No in E]]).
    split; try done.
    - intros m a L. rewrite Cr'. by apply I3.
    - intros m a C. apply Cr' in C. by apply I4.
    - intros m a C. apply De' in C. by apply I5.
    - intros h c m L. rewrite De'. by apply I6. }
  destruct answer as [h|m'|m'].
  - clear Same. subst w'. unfold finish_request. destruct (w_poisoned w0) eqn:Ep; [by rewrite Ep|].
    destruct r as [m pos|m].
    + set (w1 := w_set_devices _ w0). destruct (broadcast _ w1) as [w2|] eqn:B; [|done]. intros _. apply broadcast_inv in B as [-> _].
      apply (winv_ext w1); [|done|done|done|cbn; lia|done].
      assert (created w m h) as C by (by exists k, pos). pose proof (I4 _ _ C) as La.
      destruct (pi_anchor _ _ I1 _ _ La) as (_ & Lt & Nd).
      assert (~ h ∈ handles_in (w_feed w)) as Nf by (intros Hf; destruct (I7 _ Hf) as [_ A]; by apply (A m)).
      assert (forall j, shape (w_devices w1) j = if decide (h = j) then Some (CategoryAnchor, m) else shape (w_devices w) j) as Sh by (intros j; apply shape_insert).
      specialize (Cr w1 eq_refl). specialize (De w1 eq_refl).
      split; try done.
      * intros j Cj. cbn [w_feed w1 w_set_devices w0 w_set_requests w_devices]. rewrite shape_replay_insert by done. rewrite decide_False; [by apply I2|].
        intros <-. destruct Cj as [d Ld]. cbn in Ld. congruence.
      * intros m' a L. cbn in L. rewrite Sh, Cr. destruct (decide (h = a)) as [<-|Ne].
        -- right. f_equal. f_equal. by apply (pi_anchors _ _ I1 _ _ h).
        -- destruct (I3 _ _ L) as [C'|?]; [left|by right]. split; [done|]. intros (pos' & E & E'). by injection E' as <-.
      * intros m' a C'. apply Cr in C' as [C' _]. by apply I4.
      * intros m' a D. apply De in D as [D _]. by apply I5.
      * intros j c m' L. cbn [w_feed w1 w_set_devices w0 w_set_requests w_devices] in L. rewrite shape_replay_insert in L by done.
        destruct (decide (h = j)) as [<-|Ne].
        -- injection L as <- <-. right. split; [done|]. by left.
        -- rewrite De. destruct (I6 _ _ _ L) as [?|[-> [?|?]]]; [by left|right; split; [done|by left]|right; split; [done|right; split; [done|by intros [? _]]]].
      * intros j Hj. cbn [w1 w_set_devices w_devices]. rewrite lookup_insert_ne by (cbn in Hj; lia). by apply I8.
    + set (w1 := w_set_devices _ w0). destruct (broadcast _ w1) as [w2|] eqn:B; [|done]. intros _. apply broadcast_inv in B as [-> _].
      apply (winv_ext w1); [|done|done|done|cbn; lia|done].
      assert (destroyed w m h) as D by (by exists k). destruct (I5 _ _ D) as (A1 & A2 & A3 & A4 & A5).
      assert (forall j, shape (w_devices w1) j = if decide (h = j) then None else shape (w_devices w) j) as Sh by (intros j; apply shape_delete).
      specialize (Cr w1 eq_refl). specialize (De w1 eq_refl).
      split; try done.
      * intros j Cj. cbn [w_feed w1 w_set_devices w0 w_set_requests w_devices]. rewrite shape_replay_delete by done. rewrite decide_False; [by apply I2|].
        intros <-. by apply A3.
      * intros m' a L. cbn in L. rewrite Sh, Cr. destruct (decide (h = a)) as [<-|Ne]; [by apply A5 in L|].
        destruct (I3 _ _ L) as [C'|?]; [left|by right]. split; [done|]. by intros (pos' & E & _).
      * intros m' a C'. apply Cr in C' as [C' _]. by apply I4.
      * intros m' a D'. apply De in D' as [D' _]. by apply I5.
      * intros j c m' L. cbn [w_feed w1 w_set_devices w0 w_set_requests w_devices] in L. rewrite shape_replay_delete in L by done.
        destruct (decide (h = j)) as [<-|Ne]; [done|]. rewrite De.
        destruct (I6 _ _ _ L) as [?|[-> [?|?]]]; [by left|right; split; [done|by left]|right; split; [done|right; split; [done|]]].
        intros [E E']. by injection E' as <-.
      * intros j Hj. cbn [w1 w_set_devices w_devices]. apply lookup_delete_None. right. by apply I8.
  - intros _. apply (winv_ext w0); [by apply Same|done|done|done|cbn; lia|done].
  - intros _. apply (winv_ext w0); [by apply Same|done|done|done|cbn; lia|done].
Qed.

(** Each action. *)
Lemma winv_step w l w' : winv w -> wf_web_label l -> (forall k q, w_requests w !! k = Some q -> match q with RqQueued r _ | RqReplied r _ => wf_request r end) ->
  one_at_a_time w l -> web_step l w = Some w' ->
  w_end w' = None -> w_poisoned w' = false -> winv w'.
Proof.
  intros I Wl Wq One S En Ep. unfold Http.web_step in S. destruct (w_end w) eqn:Ew; [discriminate|].
  destruct l as [order perm o| | | |order m position|r|k|k|k].
  - destruct o; try discriminate S; apply (inj Some) in S; (eapply winv_op; [exact I|exact Wl|exact Logic.I|exact S|exact En]).
  - by eapply winv_event.
  - injection S as <-. apply (winv_ext w); [exact I|done|done|done|cbn; lia|done].
  - destruct (w_subscribers w =? 0); [discriminate|]. injection S as <-. apply (winv_ext w); [exact I|done|done|done|cbn; lia|done].
  - destruct (bool_decide _); [|discriminate]. injection S as <-. set (w1 := w_set_next (w_next w + 1) w).
    destruct (set_position_fields (w_next w) order m position w1) as (E1 & E2 & E3 & E4 & _ & _ & E5).
    apply (winv_ext w); [exact I|done|done|done|rewrite E4; cbn; lia|done].
  - injection S as <-. by apply winv_request.
  - destruct (w_requests w !! k) as [[r ab|]|] eqn:Lk; [|discriminate..].
    assert (ab = false) as -> by (by destruct (wi_next _ I _ _ Lk)).
    eapply winv_process; try done; [|exact (Wq _ _ Lk)]. unfold Http.web_step. by rewrite Ew, Lk.
  - destruct (w_requests w !! k) as [[|r answer]|] eqn:Lk; [discriminate| |discriminate]. injection S as <-. by apply winv_finish.
  - by destruct One.
Qed.
End Facts.
