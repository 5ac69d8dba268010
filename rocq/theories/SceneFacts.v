(** Proofs about the measurements of a host and the places of the scene. *)
From Coq Require Import Reals Lra.
From Verif Require Import Base Uci MacAddress AppConfig Codec Session Device Pica CodecSpec ContextSpec RangingSpec InvFacts PropsRanging
  Http HttpSpec HttpFacts HttpFacts2 PropsHttp SceneSpec.
From Verif Require Position PositionSpec PositionFacts DirectionSpec DirectionFacts DirectionExact PropsPosition PropsDirection.

Section Server.
Context {P : Type} (default_position : P) (compute : P -> P -> N * Z * Z) (Hr : forall p q, (compute p q).1.1 < 65536).
Lemma estimate_wf (w : web P) order perm : wf_env (Env (estimate compute w) order perm).
Proof.
  intros a b r. cbn [env_estimate]. unfold estimate. destruct (w_poisoned w); [done|]. destruct (w_devices w !! a) as [l|]; [|done]. destruct (w_devices w !! b) as [k|]; [|done]. cbn.
  pose proof (Hr (di_position l) (di_position k)) as B. destruct (compute _ _) as [[x y] z]. intros [= <-]. exact B.
Qed.
Lemma process_reachable order perm o (w : web P) : wf_op o -> reachable (w_pica w) -> reachable (w_pica (process compute order perm o w).1).
Proof.
  intros W R. unfold process. destruct (step _ _ o) as [[p outs]|s] eqn:E; [|exact R]. cbn. eapply reachable_step; [exact R|apply estimate_wf|exact W|exact E].
Qed.
Lemma reachable_new : reachable pica_new.
Proof. exists [], []. split; [constructor|reflexivity]. Qed.
Lemma served_reachable ls w : served default_position compute ls w -> reachable (w_pica w).
Proof.
  revert ls w. apply (served_ind default_position compute (fun _ w => reachable (w_pica w))); [apply reachable_new|].
  intros ls w l w' Sv R W S. apply served_rinv in Sv. unfold web_step in S. destruct (w_end w) eqn:Ew; [discriminate|].
  destruct l as [order perm o| | | |order m position|r|k|k|k].
  - assert (reachable (w_pica (process compute order perm o w).1)) as R' by by apply process_reachable.
    destruct o; try discriminate S; apply (inj Some) in S; by rewrite <- S.
  - apply (handle_event_inv default_position compute) in S as (? & ? & _ & E & _). by rewrite E.
  - by injection S as <-.
  - destruct (_ =? _); [discriminate|]. by injection S as <-.
  - destruct (bool_decide _); [|discriminate]. injection S as <-. by destruct (set_position_fields compute (w_next w) order m position (w_set_next (w_next w + 1) w)) as (-> & _).
  - by injection S as <-.
  - destruct (w_requests w !! k) as [[r ab|]|] eqn:L; [|discriminate..].
    assert (reachable (w_pica (process compute (fun l => l) (fun l => reflexivity l) (command_of r) w).1)) as R'.
    { apply process_reachable; [|done]. pose proof (ri_wf _ Sv _ _ L) as Wr. by destruct r. }
    destruct (process _ _ _ _ _) as [w1 outs]. destruct (reply_of outs); by injection S as <-.
  - destruct (w_requests w !! k) as [[|r answer]|]; [discriminate| |discriminate]. injection S as <-. by destruct (finish_fields k r answer (w_set_requests (delete k (w_requests w)) w)) as (-> & _).
  - destruct (w_requests w !! k) as [[r [|]|r answer]|]; try discriminate; by injection S as <-.
Qed.
(** The measurements come from the entries of the scene. *)
Lemma estimate_entries (w : web P) h k i j : w_poisoned w = false -> w_devices w !! h = Some i -> w_devices w !! k = Some j ->
  estimate compute w h k = Some (let '(r, a, e) := compute (di_position i) (di_position j) in RangingMeasurement r a e).
Proof. intros Ep Li Lj. unfold estimate. rewrite Ep, Li, Lj. cbn. by destruct (compute _ _) as [[r a] e]. Qed.
End Server.

(** ** Places *)
Section Places.
Context (fsin fcos fatan : Position.f32 -> Position.f32).
Context (Gs : PositionSpec.good_trig fsin) (Gc : PositionSpec.good_trig fcos) (Ga : PositionSpec.good_atan fatan).
Context (As : DirectionSpec.accurate_trig fsin sin) (Ac : DirectionSpec.accurate_trig fcos cos) (Aa : DirectionSpec.accurate_atan fatan).
Notation compute := (measure_places fsin fcos fatan).
Lemma compute_places p q : exists r a e, compute p q = (r, a, e) /\ r < 65536 /\ tells_distance r p q /\ tells_direction a e p q.
Proof.
  destruct p as [x y z ya pi ro (Hx & Hy & Hz & H1 & H2 & H3)], q as [x' y' z' ya' pi' ro' (Hx' & Hy' & Hz' & H1' & H2' & H3')].
  unfold measure_places, position_at, tells_distance, tells_direction. cbn [at_x at_y at_z yaw pitch roll].
  destruct (PropsPosition.C55_total fsin fcos fatan Gs Gc Ga (Position.new fsin fcos x y z ya pi ro) (Position.new fsin fcos x' y' z' ya' pi' ro')) as (r & a & e & HC & _).
  - exists x, y, z, ya, pi, ro. auto 10.
  - exists x', y', z', ya', pi', ro'. auto 10.
  - rewrite HC. exists r, a, e. split; [done|].
    assert (r < 65536) as Br. { destruct (PositionFacts.compute_some _ _ _ _ _ _ HC) as [-> _]. unfold Position.as_u16, Position.saturate. destruct (Position.fmin _ _) as [| | |]; try destruct s; lia. }
    split; [done|]. split; [exact (PropsPosition.C54_accurate_partial _ _ _ _ _ _ _ _ _ _ _ _ _ _ _ _ _ _ Hx Hy Hz Hx' Hy' Hz' HC)|].
    intros Ne. exact (PropsDirection.C81_direction _ _ _ As Ac Aa Ga _ _ _ _ _ _ _ _ _ _ _ _ _ _ _ Hx Hy Hz H1 H2 H3 Hx' Hy' Hz' Ne HC).
Qed.
Lemma measures_tells (w : web place) h k m l r x i j : w_poisoned w = false -> w_devices w !! h = Some i -> w_devices w !! k = Some j ->
  estimate compute w h k = Some l -> estimate compute w k h = Some r -> measures m l r x -> tells w h k m x.
Proof.
  intros Ep Li Lj El Er (a & -> & Ma & Ms & _ & Md & A1 & A2 & A3 & A4 & _).
  rewrite (estimate_entries _ _ _ _ _ _ Ep Li Lj) in El. rewrite (estimate_entries _ _ _ _ _ _ Ep Lj Li) in Er.
  destruct (compute_places (di_position i) (di_position j)) as (r1 & a1 & e1 & E1 & _ & D1 & T1), (compute_places (di_position j) (di_position i)) as (r2 & a2 & e2 & E2 & _ & _ & T2).
  rewrite E1 in El. rewrite E2 in Er. injection El as <-. injection Er as <-. cbn in Md, A1, A2, A3, A4.
  exists (di_position i), (di_position j), a. unfold shown. rewrite Li, Lj, Md. split_and!; try done; eauto.
Qed.
Lemma estimate_inv (w : web place) h k l : estimate compute w h k = Some l -> w_poisoned w = false /\ exists i j, w_devices w !! h = Some i /\ w_devices w !! k = Some j.
Proof.
  unfold estimate. destruct (w_poisoned w); [done|]. destruct (w_devices w !! h) as [i|]; [|done]. destruct (w_devices w !! k) as [j|]; [|done]. intros _. split; [done|]. by exists i, j.
Qed.
Lemma estimates_tell (w : web place) h k m l r x : estimate compute w h k = Some l -> estimate compute w k h = Some r -> measures m l r x -> tells w h k m x.
Proof. intros El Er M. destruct (estimate_inv _ _ _ _ El) as (Ep & i & j & Li & Lj). by eapply measures_tells. Qed.
Lemma device_entry (w : web place) ls h id s : served origin compute ls w -> throughout origin compute one_at_a_time ls web_new ->
  w_end w = None -> w_poisoned w = false -> w_feed w = [] -> (forall m, ~ in_progress w m) ->
  session_at (w_pica w) h id = Some s -> exists i, w_devices w !! h = Some i.
Proof.
  intros Sv T En Ep Ef Np S. unfold session_at in S. destruct (p_devices (w_pica w) !! h) as [d|] eqn:L; [|discriminate].
  destruct (PropsHttp.C49_scene_partial _ _ _ _ _ Sv T En Ep Ef Np h CategoryUci (d_mac d)) as [_ H].
  destruct H as (i & Li & _); [left; split; [done|]; by exists d|]. by exists i.
Qed.
Lemma anchor_entry (w : web place) ls m a : served origin compute ls w -> throughout origin compute one_at_a_time ls web_new ->
  w_end w = None -> w_poisoned w = false -> w_feed w = [] -> (forall m, ~ in_progress w m) ->
  p_anchors (w_pica w) !! m = Some a -> exists i, w_devices w !! a = Some i.
Proof.
  intros Sv T En Ep Ef Np L. destruct (PropsHttp.C49_scene_partial _ _ _ _ _ Sv T En Ep Ef Np a CategoryAnchor m) as [_ H].
  destruct H as (i & Li & _); [right; done|]. by exists i.
Qed.
Lemma anchors_all e p h dst : (forall m a, p_anchors p !! m = Some a -> is_Some (env_estimate e h a) /\ is_Some (env_estimate e a h)) ->
  forall xs, Forall2 (fun t x => measures t.1.1 t.1.2 t.2 x) (anchors_measured e p h dst) xs ->
  Forall2 (fun m x => exists a l r, p_anchors p !! m = Some a /\ env_estimate e h a = Some l /\ env_estimate e a h = Some r /\ measures m l r x) (filter (is_anchor p) dst) xs.
Proof.
  intros H. induction dst as [|m dst IH]; intros xs F; [inversion F; constructor|]. unfold anchors_measured in F. cbn [omap list_omap] in F. rewrite filter_cons.
  destruct (p_anchors p !! m) as [a|] eqn:L.
  - rewrite decide_True by (unfold is_anchor; rewrite L; eauto). destruct (H m a L) as [[l El] [r Er]]. cbn [mbind option_bind] in F. rewrite El in F. cbn in F. rewrite Er in F. cbn in F.
    inversion F as [|t x ts xs' M Fs]; subst. constructor; [exists a, l, r; done|]. by apply IH.
  - rewrite decide_False by (unfold is_anchor; rewrite L; intros [? [=]]). by apply IH.
Qed.
Lemma round_sound ls w order perm h id s w' outs : served origin compute ls w -> w_end w = None ->
  session_at (w_pica w) h id = Some s -> notifies s ->
  process compute order perm (Ranging h id) w = (w', outs) -> w_end w' = None ->
  exists xs, sent h outs = [SessionInfoNtf (s_seq s) id 0 0 xs []]
    /\ Forall (fun x => (exists m a, m ∈ dst_mac_address (s_cfg s) /\ p_anchors (w_pica w) !! m = Some a /\ tells w h a m x)
                     \/ (exists k ps m, k <> h /\ session_at (w_pica w) k id = Some ps /\ s_state ps = SsActive /\ compatible s ps
                         /\ device_mac_address (s_cfg ps) = Some m /\ tells w h k m x)) xs.
Proof.
  intros Sv En S Nt Pr En'. unfold process in Pr. destruct (step _ _ _) as [[p' outs']|c] eqn:E; [|injection Pr as <- <-; discriminate En'].
  injection Pr as <- <-.
  assert (forall p q, (compute p q).1.1 < 65536) as Hr by (intros p q; destruct (compute_places p q) as (r & a & e & -> & B & _); exact B).
  pose proof (served_reachable _ _ Hr _ _ Sv) as R. pose proof (estimate_wf compute Hr w order perm) as We.
  destruct (C39_measurements _ _ _ _ _ _ _ R We S Nt E) as (anchors & peers & ks & O & FA & FP & _).
  exists (anchors ++ peers). split; [exact O|]. apply Forall_app. split; apply Forall_forall; intros x Hx; apply elem_of_list_lookup in Hx as (n & Hx).
  - left. destruct (Forall2_lookup_r _ _ _ _ _ FA Hx) as ([[m l] r] & Ht & M). apply elem_of_list_lookup_2, elem_of_list_omap in Ht as (m' & Hm & Ht).
    destruct (p_anchors (w_pica w) !! m') as [a|] eqn:La; [|discriminate]. cbn [mbind option_bind env_estimate] in Ht. destruct (estimate compute w h a) as [l'|] eqn:El; [|discriminate]. cbn in Ht.
    destruct (estimate compute w a h) as [r'|] eqn:Er; [|discriminate]. cbn in Ht. injection Ht as -> -> ->. exists m, a. split; [done|]. split; [done|]. by eapply estimates_tell.
  - right. destruct (Forall2_lookup_r _ _ _ _ _ FP Hx) as (k & _ & [[m l] r] & (Ne & ps & Sk & A & C & Mk & El & Er) & M). exists k, ps, m. split_and!; try done. by eapply estimates_tell.
Qed.
Lemma round_tells ls w order perm h id s w' outs : served origin compute ls w -> throughout origin compute one_at_a_time ls web_new ->
  w_end w = None -> w_poisoned w = false -> w_feed w = [] -> (forall m, ~ in_progress w m) ->
  session_at (w_pica w) h id = Some s -> notifies s ->
  process compute order perm (Ranging h id) w = (w', outs) -> w_end w' = None ->
  exists anchors peers ks, sent h outs = [SessionInfoNtf (s_seq s) id 0 0 (anchors ++ peers) []]
    /\ Forall2 (fun m x => exists a, p_anchors (w_pica w) !! m = Some a /\ tells w h a m x) (filter (is_anchor (w_pica w)) (dst_mac_address (s_cfg s))) anchors
    /\ Forall2 (fun k x => exists ps m, session_at (w_pica w) k id = Some ps /\ device_mac_address (s_cfg ps) = Some m /\ tells w h k m x) ks peers
    /\ NoDup ks /\ (forall k, k ∈ ks <-> k <> h /\ exists ps, session_at (w_pica w) k id = Some ps /\ s_state ps = SsActive /\ compatible s ps).
Proof.
  intros Sv T En Ep Ef Np S Nt Pr En'. unfold process in Pr. destruct (step _ _ _) as [[p' outs']|c] eqn:E; [|injection Pr as <- <-; discriminate En'].
  injection Pr as <- <-.
  assert (forall p q, (compute p q).1.1 < 65536) as Hr by (intros p q; destruct (compute_places p q) as (r & a & e & -> & B & _); exact B).
  pose proof (served_reachable _ _ Hr _ _ Sv) as R. pose proof (estimate_wf compute Hr w order perm) as We.
  destruct (C39_measurements _ _ _ _ _ _ _ R We S Nt E) as (anchors & peers & ks & O & FA & FP & ND & C).
  destruct (device_entry _ _ _ _ _ Sv T En Ep Ef Np S) as (i & Li).
  assert (forall k j, w_devices w !! k = Some j -> is_Some (estimate compute w h k) /\ is_Some (estimate compute w k h)) as Es.
  { intros k j Lj. rewrite (estimate_entries _ _ _ _ _ _ Ep Li Lj), (estimate_entries _ _ _ _ _ _ Ep Lj Li). eauto. }
  exists anchors, peers, ks. split; [exact O|]. split; [|split; [|split; [exact ND|]]].
  - eapply Forall2_impl.
    + eapply anchors_all; [|exact FA]. intros m a L. cbn [env_estimate]. destruct (anchor_entry _ _ _ _ Sv T En Ep Ef Np L) as (j & Lj). by eapply Es.
    + intros m x (a & l & r & L & El & Er & M). exists a. split; [done|]. destruct (anchor_entry _ _ _ _ Sv T En Ep Ef Np L) as (j & Lj). by eapply measures_tells.
  - eapply Forall2_impl; [exact FP|]. intros k x (t & (_ & ps & Sk & _ & _ & Mk & El & Er) & M). exists ps, t.1.1. split; [done|]. split; [done|].
    destruct (device_entry _ _ _ _ _ Sv T En Ep Ef Np Sk) as (j & Lj). by eapply measures_tells.
  - intros k. rewrite C. split.
    + intros (t & Ne & ps & Sk & A & Cm & _). split; [done|]. by exists ps.
    + intros (Ne & ps & Sk & A & Cm). destruct (device_entry _ _ _ _ _ Sv T En Ep Ef Np Sk) as (j & Lj). destruct (Es k j Lj) as [[l El] [r Er]].
      pose proof Cm as (_ & _ & m & mp & _ & Mp & _). exists (mp, l, r). split; [done|]. exists ps. done.
Qed.
End Places.
