(** What each command changes: session states, timers, device state, and the notifications. *)
From Verif Require Import Base Uci MacAddress AppConfig Codec Session Device Pica.
From Verif Require Import BaseFacts AppConfigSpec AppConfigFacts CodecSpec CodecFacts ContextSpec InvFacts.

(** ** Monitors of the effects of one device *)
Definition eff_msg (e : eff) : list msg := match e with Send m | After _ m => [m] | _ => [] end.
Definition eff_status (id : N) (e : list eff) : list (session_state * N) :=
  concat (map (fun x => concat (map (status_of id) (eff_msg x))) e).
Definition eff_dev (e : list eff) : list device_state :=
  concat (map (fun x => match x with After _ m => device_status_of m | _ => [] end) e).
Definition eff_starts (id : N) (e : list eff) : nat :=
  list_sum (map (fun x => match x with SpawnRanging id' _ => if id' =? id then 1%nat else 0%nat | _ => 0%nat end) e).
Definition eff_stops (id : N) (e : list eff) : nat :=
  list_sum (map (fun x => match x with AbortRanging id' => if id' =? id then 1%nat else 0%nat | _ => 0%nat end) e).

Lemma eff_status_app id e e' : eff_status id (e ++ e') = eff_status id e ++ eff_status id e'.
Proof. unfold eff_status. by rewrite map_app, concat_app. Qed.
Lemma eff_dev_app e e' : eff_dev (e ++ e') = eff_dev e ++ eff_dev e'.
Proof. unfold eff_dev. by rewrite map_app, concat_app. Qed.
Lemma eff_starts_app id e e' : eff_starts id (e ++ e') = (eff_starts id e + eff_starts id e')%nat.
Proof. unfold eff_starts. by rewrite map_app, list_sum_app. Qed.
Lemma eff_stops_app id e e' : eff_stops id (e ++ e') = (eff_stops id e + eff_stops id e')%nat.
Proof. unfold eff_stops. by rewrite map_app, list_sum_app. Qed.

Definition dstate (d : device) (id : N) : session_state :=
  match d_sessions d !! id with Some s => s_state s | None => SsDeinit end.
Definition dtask (d : device) (id : N) : nat :=
  match d_sessions d !! id with Some s => if s_task s then 1 else 0 | None => 0 end.

(** No effect on timers and session states. *)
Definition quiet (e : list eff) : Prop :=
  forall id, eff_status id e = [] /\ eff_starts id e = 0%nat /\ eff_stops id e = 0%nat.
Lemma quiet_nil : quiet []. Proof. done. Qed.
Lemma quiet_app e e' : quiet e -> quiet e' -> quiet (e ++ e').
Proof.
  intros Q Q' id. destruct (Q id) as (A & B & C), (Q' id) as (A' & B' & C').
  rewrite eff_status_app, eff_starts_app, eff_stops_app, A, B, C, A', B', C'. done.
Qed.
Lemma quiet_cons x e : quiet [x] -> quiet e -> quiet (x :: e).
Proof. intros. by apply (quiet_app [x]). Qed.
Lemma quiet_if (b : bool) e e' : quiet e -> quiet e' -> quiet (if b then e else e').
Proof. by destruct b. Qed.

(** The effects are those of a change of the sessions and of the state. *)
Record dstep (d d' : device) (e : list eff) : Prop := {
  ds_status : forall id, exists r,
    eff_status id e = (if bool_decide (dstate d id = dstate d' id) then [] else [(dstate d' id, r)])
    /\ (dstate d id <> dstate d' id -> transition (dstate d id) (dstate d' id) r);
  ds_timer : forall id, (dtask d id + eff_starts id e = dtask d' id + eff_stops id e)%nat;
  ds_dev : eff_dev e = (if bool_decide (d_state d = d_state d') then [] else [d_state d']) }.

Lemma dstep_quiet d d' e : d_sessions d' = d_sessions d -> d_state d' = d_state d -> quiet e -> eff_dev e = [] ->
  dstep d d' e.
Proof.
  intros Es Ed Q D. split.
  - intros id. exists 0. destruct (Q id) as (-> & _). unfold dstate. rewrite Es.
    rewrite bool_decide_true by done. done.
  - intros id. destruct (Q id) as (_ & -> & ->). unfold dtask. by rewrite Es.
  - rewrite D, Ed. by rewrite bool_decide_true.
Qed.
(** One session changes. *)
Lemma dstep_one d d' e id r :
  (forall id', id' <> id -> d_sessions d' !! id' = d_sessions d !! id') ->
  (forall id', id' <> id -> eff_status id' e = [] /\ eff_starts id' e = 0%nat /\ eff_stops id' e = 0%nat) ->
  eff_status id e = (if bool_decide (dstate d id = dstate d' id) then [] else [(dstate d' id, r)]) ->
  (dstate d id <> dstate d' id -> transition (dstate d id) (dstate d' id) r) ->
  (dtask d id + eff_starts id e = dtask d' id + eff_stops id e)%nat ->
  eff_dev e = (if bool_decide (d_state d = d_state d') then [] else [d_state d']) ->
  dstep d d' e.
Proof.
  intros Es Eo St Tr Ti De. split; [| |done].
  - intros id'. destruct (N.eq_dec id' id) as [->|Hne]; [by exists r|].
    exists 0. destruct (Eo _ Hne) as (-> & _ & _). unfold dstate. rewrite Es by done.
    rewrite bool_decide_true by done. done.
  - intros id'. destruct (N.eq_dec id' id) as [->|Hne]; [done|].
    destruct (Eo _ Hne) as (_ & -> & ->). unfold dtask. by rewrite Es.
Qed.

(** Effects of the primitives. *)
Lemma session_drop_eq s : session_drop s =
  (if s_task s then [AbortRanging (s_id s)] else [])
  ++ (if bool_decide (SsDeinit = s_state s) then [] else [After 1 (SessionStatusNtf (s_id s) SsDeinit 0)]).
Proof. unfold session_drop. by rewrite stop_ranging_task_eq, session_set_state_eq. Qed.
Lemma drop_status s id : eff_status id (session_drop s) =
  if s_id s =? id then (if bool_decide (s_state s = SsDeinit) then [] else [(SsDeinit, 0)]) else [].
Proof.
  rewrite session_drop_eq, eff_status_app.
  replace (eff_status id (if s_task s then _ else _)) with (@nil (session_state * N)) by by destruct (s_task s).
  rewrite (bool_decide_ext (SsDeinit = s_state s) (s_state s = SsDeinit)) by done.
  destruct (bool_decide _); cbn; by destruct (_ =? _).
Qed.
Lemma drop_starts s id : eff_starts id (session_drop s) = 0%nat.
Proof. rewrite session_drop_eq. by destruct (s_task s), (bool_decide _). Qed.
Lemma drop_stops s id : eff_stops id (session_drop s) = if s_id s =? id then if s_task s then 1%nat else 0%nat else 0%nat.
Proof.
  rewrite session_drop_eq. destruct (s_task s), (bool_decide _); cbn; by destruct (_ =? _).
Qed.
Lemma drop_dev s : eff_dev (session_drop s) = [].
Proof. rewrite session_drop_eq. by destruct (s_task s), (bool_decide _). Qed.

Lemma device_drop_effs d id : (forall id s, d_sessions d !! id = Some s -> s_id s = id) ->
  eff_status id (device_drop d) = (if bool_decide (dstate d id = SsDeinit) then [] else [(SsDeinit, 0)])
  /\ eff_starts id (device_drop d) = 0%nat /\ eff_stops id (device_drop d) = dtask d id /\ eff_dev (device_drop d) = [].
Proof.
  intros K. unfold device_drop, dstate, dtask.
  assert (forall l : list (N * session), NoDup l.*1 -> (forall k s, (k, s) ∈ l -> s_id s = k) ->
    let e := concat (map (fun p => session_drop p.2) l) in
    eff_status id e = (match list_to_map (M:=gmap N session) l !! id with
      | Some s => if bool_decide (s_state s = SsDeinit) then [] else [(SsDeinit, 0)] | None => [] end)
    /\ eff_starts id e = 0%nat
    /\ eff_stops id e = match list_to_map (M:=gmap N session) l !! id with
        | Some s => if s_task s then 1%nat else 0%nat | None => 0%nat end
    /\ eff_dev e = []) as G.
  { induction l as [|[k s] l IH]; intros Nd Kl; cbn [map concat list_to_map foldr fmap list_fmap fst snd].
    - by rewrite lookup_empty.
    - apply NoDup_cons in Nd as [Nk Nd]. cbn [fst] in Nk.
      destruct IH as (I1 & I2 & I3 & I4); [done|intros; apply Kl; by constructor|].
      assert (s_id s = k) as Hk by (apply Kl; constructor).
      cbn beta zeta. rewrite eff_status_app, eff_starts_app, eff_stops_app, eff_dev_app.
      cbn beta zeta in I1, I2, I3, I4. rewrite I1, I2, I3, I4, drop_status, drop_starts, drop_stops, drop_dev, Hk.
      destruct (N.eqb_spec k id) as [->|Hne].
      + cbn [uncurry]. rewrite lookup_insert. rewrite not_elem_of_list_to_map_1 by done.
        rewrite app_nil_r, Nat.add_0_r. done.
      + cbn [uncurry]. rewrite lookup_insert_ne by done. done. }
  destruct (G (map_to_list (d_sessions d))) as (G1 & G2 & G3 & G4).
  - apply NoDup_fst_map_to_list.
  - intros k s H. apply elem_of_map_to_list in H. by apply K.
  - cbn zeta in *. rewrite G1, G2, G3, G4, list_to_map_to_list.
    split_and!; try done. destruct (d_sessions d !! id); [done|]. by rewrite bool_decide_true.
Qed.

Ltac same_dstep := apply dstep_quiet; [done|done|by apply quiet_nil|done].
Lemma dstate_insert d id s : dstate (d_set_sessions (<[id := s]> (d_sessions d)) d) id = s_state s.
Proof. unfold dstate. cbn. by rewrite lookup_insert. Qed.
Lemma dtask_insert d id s : dtask (d_set_sessions (<[id := s]> (d_sessions d)) d) id = if s_task s then 1%nat else 0%nat.
Proof. unfold dtask. cbn. by rewrite lookup_insert. Qed.

(** Effects which only concern session [id]. *)
Definition about (id : N) (e : list eff) : Prop :=
  forall id', id' <> id -> eff_status id' e = [] /\ eff_starts id' e = 0%nat /\ eff_stops id' e = 0%nat.
Lemma about_nil id : about id []. Proof. done. Qed.
Lemma about_app id e e' : about id e -> about id e' -> about id (e ++ e').
Proof.
  intros Q Q' id' Hne. destruct (Q id' Hne) as (A & B & C), (Q' id' Hne) as (A' & B' & C').
  rewrite eff_status_app, eff_starts_app, eff_stops_app, A, B, C, A', B', C'. done.
Qed.
Lemma about_cons id x e : about id [x] -> about id e -> about id (x :: e).
Proof. intros. by apply (about_app id [x]). Qed.
Lemma about_if (b : bool) id e e' : about id e -> about id e' -> about id (if b then e else e').
Proof. by destruct b. Qed.
Lemma about_quiet id e : quiet e -> about id e. Proof. intros Q id' _. apply Q. Qed.
Lemma about_status id ms st r : about id [After ms (SessionStatusNtf id st r)].
Proof. intros id' Hne. cbn. apply N.eqb_neq in Hne. rewrite N.eqb_sym in Hne. by rewrite Hne. Qed.
Lemma about_spawn id n : about id [SpawnRanging id n].
Proof. intros id' Hne. cbn. apply N.eqb_neq in Hne. rewrite N.eqb_sym in Hne. by rewrite Hne. Qed.
Lemma about_abort id : about id [AbortRanging id].
Proof. intros id' Hne. cbn. apply N.eqb_neq in Hne. rewrite N.eqb_sym in Hne. by rewrite Hne. Qed.
Lemma quiet_dev ms s : quiet [After ms (CoreDeviceStatusNtf s)]. Proof. done. Qed.
Lemma about_drop id s : s_id s = id -> about id (session_drop s).
Proof.
  intros <-. rewrite session_drop_eq. apply about_app; apply about_if; auto using about_nil, about_abort, about_status.
Qed.

Lemma dstep_session_init d id ty d' e m : (forall id s, d_sessions d !! id = Some s -> s_id s = id) ->
  session_init d id ty = (d', e, m) -> dstep d d' e.
Proof.
  intros K H. unfold session_init in H. destruct (Nat.leb _ _); [injection H as <- <- <-; same_dstep|].
  destruct (d_sessions d !! id) as [old|] eqn:L.
  - injection H as <- <- <-. apply (dstep_one _ _ _ id 0).
    + intros id' Hne. cbn. by rewrite lookup_insert_ne.
    + by apply about_drop, K.
    + rewrite drop_status, (K _ _ L), N.eqb_refl, dstate_insert. unfold dstate. rewrite L. done.
    + rewrite dstate_insert. intros _. apply TrDeinit.
    + rewrite dtask_insert, drop_starts, drop_stops, (K _ _ L), N.eqb_refl. unfold dtask. rewrite L. cbn. lia.
    + rewrite drop_dev. by rewrite bool_decide_true.
  - unfold session_init_state in H. rewrite session_set_state_eq in H.
    cbn [s_state session_new s_id] in H. rewrite bool_decide_false in H by done. injection H as <- <- <-.
    apply (dstep_one _ _ _ id 0).
    + intros id' Hne. cbn. by rewrite lookup_insert_ne.
    + apply about_status.
    + rewrite dstate_insert. unfold dstate. rewrite L. cbn. by rewrite N.eqb_refl.
    + rewrite dstate_insert. unfold dstate. rewrite L. intros _. constructor.
    + rewrite dtask_insert. unfold dtask. rewrite L. done.
    + by rewrite bool_decide_true.
Qed.

Lemma dec_dev d d' e : device_dec_active d = Ret (d', e) ->
  eff_dev e = (if bool_decide (d_state d = d_state d') then [] else [d_state d']) /\ quiet e /\ d_sessions d' = d_sessions d.
Proof.
  intros H. apply dec_active_inv in H as (_ & -> & ->). cbn [d_state d_set_state d_set_active d_sessions].
  destruct (_ =? 0); cbn [andb].
  - rewrite (bool_decide_ext (DsReady = d_state d) (d_state d = DsReady)) by done. destruct (bool_decide _); done.
  - by rewrite bool_decide_true.
Qed.

Lemma dstep_session_deinit d id d' e m : (forall id s, d_sessions d !! id = Some s -> s_id s = id) ->
  session_deinit d id = Ret (d', e, m) -> dstep d d' e.
Proof.
  intros K H. unfold session_deinit in H. destruct (d_sessions d !! id) as [s|] eqn:L; [|injection H as <- <- <-; same_dstep].
  assert (exists d1 e1, d_sessions d1 = d_sessions d /\ quiet e1
    /\ eff_dev e1 = (if bool_decide (d_state d = d_state d1) then [] else [d_state d1])
    /\ d' = d_set_sessions (delete id (d_sessions d)) d1 /\ e = e1 ++ session_drop s) as (d1 & e1 & E1 & Q & De & -> & ->).
  { destruct (bool_decide (s_state s = SsActive)).
    - destruct (device_dec_active d) as [[d1 e1]|] eqn:D; [|discriminate]. apply dec_dev in D as (? & ? & E).
      cbn [obind] in H. injection H as <- <- <-. exists d1, e1. by rewrite E.
    - cbn [obind] in H. injection H as <- <- <-. exists d, []. split_and!; try done. by rewrite bool_decide_true. }
  apply (dstep_one _ _ _ id 0).
  - intros id' Hne. cbn. by rewrite lookup_delete_ne.
  - apply about_app; [by apply about_quiet|by apply about_drop, K].
  - rewrite eff_status_app. destruct (Q id) as (-> & _). rewrite drop_status, (K _ _ L), N.eqb_refl.
    unfold dstate. cbn. rewrite lookup_delete, L. done.
  - intros _. unfold dstate at 2. cbn. rewrite lookup_delete. apply TrDeinit.
  - rewrite eff_starts_app, eff_stops_app. destruct (Q id) as (_ & -> & ->).
    rewrite drop_starts, drop_stops, (K _ _ L), N.eqb_refl. unfold dtask. cbn. rewrite lookup_delete, L. cbn. lia.
  - rewrite eff_dev_app, drop_dev, app_nil_r. exact De.
Qed.

(** Only the configuration, the data or the counter of one session changes. *)
Lemma dstep_frame d id s s' e : d_sessions d !! id = Some s -> s_state s' = s_state s -> s_task s' = s_task s ->
  quiet e -> eff_dev e = [] -> dstep d (d_set_sessions (<[id := s']> (d_sessions d)) d) e.
Proof.
  intros L Es Et Q D. apply (dstep_one _ _ _ id 0).
  - intros id' Hne. cbn. by rewrite lookup_insert_ne.
  - by apply about_quiet.
  - destruct (Q id) as (-> & _). rewrite dstate_insert. unfold dstate. rewrite L, Es. by rewrite bool_decide_true.
  - rewrite dstate_insert. unfold dstate. by rewrite L, Es.
  - destruct (Q id) as (_ & -> & ->). rewrite dtask_insert. unfold dtask. by rewrite L, Et.
  - by rewrite D, bool_decide_true.
Qed.

Lemma dstep_set_app_config d id l d' e m : (forall id s, d_sessions d !! id = Some s -> s_id s = id) ->
  session_set_app_config d id l = Ret (d', e, m) -> dstep d d' e.
Proof.
  intros K H. unfold session_set_app_config in H.
  destruct (d_sessions d !! id) as [s|] eqn:L; [|injection H as <- <- <-; same_dstep].
  destruct (negb _); [discriminate|].
  destruct (bool_decide _ && _); [injection H as <- <- <-; same_dstep|].
  destruct (negb _ && _) eqn:St; [injection H as <- <- <-; same_dstep|].
  destruct (set_tlvs _ _ _) as [[c' inv]|]; [|discriminate]. cbn [obind] in H.
  destruct (missing_mandatory c'); [injection H as <- <- <-; same_dstep|].
  destruct inv; [|injection H as <- <- <-; same_dstep].
  cbn [s_state s_set_cfg] in H.
  destruct (bool_decide_reflect (s_state s = SsInit)) as [Si|Si].
  - rewrite session_set_state_eq in H. cbn [s_state s_set_cfg s_id] in H. rewrite Si, bool_decide_false in H by done.
    injection H as <- <- <-. rewrite (K _ _ L). apply (dstep_one _ _ _ id 0).
    + intros id' Hne. cbn. by rewrite lookup_insert_ne.
    + apply about_status.
    + rewrite dstate_insert. unfold dstate. rewrite L, Si. cbn. by rewrite N.eqb_refl.
    + rewrite dstate_insert. unfold dstate. rewrite L, Si. intros _. constructor.
    + rewrite dtask_insert. unfold dtask. by rewrite L.
    + by rewrite bool_decide_true.
  - injection H as <- <- <-. by eapply dstep_frame.
Qed.

Lemma multicast_finish_step d id s dst d' e : d_sessions d !! id = Some s -> s_id s = id ->
  s_state s = SsIdle \/ s_state s = SsActive ->
  multicast_finish d id s dst = (d', e) -> dstep d d' e.
Proof.
  intros L K St H. rewrite multicast_finish_eq in H. injection H as <- <-. destruct dst as [|a dst].
  - destruct St as [St|St]; rewrite St.
    + rewrite bool_decide_true by done. by eapply dstep_frame.
    + rewrite bool_decide_false by done. rewrite K. apply (dstep_one _ _ _ id 0x33).
      * intros id' Hne. cbn. by rewrite lookup_insert_ne.
      * apply about_status.
      * rewrite dstate_insert. unfold dstate. rewrite L, St. cbn. by rewrite N.eqb_refl.
      * rewrite dstate_insert. unfold dstate. rewrite L, St. intros _. constructor.
      * rewrite dtask_insert. unfold dtask. by rewrite L.
      * by rewrite bool_decide_true.
  - by eapply dstep_frame.
Qed.
Lemma dstep_quiet_app d d' e e' : quiet e -> eff_dev e = [] -> dstep d d' e' -> dstep d d' (e ++ e').
Proof.
  intros Q D [A B C]. split.
  - intros id. destruct (A id) as (r & E & T). exists r. rewrite eff_status_app. destruct (Q id) as (-> & _). done.
  - intros id. rewrite eff_starts_app, eff_stops_app. destruct (Q id) as (_ & -> & ->). apply B.
  - by rewrite eff_dev_app, D.
Qed.
Lemma quiet_stops id e : Forall (fun x => exists a n, x = SpawnStop a id n /\ wf_mac a) e -> quiet e /\ eff_dev e = [].
Proof.
  induction 1 as [|x e (a & n & -> & _) _ [IH1 IH2]]; [done|]. split; [|exact IH2].
  apply quiet_cons; done.
Qed.

Lemma dstep_multicast c d id a b d' e m : dinv c d -> wf_bytes b ->
  session_update_controller_multicast_list d id a b = Ret (d', e, m) -> dstep d d' e.
Proof.
  intros I W H. unfold session_update_controller_multicast_list in H.
  destruct (d_sessions d !! id) as [s|] eqn:L; [|injection H as <- <- <-; same_dstep].
  destruct (_ || _) eqn:P; [injection H as <- <- <-; same_dstep|].
  assert (s_state s = SsIdle \/ s_state s = SsActive) as St.
  { destruct (s_state s); auto; discriminate P. }
  destruct (multicast_controlees a b) as [cs|] eqn:M; [|injection H as <- <- <-; same_dstep].
  apply multicast_controlees_short in M as [Fc _]; [|done].
  pose proof (di_session _ _ I _ _ L) as O. pose proof (so_id _ _ O) as K.
  pose proof (co_dst _ (so_cfg _ _ O)) as Fd.
  assert (forall kr, (let! (dst, status, rsp) := add_controlees kr cs (dst_mac_address (s_cfg s)) STATUS_OK [] in
      let '(d, e3) := multicast_finish d id s dst in
      Ret (d, e3, SessionUpdateControllerMulticastListRsp status rsp)) = Ret (d', e, m) -> dstep d d' e) as Add.
  { clear H. intros kr H. destruct (add_controlees _ _ _ _ _) as [[[dst st] rsp]|]; [|discriminate]. cbn [obind] in H.
    destruct (multicast_finish d id s dst) as [d1 e3] eqn:Fi. injection H as <- <- <-.
    exact (multicast_finish_step _ _ _ _ _ _ L K St Fi). }
  destruct a; [by eapply Add| |by eapply Add|by eapply Add].
  destruct (remove_controlees _ _ _ _ _ _ _ _) as [[[[[dst st] rsp] ntf] e1]|] eqn:A; [|discriminate]. cbn [obind] in H.
  apply remove_controlees_ok in A as (_ & _ & _ & _ & _ & _ & e'' & -> & Fe); [|done|done|done|done|done].
  destruct (multicast_finish d id s dst) as [d1 e3] eqn:Fi. injection H as <- <- <-.
  destruct (quiet_stops _ _ Fe). cbn [app]. apply dstep_quiet_app; [done|done|].
  apply dstep_quiet_app; [by apply quiet_if|by destruct (bool_decide _)|].
  exact (multicast_finish_step _ _ _ _ _ _ L K St Fi).
Qed.

Lemma dstep_session_start d id d' e m : (forall id s, d_sessions d !! id = Some s -> s_id s = id) ->
  session_start d id = Ret (d', e, m) -> dstep d d' e.
Proof.
  intros K H. unfold session_start in H.
  destruct (d_sessions d !! id) as [s|] eqn:L; [|injection H as <- <- <-; same_dstep].
  destruct (bool_decide_reflect (s_state s = SsIdle)) as [St|St]; cbn [negb] in H; [|injection H as <- <- <-; same_dstep].
  destruct (s_task s) eqn:T; [discriminate|].
  rewrite session_set_state_eq, device_set_state_eq in H. cbn [s_state s_set_task s_id d_state d_set_active d_set_sessions] in H.
  rewrite St, bool_decide_false, (K _ _ L) in H by done. apply Ret_inj in H.
  injection H as <- <- <-. apply (dstep_one _ _ _ id 0).
  - intros id' Hne. cbn. by rewrite lookup_insert_ne.
  - apply about_cons; [apply about_spawn|]. apply about_cons; [apply about_status|].
    apply about_if; [apply about_nil|apply about_quiet, quiet_dev].
  - unfold dstate. cbn [d_sessions d_set_state d_set_active d_set_sessions]. rewrite L, lookup_insert, St.
    cbn [s_state s_set_state]. rewrite (bool_decide_false (SsIdle = SsActive)) by done. destruct (bool_decide _); cbn; by rewrite N.eqb_refl.
  - unfold dstate. cbn [d_sessions d_set_state d_set_active d_set_sessions]. rewrite L, lookup_insert, St. constructor.
  - unfold dtask. cbn [d_sessions d_set_state d_set_active d_set_sessions]. rewrite L, lookup_insert, T.
    destruct (bool_decide _); cbn; by rewrite N.eqb_refl.
  - cbn [d_state d_set_state]. rewrite (bool_decide_ext (DsActive = d_state d) (d_state d = DsActive)) by done.
    by destruct (bool_decide _).
Qed.

Lemma dstep_session_stop c d id d' e m : dinv c d ->
  session_stop d id = Ret (d', e, m) -> dstep d d' e.
Proof.
  intros I H. unfold session_stop in H.
  destruct (d_sessions d !! id) as [s|] eqn:L; [|injection H as <- <- <-; same_dstep].
  destruct (bool_decide_reflect (s_state s = SsActive)) as [St|St]; cbn [negb] in H; [|injection H as <- <- <-; same_dstep].
  pose proof (di_session _ _ I _ _ L) as O. pose proof (so_id _ _ O) as K. pose proof (so_active _ _ O St) as T.
  rewrite stop_ranging_task_eq, session_set_state_eq in H. cbn [s_state s_set_task s_id] in H.
  rewrite St, T, K, bool_decide_false in H by done.
  destruct (device_dec_active _) as [[d1 e3]|] eqn:D; [|discriminate]. cbn [obind] in H. apply Ret_inj in H. injection H as <- <- <-.
  apply dec_dev in D as (De & Q & Es). cbn [d_sessions d_state d_set_sessions] in De, Es. apply (dstep_one _ _ _ id 0).
  - intros id' Hne. rewrite Es. by rewrite lookup_insert_ne.
  - apply about_cons; [apply about_abort|]. apply about_cons; [apply about_status|]. by apply about_quiet.
  - unfold dstate. rewrite Es, L, lookup_insert, St. cbn [s_state s_set_state]. rewrite bool_decide_false by done.
    change (AbortRanging id :: After 1 (SessionStatusNtf id SsIdle REASON_STATE_CHANGE_WITH_SESSION_MANAGEMENT_COMMANDS) :: e3)
      with ([AbortRanging id; After 1 (SessionStatusNtf id SsIdle 0)] ++ e3).
    rewrite eff_status_app. destruct (Q id) as (-> & _). cbn. by rewrite N.eqb_refl.
  - unfold dstate. rewrite Es, L, lookup_insert, St. constructor.
  - unfold dtask. rewrite Es, L, lookup_insert, T.
    change (AbortRanging id :: After 1 (SessionStatusNtf id SsIdle REASON_STATE_CHANGE_WITH_SESSION_MANAGEMENT_COMMANDS) :: e3)
      with ([AbortRanging id; After 1 (SessionStatusNtf id SsIdle 0)] ++ e3).
    rewrite eff_starts_app, eff_stops_app. destruct (Q id) as (_ & -> & ->). cbn. by rewrite N.eqb_refl.
  - exact De.
Qed.

Lemma dstep_stop_controlee c m id d : dinv c d ->
  dstep d (stop_controlee m id d).1 (stop_controlee m id d).2.
Proof.
  intros I. unfold stop_controlee.
  destruct (d_sessions d !! id) as [s|] eqn:L; [|same_dstep].
  destruct (negb _); [same_dstep|].
  destruct (bool_decide_reflect (s_state s = SsActive)) as [St|St]; [|same_dstep].
  pose proof (di_session _ _ I _ _ L) as O. pose proof (so_id _ _ O) as K. pose proof (so_active _ _ O St) as T.
  rewrite stop_ranging_task_eq, session_set_state_eq. cbn [s_state s_set_task s_id d_active d_set_active d_set_sessions].
  rewrite St, T, K, bool_decide_false by done.
  rewrite device_set_state_eq. cbn [d_state d_set_active d_set_sessions].
  set (s' := s_set_state SsIdle (s_set_task false s)).
  assert (forall st e3, quiet e3 -> eff_dev e3 = (if bool_decide (d_state d = st) then [] else [st]) ->
    dstep d (d_set_state st (d_set_active (d_active d - 1) (d_set_sessions (<[id:=s']> (d_sessions d)) d)))
      ([AbortRanging id] ++ [After 1 (SessionStatusNtf id SsIdle REASON_SESSION_STOPPED_DUE_TO_INBAND_SIGNAL)] ++ e3)) as G.
  { intros st e3 Q De. apply (dstep_one _ _ _ id 5).
    - intros id' Hne. cbn. by rewrite lookup_insert_ne.
    - apply about_app; [apply about_abort|]. apply about_app; [apply about_status|]. by apply about_quiet.
    - unfold dstate. cbn [d_sessions d_set_state d_set_active d_set_sessions]. rewrite L, lookup_insert, St.
      cbn [s_state s_set_state s']. rewrite bool_decide_false by done.
      rewrite !eff_status_app. destruct (Q id) as (-> & _). cbn. by rewrite N.eqb_refl.
    - unfold dstate. cbn [d_sessions d_set_state d_set_active d_set_sessions]. rewrite L, lookup_insert, St. constructor.
    - unfold dtask. cbn [d_sessions d_set_state d_set_active d_set_sessions]. rewrite L, lookup_insert, T.
      rewrite !eff_starts_app, !eff_stops_app. destruct (Q id) as (_ & -> & ->). cbn. by rewrite N.eqb_refl.
    - rewrite !eff_dev_app, De. done. }
  destruct (_ =? 0); cbn [fst snd].
  - apply G; [by apply quiet_if|]. rewrite (bool_decide_ext (DsReady = d_state d) (d_state d = DsReady)) by done.
    by destruct (bool_decide _).
  - specialize (G (d_state d) []). rewrite app_nil_r in G.
    replace (d_set_state (d_state d) _) with (d_set_active (d_active d - 1) (d_set_sessions (<[id:=s']> (d_sessions d)) d)) in G
      by by destruct d.
    rewrite app_nil_r. apply G; [done|by rewrite bool_decide_true].
Qed.

(** ** One command of a device *)
Definition is_reset (c : command) : bool := match c with CmdDeviceReset _ => true | _ => false end.
Definition steps (d d' : device) (e : list eff) : Prop :=
  (forall id, exists r,
    eff_status id e = (if bool_decide (dstate d id = dstate d' id) then [] else [(dstate d' id, r)])
    /\ (dstate d id <> dstate d' id -> transition (dstate d id) (dstate d' id) r))
  /\ (forall id, (dtask d id + eff_starts id e = dtask d' id + eff_stops id e)%nat).
Lemma dstep_steps d d' e : dstep d d' e -> steps d d' e.
Proof. intros []. by split. Qed.

Lemma core_reset_eq d : core_device_reset d =
  (d_set_state DsReady (d_set_reset true (device_new (d_handle d) (d_mac d))),
   device_drop d ++ [After 5 (CoreDeviceStatusNtf DsReady)], CoreDeviceResetRsp STATUS_OK).
Proof. unfold core_device_reset, device_init. by rewrite device_set_state_eq. Qed.

Lemma steps_reset d d' e m : (forall id s, d_sessions d !! id = Some s -> s_id s = id) ->
  core_device_reset d = (d', e, m) -> steps d d' e /\ eff_dev e = [DsReady] /\ d_state d' = DsReady.
Proof.
  intros K H. rewrite core_reset_eq in H. injection H as <- <- <-.
  pose proof (fun id => device_drop_effs d id K) as Dr. split_and!; [split| |done].
  - intros id. exists 0. destruct (Dr id) as (E & _). rewrite eff_status_app, E. cbn [app].
    change (dstate (d_set_state DsReady (d_set_reset true (device_new (d_handle d) (d_mac d)))) id) with SsDeinit.
    split; [|intros _; apply TrDeinit]. unfold eff_status. cbn. by rewrite app_nil_r.
  - intros id. destruct (Dr id) as (_ & E1 & E2 & _). rewrite eff_starts_app, eff_stops_app, E1, E2.
    change (dtask (d_set_state DsReady (d_set_reset true (device_new (d_handle d) (d_mac d)))) id) with 0%nat. cbn. lia.
  - destruct (Dr 0) as (_ & _ & _ & E). by rewrite eff_dev_app, E.
Qed.

Lemma handle_command_steps c d cmd d' e m : dinv c d -> wf_cmd cmd -> handle_command d cmd = Ret (d', e, m) ->
  steps d d' e /\ (is_reset cmd = false -> dstep d d' e)
  /\ (is_reset cmd = true -> eff_dev e = [DsReady] /\ d_state d' = DsReady).
Proof.
  intros I W H. assert (forall id s, d_sessions d !! id = Some s -> s_id s = id) as K.
  { intros id s L. apply (so_id _ _ (di_session _ _ I _ _ L)). }
  destruct (is_reset cmd) eqn:R.
  - destruct cmd; try discriminate R. cbn [handle_command] in H. apply Ret_inj in H.
    apply steps_reset in H as (? & ? & ?); [|done]. done.
  - assert (dstep d d' e) as S; [|split_and!; [by apply dstep_steps|done|done]].
    assert (forall x, Ret (d, [], x) = Ret (d', e, m) -> dstep d d' e) as Same.
    { intros x E. injection E as <- <- <-. same_dstep. }
    destruct cmd; cbn [handle_command wf_cmd is_reset] in H, W, R; try discriminate R; try (by eapply Same).
    + unfold core_get_device_info in H. destruct (bool_decide _); [|discriminate]. by eapply Same.
    + unfold core_set_config in H. destruct (negb _); [discriminate|].
      destruct (set_config_loop _ _ _) as [lp inv]. injection H as <- <- <-. same_dstep.
    + apply Ret_inj in H. by eapply dstep_session_init.
    + by eapply dstep_session_deinit.
    + by eapply dstep_set_app_config.
    + destruct W. by eapply dstep_multicast.
    + by eapply dstep_session_start.
    + by eapply dstep_session_stop.
    + unfold android_set_country_code in H. injection H as <- <- <-. same_dstep.
Qed.

(** The answer does not count as a notification. *)
Lemma answer_quiet d cmd d' e m : handle_command d cmd = Ret (d', e, m) ->
  forall id, status_of id m = [].
Proof.
  intros H id. destruct cmd; cbn [handle_command] in H.
  all: unfold core_get_device_info, core_set_config, session_init, session_deinit, session_set_app_config,
         session_update_controller_multicast_list, session_start, session_stop, android_set_country_code,
         core_get_config, session_get_app_config, session_get_state, session_get_ranging_count in H.
  all: repeat first
    [ match type of H with Ret _ = Ret _ => apply Ret_inj in H end
    | match type of H with Crash _ = Ret _ => discriminate H end
    | match type of H with context [match ?x with _ => _ end] => destruct x; cbn [obind] in H end
    | match type of H with context [obind ?x _] => destruct x; cbn [obind] in H end].
  all: try (injection H as <- <- <-; done); try discriminate.
Qed.

(** ** One command of the context *)
Definition effs_of (h : N) (o : out) : list eff :=
  match o with OEff h' e => if h' =? h then [e] else [] | _ => [] end.
Definition effs_at (h : N) (outs : list out) : list eff := concat (map (effs_of h) outs).
Lemma effs_at_app h o o' : effs_at h (o ++ o') = effs_at h o ++ effs_at h o'.
Proof. unfold effs_at. by rewrite map_app, concat_app. Qed.
Lemma effs_at_same h e : effs_at h (map (OEff h) e) = e.
Proof.
  induction e as [|x e IH]; [done|]. change (effs_at h ([OEff h x] ++ map (OEff h) e) = [x] ++ e).
  rewrite effs_at_app, IH. unfold effs_at. cbn. by rewrite N.eqb_refl.
Qed.
Lemma effs_at_other h h' e : h <> h' -> effs_at h (map (OEff h') e) = [].
Proof.
  intros Hne. induction e as [|x e IH]; [done|]. change (effs_at h ([OEff h' x] ++ map (OEff h') e) = []).
  rewrite effs_at_app, IH. unfold effs_at. cbn. apply N.eqb_neq in Hne. rewrite N.eqb_sym in Hne. by rewrite Hne.
Qed.
Lemma effs_at_concat h (f : N -> list eff) l : NoDup l ->
  effs_at h (concat (map (fun k => map (OEff k) (f k)) l)) = if bool_decide (h ∈ l) then f h else [].
Proof.
  induction l as [|k l IH]; intros Nd; [done|]. apply NoDup_cons in Nd as [Nk Nd]. cbn [map concat].
  rewrite effs_at_app, IH by done. destruct (N.eq_dec h k) as [<-|Hne].
  - rewrite effs_at_same, (bool_decide_false (h ∈ l)), bool_decide_true by (done || constructor). apply app_nil_r.
  - rewrite effs_at_other by done. cbn [app].
    rewrite (bool_decide_ext (h ∈ k :: l) (h ∈ l)); [done|]. rewrite elem_of_cons. tauto.
Qed.

Lemma status_ntfs_effs h id outs : status_ntfs h id outs = eff_status id (effs_at h outs).
Proof.
  unfold status_ntfs, messages, eff_status, effs_at. induction outs as [|o outs IH]; [done|].
  cbn [map concat]. rewrite !map_app, !concat_app, IH. f_equal.
  destruct o as [h' x| | |]; try done. unfold messages_to, sent_to, scheduled_to, effs_of.
  destruct (h' =? h); destruct x; cbn; rewrite ?app_nil_r; done.
Qed.
Lemma device_ntfs_effs h outs : device_ntfs h outs = eff_dev (effs_at h outs).
Proof.
  unfold device_ntfs, scheduled, eff_dev, effs_at. induction outs as [|o outs IH]; [done|].
  cbn [map concat]. rewrite !map_app, !concat_app, IH. f_equal.
  destruct o as [h' x| | |]; try done. unfold scheduled_to, effs_of.
  destruct (h' =? h); destruct x; cbn; rewrite ?app_nil_r; done.
Qed.
Lemma started_effs h id outs : timers_started h id outs = eff_starts id (effs_at h outs).
Proof.
  unfold timers_started, eff_starts, effs_at. induction outs as [|o outs IH]; [done|].
  cbn [map concat list_sum]. rewrite map_app, list_sum_app, <- IH. unfold list_sum at 1. cbn [foldr].
  fold (list_sum (map (starts_timer h id) outs)). f_equal.
  destruct o as [h' x| | |]; try done. unfold effs_of. cbn. destruct (h' =? h); destruct x; cbn; done.
Qed.
Lemma stopped_effs h id outs : timers_stopped h id outs = eff_stops id (effs_at h outs).
Proof.
  unfold timers_stopped, eff_stops, effs_at. induction outs as [|o outs IH]; [done|].
  cbn [map concat list_sum]. rewrite map_app, list_sum_app, <- IH. unfold list_sum at 1. cbn [foldr].
  fold (list_sum (map (stops_timer h id) outs)). f_equal.
  destruct o as [h' x| | |]; try done. unfold effs_of. cbn. destruct (h' =? h); destruct x; cbn; done.
Qed.

Definition ostate (d : option device) (id : N) : session_state :=
  match d with Some d => dstate d id | None => SsDeinit end.
Definition otask (d : option device) (id : N) : nat :=
  match d with Some d => dtask d id | None => 0 end.
Record hstep (d d' : option device) (e : list eff) : Prop := {
  hs_status : forall id, exists r,
    eff_status id e = (if bool_decide (ostate d id = ostate d' id) then [] else [(ostate d' id, r)])
    /\ (ostate d id <> ostate d' id -> transition (ostate d id) (ostate d' id) r);
  hs_timer : forall id, (otask d id + eff_starts id e = otask d' id + eff_stops id e)%nat }.
Definition hdev (d d' : option device) (e : list eff) : Prop :=
  eff_dev e = match d' with
              | Some d' => if bool_decide (d_state <$> d = Some (d_state d')) then [] else [d_state d']
              | None => [] end.

Lemma steps_hstep d d' e : steps d d' e -> hstep (Some d) (Some d') e.
Proof. intros [A B]. by split. Qed.
Lemma dstep_hstep d d' e : dstep d d' e -> hstep (Some d) (Some d') e /\ hdev (Some d) (Some d') e.
Proof.
  intros S. split; [by apply steps_hstep, dstep_steps|]. unfold hdev. rewrite (ds_dev _ _ _ S). cbn.
  rewrite (bool_decide_ext (Some (d_state d) = Some (d_state d')) (d_state d = d_state d')); [done|].
  split; congruence.
Qed.
Lemma hstep_same d e : quiet e -> hstep d d e.
Proof.
  intros Q. split.
  - intros id. exists 0. destruct (Q id) as (-> & _). rewrite bool_decide_true by done. done.
  - intros id. destruct (Q id) as (_ & -> & ->). done.
Qed.
Lemma hdev_same d e : eff_dev e = [] -> hdev d d e.
Proof. intros D. unfold hdev. rewrite D. destruct d; [|done]. cbn. by rewrite bool_decide_true. Qed.

Lemma send_data_outs closed s id peers o : send_data closed s id peers = Ret o ->
  exists m, (peers <> [] -> device_mac_address (s_cfg s) = Some m)
  /\ o = map (fun k => OEff k (Send (DataMessageRcv id STATUS_OK (mac_to_u64 m) 1 (s_data s)))) peers
  /\ Forall (fun k => k ∉ closed) peers
  /\ (peers <> [] -> exists b, wire (DataMessageRcv id STATUS_OK (mac_to_u64 m) 1 (s_data s)) = Some b).
Proof.
  revert o. induction peers as [|k peers IH]; intros o H; cbn [send_data] in H.
  - injection H as <-. exists (MShort []). done.
  - destruct (device_mac_address (s_cfg s)) as [m|]; [|discriminate].
    destruct (wire _) as [b|] eqn:W; [|discriminate]. case_bool_decide; [discriminate|].
    destruct (send_data _ _ _ peers) as [l|]; [|discriminate]. cbn [obind] in H. apply Ret_inj in H. subst o.
    destruct (IH _ eq_refl) as (m' & E & -> & F & _). exists m. split_and!; [done| |by constructor|by exists b].
    cbn [map]. f_equal. destruct peers as [|k' peers]; [done|]. assert (Some m = Some m') as Em by by apply E. by injection Em as <-.
Qed.
Lemma quiet_sends (l : list N) m h : (forall id, status_of id m = []) ->
  quiet (effs_at h (map (fun k => OEff k (Send m)) l)) /\ eff_dev (effs_at h (map (fun k => OEff k (Send m)) l)) = [].
Proof.
  intros S. induction l as [|k l [IH1 IH2]]; [done|]. cbn [map].
  change (OEff k (Send m) :: ?x) with ([OEff k (Send m)] ++ x). rewrite effs_at_app, eff_dev_app, IH2.
  unfold effs_at at 1 3. cbn. destruct (k =? h); [|done]. split; [|done].
  apply quiet_app; [|done]. intros id. unfold eff_status. cbn. by rewrite S.
Qed.
Lemma ranging_quiet e p h id p' outs h' : ranging e p h id = Ret (p', outs) ->
  quiet (effs_at h' outs) /\ eff_dev (effs_at h' outs) = [].
Proof.
  intros H. apply ranging_inv in H as (d & s & ms1 & ms2 & peers & o1 & o2 & s' & _ & _ & _ & _ & Sd & Si & _ & ->).
  apply send_data_outs in Sd as (m & _ & -> & _). rewrite effs_at_app, eff_dev_app.
  destruct (quiet_sends peers (DataMessageRcv id STATUS_OK (mac_to_u64 m) 1 (s_data s)) h') as [Q ->]; [done|].
  apply send_info_session in Si as [(_ & _ & ->)|(_ & _ & _ & _ & -> & _)].
  - split; [|done]. by apply quiet_app.
  - split; [apply quiet_app; [done|]|]; unfold effs_at; cbn; by destruct (h =? h').
Qed.

Lemma encodes_reset_like packet : wf_bytes packet -> encodes (CmdDeviceReset 0) packet -> reset_like packet = true.
Proof.
  intros W (h & o & r1 & r2 & -> & Hm & Hg & Ho). unfold reset_like, decode_control_packet.
  do 2 (apply wf_bytes_cons in W as [? W]).
  rewrite hdr_low_mod, hdr_mt_div, Hg, Hm by done. cbn [cmd_gid]. 
  unfold is_core_device_reset_cmd. cbn. unfold decode_group. cbn.
  rewrite N.add_0_r, land_3f, Ho by done. reflexivity.
Qed.
Definition resets (o : op) (h : N) : Prop :=
  exists packet, o = UciPacket h packet /\ encodes (CmdDeviceReset 0) packet.
Lemma step_hstep cl e p o p' outs h : pinv cl p -> wf_op o -> step e p o = Ret (p', outs) ->
  hstep (p_devices p !! h) (p_devices p' !! h) (effs_at h outs)
  /\ (~ resets o h -> hdev (p_devices p !! h) (p_devices p' !! h) (effs_at h outs))
  /\ (resets o h -> p_devices p !! h <> None ->
      eff_dev (effs_at h outs) = [DsReady] /\ d_state <$> p_devices p' !! h = Some DsReady).
Proof.
  intros I W H. pose proof I as [D A U].
  assert (forall (Q : Prop) d e', quiet e' -> eff_dev e' = [] -> ~ resets o h ->
    hstep d d e' /\ (~ resets o h -> hdev d d e')
    /\ (resets o h -> Q -> eff_dev e' = [DsReady] /\ d_state <$> d = Some DsReady)) as Same.
  { intros Q0 d e' Q E R. split_and!; [by apply hstep_same|intros _; by apply hdev_same|done]. }
  assert (forall (Q : Prop) d d' e', hstep d d' e' -> hdev d d' e' -> ~ resets o h ->
    hstep d d' e' /\ (~ resets o h -> hdev d d' e')
    /\ (resets o h -> Q -> eff_dev e' = [DsReady] /\ d_state <$> d' = Some DsReady)) as Gen by done.
  destruct o; cbn [step] in H.
  all: try (assert (NR : forall o', (match o' with UciPacket _ _ => False | _ => True end) -> ~ resets o' h)
              by (intros o' Ho (pk & -> & _); done)).
  - apply Ret_inj in H. unfold add_device, device_init in H. rewrite device_set_state_eq in H.
    cbn [d_mac d_set_state device_new d_state] in H. rewrite bool_decide_false in H by done. injection H as <- <-.
    cbn [p_devices]. destruct (N.eq_dec (p_counter p) h) as [<-|Hne].
    + rewrite lookup_insert.
      replace (p_devices p !! p_counter p) with (@None device) by
        (destruct (p_devices p !! p_counter p) eqn:E; [destruct (D _ _ E) as (_ & _ & _ & ?); lia|done]).
      apply Gen; [|unfold hdev|by apply NR].
      * split; [intros id; exists 0|intros id]; unfold effs_at; cbn; rewrite N.eqb_refl; done.
      * unfold effs_at. cbn. rewrite N.eqb_refl. done.
    + rewrite lookup_insert_ne by done. apply Same; [| |by apply NR];
        unfold effs_at; cbn; apply N.eqb_neq in Hne; rewrite Hne; done.
  - apply Ret_inj in H. unfold disconnect in H. destruct (p_devices p !! h0) as [d|] eqn:L; injection H as <- <-.
    + cbn [p_devices p_set_devices]. change (ODisconnected h0 (d_mac d) :: map (OEff h0) (device_drop d))
        with ([ODisconnected h0 (d_mac d)] ++ map (OEff h0) (device_drop d)).
      rewrite effs_at_app. change (effs_at h [ODisconnected h0 (d_mac d)]) with (@nil eff). cbn [app].
      destruct (N.eq_dec h0 h) as [->|Hne].
      * rewrite lookup_delete, L, effs_at_same. destruct (D _ _ L) as (Id & _).
        assert (forall id s, d_sessions d !! id = Some s -> s_id s = id) as K.
        { intros id s Ls. apply (so_id _ _ (di_session _ _ Id _ _ Ls)). }
        apply Gen; [split|..|by apply NR].
        -- intros id. exists 0. destruct (device_drop_effs d id K) as (-> & _). cbn. split; [done|]. intros _. apply TrDeinit.
        -- intros id. destruct (device_drop_effs d id K) as (_ & -> & -> & _). cbn. lia.
        -- destruct (device_drop_effs d 0 K) as (_ & _ & _ & E). exact E.
      * rewrite lookup_delete_ne by done. rewrite effs_at_other by done. apply Same; [done|done|by apply NR].
    + apply Same; [done|done|by apply NR].
  - pose proof (ranging_quiet _ _ _ _ _ _ h H) as [Q E].
    apply ranging_inv in H as (d & s & ms1 & ms2 & peers & o1 & o2 & s' & L & Ls & _ & _ & _ & Si & -> & _).
    cbn [p_devices p_set_device p_set_devices]. destruct (N.eq_dec h0 h) as [->|Hne].
    + rewrite lookup_insert, L. apply Gen; [..|by apply NR].
      all: apply dstep_hstep; eapply dstep_frame; [done|..|done|done];
        apply send_info_session in Si as [(_ & -> & _)|(_ & _ & -> & _)]; done.
    + rewrite lookup_insert_ne by done. apply Same; [done|done|by apply NR].
  - apply Ret_inj in H. unfold stop_controlee_ranging in H. injection H as <- <-.
    cbn [p_devices p_set_devices]. rewrite lookup_fmap.
    assert (forall k, match p_devices p !! k with Some d => map (OEff k) (stop_controlee m id d).2 | None => [] end =
      map (OEff k) (match p_devices p !! k with Some d => (stop_controlee m id d).2 | None => [] end)) as E.
    { intros k. by destruct (p_devices p !! k). }
    rewrite (map_ext _ _ E). rewrite effs_at_concat.
    2:{ rewrite (env_order_perm e). apply NoDup_fst_map_to_list. }
    destruct (p_devices p !! h) as [d|] eqn:L; cbn [fmap option_fmap option_map].
    + rewrite bool_decide_true.
      2:{ rewrite (env_order_perm e). apply elem_of_list_fmap. exists (h, d). split; [done|]. by apply elem_of_map_to_list. }
      destruct (D _ _ L) as (Id & _). apply Gen; [..|by apply NR]; by eapply dstep_hstep, dstep_stop_controlee.
    + replace (if bool_decide _ then [] else []) with (@nil eff) by by destruct (bool_decide _).
      apply Same; [done|done|by apply NR].
  - unfold uci_packet in H. destruct (p_devices p !! h0) as [d|] eqn:L.
    + destruct (receive_packet d packet) as [[d1 e1]|] eqn:R; [|discriminate]. cbn [obind] in H. injection H as <- <-.
      apply receive_received in R; [|done]. cbn [p_devices p_set_device p_set_devices].
      destruct (N.eq_dec h0 h) as [->|Hne].
      2:{ rewrite lookup_insert_ne, effs_at_other by done. apply Same; [done|done|].
          intros (pk & E & _). injection E. congruence. }
      rewrite lookup_insert, effs_at_same, L. destruct (D _ _ L) as (Id & _).
      assert (NRr : forall d' e', received d packet d' e' -> (forall c, wf_cmd c -> encodes c packet -> False) -> ~ resets (UciPacket h packet) h).
      { intros d' e' _ N (pk & E & Enc). injection E as <-. eapply N; [|exact Enc]. done. }
      assert (Mt : forall c, encodes c packet -> hd 0 packet / 32 = 1 /\ defined_group (hd 0 packet mod 16) = true).
      { intros c (h1 & o1 & r1 & r2 & -> & Hm & Hg & _). cbn. split; [done|]. rewrite Hg. by destruct c. }
      destruct R as [Hh|Hh Hd|pp d' m b Hh Hd Hs Hw|h1 o1 rest -> Hc|Hh Hv Hr Hl|c d' e2 m b Wc Ec Hr Hc Hw|h1 b1 b2 rest -> Hh Hr Hv Hg].
      * apply Same; [done|done|]. eapply NRr; [by apply RcIgnored|]. intros c _ E. apply Mt in E as [E _]. lia.
      * apply Same; [done|done|]. eapply NRr; [by apply RcBadData|]. intros c _ E. apply Mt in E as [E _]. lia.
      * assert (forall id, status_of id m = []) as Sm.
        { intros id. destruct pp as [handle dst seq data|]; cbn in Hs; [|by injection Hs as _ <-].
          destruct (d_sessions d !! handle) as [s|]; [|by injection Hs as _ <-].
          unfold session_data_message_snd in Hs. destruct (negb _); [by injection Hs as _ <-|].
          destruct (negb _); [discriminate|]. by injection Hs as _ <-. }
        assert (quiet [Send m]) as Q. { intros id. unfold eff_status. cbn. by rewrite Sm. }
        assert (dstep d d' [Send m]) as S.
        { destruct pp as [handle dst seq data|]; cbn [device_data_message_snd] in Hs;
            [|injection Hs as <- <-; by apply dstep_quiet].
          destruct (d_sessions d !! handle) as [s|] eqn:Ls; [|injection Hs as <- <-; by apply dstep_quiet].
          destruct (session_data_message_snd _ _ _ _) as [[s' m']|] eqn:S; [|discriminate]. cbn [obind] in Hs. injection Hs as <- <-.
          unfold session_data_message_snd in S.
          destruct (negb _); [apply Ret_inj in S; injection S as <- <-; by eapply dstep_frame|].
          destruct (negb _); [discriminate|]. apply Ret_inj in S; injection S as <- <-; by eapply dstep_frame. }
        apply Gen; [by apply dstep_hstep|by apply dstep_hstep|]. eapply NRr; [by eapply RcData|].
        intros c _ E. apply Mt in E as [E _]. lia.
      * apply Same; [done|done|]. eapply NRr; [by eapply RcUnknown|]. intros c _ E. apply Mt in E as [E E'].
        cbn in E, E'. destruct Hc as [[_ Hc]|Hc]; [|lia].
        assert (forall g, defined_group g = true -> valid_gid g = true) as G; [|rewrite G in Hc; done].
        intros g Hg. unfold defined_group in Hg. apply existsb_In in Hg.
        repeat (destruct Hg as [<-|Hg]; [reflexivity|]). destruct Hg.
      * apply Same; [done|done|]. intros (pk & E & Enc). injection E as <-.
        rewrite (encodes_reset_like packet W Enc) in Hl. done.
      * pose proof (answer_quiet _ _ _ _ _ Hc) as Sm.
        destruct (handle_command_steps _ _ _ _ _ _ Id Wc Hc) as (S1 & S2 & S3).
        assert (forall id, eff_status id (e2 ++ [Send m]) = eff_status id e2) as E1.
        { intros id. rewrite eff_status_app. unfold eff_status at 2. cbn. rewrite Sm. cbn. apply app_nil_r. }
        assert (forall id, eff_starts id (e2 ++ [Send m]) = eff_starts id e2) as E2.
        { intros id. rewrite eff_starts_app. cbn. lia. }
        assert (forall id, eff_stops id (e2 ++ [Send m]) = eff_stops id e2) as E3.
        { intros id. rewrite eff_stops_app. cbn. lia. }
        assert (eff_dev (e2 ++ [Send m]) = eff_dev e2) as E4.
        { rewrite eff_dev_app. cbn. apply app_nil_r. }
        split_and!.
        -- destruct (steps_hstep _ _ _ S1) as [T1 T2]. split; intros id; [rewrite E1|rewrite E2, E3]; auto.
        -- intros NR'. destruct (is_reset c) eqn:Rc.
           { destruct NR'. exists packet. split; [done|]. destruct c; try discriminate Rc. cbn in Wc. by subst. }
           unfold hdev. rewrite E4. by apply dstep_hstep, S2.
        -- intros (pk & E & Enc) _. injection E as <-.
           assert (c = CmdDeviceReset 0) as -> by (eapply encodes_inj; eauto; done).
           rewrite E4. destruct (S3 eq_refl) as [-> S4]. split; [done|]. cbn. by rewrite S4.
      * apply Same; [done|done|]. eapply NRr; [by eapply RcGroup|]. intros c _ E. apply Mt in E as [_ E]. cbn [hd] in E. congruence.
    + injection H as <- <-. split_and!; [by apply hstep_same|intros _; by apply hdev_same|].
      intros (pk & E & _). injection E as <- _. rewrite L. done.
  - unfold create_anchor in H. destruct (get_category p m); [injection H as <- <-; apply Same; [done|done|by apply NR]|].
    destruct (p_anchors p !! m); [discriminate|]. injection H as <- <-. apply Same; [done|done|by apply NR].
  - apply Ret_inj in H. unfold destroy_anchor in H. destruct (p_anchors p !! m); injection H as <- <-; apply Same; (done || by apply NR).
  - apply Ret_inj in H. injection H as <- <-. apply Same; [done|done|by apply NR].
Qed.

(** ** Histories *)
Lemma reaches_timers l p outs h id : reaches l p outs ->
  timers_started h id outs = (timers_stopped h id outs + otask (p_devices p !! h) id)%nat.
Proof.
  revert l p outs. apply reaches_ind; [done|]. intros l p outs e o p' outs' R IH We Wo S.
  destruct (step_hstep _ _ _ _ _ _ h (reaches_pinv _ _ _ R) Wo S) as ([_ T] & _). specialize (T id).
  revert IH T. rewrite !started_effs, !stopped_effs, !effs_at_app, eff_starts_app, eff_stops_app. lia.
Qed.
