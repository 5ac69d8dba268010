(** The measurements a host receives tell where the others are in the scene (C82).
    These theorems rest on the axioms of the real numbers of the standard library. *)
From Coq Require Import Reals Strings.String.
From Verif Require Import Base Uci MacAddress AppConfig Codec Session Device Pica CodecSpec ContextSpec RangingSpec Demo InvFacts CrashSpec RoundFacts
  Http HttpSpec HttpFacts SceneSpec SceneFacts.
From Verif Require Position PositionSpec DirectionSpec DirectionExact PropsDirection.

(** ** C82 *)
(** Every measurement that a host receives, in any history of the web server, is about an anchor of its destination list or about another
    device with an active and compatible session, and tells the distance and the directions between the places shown by the scene. *)
Theorem C82_sound : forall fsin fcos fatan,
  PositionSpec.good_trig fsin -> PositionSpec.good_trig fcos -> PositionSpec.good_atan fatan ->
  DirectionSpec.accurate_trig fsin sin -> DirectionSpec.accurate_trig fcos cos -> DirectionSpec.accurate_atan fatan ->
  let compute := measure_places fsin fcos fatan in
  forall ls w order perm h id s w' outs, served origin compute ls w -> w_end w = None ->
  session_at (w_pica w) h id = Some s -> notifies s ->
  process compute order perm (Ranging h id) w = (w', outs) -> w_end w' = None ->
  exists xs, sent h outs = [SessionInfoNtf (s_seq s) id 0 0 xs []]
    /\ Forall (fun x => (exists m a, m ∈ dst_mac_address (s_cfg s) /\ p_anchors (w_pica w) !! m = Some a /\ tells w h a m x)
                     \/ (exists k ps m, k <> h /\ session_at (w_pica w) k id = Some ps /\ s_state ps = SsActive /\ compatible s ps
                         /\ device_mac_address (s_cfg ps) = Some m /\ tells w h k m x)) xs.
Proof. intros fsin fcos fatan Gs Gc Ga As Ac Aa compute ls w order perm h id s w' outs. by apply round_sound. Qed.
(** A round of a session whose notifications are enabled, in the web server, once the events of the environment have been handled and
    no request is in progress (under the conditions of C49): its host receives one notification, whose measurements tell the distances
    and directions to the anchors of the destination list, in this order, and to every other device with an active and compatible
    session, once each, between the places shown by the scene. *)
Theorem C82_measurements_partial : forall fsin fcos fatan,
  PositionSpec.good_trig fsin -> PositionSpec.good_trig fcos -> PositionSpec.good_atan fatan ->
  DirectionSpec.accurate_trig fsin sin -> DirectionSpec.accurate_trig fcos cos -> DirectionSpec.accurate_atan fatan ->
  let compute := measure_places fsin fcos fatan in
  forall ls w order perm h id s w' outs, served origin compute ls w -> throughout origin compute one_at_a_time ls web_new ->
  w_end w = None -> w_poisoned w = false -> w_feed w = [] -> (forall m, ~ in_progress w m) ->
  session_at (w_pica w) h id = Some s -> notifies s ->
  process compute order perm (Ranging h id) w = (w', outs) -> w_end w' = None ->
  exists anchors peers ks, sent h outs = [SessionInfoNtf (s_seq s) id 0 0 (anchors ++ peers) []]
    /\ Forall2 (fun m x => exists a, p_anchors (w_pica w) !! m = Some a /\ tells w h a m x) (filter (is_anchor (w_pica w)) (dst_mac_address (s_cfg s))) anchors
    /\ Forall2 (fun k x => exists ps m, session_at (w_pica w) k id = Some ps /\ device_mac_address (s_cfg ps) = Some m /\ tells w h k m x) ks peers
    /\ NoDup ks /\ (forall k, k ∈ ks <-> k <> h /\ exists ps, session_at (w_pica w) k id = Some ps /\ s_state ps = SsActive /\ compatible s ps).
Proof. intros fsin fcos fatan Gs Gc Ga As Ac Aa compute ls w order perm h id s w' outs. by apply round_tells. Qed.

(** Two devices in an active session, and an anchor that the first lists, at 10, 0, 10. *)
Definition wop (o : op) : web_label place := WOp (fun l => l) (fun l => reflexivity l) o.
Definition corner : place.
Proof. refine (Place 10 0 10 0 0 0 _). unfold PositionSpec.i16, PositionSpec.i8. repeat split; discriminate. Defined.
Definition two_controlees (a dst : bytes) : list (tlv_id * bytes) := [
  (T_DEVICE_TYPE, [1]); (T_DEVICE_ROLE, [1]); (T_MULTI_NODE_MODE, [1]); (T_RANGING_ROUND_USAGE, [2]);
  (T_SCHEDULE_MODE, [1]); (T_MAC_ADDRESS_MODE, [0]); (T_DEVICE_MAC_ADDRESS, a);
  (T_NUMBER_OF_CONTROLEES, [2]); (T_DST_MAC_ADDRESS, dst) ].
Definition scene : list (web_label place) :=
  [WSubscribe; wop Connect; WEvent; wop Connect; WEvent; WAnchor (RqCreate (MShort [9; 9]) corner); WProcess 0; WFinish 0;
   wop (cmd 0 (CmdDeviceReset 0)); wop (cmd 1 (CmdDeviceReset 0)); wop (cmd 0 (CmdSessionInit 7 0)); wop (cmd 1 (CmdSessionInit 7 0));
   wop (cmd 0 (CmdSetAppConfig 7 (two_controlees [1; 0] [9; 9; 2; 0]))); wop (cmd 1 (CmdSetAppConfig 7 (controlee_config [2; 0] [1; 0])));
   wop (cmd 0 (CmdStart 7)); wop (cmd 1 (CmdStart 7))].
Notation compute32 := (measure_places DirectionExact.sin32 DirectionExact.cos32 DirectionExact.atan32).
Definition scene_after : web place := default web_new (web_run origin compute32 scene web_new).
Lemma scene_run : web_run origin compute32 scene web_new = Some scene_after.
Proof. unfold scene_after. assert ((if web_run origin compute32 scene web_new then true else false) = true) as E by by vm_compute. by destruct (web_run _ _ _ _). Qed.
Lemma fine : w_end scene_after = None /\ w_poisoned scene_after = false /\ w_feed scene_after = [] /\ map_to_list (w_requests scene_after) = []
  /\ state_at (w_pica scene_after) 0 7 = SsActive /\ state_at (w_pica scene_after) 1 7 = SsActive.
Proof. split_and!; vm_compute; reflexivity. Qed.
Lemma scene_served : served origin compute32 scene scene_after.
Proof. split; [|apply scene_run]. unfold scene, wop. repeat (apply Forall_cons; split; [first [exact I|(unfold wf_web_label; apply wf_opb_sound; vm_compute; reflexivity)|split; [reflexivity|repeat constructor]]|]). apply Forall_nil; exact I. Qed.
Lemma scene_orderly : throughout origin compute32 one_at_a_time scene web_new.
Proof.
  assert (forall (l : list (web_label place)) w, forallb (fun a => match a with WAnchor _ | WAbandon _ => false | _ => true end) l = true -> throughout origin compute32 one_at_a_time l w) as Q.
  { induction l as [|a l IH]; intros w H; [done|]. cbn [forallb] in H. apply andb_true_iff in H as [Ha Hl]. cbn [throughout]. split; [by destruct a|]. destruct (web_step _ _ a w); [by apply IH|done]. }
  change scene with (take 5 scene ++ drop 5 scene). 
  assert (forall l1 l2 w w', forallb (fun a => match a with WAnchor _ | WAbandon _ => false | _ => true end) l1 = true -> web_run origin compute32 l1 w = Some w' -> throughout origin compute32 one_at_a_time l2 w' -> throughout origin compute32 one_at_a_time (l1 ++ l2) w) as Q2.
  { induction l1 as [|a l IH]; intros l2 w w' H R T; [by injection R as ->|]. cbn [forallb] in H. apply andb_true_iff in H as [Ha Hl]. cbn [web_run] in R. cbn [throughout app].
    destruct (web_step _ _ a w) as [w1|] eqn:S; [|discriminate]. split; [by destruct a|]. by eapply IH. }
  destruct (web_run origin compute32 (take 5 scene) web_new) as [w1|] eqn:R; [|by vm_compute in R].
  eapply Q2; [reflexivity|exact R|]. assert (map_to_list (w_requests w1) = []) as E.
  { assert ((fun w => map_to_list (w_requests w)) <$> web_run origin compute32 (take 5 scene) web_new = Some []) as K by by vm_compute. rewrite R in K. by injection K. }
  change (drop 5 scene) with (WAnchor (RqCreate (MShort [9; 9]) corner) :: drop 6 scene). split.
  - intros (k & q & L & _). apply map_to_list_empty_iff in E. by rewrite E, lookup_empty in L.
  - destruct (web_step _ _ _ w1) as [w2|]; [|done]. apply Q. reflexivity.
Qed.
Lemma round_safe p est : reachable p -> map fst (map_to_list (p_devices p)) = [0; 1] ->
  (fun s => (s_type s, s_seq s, dst_mac_address (s_cfg s))) <$> session_at p 0 7 = Some (0, 0, [MShort [9; 9]; MShort [2; 0]]) ->
  (fun s => device_mac_address (s_cfg s)) <$> session_at p 1 7 = Some (Some (MShort [2; 0])) -> elements (p_closed p) = [] ->
  crashed (step (Env est (fun l => l) (fun l => reflexivity l)) p (Ranging 0 7)) = false.
Proof.
  intros R Ds S0 S1 Cl. apply elements_empty_iff in Cl.
  apply not_true_iff_false. intros C. apply (op_crash _ _ _ (Ranging 0 7) (reachable_pinv _ R) I) in C. inversion C as [|h id F]; subst.
  assert (forall k, is_Some (p_devices p !! k) -> k = 0 \/ k = 1) as Dk.
  { intros k [d L]. apply elem_of_map_to_list in L. apply (elem_of_list_fmap_1 fst) in L. change (fst <$> map_to_list (p_devices p)) with (map fst (map_to_list (p_devices p))) in L. rewrite Ds in L. cbn in L. set_solver. }
  assert (forall k id s, session_at p k id = Some s -> k = 0 \/ k = 1) as Sk.
  { intros k id s L. apply Dk. unfold session_at in L. destruct (p_devices _ !! k); [eauto|discriminate]. }
  destruct F as [E|s a l r E M|s k a l r E M|s k E (_ & D & _) _|s E _ [M|M]|s ks E _ ND M Len]; rewrite E in S0; cbn [fmap option_fmap option_map] in S0; try discriminate S0; injection S0 as T Q Dst.
  - rewrite Dst in M. apply elem_of_list_In, elem_of_list_omap in M as (m & Hm & M). destruct (p_anchors _ !! m); [|discriminate]. cbn in M. destruct (est 0 _); cbn in M; [|discriminate M]. destruct (est _ 0); cbn in M; [|discriminate M]. injection M as -> _ _. set_solver.
  - destruct M as (Ne & ps & Sp & _ & _ & Mp & _). destruct (Sk _ _ _ Sp) as [->| ->]; [done|]. rewrite Sp in S1. cbn in S1, Mp. rewrite Mp in S1. discriminate.
  - destruct D as (_ & D & _). by rewrite T in D.
  - rewrite Cl in M. set_solver.
  - by rewrite Q in M.
  - assert (length ks <= 2)%nat as L2.
    { change 2%nat with (length [0; 1]). apply submseteq_length, NoDup_submseteq; [done|]. intros k Hk. destruct (M k Hk) as (t & _ & ps & Sp & _). destruct (Sk _ _ _ Sp) as [->| ->]; set_solver. }
    assert (forall e p h dst, length (anchors_measured e p h dst) <= length dst)%nat as La.
    { intros e q h dst. unfold anchors_measured. induction dst as [|m dst IH]; [done|]. cbn. destruct (mbind _ _); cbn; lia. }
    specialize (La (Env est (fun l => l) (fun l => reflexivity l)) p 0 (dst_mac_address (s_cfg s))). rewrite Dst in *. cbn [length] in La. lia.
Qed.
Lemma scene_reachable : reachable (w_pica scene_after).
Proof.
  eapply served_reachable; [|apply scene_served]. intros p q. destruct DirectionExact.trig32_good, DirectionExact.atan32_ok, DirectionExact.trig32_ok. destruct (compute_places DirectionExact.sin32 DirectionExact.cos32 DirectionExact.atan32) with (p := p) (q := q) as (r & a & e & -> & B & _); done.
Qed.
Lemma round_runs est : crashed (step (Env est (fun l => l) (fun l => reflexivity l)) (w_pica scene_after) (Ranging 0 7)) = false.
Proof. apply round_safe; [apply scene_reachable|vm_compute; reflexivity..]. Qed.
Definition compatibleb (s ps : session) : bool :=
  bool_decide (app_config_get (s_cfg s) T_DEVICE_ROLE <> app_config_get (s_cfg ps) T_DEVICE_ROLE)
  && bool_decide (app_config_get (s_cfg s) T_DEVICE_TYPE <> app_config_get (s_cfg ps) T_DEVICE_TYPE)
  && match device_mac_address (s_cfg s), device_mac_address (s_cfg ps) with
     | Some m, Some mp => bool_decide (m ∈ dst_mac_address (s_cfg ps)) && bool_decide (mp ∈ dst_mac_address (s_cfg s))
     | _, _ => false end.
Lemma compatibleb_sound s ps : compatibleb s ps = true -> compatible s ps.
Proof.
  unfold compatibleb, compatible. rewrite !andb_true_iff, !bool_decide_eq_true. intros [[A B] C]. split; [done|]. split; [done|].
  destruct (device_mac_address (s_cfg s)) as [m|]; [|done]. destruct (device_mac_address (s_cfg ps)) as [mp|]; [|done].
  rewrite andb_true_iff, !bool_decide_eq_true in C. exists m, mp. tauto.
Qed.
(** What the example uses of this state. *)
Definition sessions_ok (p : pica) (s ps : session) : Prop := session_at p 0 7 = Some s /\ session_at p 1 7 = Some ps
  /\ notifies s /\ s_seq s = 0 /\ s_state ps = SsActive /\ compatible s ps /\ device_mac_address (s_cfg ps) = Some (MShort [2; 0])
  /\ filter (is_anchor p) (dst_mac_address (s_cfg s)) = [MShort [9; 9]] /\ p_anchors p !! MShort [9; 9] = Some 2.
Definition sessions_okb (p : pica) : bool :=
  match session_at p 0 7, session_at p 1 7 with
  | Some s, Some ps => negb (bool_decide (app_config_get (s_cfg s) T_SESSION_INFO_NTF_CONFIG = Some [0x00])) && (s_seq s =? 0) && bool_decide (s_state ps = SsActive)
    && compatibleb s ps && bool_decide (device_mac_address (s_cfg ps) = Some (MShort [2; 0]))
    && bool_decide (filter (is_anchor p) (dst_mac_address (s_cfg s)) = [MShort [9; 9]]) && bool_decide (p_anchors p !! MShort [9; 9] = Some 2)
  | _, _ => false end.
Lemma sessions_okb_sound p : sessions_okb p = true -> exists s ps, sessions_ok p s ps.
Proof.
  unfold sessions_okb, sessions_ok. destruct (session_at _ 0 7) as [s|]; [|done]. destruct (session_at _ 1 7) as [ps|]; [|done]. rewrite !andb_true_iff, !bool_decide_eq_true, N.eqb_eq, negb_true_iff, bool_decide_eq_false.
  intros ((((((A & B) & C) & D) & E) & F) & G). exists s, ps. split_and!; try done. by apply compatibleb_sound.
Qed.
Lemma scene_sessions : exists s ps, sessions_ok (w_pica scene_after) s ps.
Proof. apply sessions_okb_sound. vm_compute. reflexivity. Qed.
Lemma scene_devices k : is_Some (p_devices (w_pica scene_after) !! k) -> k = 0 \/ k = 1.
Proof.
  assert (forall p, map fst (map_to_list (p_devices p)) = [0; 1] -> is_Some (p_devices p !! k) -> k = 0 \/ k = 1) as H; [|apply H; vm_compute; reflexivity].
  intros p Ds [d L]. apply elem_of_map_to_list in L. apply (elem_of_list_fmap_1 fst) in L. change (fst <$> map_to_list (p_devices p)) with (map fst (map_to_list (p_devices p))) in L. rewrite Ds in L. cbn in L. set_solver.
Qed.
Lemma scene_places : shown scene_after 0 = Some origin /\ shown scene_after 1 = Some origin /\ shown scene_after 2 = Some corner.
Proof. split_and!; vm_compute; reflexivity. Qed.
Lemma process_end {P} (compute : P -> P -> N * Z * Z) w order perm o w' outs : crashed (step (Env (estimate compute w) order perm) (w_pica w) o) = false ->
  process compute order perm o w = (w', outs) -> w_end w' = w_end w.
Proof. intros C Pr. unfold process in Pr. destruct (step _ _ _) as [[p' l]|]; [|discriminate C]. by injection Pr as <- <-. Qed.
Lemma round_told ls w : served origin compute32 ls w -> throughout origin compute32 one_at_a_time ls web_new -> w_end w = None -> w_poisoned w = false -> w_feed w = [] ->
  map_to_list (w_requests w) = [] -> (exists s ps, sessions_ok (w_pica w) s ps) -> (forall k, is_Some (p_devices (w_pica w) !! k) -> k = 0 \/ k = 1) ->
  shown w 0 = Some origin -> shown w 2 = Some corner -> (forall est, crashed (step (Env est (fun l => l) (fun l => reflexivity l)) (w_pica w) (Ranging 0 7)) = false) ->
  exists s w' outs, served origin compute32 ls w /\ throughout origin compute32 one_at_a_time ls web_new
  /\ w_end w = None /\ w_poisoned w = false /\ w_feed w = [] /\ (forall m, ~ in_progress w m)
  /\ session_at (w_pica w) 0 7 = Some s /\ notifies s
  /\ process compute32 (fun l => l) (fun l => reflexivity l) (Ranging 0 7) w = (w', outs) /\ w_end w' = None
  /\ exists x y, sent 0 outs = [SessionInfoNtf 0 7 0 0 [x; y] []] /\ tells w 0 2 (MShort [9; 9]) x /\ tells w 0 1 (MShort [2; 0]) y
     /\ shown w 0 = Some origin /\ shown w 2 = Some corner.
Proof.
  intros Sv T En Ep Ef Er (s & ps & S0 & S1 & Nt & Q & Ap & Cp & Mp & Fl & An) Dv P0 P2 Rn.
  assert (forall m, ~ in_progress w m) as Np. { intros m (k & q & L & _). apply map_to_list_empty_iff in Er. by rewrite Er, lookup_empty in L. }
  destruct (process compute32 (fun l => l) (fun l => reflexivity l) (Ranging 0 7) w) as [w' outs] eqn:Pr.
  assert (w_end w' = None) as En'.
  { rewrite <- En. eapply process_end; [|exact Pr]. apply (Rn (estimate compute32 w)). }
  exists s, w', outs. split_and!; try done.
  destruct DirectionExact.trig32_good as [Gs Gc], DirectionExact.atan32_ok as [Aa Ga], DirectionExact.trig32_ok as [As Ac].
  destruct (C82_measurements_partial _ _ _ Gs Gc Ga As Ac Aa _ _ _ _ _ _ _ _ _ Sv T En Ep Ef Np S0 Nt Pr En') as (anchors & peers & ks & O & FA & FP & ND & C).
  rewrite Fl in FA. apply Forall2_cons_inv_l in FA as (x & xs & (a & La & Tx) & FA & ->). apply Forall2_nil_inv_l in FA as ->. rewrite An in La. injection La as <-.
  assert (ks = [1]) as ->.
  { assert (1 ∈ ks) as K1 by (apply C; split; [done|]; by exists ps).
    assert (forall k, k ∈ ks -> k = 1) as K. { intros k Hk. apply C in Hk as (Ne & qs & Sk & _). destruct (Dv k) as [->| ->]; [|done|done]. unfold session_at in Sk. destruct (p_devices _ !! k); [eauto|discriminate]. }
    destruct ks as [|k [|k2 ks]]; [set_solver| |].
    - by rewrite (K k) by set_solver.
    - exfalso. rewrite (K k), (K k2) in ND by set_solver. inversion ND as [|? ? H]. apply H. left. }
  apply Forall2_cons_inv_l in FP as (y & ys & (qs & m & Sy & My & Ty) & FP & ->). apply Forall2_nil_inv_l in FP as ->. rewrite S1 in Sy. injection Sy as <-. rewrite Mp in My. injection My as <-.
  exists x, y. rewrite O, Q. split_and!; done.
Qed.
(** The hypotheses can be met: in this state, the round of the first device is notified with two measurements. *)
Example C82_example : exists s w' outs, served origin compute32 scene scene_after /\ throughout origin compute32 one_at_a_time scene web_new
  /\ w_end scene_after = None /\ w_poisoned scene_after = false /\ w_feed scene_after = [] /\ (forall m, ~ in_progress scene_after m)
  /\ session_at (w_pica scene_after) 0 7 = Some s /\ notifies s
  /\ process compute32 (fun l => l) (fun l => reflexivity l) (Ranging 0 7) scene_after = (w', outs) /\ w_end w' = None
  /\ exists x y, sent 0 outs = [SessionInfoNtf 0 7 0 0 [x; y] []] /\ tells scene_after 0 2 (MShort [9; 9]) x /\ tells scene_after 0 1 (MShort [2; 0]) y
     /\ shown scene_after 0 = Some origin /\ shown scene_after 2 = Some corner.
Proof.
  destruct fine as (En & Ep & Ef & Er & _), scene_places as (P0 & P1 & P2).
  exact (round_told scene scene_after scene_served scene_orderly En Ep Ef Er scene_sessions scene_devices P0 P2 round_runs).
Qed.

(** The full statement is false without the conditions of C49: a client gives up its create-anchor request before it is processed. The
    anchor exists and is in the destination list of an active session, everything has been handled, and no round measures it. *)
Definition unrecorded : list (web_label place) :=
  [WSubscribe; wop Connect; WEvent; WAnchor (RqCreate (MShort [9; 9]) corner); WAbandon 0; WProcess 0;
   wop (cmd 0 (CmdDeviceReset 0)); wop (cmd 0 (CmdSessionInit 7 0)); wop (cmd 0 (CmdSetAppConfig 7 (controller_config [1; 0] [9; 9]))); wop (cmd 0 (CmdStart 7))].
Definition unrecorded_after : web place := default web_new (web_run origin compute32 unrecorded web_new).
Definition unrecorded_round : web place * list out := process compute32 (fun l => l) (fun l => reflexivity l) (Ranging 0 7) unrecorded_after.
Definition unmeasured (p : pica) (m : mac_address) (h id : N) : bool :=
  match session_at p h id with
  | Some s => negb (bool_decide (app_config_get (s_cfg s) T_SESSION_INFO_NTF_CONFIG = Some [0x00])) && (s_seq s =? 0) && bool_decide (s_state s = SsActive)
    && bool_decide (m ∈ dst_mac_address (s_cfg s)) && bool_decide (p_anchors p !! m = Some 1)
  | None => false end.
Theorem C82_refuted : exists s, served origin compute32 unrecorded unrecorded_after
  /\ w_end unrecorded_after = None /\ w_poisoned unrecorded_after = false /\ w_feed unrecorded_after = [] /\ (forall m, ~ in_progress unrecorded_after m)
  /\ session_at (w_pica unrecorded_after) 0 7 = Some s /\ notifies s /\ s_state s = SsActive
  /\ MShort [9; 9] ∈ dst_mac_address (s_cfg s) /\ p_anchors (w_pica unrecorded_after) !! MShort [9; 9] = Some 1
  /\ w_end (fst unrecorded_round) = None /\ sent 0 (snd unrecorded_round) = [SessionInfoNtf (s_seq s) 7 0 0 [] []].
Proof.
  assert (unmeasured (w_pica unrecorded_after) (MShort [9; 9]) 0 7 = true) as U by (vm_compute; reflexivity).
  assert (sent 0 (snd unrecorded_round) = [SessionInfoNtf 0 7 0 0 [] []]) as O by (vm_compute; reflexivity).
  assert (w_end (fst unrecorded_round) = None) as En' by (vm_compute; reflexivity).
  assert (w_end unrecorded_after = None /\ w_poisoned unrecorded_after = false /\ w_feed unrecorded_after = [] /\ map_to_list (w_requests unrecorded_after) = []) as (En & Ep & Ef & Er)
    by (split_and!; vm_compute; reflexivity).
  assert (served origin compute32 unrecorded unrecorded_after) as Sv.
  { split.
    - unfold unrecorded, wop. repeat (apply Forall_cons; split; [first [exact I|(unfold wf_web_label; apply wf_opb_sound; vm_compute; reflexivity)|split; [reflexivity|repeat constructor]]|]). apply Forall_nil; exact I.
    - unfold unrecorded_after. assert ((if web_run origin compute32 unrecorded web_new then true else false) = true) as E by (vm_compute; reflexivity). destruct (web_run origin compute32 unrecorded web_new); [reflexivity|discriminate E]. }
  revert U O En' En Ep Ef Er Sv. generalize unrecorded_round. generalize unrecorded_after. intros w [w' outs] U O En' En Ep Ef Er Sv.
  unfold unmeasured in U. destruct (session_at (w_pica w) 0 7) as [s|]; [|discriminate]. rewrite !andb_true_iff, !bool_decide_eq_true, N.eqb_eq, negb_true_iff, bool_decide_eq_false in U.
  destruct U as ((((A & B) & C) & D) & F). exists s. rewrite B. split_and!; try done.
  intros m (k & q & L & _). apply map_to_list_empty_iff in Er. by rewrite Er, lookup_empty in L.
Qed.

Print Assumptions C82_refuted.
Print Assumptions C82_measurements_partial.
Print Assumptions C82_sound.
