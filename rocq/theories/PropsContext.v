(** C35-C38: devices, anchors and events of the context. *)
From Verif Require Import Base Uci MacAddress AppConfig Codec Session Device Pica.
From Verif Require Import BaseFacts CodecSpec ContextSpec HistorySpec InvFacts StepFacts CommandFacts Demo PropsSession.

Lemma executes_reaches p tr : executes p tr -> exists l, reaches l p (concat tr.*2) /\ map snd l = tr.*1.
Proof.
  induction 1 as [|p tr e o p' outs _ (l & R & M) We Wo S].
  - exists []. split; [|done]. split; [constructor|done].
  - exists (l ++ [(e, o)]). rewrite fmap_app, concat_app. cbn [fmap list_fmap concat snd]. rewrite app_nil_r. split; [by eapply reaches_snoc|].
    rewrite map_app, M. by rewrite fmap_app.
Qed.
Lemma reaches_executes l p outs : reaches l p outs -> exists tr, executes p tr /\ outs = concat tr.*2 /\ map snd l = tr.*1.
Proof.
  revert l p outs. apply reaches_ind.
  - exists []. by split; [constructor|].
  - intros l p outs e o p' outs' _ (tr & X & -> & M) We Wo S. exists (tr ++ [(o, outs')]). split; [by econstructor|].
    rewrite !fmap_app, concat_app. cbn. rewrite app_nil_r. split; [done|]. by rewrite <- M.
Qed.
Lemma executes_pinv p tr : executes p tr -> pinv (fun _ => false) p.
Proof. intros X. apply executes_reaches in X as (l & R & _). apply reachable_pinv. by eexists _, _. Qed.

(** What one command says about handles and events: only connections, disconnections and anchors matter. *)
Definition eff_out (o : out) : Prop := exists h x, o = OEff h x.
Lemma effs_eff_out h e : Forall eff_out (map (OEff h) e).
Proof. apply Forall_forall. intros x Hx. apply elem_of_list_fmap in Hx as (y & -> & _). by exists h, y. Qed.
Lemma ranging_eff_out e p h id p' outs : ranging e p h id = Ret (p', outs) -> Forall eff_out outs.
Proof.
  intros H. apply ranging_inv in H as (d & s & ms1 & ms2 & peers & o1 & o2 & s' & _ & _ & _ & _ & Sd & Si & _ & ->).
  apply Forall_app. split.
  - apply send_data_outs in Sd as (m & _ & -> & _). apply Forall_forall. intros x Hx. apply elem_of_list_fmap in Hx as (y & -> & _). by eexists _, _.
  - apply send_info_session in Si as [(_ & _ & ->)|(_ & _ & _ & _ & -> & _)]; [constructor|]. repeat constructor. by eexists _, _.
Qed.
Lemma step_eff_out e p o p' outs : step e p o = Ret (p', outs) ->
  match o with Connect | Disconnect _ | CreateAnchor _ | DestroyAnchor _ => True | _ => Forall eff_out outs end.
Proof.
  destruct o; intros H; try done; cbn [step] in H.
  - by eapply ranging_eff_out.
  - apply Ret_inj in H. unfold stop_controlee_ranging in H. injection H as _ <-.
    apply Forall_concat, Forall_forall. intros x Hx. apply elem_of_list_fmap in Hx as (k & -> & _).
    destruct (p_devices p !! k); [apply effs_eff_out|constructor].
  - unfold uci_packet in H. destruct (p_devices p !! h) as [d|]; [|injection H as _ <-; constructor].
    destruct (receive_packet d packet) as [[d1 e1]|]; [|discriminate]. cbn [obind] in H. injection H as _ <-. apply effs_eff_out.
  - apply Ret_inj in H. injection H as _ <-. constructor.
Qed.
Lemma handles_eff o outs : Forall eff_out outs -> handles_of (o, outs) = [].
Proof. unfold handles_of. induction 1 as [|x l (h & y & ->) _ IH]; [done|]. exact IH. Qed.
Lemma events_eff h o outs : Forall eff_out outs -> events_of h (o, outs) = [].
Proof. unfold events_of. induction 1 as [|x l (h' & y & ->) _ IH]; [done|]. exact IH. Qed.
Lemma concat_map_eff {A} (f : out -> list A) h e : (forall x, f (OEff h x) = []) -> concat (map f (map (OEff h) e)) = [].
Proof. intros F. induction e as [|x e IH]; [done|]. cbn. by rewrite F, IH. Qed.

(** The devices after a command. *)
Lemma step_devices cl e p o p' outs : pinv cl p -> step e p o = Ret (p', outs) ->
  p_counter p' = p_counter p + (match o with Connect => 1 | CreateAnchor _ => if bool_decide (p_anchors p' = p_anchors p) then 0 else 1 | _ => 0 end)
  /\ (forall h, connected p' h <-> (connected p h /\ o <> Disconnect h) \/ (o = Connect /\ h = p_counter p)).
Proof.
  intros [D A U] H. unfold connected.
  assert (forall p', p_counter p' = p_counter p -> p_devices p' = p_devices p -> (match o with Connect | Disconnect _ | CreateAnchor _ => False | _ => True end) ->
     p_counter p' = p_counter p + (match o with Connect => 1 | CreateAnchor _ => if bool_decide (p_anchors p' = p_anchors p) then 0 else 1 | _ => 0 end)
  /\ (forall h, (exists d, p_devices p' !! h = Some d) <-> ((exists d, p_devices p !! h = Some d) /\ o <> Disconnect h) \/ (o = Connect /\ h = p_counter p))) as Same.
  { clear H. intros q C E N. rewrite C, E. split; [destruct o; lia || done|]. intros h. destruct o; try done.
    all: split; [by left|]. all: intros [[? _]|[? _]]; done. }
  assert (forall k d d', p_devices p !! k = Some d -> p' = p_set_device k d' p -> (match o with Connect | Disconnect _ | CreateAnchor _ => False | _ => True end) ->
     p_counter p' = p_counter p + (match o with Connect => 1 | CreateAnchor _ => if bool_decide (p_anchors p' = p_anchors p) then 0 else 1 | _ => 0 end)
  /\ (forall h, (exists d, p_devices p' !! h = Some d) <-> ((exists d, p_devices p !! h = Some d) /\ o <> Disconnect h) \/ (o = Connect /\ h = p_counter p))) as Upd.
  { intros k d d' L -> N. split; [destruct o; cbn; lia || done|]. intros h. cbn [p_devices p_set_device p_set_devices].
    assert ((exists d0, <[k:=d']> (p_devices p) !! h = Some d0) <-> exists d0, p_devices p !! h = Some d0) as ->.
    { destruct (N.eq_dec k h) as [->|Ne]; [rewrite lookup_insert|by rewrite lookup_insert_ne]. split; intros _; by eexists. }
    destruct o; try done. all: split; [by left|]. all: intros [[? _]|[? _]]; done. }
  destruct o; cbn [step] in H.
  - apply Ret_inj in H. unfold add_device, device_init in H. rewrite device_set_state_eq in H. injection H as <- _. cbn [p_counter p_devices].
    split; [done|]. intros h. destruct (N.eq_dec (p_counter p) h) as [<-|Ne].
    + rewrite lookup_insert. split; [by right|]. intros _. by eexists.
    + rewrite lookup_insert_ne by done. split; [intros E; by left|]. intros [[E _]|[_ E]]; [done|congruence].
  - apply Ret_inj in H. unfold disconnect in H. destruct (p_devices p !! h) as [d|] eqn:L; injection H as <- _; cbn [p_counter p_devices p_set_devices].
    + split; [lia|]. intros k. destruct (N.eq_dec h k) as [->|Ne].
      * rewrite lookup_delete. split; [by intros [? ?]|]. intros [[_ E]|[E _]]; done.
      * rewrite lookup_delete_ne by done. split; [intros E; left; split; [done|congruence]|]. intros [[E _]|[E _]]; done.
    + split; [lia|]. intros k. split.
      * intros [d E]. left. split; [by exists d|]. intros F. injection F as <-. congruence.
      * intros [[E _]|[E _]]; done.
  - apply ranging_inv in H as (d & s & ms1 & ms2 & peers & o1 & o2 & s' & L & Ls & _ & _ & _ & Si & -> & _). by eapply Upd.
  - apply Ret_inj in H. unfold stop_controlee_ranging in H. injection H as <- _. cbn [p_counter p_devices p_set_devices]. split; [lia|].
    intros k. rewrite lookup_fmap. split.
    + intros [d E]. left. split; [|done]. destruct (p_devices p !! k) as [d0|]; [by exists d0|discriminate].
    + intros [[[d E] _]|[E _]]; [|done]. rewrite E. by eexists.
  - unfold uci_packet in H. destruct (p_devices p !! h) as [d|] eqn:L.
    + destruct (receive_packet d packet) as [[d1 e1]|]; [|discriminate]. cbn [obind] in H. injection H as <- _. by eapply Upd.
    + injection H as <- _. by apply Same.
  - unfold create_anchor in H. destruct (get_category p m) eqn:Gc.
    + injection H as <- _. rewrite bool_decide_true by done. split; [lia|]. intros h. split; [by left|]. intros [[E _]|[E _]]; done.
    + destruct (p_anchors p !! m) eqn:L; [discriminate|]. injection H as <- _. cbn [p_counter p_devices p_anchors].
      rewrite bool_decide_false. 2:{ intros E. assert (<[m:=p_counter p]> (p_anchors p) !! m = None) as F by by rewrite E. by rewrite lookup_insert in F. }
      split; [done|]. intros h. split; [by left|]. intros [[E _]|[E _]]; done.
  - apply Ret_inj in H. unfold destroy_anchor in H. destruct (p_anchors p !! m); injection H as <- _; by apply Same.
  - apply Ret_inj in H. injection H as <- _. by apply Same.
Qed.

(** ** C35. *)
Lemma step_handles cl e p o p' outs : pinv cl p -> step e p o = Ret (p', outs) ->
  (handles_of (o, outs) = [] /\ p_counter p' = p_counter p) \/ (handles_of (o, outs) = [p_counter p] /\ p_counter p' = p_counter p + 1).
Proof.
  intros I H. pose proof (step_eff_out _ _ _ _ _ H) as Ef. pose proof (step_devices _ _ _ _ _ _ I H) as [C _].
  destruct o; try (left; split; [by apply handles_eff|lia]); cbn [step] in H.
  - right. split; [|done]. apply Ret_inj in H. unfold add_device, device_init in H. rewrite device_set_state_eq in H. injection H as _ <-. done.
  - left. split; [|lia]. apply Ret_inj in H. unfold disconnect in H. destruct (p_devices p !! h); injection H as _ <-; [|done].
    unfold handles_of. cbn. by apply concat_map_eff.
  - unfold create_anchor in H. destruct (get_category p m); [injection H as <- <-; by left|].
    destruct (p_anchors p !! m); [discriminate|]. injection H as <- <-. by right.
  - left. split; [|lia]. apply Ret_inj in H. unfold destroy_anchor in H. destruct (p_anchors p !! m); injection H as _ <-; done.
Qed.
Theorem C35_handles : forall p tr, executes p tr -> NoDup (handles tr).
Proof.
  intros p tr X.
  assert (NoDup (handles tr) /\ Forall (fun h => h < p_counter p) (handles tr)) as [? _]; [|done].
  induction X as [|p tr e o p' outs X [N F] We Wo S]; [split; constructor|].
  unfold handles in *. rewrite map_app, concat_app. cbn [map concat]. rewrite app_nil_r.
  destruct (step_handles _ _ _ _ _ _ (executes_pinv _ _ X) S) as [[-> ->]|[-> ->]]; [by rewrite app_nil_r|].
  split.
  - apply NoDup_app. split; [done|]. split; [|apply NoDup_singleton]. intros x Hx Hy. apply elem_of_list_singleton in Hy as ->.
    rewrite Forall_forall in F. specialize (F _ Hx). lia.
  - apply Forall_app. split; [|repeat constructor; lia]. eapply Forall_impl; [exact F|]. intros x Hx. cbn in Hx. lia.
Qed.
Print Assumptions C35_handles.
(** They are consecutive: the handle given is the number of handles given before. *)
Theorem C35_consecutive : forall p tr, executes p tr -> handles tr = map N.of_nat (seq 0 (length (handles tr))).
Proof.
  intros p tr X.
  assert (handles tr = map N.of_nat (seq 0 (length (handles tr))) /\ p_counter p = N.of_nat (length (handles tr))) as [? _]; [|done].
  induction X as [|p tr e o p' outs X [N F] We Wo S]; [done|].
  unfold handles in *. rewrite map_app, concat_app. cbn [map concat]. rewrite app_nil_r.
  destruct (step_handles _ _ _ _ _ _ (executes_pinv _ _ X) S) as [[-> ->]|[-> ->]]; [by rewrite app_nil_r|].
  rewrite app_length, seq_app, map_app, <- N, F. cbn. split; [done|lia].
Qed.
Print Assumptions C35_consecutive.
(** The devices and anchors present have handles which were given. *)
Theorem C35_present : forall p tr, executes p tr ->
  (forall h d, p_devices p !! h = Some d -> In h (handles tr)) /\ (forall m a, p_anchors p !! m = Some a -> In a (handles tr))
  /\ (forall m a, p_anchors p !! m = Some a -> p_devices p !! a = None)
  /\ (forall m m' a, p_anchors p !! m = Some a -> p_anchors p !! m' = Some a -> m = m').
Proof.
  intros p tr X. pose proof (executes_pinv _ _ X) as [D A U].
  assert (p_counter p = N.of_nat (length (handles tr))) as C.
  { clear -X. induction X as [|p tr e o p' outs X F We Wo S]; [done|]. unfold handles in *. rewrite map_app, concat_app. cbn [map concat]. rewrite app_nil_r.
    destruct (step_handles _ _ _ _ _ _ (executes_pinv _ _ X) S) as [[-> ->]|[-> ->]]; [by rewrite app_nil_r|]. rewrite app_length, F. cbn. lia. }
  assert (forall h, h < p_counter p -> In h (handles tr)) as K.
  { intros h Hh. rewrite (C35_consecutive _ _ X). apply in_map_iff. exists (N.to_nat h). split; [lia|]. apply in_seq. lia. }
  split_and!.
  - intros h d L. apply K. by destruct (D _ _ L) as (_ & _ & _ & ?).
  - intros m a L. apply K. by destruct (A _ _ L) as (_ & ? & _).
  - intros m a L. by destruct (A _ _ L) as (_ & _ & ?).
  - exact U.
Qed.
Print Assumptions C35_present.
Definition churn : list op := [Connect; CreateAnchor (MShort [9; 9]); Disconnect 0; DestroyAnchor (MShort [9; 9]); Connect; CreateAnchor (MShort [9; 9])].
(** The trace of a history, to compute examples. *)
Fixpoint trace (p : pica) (l : list op) : list (op * list out) :=
  match l with
  | [] => []
  | o :: l => match step plain_env p o with Ret (p', outs) => (o, outs) :: trace p' l | Crash _ => [] end
  end.
Lemma history_executes l : ok_history l = true -> executes (state_after l) (trace pica_new l).
Proof.
  intros H. apply andb_true_iff in H as [W C]. unfold state_after.
  assert (forall l p tr, executes p tr -> forallb wf_opb l = true -> forall p' outs, run p (history l) = Ret (p', outs) ->
    executes p' (tr ++ trace p l)) as G.
  { clear. induction l as [|o l IH]; intros p tr X W p' outs R.
    - cbn in R. injection R as <- _. by rewrite app_nil_r.
    - cbn [forallb] in W. apply andb_true_iff in W as [Wo W]. cbn [history map run] in R.
      destruct (step plain_env p o) as [[p1 o1]|] eqn:S; [|discriminate]. cbn [obind] in R. fold (history l) in R.
      destruct (run p1 (history l)) as [[p2 o2]|] eqn:R2; [|discriminate]. cbn [obind] in R. injection R as <- _.
      cbn [trace]. rewrite S. change ((o, o1) :: trace p1 l) with ([(o, o1)] ++ trace p1 l). rewrite app_assoc.
      eapply IH; [|done|done]. econstructor; [done|apply plain_env_wf|by apply wf_opb_sound|done]. }
  destruct (run pica_new (history l)) as [[p o]|] eqn:R; [|discriminate].
  apply (G _ _ [] ExNew W _ _ R).
Qed.
Example C35_example : executes (state_after churn) (trace pica_new churn) /\ handles (trace pica_new churn) = [0; 1; 2; 3].
Proof. split; [apply history_executes|]; by vm_compute. Qed.

(** ** C36. *)
Lemma get_category_spec p m : get_category p m = None <-> ~ in_use p m.
Proof.
  unfold get_category, in_use. destruct (p_anchors p !! m) as [a|] eqn:L.
  - split; [done|]. intros N. destruct N. left. by exists a.
  - destruct (existsb _ _) eqn:E.
    + split; [done|]. intros N. destruct N. right. apply existsb_exists in E as ([h d] & Hi & Hd).
      apply bool_decide_eq_true in Hd. exists h, d. split; [|done]. by apply elem_of_map_to_list, elem_of_list_In.
    + split; [|done]. intros _ [[a A]|(h & d & Ld & Hd)]; [congruence|].
      assert (existsb (fun kd => bool_decide (d_mac kd.2 = m)) (map_to_list (p_devices p)) = true) as F; [|congruence].
      apply existsb_exists. exists (h, d). split; [by apply elem_of_list_In, elem_of_map_to_list|]. by apply bool_decide_eq_true.
Qed.
(** An address in use cannot be given to a new anchor; a free one can. *)
Theorem C36_create : forall e p m,
  (in_use p m -> step e p (CreateAnchor m) = Ret (p, [OReply (ReplyAlreadyExists m)]))
  /\ (~ in_use p m -> exists p' h, step e p (CreateAnchor m) = Ret (p', [OReply (ReplyOk h)])
        /\ p_anchors p' = <[m := h]> (p_anchors p) /\ p_devices p' = p_devices p).
Proof.
  intros e p m. cbn [step]. unfold create_anchor. pose proof (get_category_spec p m) as G. split.
  - intros U. destruct (get_category p m) eqn:E; [done|]. by destruct (proj1 G eq_refl).
  - intros U. rewrite (proj2 G U). destruct (p_anchors p !! m) eqn:L.
    + destruct U. left. by eexists.
    + by eexists _, _.
Qed.
Print Assumptions C36_create.
Theorem C36_destroy : forall e p m,
  match p_anchors p !! m with
  | None => step e p (DestroyAnchor m) = Ret (p, [OReply (ReplyNotFound m)])
  | Some h => exists p', step e p (DestroyAnchor m) = Ret (p', [OReply (ReplyOk h)])
      /\ p_anchors p' !! m = None /\ (forall m', m' <> m -> p_anchors p' !! m' = p_anchors p !! m') /\ p_devices p' = p_devices p
  end.
Proof.
  intros e p m. cbn [step]. unfold destroy_anchor. destruct (p_anchors p !! m) as [h|] eqn:L; [|done].
  eexists. split; [done|]. cbn. split; [apply lookup_delete|]. split; [|done]. intros m' N. by apply lookup_delete_ne.
Qed.
Print Assumptions C36_destroy.
(** As long as fewer than 65536 handles were given, two devices have different addresses, and a device which
    has the address of an anchor was connected after the anchor was created. *)
Theorem C36_unique_partial : forall p tr, executes p tr -> (N.of_nat (length (handles tr)) <= 65536) ->
  (forall h d h' d', p_devices p !! h = Some d -> p_devices p !! h' = Some d' -> d_mac d = d_mac d' -> h = h')
  /\ (forall h d m a, p_devices p !! h = Some d -> p_anchors p !! m = Some a -> d_mac d = m -> a < h).
Proof.
  intros p tr X B.
  assert (p_counter p = N.of_nat (length (handles tr))) as C.
  { clear -X. induction X as [|p tr e o p' outs X F We Wo S]; [done|]. unfold handles in *. rewrite map_app, concat_app. cbn [map concat]. rewrite app_nil_r.
    destruct (step_handles _ _ _ _ _ _ (executes_pinv _ _ X) S) as [[-> ->]|[-> ->]]; [by rewrite app_nil_r|]. rewrite app_length, F. cbn. lia. }
  assert (forall h h', h < 65536 -> h' < 65536 -> mac_of_handle h = mac_of_handle h' -> h = h') as Inj.
  { intros h h' H H' E. unfold mac_of_handle in E. injection E as E1 E2.
    rewrite !(N.mod_small _ 65536) in E1 by done. rewrite (N.div_mod h 256), (N.div_mod h' 256) by done. congruence. }
  rewrite <- C in B. clear C. split.
  - destruct (executes_pinv _ _ X) as [D _ _]. intros h d h' d' L L' E. destruct (D _ _ L) as (_ & _ & M & ?). destruct (D _ _ L') as (_ & _ & M' & ?).
    apply Inj; [lia..|congruence].
  - intros h d m a L La E. destruct (executes_pinv _ _ X) as [D _ _]. destruct (D _ _ L) as (_ & _ & M & _). rewrite M in E. subst m.
    assert (connected p h) as Ch by by exists d. clear d L M D B. revert h a Ch La.
    induction X as [|p tr e o p' outs X IH We Wo S]; intros h a Ch La; [cbn in La; by rewrite lookup_empty in La|].
    pose proof (executes_pinv _ _ X) as I. destruct (step_devices _ _ _ _ _ _ I S) as [_ Cd]. apply Cd in Ch.
    assert (p_anchors p !! mac_of_handle h = Some a \/ (o = CreateAnchor (mac_of_handle h) /\ p_anchors p !! mac_of_handle h = None /\ ~ in_use p (mac_of_handle h))) as Ca.
    { destruct o; cbn [step] in S.
      - apply Ret_inj in S. unfold add_device, device_init in S. rewrite device_set_state_eq in S. injection S as <- _. by left.
      - apply Ret_inj in S. unfold disconnect in S. destruct (p_devices p !! h0); injection S as <- _; by left.
      - apply ranging_inv in S as (d & s & ms1 & ms2 & peers & o1 & o2 & s' & _ & _ & _ & _ & _ & _ & -> & _). by left.
      - apply Ret_inj in S. injection S as <- _. by left.
      - unfold uci_packet in S. destruct (p_devices p !! h0) as [d|]; [|injection S as <- _; by left].
        destruct (receive_packet d packet) as [[d1 e1]|]; [|discriminate]. injection S as <- _. by left.
      - unfold create_anchor in S. destruct (get_category p m) eqn:Gc; [injection S as <- _; by left|].
        destruct (p_anchors p !! m) eqn:L; [discriminate|]. injection S as <- _. cbn in La.
        destruct (decide (m = mac_of_handle h)) as [->|Ne]; [|rewrite lookup_insert_ne in La by done; by left].
        right. split; [done|]. split; [done|]. by apply get_category_spec.
      - apply Ret_inj in S. unfold destroy_anchor in S. destruct (p_anchors p !! m) eqn:L; injection S as <- _; [|by left].
        cbn in La. destruct (decide (m = mac_of_handle h)) as [->|Ne]; [by rewrite lookup_delete in La|].
        rewrite lookup_delete_ne in La by done. by left.
      - apply Ret_inj in S. injection S as <- _. by left. }
    destruct Ch as [[Ch _]|[-> ->]].
    + destruct Ca as [Ca|(_ & _ & N)]; [by eapply IH|]. destruct N. right. destruct Ch as [d L]. exists h, d. split; [done|].
      by destruct (pi_device _ _ I _ _ L) as (_ & _ & ? & _).
    + destruct Ca as [Ca|(? & _)]; [|done]. by destruct (pi_anchor _ _ I _ _ Ca) as (_ & ? & _).
Qed.
Print Assumptions C36_unique_partial.
(** The address of a new device is not checked against the anchors. *)
Theorem C36_refuted : exists p h d m a, reachable p /\ p_devices p !! h = Some d /\ p_anchors p !! m = Some a /\ d_mac d = m.
Proof.
  set (l := [CreateAnchor (MShort [0; 1]); Connect]).
  destruct (p_devices (state_after l) !! 1) as [d|] eqn:L; [|by vm_compute in L].
  exists (state_after l), 1, d, (MShort [0; 1]), 0. split; [apply history_reachable; by vm_compute|]. split; [done|].
  split; [by vm_compute|]. vm_compute in L. by injection L as <-.
Qed.
Print Assumptions C36_refuted.
(** Nor against the other devices: two devices connected 65536 handles apart have the same address. *)
Lemma connects n : exists p, reachable p /\ p_counter p = n /\ forall h, h < n -> connected p h.
Proof.
  induction n as [|n (p & R & C & H)] using N.peano_ind.
  - exists pica_new. split; [exists [], []; split; [constructor|done]|]. split; [done|]. intros h ?. lia.
  - destruct (step plain_env p Connect) as [[p' outs]|] eqn:S; [|discriminate].
    destruct (step_devices _ _ _ _ _ _ (reachable_pinv _ R) S) as [C' H']. exists p'. split.
    { by eapply (reachable_step p plain_env Connect). }
    split; [lia|]. intros h Hh. apply H'. destruct (N.eq_dec h n) as [->|Ne]; [right; by rewrite C|]. left. split; [apply H; lia|done].
Qed.
Theorem C36_refuted_devices : exists p h d h' d', reachable p /\ h <> h' /\ p_devices p !! h = Some d /\ p_devices p !! h' = Some d' /\ d_mac d = d_mac d'.
Proof.
  destruct (connects 65537) as (p & R & C & H). destruct (H 0) as [d L]; [lia|]. destruct (H 65536) as [d' L']; [lia|].
  exists p, 0, d, 65536, d'. split_and!; try done. pose proof (reachable_pinv _ R) as [D _ _].
  destruct (D _ _ L) as (_ & _ & -> & _). destruct (D _ _ L') as (_ & _ & -> & _). by vm_compute.
Qed.
Print Assumptions C36_refuted_devices.
Example C36_example : executes (state_after churn) (trace pica_new churn) /\ N.of_nat (length (handles (trace pica_new churn))) <= 65536
  /\ in_use (state_after churn) (MShort [9; 9]) /\ in_use (state_after churn) (MShort [0; 2]) /\ ~ in_use (state_after churn) (MShort [0; 0]).
Proof.
  split; [apply history_executes; by vm_compute|]. split; [by vm_compute|]. split.
  { left. exists 3. by vm_compute. }
  split.
  { right. destruct (p_devices (state_after churn) !! 2) as [d|] eqn:L; [|by vm_compute in L]. exists 2, d. split; [done|].
    vm_compute in L. by injection L as <-. }
  apply get_category_spec. by vm_compute.
Qed.

(** ** C37. *)
Lemma step_events cl e p o p' outs h : pinv cl p -> step e p o = Ret (p', outs) ->
  (events_of h (o, outs) = [] /\ (connected p' h <-> connected p h) /\ (p_counter p' <= h -> p_counter p <= h))
  \/ (o = Connect /\ h = p_counter p /\ events_of h (o, outs) = [(true, mac_of_handle h)] /\ connected p' h /\ h < p_counter p')
  \/ (o = Disconnect h /\ connected p h /\ events_of h (o, outs) = [(false, mac_of_handle h)] /\ ~ connected p' h /\ h < p_counter p').
Proof.
  intros I S. pose proof (step_devices _ _ _ _ _ _ I S) as [C Cd]. specialize (Cd h). pose proof (step_eff_out _ _ _ _ _ S) as Ef.
  destruct o; try (left; split; [by apply events_eff|]; split; [rewrite Cd; split; [by intros [[? _]|[? _]]|by left]|lia]); cbn [step] in S.
  - apply Ret_inj in S. unfold add_device, device_init in S. rewrite device_set_state_eq in S. injection S as <- <-. unfold events_of. cbn.
    destruct (N.eqb_spec (p_counter p) h) as [<-|Ne].
    + right. left. split_and!; try done; [apply Cd; by right|cbn; lia].
    + left. split; [done|]. cbn in Cd. split; [|cbn; lia]. rewrite Cd. split; [intros [[? _]|[_ ?]]; [done|congruence]|by left].
  - apply Ret_inj in S. unfold disconnect in S. destruct (p_devices p !! h0) as [d|] eqn:L; injection S as <- <-.
    + unfold events_of. cbn [snd map concat]. rewrite concat_map_eff by done. rewrite app_nil_r.
      destruct (pi_device _ _ I _ _ L) as (_ & _ & M & ?). destruct (N.eqb_spec h0 h) as [->|Ne].
      * right. right. rewrite M. split_and!; try done; [by exists d|]. rewrite Cd. by intros [[_ ?]|[? _]].
      * left. split; [done|]. split; [|cbn; lia]. rewrite Cd. split; [intros [[? _]|[? _]]; done|]. intros ?. left. split; [done|congruence].
    + left. split; [done|]. done.
  - unfold create_anchor in S. destruct (get_category p m); [injection S as <- <-; left; done|].
    destruct (p_anchors p !! m); [discriminate|]. injection S as <- <-. left. split; [done|]. cbn [p_counter]. split; [done|lia].
  - unfold destroy_anchor in S. apply Ret_inj in S. destruct (p_anchors p !! m); injection S as <- <-; left; done.
Qed.
(** The events about [h] are nothing, Connected, or Connected then Disconnected with the same address; the
    connected devices are those of the second kind. *)
Theorem C37_balanced : forall p tr h, executes p tr ->
  (events h tr = [] /\ ~ connected p h)
  \/ (exists d, events h tr = [(true, d_mac d)] /\ p_devices p !! h = Some d)
  \/ (exists m, events h tr = [(true, m); (false, m)] /\ ~ connected p h).
Proof.
  intros p tr h X.
  assert ((p_counter p <= h -> events h tr = [])
    /\ ((events h tr = [] /\ ~ connected p h) \/ (events h tr = [(true, mac_of_handle h)] /\ connected p h)
    \/ (events h tr = [(true, mac_of_handle h); (false, mac_of_handle h)] /\ ~ connected p h))) as [_ G].
  2:{ destruct G as [G|[[E [d L]]|G]]; [by left| |right; right; by exists (mac_of_handle h)]. right. left. exists d. split; [|done].
      destruct (executes_pinv _ _ X) as [D _ _]. by destruct (D _ _ L) as (_ & _ & -> & _). }
  induction X as [|p tr e o p' outs X [B IH] We Wo S].
  { split; [done|]. left. split; [done|]. intros [d L]. cbn in L. by rewrite lookup_empty in L. }
  unfold events in *. rewrite map_app, concat_app. cbn [map concat]. rewrite app_nil_r.
  pose proof (executes_pinv _ _ X) as I.
  destruct (step_events _ _ _ _ _ _ h I S) as [(-> & Cd & Ct)|[(-> & -> & -> & Cd & Lt)|(-> & Cp & -> & Cd & Lt)]].
  - rewrite app_nil_r, Cd. split; [intros ?; by apply B, Ct|done].
  - split; [lia|]. rewrite B by lia. right. by left.
  - split; [lia|]. destruct IH as [[_ ?]|[[-> _]|[_ ?]]]; [done| |done]. right. by right.
Qed.
Print Assumptions C37_balanced.
(** A disconnection has an effect only on a connected device. *)
Theorem C37_repeated : forall e p h, ~ connected p h -> step e p (Disconnect h) = Ret (p, []).
Proof. intros e p h N. cbn. unfold disconnect. destruct (p_devices p !! h) as [d|] eqn:L; [|done]. destruct N. by exists d. Qed.
Print Assumptions C37_repeated.
Example C37_example : executes (state_after churn) (trace pica_new churn)
  /\ events 0 (trace pica_new churn) = [(true, MShort [0; 0]); (false, MShort [0; 0])]
  /\ events 2 (trace pica_new churn) = [(true, MShort [0; 2])] /\ connected (state_after churn) 2.
Proof.
  split; [apply history_executes; by vm_compute|]. split; [by vm_compute|]. split; [by vm_compute|].
  unfold connected. destruct (p_devices (state_after churn) !! 2) as [d|] eqn:L; [by exists d|by vm_compute in L].
Qed.

(** ** C38. *)
(** A packet of a host changes its own device only, and has effects on its host and its timers only. *)
Theorem C38_packet : forall e p h packet p' outs,
  step e p (UciPacket h packet) = Ret (p', outs) ->
  (forall h', h' <> h -> p_devices p' !! h' = p_devices p !! h')
  /\ p_anchors p' = p_anchors p /\ p_counter p' = p_counter p /\ p_closed p' = p_closed p
  /\ forall o, In o outs -> exists x, o = OEff h x.
Proof.
  intros e p h packet p' outs S. cbn [step] in S. unfold uci_packet in S. destruct (p_devices p !! h) as [d|] eqn:L.
  - destruct (receive_packet d packet) as [[d1 e1]|]; [|discriminate]. cbn [obind] in S. apply Ret_inj in S. injection S as <- <-. cbn.
    split_and!; try done; [intros; by apply lookup_insert_ne|]. intros o Ho. apply in_map_iff in Ho as (x & <- & _). by exists x.
  - apply Ret_inj in S. by injection S as <- <-.
Qed.
Print Assumptions C38_packet.
(** A ranging round changes one session of one device; the hosts of other devices can only receive data messages. *)
Theorem C38_ranging : forall e p h id p' outs,
  step e p (Ranging h id) = Ret (p', outs) ->
  same_but_session h id p p' /\ device_state_at p' h = device_state_at p h /\ state_at p' h id = state_at p h id
  /\ forall h' x, In (OEff h' x) outs -> h' <> h -> exists status src seq data, x = Send (DataMessageRcv id status src seq data).
Proof.
  intros e p h id p' outs S. cbn [step] in S.
  apply ranging_inv in S as (d & s & ms1 & ms2 & peers & o1 & o2 & s' & L & Ls & _ & _ & Sd & Si & -> & ->).
  assert (s_state s' = s_state s) as St. { apply send_info_session in Si as [(_ & -> & _)|(_ & _ & -> & _)]; done. }
  split; [|split; [|split]].
  - split_and!; cbn; rewrite ?lookup_insert, ?L; try done.
    + intros h' id' Ne. unfold session_at. cbn. destruct (N.eq_dec h h') as [<-|N].
      * rewrite lookup_insert, L. cbn. rewrite lookup_insert_ne; [done|]. congruence.
      * by rewrite lookup_insert_ne.
    + intros h' Ne. by apply lookup_insert_ne.
  - unfold device_state_at. cbn. by rewrite lookup_insert, L.
  - unfold state_at, session_at. cbn. rewrite lookup_insert, L. cbn. by rewrite lookup_insert, Ls.
  - intros h' x Hi Ne. apply in_app_or in Hi as [Hi|Hi].
    + apply send_data_outs in Sd as (m & _ & -> & _). apply in_map_iff in Hi as (k & E & _). injection E as _ <-. by eexists _, _, _, _.
    + apply send_info_session in Si as [(_ & _ & ->)|(_ & _ & _ & _ & -> & _)]; [done|]. destruct Hi as [E|[]]. injection E as <- _. done.
Qed.
Print Assumptions C38_ranging.
(** Connections, disconnections and anchors do not affect the other devices, nor does the end of a connection. *)
Definition subject (p : pica) (o : op) : option N :=
  match o with Connect => Some (p_counter p) | Disconnect h => Some h | _ => None end.
Theorem C38_environment : forall e p o p' outs h,
  step e p o = Ret (p', outs) -> (match o with Ranging _ _ | StopRanging _ _ | UciPacket _ _ => False | _ => True end) ->
  subject p o <> Some h -> p_devices p' !! h = p_devices p !! h /\ forall x, ~ In (OEff h x) outs.
Proof.
  intros e p o p' outs h S O N. destruct o; try done; cbn [step] in S.
  - apply Ret_inj in S. unfold add_device, device_init in S. rewrite device_set_state_eq in S. injection S as <- <-. cbn in N |- *.
    split; [apply lookup_insert_ne; congruence|]. intros x [E|[E|[]]]; congruence.
  - apply Ret_inj in S. unfold disconnect in S. destruct (p_devices p !! h0); injection S as <- <-; [|split; [done|intros x []]]. cbn in N |- *.
    split; [apply lookup_delete_ne; congruence|]. intros x [E|E]; [done|]. apply in_map_iff in E as (y & E & _). congruence.
  - unfold create_anchor in S. destruct (get_category p m); [injection S as <- <-; split; [done|]; by intros x [E|[]]|].
    destruct (p_anchors p !! m); [discriminate|]. injection S as <- <-. split; [done|]. by intros x [E|[]].
  - apply Ret_inj in S. unfold destroy_anchor in S. destruct (p_anchors p !! m); injection S as <- <-; (split; [done|]; by intros x [E|[]]).
  - apply Ret_inj in S. injection S as <- <-. split; [done|intros x []].
Qed.
Print Assumptions C38_environment.
Example C38_example : exists p' outs p2 outs2,
  step plain_env (state_after (active ++ [Connect])) (UciPacket 1 (cmd_packet (CmdDeviceReset 0))) = Ret (p', outs)
  /\ outs <> [] /\ step plain_env (state_after active) (Ranging 0 7) = Ret (p2, outs2) /\ outs2 <> [].
Proof.
  destruct (step plain_env (state_after (active ++ [Connect])) (UciPacket 1 (cmd_packet (CmdDeviceReset 0)))) as [[p' outs]|] eqn:E; [|by vm_compute in E].
  destruct (step plain_env (state_after active) (Ranging 0 7)) as [[p2 outs2]|] eqn:E2; [|by vm_compute in E2].
  exists p', outs, p2, outs2. split_and!; try done.
  - vm_compute in E. by injection E as _ <-.
  - vm_compute in E2. by injection E2 as _ <-.
Qed.
