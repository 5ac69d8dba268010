(** Facts about the multicast list. *)
From Verif Require Import Base Uci MacAddress AppConfig Codec Session Device Pica.
From Verif Require Import BaseFacts AppConfigSpec AppConfigFacts CodecSpec CodecFacts ContextSpec InvFacts StepFacts CommandFacts SessionSpec SessionFacts MulticastSpec.

Lemma controlees_decode a cs payload : controlees a cs payload ->
  multicast_controlees a payload = Some (map MShort (addresses cs)).
Proof.
  intros (S & F & ->). unfold multicast_controlees.
  replace (match a with AddControlee | RemoveControlee => 0%nat | AddControleeWithShortSubSessionKey => 16%nat
    | AddControleeWithExtendedSubSessionKey => 32%nat end) with (key_size a) by by destruct a.
  rewrite decode_controlees_spec by done. cbn. f_equal. unfold addresses. rewrite !map_map. done.
Qed.
Lemma decode_controlees_inv a payload l : wf_bytes payload -> multicast_controlees a payload = Some l ->
  exists cs, controlees a cs payload /\ l = map MShort (addresses cs).
Proof.
  intros W H. unfold multicast_controlees in H. apply fmap_Some in H as (cs & H & ->).
  replace (match a with AddControlee | RemoveControlee => 0%nat | AddControleeWithShortSubSessionKey => 16%nat
    | AddControleeWithExtendedSubSessionKey => 32%nat end) with (key_size a) in H by by destruct a.
  apply decode_controlees_sound in H as (l' & -> & S & F & ->); [|done].
  exists l'. split; [done|]. unfold addresses. rewrite !map_map. done.
Qed.
Lemma updatable_spec s : updatable s <->
  (negb (bool_decide (s_state s = SsActive)) && negb (bool_decide (s_state s = SsIdle)))
         || negb (bool_decide (device_type (s_cfg s) = Some DEVICE_TYPE_CONTROLLER))
         || negb (bool_decide (multi_node_mode (s_cfg s) = Some MULTI_NODE_ONE_TO_MANY)) = false.
Proof.
  unfold updatable. rewrite !orb_false_iff, !negb_false_iff, !bool_decide_eq_true, andb_false_iff, !negb_false_iff, !bool_decide_eq_true.
  assert (forall (o : option N) n, (fun x => [x]) <$> o = Some [n] <-> o = Some n) as E.
  { intros [x|] n; cbn; [|done]. split; congruence. }
  cbn [app_config_get]. unfold DEVICE_TYPE_CONTROLLER, MULTI_NODE_ONE_TO_MANY. rewrite !E. tauto.
Qed.

(** The overall status of an addition is OK exactly if all the controlees were added. *)
Lemma add_spec l dst st rsp dst' st' rsp' : (length dst <= 8)%nat ->
  add_controlees false (map MShort l) dst st rsp = Ret (dst', st', rsp') ->
  exists sts, length sts = length l /\ rsp' = rsp ++ zip l sts /\ added dst l sts dst' /\ (length dst' <= 8)%nat
    /\ (st' = 0 <-> st = 0 /\ Forall (eq UPDATED) sts).
Proof.
  revert dst st rsp. induction l as [|a l IH]; intros dst st rsp L H; cbn [add_controlees map] in H.
  - injection H as <- <- <-. exists []. rewrite app_nil_r. split_and!; try done; [constructor|]. split; [|tauto]. intros. split; [done|constructor].
  - cbn [short_bytes obind] in H. unfold MAX_NUMBER_OF_CONTROLEES in H. case_bool_decide as P; cbn [negb] in H.
    + apply IH in H as (sts & E & -> & A & L' & S); [|done]. exists (ALREADY_PRESENT :: sts). cbn. rewrite <- app_assoc, E.
      split_and!; try done; [by constructor|]. rewrite S. split; [intros [? _]; done|]. intros [_ F]. inversion F; done.
    + destruct (Nat.eqb_spec (length dst) 8).
      * apply IH in H as (sts & E & -> & A & L' & S); [|done]. exists (LIST_FULL :: sts). cbn. rewrite <- app_assoc, E.
        split_and!; try done; [apply AddFull; [done|lia|done]|]. rewrite S. split; [intros [? _]; done|]. intros [_ F]. inversion F; done.
      * apply IH in H as (sts & E & -> & A & L' & S); [|rewrite app_length; cbn; lia].
        exists (UPDATED :: sts). cbn. rewrite <- app_assoc, E.
        split_and!; try done; [apply AddOk; [done|lia|done]|]. rewrite S.
        split; [intros [? ?]; split; [done|by constructor]|]. intros [? F]. inversion F; done.
Qed.
Lemma add_keys l dst st rsp dst' st' rsp' :
  add_controlees true l dst st rsp = Ret (dst', st', rsp') ->
  dst' = dst /\ rsp' = rsp /\ st' = match l with [] => st | _ => STATUS_FAILED end.
Proof.
  revert st. induction l as [|a l IH]; intros st H; cbn [add_controlees] in H.
  - by injection H as <- <- <-.
  - destruct (short_bytes a); [|discriminate]. cbn [obind] in H. apply IH in H as (-> & -> & ->). by destruct l.
Qed.
Lemma added_appends dst l sts dst' : added dst l sts dst' -> dst' = dst ++ map MShort (updated l sts).
Proof.
  induction 1 as [|dst a l sts dst' N L A IH|dst a l sts dst' P A IH|dst a l sts dst' N L A IH].
  - cbn. by rewrite app_nil_r.
  - rewrite IH, <- app_assoc. done.
  - rewrite IH. done.
  - rewrite IH. done.
Qed.

Definition eff_stop_requests (e : list eff) : list (mac_address * N * N) :=
  concat (map (fun x => match x with SpawnStop a id n => [(a, id, n)] | _ => [] end) e).
Lemma eff_stop_requests_app e e' : eff_stop_requests (e ++ e') = eff_stop_requests e ++ eff_stop_requests e'.
Proof. unfold eff_stop_requests. by rewrite map_app, concat_app. Qed.
Lemma stop_requests_effs h e : stop_requests h (map (OEff h) e) = eff_stop_requests e.
Proof.
  unfold stop_requests, eff_stop_requests. rewrite map_map. f_equal. apply map_ext. intros x.
  unfold stop_request. destruct x; try done. by rewrite N.eqb_refl.
Qed.
Lemma remove_spec id att l dst st rsp ntf e dst' st' rsp' ntf' e' :
  remove_controlees id att (map MShort l) dst st rsp ntf e = Ret (dst', st', rsp', ntf', e') ->
  exists sts, length sts = length l /\ rsp' = rsp ++ zip l sts /\ removed dst l sts dst'
    /\ ntf' = ntf ++ map (fun a => (a, UPDATED)) (updated l sts)
    /\ e' = e ++ (if att =? 0 then [] else map (fun a => SpawnStop (MShort a) id att) (updated l sts))
    /\ (length dst' <= length dst)%nat
    /\ (st' = 0 <-> st = 0 /\ Forall (eq UPDATED) sts).
Proof.
  revert dst st rsp ntf e. induction l as [|a l IH]; intros dst st rsp ntf e H; cbn [remove_controlees map] in H.
  - injection H as <- <- <- <- <-. exists []. cbn. destruct (att =? 0); rewrite !app_nil_r.
    all: split_and!; try done; [constructor|]; split; [|tauto]; intros; split; [done|constructor].
  - cbn [short_bytes obind] in H. case_bool_decide as P; cbn [negb] in H.
    + apply IH in H as (sts & E & -> & A & -> & -> & L & S). exists (UPDATED :: sts).
      assert (updated (a :: l) (UPDATED :: sts) = a :: updated l sts) as -> by done.
      cbn [zip map length]. rewrite E. split_and!; try done.
      * by rewrite <- app_assoc.
      * by constructor.
      * by rewrite <- app_assoc.
      * destruct (att =? 0); [done|]. by rewrite <- app_assoc.
      * etrans; [exact L|]. apply filter_length.
      * rewrite S. split; [intros [? ?]; split; [done|by constructor]|]. intros [? F]. inversion F; done.
    + apply IH in H as (sts & E & -> & A & -> & -> & L & S). exists (NOT_FOUND :: sts).
      assert (updated (a :: l) (NOT_FOUND :: sts) = updated l sts) as -> by done.
      cbn [zip map length]. rewrite E. split_and!; try done.
      * by rewrite <- app_assoc.
      * by constructor.
      * rewrite S. split; [intros [? _]; done|]. intros [_ F]. inversion F; done.
Qed.
Lemma removed_filter dst l sts dst' : removed dst l sts dst' -> dst' = filter (fun x => x ∉ map MShort l) dst.
Proof.
  assert (forall (P Q : mac_address -> Prop) `{!forall x, Decision (P x), !forall x, Decision (Q x)} (k : list mac_address),
    (forall x, x ∈ k -> (P x <-> Q x)) -> filter P k = filter Q k) as Ext.
  { intros P Q ? ? k H. induction k as [|x k IH]; [done|]. rewrite !filter_cons.
    assert (P x <-> Q x) as E by (apply H; left).
    rewrite IH by (intros; apply H; by right). destruct (decide (P x)), (decide (Q x)); tauto. }
  induction 1 as [dst|dst a l sts dst' P A IH|dst a l sts dst' N A IH].
  - induction dst as [|x dst IH]; [done|]. rewrite filter_cons_True; [by rewrite <- IH|apply not_elem_of_nil].
  - rewrite IH, list_filter_filter. apply Ext. intros x _. cbn [map]. rewrite elem_of_cons. tauto.
  - rewrite IH. apply Ext. intros x Hx. cbn [map]. rewrite elem_of_cons. split; [|tauto]. intros H [-> |?]; done.
Qed.

Lemma dst_get_other c dst n i : i <> T_NUMBER_OF_CONTROLEES -> i <> T_DST_MAC_ADDRESS ->
  app_config_get (set_dst_mac_address dst (set_number_of_controlees n c)) i = app_config_get c i.
Proof. intros N1 N2. by destruct i. Qed.
