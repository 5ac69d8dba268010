(** Facts about the handlers of the device: configuration and queries. *)
From Coq Require Import ZifyBool ZifyN ZifyNat.
From Verif Require Import Base Uci MacAddress AppConfig Codec Session Device Pica BaseFacts AppConfigFacts
  CodecSpec CodecFacts ContextSpec DeviceSpec InvFacts StepFacts CommandFacts.

Lemma set_config_loop_spec l b inv : set_config_loop l b inv =
  (match last (filter (fun p => p.1 = 1) l) with Some (_, v) => low_power_value v | None => b end, inv ++ refusals l).
Proof.
  revert b inv. induction l as [|[id v] l IH]; intros b inv; cbn [set_config_loop].
  - unfold refusals. cbn. by rewrite app_nil_r.
  - unfold refusals in *. cbn [map concat fst].
    assert (refusal id = if id =? 0 then [(0, 9)] else if id =? 1 then [] else [(id, 4)]) as Rf by done. rewrite Rf. clear Rf.
    unfold CONFIG_DEVICE_STATE, CONFIG_LOW_POWER_MODE.
    destruct (N.eqb_spec id 0) as [->|H0].
    + rewrite IH. rewrite filter_cons_False by (intros E; cbn in E; lia). by rewrite <- app_assoc.
    + destruct (N.eqb_spec id 1) as [->|H1].
      * rewrite IH. rewrite filter_cons_True by done. cbn [app]. f_equal.
        rewrite last_cons. destruct (last (filter _ l)) as [[? ?]|]; [done|]. by destruct v as [|[|b'] v].
      * rewrite IH. rewrite filter_cons_False by (intros E; cbn in E; lia). by rewrite <- app_assoc.
Qed.
Lemma get_config_loop_spec d ids v i : get_config_loop d ids v i =
  (v ++ concat (map (fun id => match config_value (d_cfg_state d) (d_low_power d) id with Some x => [(id, x)] | None => [] end) ids),
   i ++ concat (map (fun id => match config_value (d_cfg_state d) (d_low_power d) id with Some _ => [] | None => [(id, [])] end) ids)).
Proof.
  revert v i. induction ids as [|id ids IH]; intros v i; cbn [get_config_loop map concat].
  - by rewrite !app_nil_r.
  - unfold config_value at 1 3. unfold CONFIG_DEVICE_STATE, CONFIG_LOW_POWER_MODE.
    destruct (id =? 0); [|destruct (id =? 1)]; rewrite IH; by rewrite <- !app_assoc.
Qed.
Lemma get_tlvs_spec c ids v i : get_tlvs c ids v i =
  (v ++ concat (map (fun id => match app_config_get c id with Some x => [(id, x)] | None => [] end) ids),
   i ++ concat (map (fun id => match app_config_get c id with Some _ => [] | None => [(id, [])] end) ids)).
Proof.
  revert v i. induction ids as [|id ids IH]; intros v i; cbn [get_tlvs map concat].
  - by rewrite !app_nil_r.
  - destruct (app_config_get c id); rewrite IH; by rewrite <- !app_assoc.
Qed.
(** All the values are available, or one is not. *)
Lemma all_available {A B} (f : A -> option B) l :
  (exists vs, Forall2 (fun a v => f a = Some v) l vs
    /\ concat (map (fun a => match f a with Some x => [(a, x)] | None => [] end) l) = zip l vs
    /\ (forall C (g : A -> C), concat (map (fun a => match f a with Some _ => [] | None => [g a] end) l) = []))
  \/ (exists a, a ∈ l /\ f a = None)
     /\ (forall C (g : A -> C), concat (map (fun a => match f a with Some _ => [] | None => [g a] end) l) = map g (filter (fun a => f a = None) l))
     /\ filter (fun a => f a = None) l <> [].
Proof.
  induction l as [|a l IH]; [left; by exists []|].
  destruct (f a) as [v|] eqn:E.
  - destruct IH as [(vs & F & E1 & E2)|((b & I & N) & E1 & E2)].
    + left. exists (v :: vs). split; [by constructor|]. split; cbn [map concat zip].
      * rewrite E. cbn. by rewrite E1.
      * intros C g. rewrite E. apply E2.
    + right. split; [exists b; split; [by constructor|done]|]. split.
      * intros C g. cbn [map concat]. rewrite E. rewrite filter_cons_False by (by rewrite E). apply E1.
      * by rewrite filter_cons_False by (by rewrite E).
  - right. split; [exists a; split; [constructor|done]|]. rewrite filter_cons_True by done. split; [|done].
    intros C g. cbn [map concat]. rewrite E. cbn. f_equal.
    destruct IH as [(vs & F & E1 & E2)|(_ & E1 & _)]; [|apply E1]. rewrite E2.
    replace (filter (fun a => f a = None) l) with (@nil A); [done|].
    clear -F. induction F as [|x y l l' Fx F IH]; [done|]. rewrite filter_cons_False; [done|]. by rewrite Fx.
Qed.

(** ** The answer of a command *)
Lemma answer_header d c d' e m : handle_command d c = Ret (d', e, m) ->
  msg_header m = Some (MtResponse, cmd_gid c, cmd_oid c).
Proof.
  intros H. destruct c; cbn [handle_command] in H.
  all: unfold core_get_device_info, core_set_config, session_init, session_deinit, session_set_app_config,
         session_update_controller_multicast_list, session_start, session_stop, android_set_country_code,
         core_get_config, session_get_app_config, session_get_state, session_get_ranging_count in H.
  all: repeat first [ progress cbn [obind] in H
    | match type of H with context [match ?x with _ => _ end] => destruct x; try discriminate H end
    | match type of H with obind ?x _ = _ => destruct x; try discriminate H end ].
  all: try (apply Ret_inj in H; injection H as _ _ <-; reflexivity).
Qed.
Lemma answer_known d c d' e m : handle_command d c = Ret (d', e, m) ->
  match m with UnknownGroupRsp _ _ _ | UnknownCmdRsp _ _ _ => False | _ => True end.
Proof.
  intros H. destruct c; cbn [handle_command] in H.
  all: unfold core_get_device_info, core_set_config, session_init, session_deinit, session_set_app_config,
         session_update_controller_multicast_list, session_start, session_stop, android_set_country_code,
         core_get_config, session_get_app_config, session_get_state, session_get_ranging_count in H.
  all: repeat first [ progress cbn [obind] in H
    | match type of H with context [match ?x with _ => _ end] => destruct x; try discriminate H end
    | match type of H with obind ?x _ = _ => destruct x; try discriminate H end ].
  all: apply Ret_inj in H; injection H as _ _ <-; exact I.
Qed.
Lemma hdr_rsp gid : gid < 16 -> mk_hdr 2 gid / 32 = 2 /\ mk_hdr 2 gid mod 16 = gid.
Proof.
  intros G.
  assert (forallb (fun g => (mk_hdr 2 g / 32 =? 2) && (mk_hdr 2 g mod 16 =? g)) (map N.of_nat (seq 0 16)) = true) as F by (vm_compute; reflexivity).
  rewrite forallb_forall in F. specialize (F gid). rewrite in_map_iff in F.
  assert ((mk_hdr 2 gid / 32 =? 2) && (mk_hdr 2 gid mod 16 =? gid) = true) as F'.
  { apply F. exists (N.to_nat gid). rewrite in_seq. lia. }
  lia.
Qed.
Lemma wire_header m b gid oid : wire m = Some b -> msg_header m = Some (MtResponse, gid, oid) -> gid < 16 -> oid < 64 ->
  (match m with UnknownGroupRsp _ _ _ | UnknownCmdRsp _ _ _ => False | _ => True end) -> header_of b = Some (2, gid, oid).
Proof.
  intros Wm H G O N. unfold wire in Wm. destruct (msg_payload m) as [pl|]; [|discriminate].
  destruct (hdr_rsp gid G) as [E1 E2].
  cbn in Wm. destruct m; try done; cbn [msg_header] in H, Wm; try discriminate H;
    apply (inj Some) in Wm; subst b; injection H as <- <-; cbn [header_of app mt_code]; rewrite E1, E2, N.mod_small by done; done.
Qed.
Lemma cmd_header_range c : cmd_gid c < 16 /\ cmd_oid c < 64.
Proof. destruct c; cbn; lia. Qed.
Lemma answer_answers d c d' e m b packet : encodes c packet -> handle_command d c = Ret (d', e, m) -> wire m = Some b -> answers packet m.
Proof.
  intros (h & o & r1 & r2 & -> & Hm & Hg & Ho) H W. pose proof (answer_header _ _ _ _ _ H) as A.
  destruct (cmd_header_range c) as [R1 R2]. exists b, 1, (cmd_gid c), (cmd_oid c). split; [done|]. split.
  - eapply wire_header; [done|done|done|done|]. pose proof (answer_known _ _ _ _ _ H). by destruct m.
  - cbn [header_of]. by rewrite Hm, Hg, Ho.
Qed.
Lemma unknown_cmd_answers h o rest st : wf_bytes (h :: o :: rest) ->
  answers (h :: o :: rest) (UnknownCmdRsp (h mod 16) (o mod 64) st).
Proof.
  intros W. eexists _, _, _, _. split; [reflexivity|]. split; [|reflexivity]. cbn [header_of app mt_code].
  destruct (hdr_rsp (h mod 16)) as [-> ->]; [apply N.mod_lt; lia|]. rewrite N.mod_mod by lia. done.
Qed.
Lemma unknown_group_answers h b1 b2 rest : answers (h :: b1 :: b2 :: rest) (UnknownGroupRsp (h mod 16) b1 b2).
Proof.
  eexists _, _, _, _. split; [reflexivity|]. split; [|reflexivity]. cbn [header_of app mt_code].
  destruct (hdr_rsp (h mod 16)) as [-> ->]; [apply N.mod_lt; lia|]. done.
Qed.
