(** Which packets stop the simulator: proofs. *)
From Coq Require Import ZifyBool ZifyN ZifyNat.
From Verif Require Import Base Uci MacAddress AppConfig Codec Session Device Pica BaseFacts AppConfigFacts
  CodecSpec CodecFacts ContextSpec DeviceSpec InvFacts StepFacts CommandFacts DeviceFacts MulticastSpec MulticastFacts CrashSpec.

(** ** Setting parameters *)
Lemma set_mode_value c id v c' b : app_config_set c id v = Ret (c', b) ->
  mac_address_mode c' = mode_after (mac_address_mode c) [(id, v)].
Proof.
  intros H. destruct (bool_decide_reflect (id = T_MAC_ADDRESS_MODE)) as [->|Hne].
  - cbn [app_config_set] in H. unfold assign in H. cbn [mode_after].
    destruct (try_parse VALUES_MacAddressMode v) as [n|] eqn:E; injection H as <- <-.
    + apply try_parse_spec in E as [-> E]. cbn [mac_address_mode set_mac_address_mode].
      cbn in E. destruct (N.ltb_spec n 3); [done|lia].
    + destruct v as [|m [|? ?]]; try done. destruct (N.ltb_spec m 3) as [L|L]; [|done].
      assert (try_parse VALUES_MacAddressMode [m] = Some m) as E'; [|congruence].
      apply try_parse_spec. split; [done|]. cbn. lia.
  - pose proof (set_other _ _ _ _ _ T_MAC_ADDRESS_MODE H Hne) as G. cbn [app_config_get] in G.
    injection G as ->. by destruct id.
Qed.
Lemma mode_after_app m l l' : mode_after m (l ++ l') = mode_after (mode_after m l) l'.
Proof. revert m. induction l as [|[id v] l IH]; intros m; [done|]. destruct id; try apply IH. destruct v as [|b [|? ?]]; apply IH. Qed.
Lemma address_cons mode id v l : address_in_mode_1 mode ((id, v) :: l) <->
  (mode = 1 /\ (id = T_DEVICE_MAC_ADDRESS \/ id = T_DST_MAC_ADDRESS)) \/ address_in_mode_1 (mode_after mode [(id, v)]) l.
Proof.
  split.
  - intros ([|[id1 v1] l1] & id' & v' & l2 & E & M & A).
    + injection E as <- <- <-. left. by split.
    + injection E as -> -> ->. right. exists l1, id', v', l2. split; [done|].
      split; [|done]. by rewrite <- mode_after_app.
  - intros [[-> A]|(l1 & id' & v' & l2 & -> & M & A)].
    + by exists [], id, v, l.
    + exists ((id, v) :: l1), id', v', l2. split; [done|]. split; [|done].
      change ((id, v) :: l1) with ([(id, v)] ++ l1). by rewrite mode_after_app.
Qed.
Lemma set_tlvs_crash c l inv : crashed (set_tlvs c l inv) = true <-> address_in_mode_1 (mac_address_mode c) l.
Proof.
  revert c inv. induction l as [|[id v] l IH]; intros c inv; cbn [set_tlvs].
  - split; [discriminate|]. intros ([|? ?] & ? & ? & ? & E & _); discriminate.
  - rewrite address_cons. destruct (app_config_set c id v) as [[c' ok]|] eqn:E; cbn [obind].
    + rewrite IH. rewrite (set_mode_value _ _ _ _ _ E). split; [by right|]. intros [[M A]|?]; [|done].
      rewrite (set_panic c id v M A) in E. discriminate E.
    + cbn. split; [|done]. intros _. left.
      destruct (decide (mac_address_mode c = 1 /\ (id = T_DEVICE_MAC_ADDRESS \/ id = T_DST_MAC_ADDRESS))) as [?|N]; [done|].
      destruct (set_no_panic c id v N) as (? & ? & E2). rewrite E2 in E. discriminate E.
Qed.
Lemma set_tlvs_invalid c l inv c' inv' : set_tlvs c l inv = Ret (c', inv') ->
  (length inv' <= length inv + length l)%nat /\
  (Forall (fun p => known_id p.1) l -> Forall (fun p => known_id p.1 /\ byte p.2) inv ->
   Forall (fun p => known_id p.1 /\ byte p.2) inv').
Proof.
  revert c inv. induction l as [|[id v] l IH]; intros c inv H; cbn [set_tlvs] in H.
  - injection H as <- <-. split; [lia|done].
  - destruct (app_config_set c id v) as [[c1 ok]|]; [|discriminate]. cbn [obind] in H.
    apply IH in H as [L F]. cbn [length]. split.
    + destruct ok; [lia|]. rewrite app_length in L. cbn in L. lia.
    + intros Fl Fi. inversion Fl; subst. apply F; [done|]. destruct ok; [done|].
      apply Forall_app. split; [done|]. constructor; [|constructor]. by split.
Qed.

(** ** Answers *)
Definition long_answer (d : device) (c : command) : Prop :=
  exists id ids s, c = CmdGetAppConfig id ids /\ d_sessions d !! id = Some s
    /\ (forall i, In i ids -> exists v, app_config_get (s_cfg s) i = Some v) /\ In T_DST_MAC_ADDRESS ids
    /\ (255 < length (concat (map mac_to_vec (dst_mac_address (s_cfg s)))))%nat.

Lemma add_rsp k l dst st rsp dst' st' rsp' : add_controlees k (map MShort l) dst st rsp = Ret (dst', st', rsp') ->
  byte st -> (length rsp' <= length rsp + length l)%nat /\ byte st' /\
  (Forall (fun a => length a = 2%nat /\ wf_bytes a) l ->
   Forall (fun p : bytes * N => length p.1 = 2%nat /\ wf_bytes p.1 /\ p.2 <= 8) rsp ->
   Forall (fun p : bytes * N => length p.1 = 2%nat /\ wf_bytes p.1 /\ p.2 <= 8) rsp').
Proof.
  revert dst st rsp. induction l as [|a l IH]; intros dst st rsp H B; cbn [add_controlees map short_bytes obind] in H.
  - injection H as <- <- <-. split; [lia|done].
  - destruct k.
    + apply IH in H as (L & B' & F); [|done]. cbn [length]. split; [lia|]. split; [done|]. intros Fl. inversion Fl; subst. by apply F.
    + destruct (negb _); [destruct (Nat.eqb _ _)|]; apply IH in H as (L & B' & F); try done;
        rewrite app_length in L; cbn [length] in *; (split; [lia|]); (split; [done|]);
        intros Fl Fr; inversion Fl as [|? ? [? ?]]; subst; apply F; try done; apply Forall_app; (split; [done|]);
        constructor; [|constructor| |constructor| |constructor]; done.
Qed.
Lemma remove_rsp id att l dst st rsp ntf e dst' st' rsp' ntf' e' :
  remove_controlees id att (map MShort l) dst st rsp ntf e = Ret (dst', st', rsp', ntf', e') ->
  byte st -> (length rsp' <= length rsp + length l)%nat /\ (length ntf' <= length ntf + length l)%nat /\ byte st' /\
  (Forall (fun a => length a = 2%nat /\ wf_bytes a) l ->
   Forall (fun p : bytes * N => length p.1 = 2%nat /\ wf_bytes p.1 /\ p.2 <= 8) rsp ->
   Forall (fun p : bytes * N => length p.1 = 2%nat /\ wf_bytes p.1 /\ p.2 <= 8) ntf ->
   Forall (fun p : bytes * N => length p.1 = 2%nat /\ wf_bytes p.1 /\ p.2 <= 8) rsp' /\
   Forall (fun p : bytes * N => length p.1 = 2%nat /\ wf_bytes p.1 /\ p.2 <= 8) ntf').
Proof.
  revert dst st rsp ntf e. induction l as [|a l IH]; intros dst st rsp ntf e H B; cbn [remove_controlees map short_bytes obind] in H.
  - injection H as <- <- <- <- <-. split; [lia|]. split; [lia|done].
  - destruct (negb _); apply IH in H as (L & L' & B' & F); try done;
      repeat rewrite app_length in L; repeat rewrite app_length in L'; cbn [length] in *; (split; [lia|]); (split; [lia|]); (split; [done|]);
      intros Fl Fr Fn; inversion Fl as [|? ? [? ?]]; subst; apply F; try done; apply Forall_app; (split; [done|]);
      constructor; try constructor; done.
Qed.

Lemma word32_mod n : word32 (n mod 4294967296).
Proof. unfold word32. apply N.mod_lt. lia. Qed.

Ltac bytes_ok := first [done | unfold byte; lia | split; [done|]; split; [unfold short_list; cbn; lia|constructor]].

Lemma handle_wf b d c d' e m : dinv b d -> wf_cmd c -> handle_command d c = Ret (d', e, m) ->
  ~ long_answer d c -> wf_msg m.
Proof.
  intros I W H NL. destruct c; cbn [handle_command] in H.
  - by injection H as _ _ <-.
  - unfold core_get_device_info in H. destruct (bool_decide _); [|discriminate]. injection H as _ _ <-.
    vm_compute. split_and!; try done; try lia.
  - injection H as _ _ <-. cbn. split; [done|]. split; [unfold short_list; vm_compute; lia|].
    unfold DEFAULT_CAPS_INFO. repeat constructor; unfold byte, short_list; cbn; lia.
  - unfold core_set_config in H. destruct (negb _); [discriminate|]. rewrite set_config_loop_spec in H. cbn [obind app] in H.
    apply Ret_inj in H. injection H as _ _ <-. destruct W as [Sl F].
    cbn [wf_msg]. split; [by destruct (refusals _)|].
    assert ((length (refusals parameters) <= length parameters)%nat /\ Forall (fun p => byte p.1 /\ byte p.2) (refusals parameters)) as [L F'].
    { clear -F. unfold refusals. induction F as [|[id v] l (Hb & _) F [IHl IH]]; [split; [cbn; lia|by constructor]|]. cbn [map concat fst length].
      assert (refusal id = if id =? 0 then [(0, 9)] else if id =? 1 then [] else [(id, 4)]) as -> by done.
      cbn [fst] in Hb. destruct (N.eqb_spec id 0); [|destruct (N.eqb_spec id 1)]; cbn [app length]; (split; [lia|]);
        try done; constructor; try done; split; cbn; subst; done. }
    split; [unfold short_list in *; lia|done].
  - apply Ret_inj in H. injection H as _ _ <-. unfold core_get_config. rewrite get_config_loop_spec. cbn [app].
    destruct W as [Sl F].
    destruct (all_available (config_value (d_cfg_state d) (d_low_power d)) ids) as [(vs & F2 & E1 & E2)|(_ & E1 & E2)].
    + rewrite E1. rewrite (E2 _ (fun id => (id, []))). cbn [wf_msg]. split; [done|].
      assert (Forall (fun tv : N * bytes => byte tv.1 /\ short_list tv.2 /\ wf_bytes tv.2) (zip ids vs)) as Fz.
      { clear -F2 F. induction F2 as [|id v l vs Hv F2 IH]; [by constructor|]. inversion F; subst. cbn [zip zip_with]. constructor; [|by apply IH].
        cbn [fst snd]. split; [done|]. unfold config_value in Hv. destruct (id =? 0); [|destruct (id =? 1); [|discriminate]]; injection Hv as <-;
          (split; [unfold short_list; cbn; lia|]); apply wf_bytes_one; unfold byte; [by destruct (d_cfg_state d)|by destruct (d_low_power d)]. }
      split; [|done]. unfold short_list in *. rewrite zip_with_length. apply Forall2_length in F2. lia.
    + rewrite (E1 _ (fun id => (id, []))). destruct (filter _ ids) as [|x l] eqn:Ef; [done|].
      cbn [map wf_msg]. split; [done|]. change ((x, []) :: map (fun id : N => (id, @nil N)) l) with (map (fun id : N => (id, @nil N)) (x :: l)).
      rewrite <- Ef. split.
      * unfold short_list in *. rewrite map_length. pose proof (filter_length (fun a => config_value (d_cfg_state d) (d_low_power d) a = None) ids). lia.
      * apply Forall_map. apply Forall_forall. intros i Hi. apply elem_of_list_filter in Hi as [_ Hi].
        rewrite Forall_forall in F. cbn. split; [by apply F|]. split; [unfold short_list; cbn; lia|constructor].
  - apply Ret_inj in H. unfold session_init in H. destruct (Nat.leb _ _); [by injection H as _ _ <-|].
    destruct (d_sessions d !! _); [by injection H as _ _ <-|].
    unfold session_init_state in H. rewrite session_set_state_eq in H. by injection H as _ _ <-.
  - unfold session_deinit in H. destruct (d_sessions d !! _) as [s|]; [|by injection H as _ _ <-].
    destruct (bool_decide _); [|by injection H as _ _ <-].
    destruct (device_dec_active d) as [[d1 e1]|]; [|discriminate]. by injection H as _ _ <-.
  - unfold session_set_app_config in H. destruct (d_sessions d !! _) as [s|].
    2:{ injection H as _ _ <-. bytes_ok. }
    destruct (negb _); [discriminate|]. destruct (_ && _); [injection H as _ _ <-; bytes_ok|].
    destruct (negb _ && _); [injection H as _ _ <-; bytes_ok|].
    destruct (set_tlvs _ _ _) as [[c' inv]|] eqn:S; [|discriminate]. cbn [obind] in H.
    destruct (missing_mandatory _); [injection H as _ _ <-; bytes_ok|].
    destruct inv as [|p0 inv].
    + rewrite session_set_state_eq in H. destruct (bool_decide _); injection H as _ _ <-; bytes_ok.
    + injection H as _ _ <-. apply set_tlvs_invalid in S as [Li Fi]. destruct W as (_ & Sl & F).
      cbn [wf_msg]. split; [done|]. split; [unfold short_list in *; cbn [length] in *; lia|].
      apply Fi; [|constructor]. eapply Forall_impl; [exact F|]. by intros ? (? & _).
  - apply Ret_inj in H. injection H as _ _ <-. unfold session_get_app_config.
    destruct (d_sessions d !! id) as [s|] eqn:L; [|bytes_ok]. rewrite get_tlvs_spec. cbn [app].
    destruct W as (_ & Sl & F).
    destruct (all_available (app_config_get (s_cfg s)) ids) as [(vs & F2 & E1 & E2)|(_ & E1 & E2)].
    + rewrite E1. rewrite (E2 _ (fun id => (id, []))). cbn [wf_msg]. split; [done|].
      assert (forall i v, In i ids -> app_config_get (s_cfg s) i = Some v -> short_list v /\ wf_bytes v) as G.
      { intros i v Hi Hv. pose proof (so_cfg _ _ (di_session _ _ I _ _ L)) as O. split; [|by eapply co_get].
        destruct (bool_decide_reflect (i = T_DST_MAC_ADDRESS)) as [->|Nd]; [|by eapply co_short].
        cbn [app_config_get] in Hv. injection Hv as <-. unfold short_list.
        destruct (Nat.le_gt_cases (length (concat (map mac_to_vec (dst_mac_address (s_cfg s))))) 255); [done|].
        destruct NL. exists id, ids, s. split; [done|]. split; [done|]. split; [|done].
        intros i Hi'. apply elem_of_list_In in Hi'. apply elem_of_list_lookup in Hi' as [k Hk].
        destruct (Forall2_lookup_l _ _ _ _ _ F2 Hk) as (v & _ & Hv). by exists v. }
      split; [unfold short_list in *; rewrite zip_with_length; apply Forall2_length in F2; lia|].
      assert (forall l vs, Forall2 (fun i v => app_config_get (s_cfg s) i = Some v) l vs -> Forall known_id l ->
        (forall i, In i l -> In i ids) -> Forall (fun tv : tlv_id * bytes => known_id tv.1 /\ short_list tv.2 /\ wf_bytes tv.2) (zip l vs)) as Fz.
      { clear -G. intros l vs F2. induction F2 as [|i v l vs Hv F2 IH]; intros F Sub; [constructor|]. inversion F; subst. cbn [zip zip_with].
        constructor; [|apply IH; [done|]; intros; apply Sub; by right].
        cbn [fst snd]. split; [done|]. apply (G i); [apply Sub; by left|done]. }
      by apply Fz.
    + rewrite (E1 _ (fun id => (id, []))). destruct (filter _ ids) as [|x l] eqn:Ef; [done|]. cbn [map]. bytes_ok.
  - apply Ret_inj in H. injection H as _ _ <-. unfold session_get_count. cbn. split; [done|]. unfold byte. apply N.mod_lt. lia.
  - apply Ret_inj in H. injection H as _ _ <-. unfold session_get_state. by destruct (d_sessions d !! _).
  - unfold session_update_controller_multicast_list in H. destruct (d_sessions d !! _) as [s|]; [|injection H as _ _ <-; bytes_ok].
    destruct (_ || _); [injection H as _ _ <-; bytes_ok|].
    destruct (multicast_controlees _ _) as [cs|] eqn:Mc; [|injection H as _ _ <-; bytes_ok].
    destruct W as [_ W]. apply decode_controlees_inv in Mc as (l & (Sl & F & _) & ->); [|done].
    assert (Forall (fun a : bytes => length a = 2%nat /\ wf_bytes a) (addresses l)) as Fa.
    { unfold addresses. apply Forall_map. eapply Forall_impl; [exact F|]. by intros ? (? & ? & _). }
    assert (short_list (addresses l)) as Sa by (unfold short_list, addresses in *; by rewrite map_length).
    assert (forall kr dst, (let! (dst, status, rsp) := add_controlees kr (map MShort (addresses l)) dst STATUS_OK [] in
        let '(d, e3) := multicast_finish d id s dst in
        Ret (d, e3, SessionUpdateControllerMulticastListRsp status rsp)) = Ret (d', e, m) -> wf_msg m) as Add.
    { clear H. intros kr dst H. destruct (add_controlees _ _ _ _ _) as [[[? ?] ?]|] eqn:A; [|discriminate].
      cbn [obind] in H. rewrite multicast_finish_eq in H. injection H as _ _ <-.
      apply add_rsp in A as (Lr & Bs & Fr); [|done]. cbn [wf_msg]. split; [done|].
      split; [unfold short_list in *; cbn [length] in Lr; lia|]. apply Fr; [done|constructor]. }
    destruct action; [by eapply Add| |by eapply Add|by eapply Add].
    destruct (remove_controlees _ _ _ _ _ _ _ _) as [[[[[? ?] ?] ?] ?]|] eqn:A; [|discriminate].
    cbn [obind] in H. rewrite multicast_finish_eq in H. injection H as _ _ <-.
    apply remove_rsp in A as (Lr & _ & Bs & Fr); [|done]. cbn [wf_msg]. split; [done|].
    split; [unfold short_list in *; cbn [length] in Lr; lia|]. apply Fr; [done|constructor|constructor].
  - unfold session_start in H. destruct (d_sessions d !! _) as [s|]; [|by injection H as _ _ <-].
    destruct (negb _); [by injection H as _ _ <-|]. destruct (s_task s); [discriminate|].
    rewrite session_set_state_eq, device_set_state_eq in H. by injection H as _ _ <-.
  - unfold session_stop in H. destruct (d_sessions d !! _) as [s|]; [|by injection H as _ _ <-].
    destruct (negb _); [by injection H as _ _ <-|]. destruct (stop_ranging_task s) as [s1 e1].
    rewrite session_set_state_eq in H. destruct (device_dec_active _) as [[d1 e3]|]; [|discriminate]. by injection H as _ _ <-.
  - apply Ret_inj in H. injection H as _ _ <-. unfold session_get_ranging_count.
    destruct (d_sessions d !! _) as [s|] eqn:L; [|done]. cbn. split; [done|]. apply (so_seq _ _ (di_session _ _ I _ _ L)).
  - by injection H as _ _ <-.
  - by injection H as _ _ <-.
Qed.

(** ** Handlers *)
Definition fatal_on (d : device) (c : command) : Prop :=
  match c with
  | CmdGetDeviceInfo | CmdSetConfig _ => d_state d = DsActive
  | CmdSetAppConfig id l => exists s, d_sessions d !! id = Some s /\
      ((s_type s <> 0 /\ s_type s <> 1) \/
       (s_state s = SsInit \/ s_state s = SsActive /\ ~ In T_AOA_RESULT_REQ (map fst l))
       /\ address_in_mode_1 (mac_address_mode (s_cfg s)) l)
  | CmdStart id => exists s, d_sessions d !! id = Some s /\ s_state s = SsIdle /\ s_task s = true
  | _ => False
  end.

Lemma existsb_aoa (l : list (tlv_id * bytes)) :
  existsb (fun p => bool_decide (p.1 = T_AOA_RESULT_REQ)) l = true <-> In T_AOA_RESULT_REQ (map fst l).
Proof.
  rewrite existsb_exists, in_map_iff. split.
  - intros (x & I & E). apply bool_decide_eq_true in E. by exists x.
  - intros (x & E & I). exists x. split; [done|]. by apply bool_decide_eq_true.
Qed.
Lemma add_no_crash k l dst st rsp : crashed (add_controlees k (map MShort l) dst st rsp) = false.
Proof.
  revert dst st rsp. induction l as [|a l IH]; intros dst st rsp; cbn [add_controlees map short_bytes obind]; [done|].
  destruct k; [apply IH|]. destruct (negb _); [destruct (Nat.eqb _ _)|]; apply IH.
Qed.
Lemma remove_no_crash id att l dst st rsp ntf e : crashed (remove_controlees id att (map MShort l) dst st rsp ntf e) = false.
Proof.
  revert dst st rsp ntf e. induction l as [|a l IH]; intros dst st rsp ntf e; cbn [remove_controlees map short_bytes obind]; [done|].
  destruct (negb _); apply IH.
Qed.
Lemma dec_active_ok b d id s : dinv b d -> d_sessions d !! id = Some s -> s_state s = SsActive ->
  exists d' e, device_dec_active d = Ret (d', e) /\ d_active d <> 0.
Proof.
  intros I L A. assert (d_active d <> 0) as N0.
  { pose proof (di_active _ _ I) as Ha. intros E. rewrite E in Ha.
    pose proof (actives_delete _ _ _ L) as D. rewrite bool_decide_true in D by done. lia. }
  unfold device_dec_active. destruct (N.eqb_spec (d_active d) 0); [done|].
  destruct (_ =? _); [destruct (device_set_state _ _); eauto|eauto].
Qed.

Lemma handle_crash b d c : dinv b d -> wf_cmd c -> crashed (handle_command d c) = true <-> fatal_on d c.
Proof.
  intros I W. pose proof (di_state _ _ I) as St.
  assert (d_state d = DsReady \/ d_state d = DsActive) as St2 by (rewrite St; destruct (_ =? _); auto).
  destruct c; cbn [handle_command fatal_on]; try (split; [discriminate|done]).
  - unfold core_get_device_info. destruct St2 as [-> | ->]; cbn; done.
  - unfold core_set_config. destruct St2 as [-> | ->]; cbn [bool_decide negb].
    + rewrite (bool_decide_true (DsReady = DsReady)) by done. cbn [negb]. destruct (set_config_loop _ _ _). cbn. done.
    + rewrite (bool_decide_false (DsActive = DsReady)) by done. done.
  - split; [|done]. unfold session_deinit. destruct (d_sessions d !! id) as [s|] eqn:L; [|done].
    destruct (bool_decide_reflect (s_state s = SsActive)) as [A|A]; [|done].
    destruct (dec_active_ok _ _ _ _ I L A) as (d1 & e1 & -> & _). done.
  - rename tlvs into l. unfold session_set_app_config. destruct (d_sessions d !! id) as [s|] eqn:L.
    2:{ split; [done|]. by intros (s & ? & _). }
    assert (forall P : Prop, (exists s', Some s = Some s' /\ P) <-> P) as Ex.
    { intros P. split; [by intros (? & _ & ?)|]. eauto. }
    transitivity ((s_type s <> 0 /\ s_type s <> 1) \/
       (s_state s = SsInit \/ s_state s = SsActive /\ ~ In T_AOA_RESULT_REQ (map fst l))
       /\ address_in_mode_1 (mac_address_mode (s_cfg s)) l).
    2:{ split; [intros H; by exists s|]. intros (s' & E & H). by injection E as <-. }
    unfold FIRA_RANGING_SESSION, FIRA_RANGING_AND_IN_BAND_DATA_SESSION.
    destruct (N.eqb_spec (s_type s) 0) as [T0|T0]; [|destruct (N.eqb_spec (s_type s) 1) as [T1|T1]]; cbn [orb negb];
      [| |split; [by left|done]].
    all: assert (~ (s_type s <> 0 /\ s_type s <> 1)) as Nt by tauto; clear Ex.
    all: destruct (bool_decide_reflect (s_state s = SsActive)) as [A|A]; cbn [andb negb].
    all: try destruct (existsb _ l) eqn:Ex; rewrite ?andb_false_r; cbn [andb].
    all: try (split; [done|]; intros [?|[[?|[_ ?]] _]]; [tauto|congruence|]; apply existsb_aoa in Ex; tauto).
    all: try (assert (~ In T_AOA_RESULT_REQ (map fst l)) as Na by (rewrite <- existsb_aoa; congruence)).
    all: try (destruct (bool_decide_reflect (s_state s = SsInit)) as [In0|In0]; cbn [andb negb]; [|split; [done|]; tauto]).
    all: pose proof (set_tlvs_crash (s_cfg s) l []) as Cr.
    all: destruct (set_tlvs (s_cfg s) l []) as [[c' inv]|]; cbn [obind].
    all: try (cbn in Cr; split; [intros _; right; split; [tauto|by apply Cr]|done]).
    all: cbn in Cr; split; [|intros [?|[_ Ad]]; [tauto|apply Cr in Ad; discriminate]].
    all: destruct (missing_mandatory c'); [done|]; destruct inv; [|done].
    all: rewrite session_set_state_eq; destruct (bool_decide _); done.
  - split; [|done]. unfold session_update_controller_multicast_list. destruct (d_sessions d !! id) as [s|]; [|done].
    destruct (_ || _); [done|]. destruct (multicast_controlees _ _) as [cs|] eqn:Mc; [|done].
    destruct W as [_ W]. apply decode_controlees_inv in Mc as (l & _ & ->); [|done].
    assert (forall kr dst, crashed (let! (dst, status, rsp) := add_controlees kr (map MShort (addresses l)) dst STATUS_OK [] in
        let '(d, e3) := multicast_finish d id s dst in
        Ret (d, e3, SessionUpdateControllerMulticastListRsp status rsp)) = true -> False) as Add.
    { intros kr dst. pose proof (add_no_crash kr (addresses l) dst STATUS_OK []) as Nc.
      destruct (add_controlees _ _ _ _ _) as [[[? ?] ?]|]; [|discriminate]. cbn [obind]. by destruct (multicast_finish _ _ _ _). }
    destruct action; [apply Add| |apply Add|apply Add].
    pose proof (remove_no_crash id (in_band_termination_attempt_count (s_cfg s)) (addresses l) (dst_mac_address (s_cfg s)) STATUS_OK [] [] []) as Nc.
    destruct (remove_controlees _ _ _ _ _ _ _ _) as [[[[[? ?] ?] ?] ?]|]; [|discriminate]. cbn [obind]. by destruct (multicast_finish _ _ _ _).
  - unfold session_start. destruct (d_sessions d !! id) as [s|] eqn:L.
    2:{ split; [done|]. by intros (s & ? & _). }
    destruct (bool_decide_reflect (s_state s = SsIdle)) as [A|A]; cbn [negb].
    + destruct (s_task s) eqn:T.
      * split; [|done]. intros _. by exists s.
      * rewrite session_set_state_eq, device_set_state_eq. split; [done|]. intros (s' & E & _ & ?). congruence.
    + split; [done|]. intros (s' & E & ? & _). congruence.
  - split; [|done]. unfold session_stop. destruct (d_sessions d !! id) as [s|] eqn:L; [|done].
    destruct (bool_decide_reflect (s_state s = SsActive)) as [A|A]; cbn [negb]; [|done].
    destruct (stop_ranging_task s) as [s1 e1]. rewrite session_set_state_eq.
    destruct (dec_active_ok _ _ _ _ I L A) as (d1 & e2 & _ & N0).
    unfold device_dec_active. cbn [d_active d_set_sessions]. destruct (N.eqb_spec (d_active d) 0); [done|].
    destruct (_ =? _); [|done]. by destruct (device_set_state _ _).
Qed.

(** ** Data packets *)
Lemma decode_data_rcv_sound handle status src seq data p : wf_bytes p -> hd 0 p / 32 = 0 ->
  decode_data_packet p = DdPacket (DataMessageRcvPkt handle status src seq data) ->
  word32 handle /\ byte status /\ word64 src /\ word16 seq /\ N.of_nat (length data) <= 65535
  /\ encodes_data_rcv handle status src seq data p.
Proof.
  intros W Hmt H. destruct p as [|h b]; [discriminate|]. cbn [hd] in Hmt.
  apply wf_bytes_cons in W as [Hh W]. cbn [decode_data_packet] in H. rewrite !hdr_low_mod in H by done.
  destruct (N.eqb_spec (h mod 16) DPF_DATA_SND) as [E|E]; cbn [orb] in H.
  - destruct (p_uint 3 b) as [[r b']|]; [|discriminate].
    match type of H with match ?x with _ => _ end = _ => destruct x as [d|] eqn:E4; [|discriminate] end.
    injection H as ->. repeat inv_bind E4. apply p_end_Some in E4 as [_ E4]. discriminate.
  - destruct (N.eqb_spec (h mod 16) DPF_DATA_RCV) as [E'|E']; [|discriminate].
    destruct (p_uint 3 b) as [[r b']|] eqn:E3; [|discriminate].
    apply (bwd_uint _ _ _ _ W) in E3 as (-> & _ & W').
    match type of H with match ?x with _ => _ end = _ => destruct x as [d|] eqn:E4; [|discriminate] end.
    injection H as ->. repeat inv_bind E4. apply p_end_Some in E4 as [-> E4]. injection E4 as -> -> -> -> ->.
    apply (bwd_uint _ _ _ _ W') in E0 as (-> & ? & W1).
    apply (bwd_u8 _ _ _ W1) in E1 as (-> & ? & W2).
    apply (bwd_uint _ _ _ _ W2) in E2 as (-> & ? & W3).
    apply (bwd_uint _ _ _ _ W3) in E3 as (-> & ? & W4).
    apply (bwd_vec16 _ _ _ W4) in E5 as (-> & [? ?] & W5).
    split_and!; try done. pose proof (le_bytes_length 3 r) as L.
    destruct (le_bytes 3 r) as [|r1 [|r2 [|r3 [|? ?]]]]; try discriminate L.
    exists h, r1, r2, r3. rewrite app_nil_r. done.
Qed.
Lemma decode_data_rcv_complete handle status src seq data p : wf_bytes p ->
  word32 handle -> byte status -> word64 src -> word16 seq -> N.of_nat (length data) <= 65535 ->
  encodes_data_rcv handle status src seq data p ->
  decode_data_packet p = DdPacket (DataMessageRcvPkt handle status src seq data).
Proof.
  intros W ? ? ? ? ? (h & r1 & r2 & r3 & -> & _ & L). apply wf_bytes_cons in W as [Hh W].
  cbn [decode_data_packet]. rewrite hdr_low_mod, L by done. cbn [N.eqb orb DPF_DATA_SND DPF_DATA_RCV Pos.eqb].
  match goal with |- context [p_uint 3 (r1 :: r2 :: r3 :: ?b)] =>
    change (p_uint 3 (r1 :: r2 :: r3 :: b)) with (Some (le_nat [r1; r2; r3], b)) end.
  cbv iota beta. rewrite (fwd_uint 4) by by apply w32. cbn [mbind option_bind app]. rewrite p_uint_1. cbn [mbind option_bind].
  rewrite (fwd_uint 8) by by apply w64. cbn [mbind option_bind]. rewrite (fwd_uint 2) by by apply w16. cbn [mbind option_bind].
  rewrite <- (app_nil_r data) at 2. by rewrite fwd_vec16.
Qed.
Lemma is_data_decode packet : wf_bytes packet -> hd 0 packet / 32 = 0 -> is_data packet <-> exists p, decode_data_packet packet = DdPacket p.
Proof.
  intros W Hm. destruct packet as [|h rest].
  { split; [|by intros [? ?]]. intros [(? & ? & ? & ? & _ & _ & _ & _ & ? & ? & ? & ? & ? & _)|(? & ? & ? & ? & ? & _ & _ & _ & _ & _ & ? & ? & ? & ? & ? & _)]; discriminate. }
  assert (exists h', hd_error (h :: rest) = Some h' /\ h' / 32 = 0) as Hd by by exists h. split.
  - intros [(handle & dst & seq & data & ? & ? & ? & ? & E)|(handle & st & src & seq & data & ? & ? & ? & ? & ? & E)].
    + eexists. apply (decode_data_snd_iff handle dst seq data); [done|done|]. split_and!; try done.
      destruct E as (? & ? & ? & ? & E & _). rewrite E in W. clear -W.
      do 4 (apply wf_bytes_cons in W as [_ W]). rewrite !wf_bytes_app in W. by destruct W as (_ & _ & _ & _ & W).
    + eexists. by eapply decode_data_rcv_complete.
  - intros [[handle dst seq data|handle st src seq data] E].
    + apply decode_data_snd_iff in E as (? & ? & ? & ? & ? & ?); [|done|done]. left. by exists handle, dst, seq, data.
    + apply decode_data_rcv_sound in E as (? & ? & ? & ? & ? & ?); [|done|done]. right. by exists handle, st, src, seq, data.
Qed.

(** ** Packets *)
Lemma long_no_wire d c d' e m : wf_cmd c -> long_answer d c -> handle_command d c = Ret (d', e, m) -> wire m = None.
Proof.
  intros W (id & ids & s & -> & L & A & I & Lg) H. cbn [handle_command] in H. apply Ret_inj in H. injection H as _ _ <-.
  unfold session_get_app_config. rewrite L, get_tlvs_spec. cbn [app].
  destruct (all_available (app_config_get (s_cfg s)) ids) as [(vs & F2 & E1 & E2)|((i & Ii & Ei) & _)].
  2:{ apply elem_of_list_In, A in Ii as [v Ev]. congruence. }
  rewrite E1. rewrite (E2 _ (fun id => (id, []))). unfold wire. cbn [msg_payload].
  assert (enc_counted (fun tv : tlv_id * bytes => v ← enc_vec8 tv.2; Some (tlv_byte tv.1 :: v)) (zip ids vs) = None) as ->; [|done].
  unfold enc_counted. destruct (Nat.leb _ _); [|done].
  destruct (mapM _ (zip ids vs)) as [ls|] eqn:M; [|done]. exfalso. apply mapM_Some in M.
  apply elem_of_list_In, elem_of_list_lookup in I as [k Ik].
  destruct (Forall2_lookup_l _ _ _ _ _ F2 Ik) as (v & Vk & Ev).
  assert (zip ids vs !! k = Some (T_DST_MAC_ADDRESS, v)) as Z by (apply lookup_zip_with_Some; eauto 10).
  destruct (Forall2_lookup_l _ _ _ _ _ M Z) as (b & _ & Eb). cbn [snd fst] in Eb.
  cbn [app_config_get] in Ev. injection Ev as <-. unfold enc_vec8 in Eb.
  destruct (Nat.leb_spec (length (concat (map mac_to_vec (dst_mac_address (s_cfg s))))) 255); [lia|discriminate].
Qed.
Lemma long_handle d c : wf_cmd c -> long_answer d c -> exists d' e m, handle_command d c = Ret (d', e, m).
Proof. intros W (id & ids & s & -> & _). cbn [handle_command]. eauto. Qed.

Lemma fatal_command_on p h d c : p_devices p !! h = Some d ->
  fatal_command p h c <-> fatal_on d c \/ long_answer d c.
Proof.
  intros L. assert (forall id, session_at p h id = d_sessions d !! id) as Sa by (intros; unfold session_at; by rewrite L).
  assert (device_state_at p h = Some (d_state d)) as Ds by (unfold device_state_at; by rewrite L). split.
  - intros F. destruct F as [E|l E|id l s E T0 T1|id l s E S A|id ids s E Av I Lg|id s E S T]; cbn [fatal_on].
    + left. rewrite Ds in E. by injection E.
    + left. rewrite Ds in E. by injection E.
    + left. rewrite Sa in E. exists s. split; [done|]. by left.
    + left. rewrite Sa in E. exists s. split; [done|]. by right.
    + right. rewrite Sa in E. by exists id, ids, s.
    + left. rewrite Sa in E. by exists s.
  - intros [F|(id & ids & s & -> & E & Av & I & Lg)].
    + destruct c; cbn [fatal_on] in F; try done.
      * constructor. by rewrite Ds, F.
      * constructor. by rewrite Ds, F.
      * destruct F as (s & E & [[T0 T1]|[S A]]); rewrite <- Sa in E; [by eapply FatalType|by eapply FatalMode].
      * destruct F as (s & E & S & T). rewrite <- Sa in E. by eapply FatalStart.
    + rewrite <- Sa in E. by eapply FatalLong.
Qed.

Lemma long_dec d c : long_answer d c \/ ~ long_answer d c.
Proof.
  destruct c; try (right; intros (? & ? & ? & E & _); discriminate).
  destruct (d_sessions d !! id) as [s|] eqn:L.
  2:{ right. intros (? & ? & ? & E & L' & _). injection E as <- <-. congruence. }
  destruct (all_available (app_config_get (s_cfg s)) ids) as [(vs & F2 & _)|((i & Ii & Ei) & _)].
  2:{ right. intros (? & ? & ? & E & L' & A & _). injection E as <- <-. rewrite L in L'. injection L' as <-.
      apply elem_of_list_In, A in Ii as [v Ev]. congruence. }
  destruct (decide (T_DST_MAC_ADDRESS ∈ ids)) as [I|I].
  2:{ right. intros (? & ? & ? & E & L' & A & I' & _). injection E as <- <-. by apply elem_of_list_In in I'. }
  destruct (Nat.le_gt_cases (length (concat (map mac_to_vec (dst_mac_address (s_cfg s))))) 255) as [Le|Le].
  { right. intros (? & ? & ? & E & L' & _ & _ & Lg). injection E as <- <-. rewrite L in L'. injection L' as <-. lia. }
  left. exists id, ids, s. split; [done|]. split; [done|]. split; [|split; [by apply elem_of_list_In|done]].
  intros i Hi. apply elem_of_list_In, elem_of_list_lookup in Hi as [k Hk].
  destruct (Forall2_lookup_l _ _ _ _ _ F2 Hk) as (v & _ & Hv). by exists v.
Qed.
(** A command is processed to the end unless it is fatal. *)
Lemma command_crash b d c : dinv b d -> wf_cmd c ->
  crashed (let! (d, e1, m) := handle_command d c in let! e2 := send_control m in Ret (d, e1 ++ e2)) = true
  <-> fatal_on d c \/ long_answer d c.
Proof.
  intros I W. pose proof (handle_crash b d c I W) as Hc.
  destruct (handle_command d c) as [[[d' e] m]|] eqn:H; cbn [obind].
  - unfold send_control. destruct (wire m) as [w|] eqn:Wm; cbn [obind].
    + split; [done|]. intros [F|F]; [by apply Hc in F|]. rewrite (long_no_wire _ _ _ _ _ W F H) in Wm. discriminate.
    + split; [|done]. intros _. right. destruct (long_dec d c) as [G|G]; [done|].
      apply (handle_wf _ _ _ _ _ _ I W H), wire_decode in G as (w & Ew & _). congruence.
  - split; [|done]. intros _. left. by apply Hc.
Qed.

Lemma gid_cases g : g < 16 ->
  (defined_group g = true /\ valid_gid g = true /\ In g [0; 1; 2; 0xc])
  \/ (valid_gid g = false /\ defined_group g = false /\ In g [4; 5; 6; 7; 8])
  \/ (valid_gid g = true /\ defined_group g = false /\ In g [3; 9; 0xa; 0xb; 0xd; 0xe; 0xf]).
Proof.
  intros H.
  assert (In g (map N.of_nat (seq 0 16))) as I.
  { apply in_map_iff. exists (N.to_nat g). split; [lia|]. apply in_seq. lia. }
  cbn in I. repeat (destruct I as [<-|I]; [vm_compute; tauto|]). destruct I.
Qed.
Lemma specialize_none g b : specialize_command g b = SpNone <-> defined_group g = false.
Proof.
  unfold specialize_command, defined_group. cbn [existsb].
  unfold GID_CORE, GID_SESSION_CONFIG, GID_SESSION_CONTROL, GID_VENDOR_ANDROID.
  destruct (N.eqb_spec g 0) as [->|]; [|destruct (N.eqb_spec g 1) as [->|]; [|destruct (N.eqb_spec g 2) as [->|]; [|destruct (N.eqb_spec g 12) as [->|]]]];
    cbn [orb]; try done; (split; [|discriminate]); destruct (decode_group _ _) as [[? ?]|]; try discriminate;
    unfold specialize_core, specialize_session_config, specialize_session_control, specialize_android, sp, sp_unimplemented;
    intros S; exfalso; repeat case_match; discriminate.
Qed.
Lemma data_error h rest : h < 256 ->
  decode_data_packet (h :: rest) = DdError <-> ~ (In (h mod 16) [1; 2] /\ (3 <= length rest)%nat).
Proof.
  intros Hh. cbn [decode_data_packet]. rewrite hdr_low_mod by done. unfold DPF_DATA_SND, DPF_DATA_RCV.
  assert ((h mod 16 =? 1) || (h mod 16 =? 2) = true <-> In (h mod 16) [1; 2]) as G.
  { rewrite orb_true_iff, !N.eqb_eq. cbn. intuition. }
  destruct ((h mod 16 =? 1) || (h mod 16 =? 2)) eqn:F.
  - assert (In (h mod 16) [1; 2]) as I by by apply G. clear G.
    destruct rest as [|r1 [|r2 [|r3 rest]]]; cbn [length]; try (split; [intros _ [_ ?]; lia|done]).
    change (p_uint 3 (r1 :: r2 :: r3 :: rest)) with (Some (le_nat [r1; r2; r3], rest)). cbv iota beta.
    split; [|intros N; destruct N; split; [done|lia]].
    match goal with |- (match ?x with _ => _ end = _) -> _ => destruct x; discriminate end.
  - split; [|done]. intros _ [I _]. by apply G in I.
Qed.
Lemma data_no_crash b d packet p : dinv b d -> wf_bytes packet -> hd 0 packet / 32 = 0 -> decode_data_packet packet = DdPacket p ->
  crashed (let! (d, m) := device_data_message_snd d p in let! e := send_control m in Ret (d, e)) = false.
Proof.
  intros I W Hm D. destruct p as [handle dst seq data|]; cbn [device_data_message_snd]; [|done].
  destruct (d_sessions d !! handle) as [s|] eqn:L; [|done].
  unfold session_data_message_snd. destruct (negb (s_type s =? _)); [done|].
  rewrite (so_id _ _ (di_session _ _ I _ _ L)), N.eqb_refl. done.
Qed.

Lemma reset_like_spec h rest : wf_bytes (h :: rest) -> h / 32 = 1 ->
  reset_like (h :: rest) = true <-> h mod 16 = 0 /\ exists o r1 r2 args, rest = o :: r1 :: r2 :: args /\ o mod 64 = 0.
Proof.
  intros W Hm. apply wf_bytes_cons in W as [Hh W]. unfold reset_like. cbn [decode_control_packet].
  rewrite hdr_mt_div, hdr_low_mod, Hm by done.
  destruct (valid_gid (h mod 16)) eqn:V; cbn [negb].
  - cbn [mbind option_bind mt_of_code N.eqb Pos.eqb]. unfold is_core_device_reset_cmd. cbn [cp_gid cp_payload].
    rewrite andb_true_iff, N.eqb_eq. unfold GID_CORE. apply and_iff_compat_l.
    destruct (decode_group VALUES_CoreOpcodeId rest) as [[oid args]|] eqn:D.
    + apply decode_group_inv in D as (o & r1 & r2 & -> & Ho & _); [|done]. unfold OID_DEVICE_RESET. rewrite N.eqb_eq. split.
      * intros ->. by exists o, r1, r2, args.
      * intros (? & ? & ? & ? & E & ?). injection E as <- <- <- <-. congruence.
    + split; [done|]. intros (o & r1 & r2 & args & -> & Ho). apply wf_bytes_cons in W as [? _].
      rewrite decode_group_cons, Ho in D by done. discriminate.
  - split; [discriminate|]. intros [E _]. rewrite E in V. discriminate.
Qed.

Lemma packet_crash p h d packet : p_devices p !! h = Some d -> dinv false d -> wf_bytes packet ->
  crashed (receive_packet d packet) = true <-> fatal_packet p h packet.
Proof.
  intros L I W. destruct packet as [|b rest]; [split; [constructor|done]|].
  pose proof W as W0. apply wf_bytes_cons in W0 as [Hb Wr].
  assert (forall c, encodes c (b :: rest) -> b / 32 = 1) as En.
  { intros c (? & ? & ? & ? & E & ? & _). injection E as -> _. done. }
  assert (serving p h <-> d_is_reset d = true) as Sv.
  { unfold serving. split; [by intros (d' & ? & ?); congruence|]. by exists d. }
  assert (forall x, crashed (Ret (A := device * list eff) x) = true <-> False) as Cr by done.
  assert (b mod 16 < 16) as Bg by (apply N.mod_lt; lia).
  unfold receive_packet. rewrite hdr_mt_cases by done.
  destruct (mt_of_code (b / 32)) as [mt|] eqn:M.
  - apply mt_of_code_inv in M. destruct mt; cbn [mt_code] in M.
    + (* data *)
      destruct (decode_data_packet (b :: rest)) as [| |pk] eqn:D.
      * split; [done|]. intros F. apply data_error in D; [|done]. destruct D.
        inversion F as [|? [[? _]|?]|? ? ? ? ?|? ? ? ?|? ? ? ?|? ? ? ? ? ? ?|c ? ? ? E ?]; subst; try lia; try done.
        apply En in E. lia.
      * split; [|done]. intros _.
        assert (~ (decode_data_packet (b :: rest) = DdError)) as ND by congruence. rewrite data_error in ND by done.
        destruct (decide (In (b mod 16) [1; 2] /\ (3 <= length rest)%nat)) as [[Hf Hl]|?]; [|tauto].
        apply FatalData; try done. rewrite is_data_decode by done. intros [q Eq]. congruence.
      * rewrite (data_no_crash _ _ _ _ I W M D). split; [done|]. intros F.
        inversion F as [|? [[? _]|?]|? ? ? ? ? Nd|? ? ? ?|? ? ? ?|? ? ? ? ? ? ?|c ? ? ? E ?]; subst; try lia.
        -- destruct Nd. apply is_data_decode; [done|done|]. by exists pk.
        -- apply En in E. lia.
    + (* command *)
      cbn [decode_control_packet]. rewrite hdr_mt_div, hdr_low_mod, M by done.
      destruct (gid_cases (b mod 16) Bg) as [(Df & V & Gi)|[(V & Df & Gi)|(V & Df & Gi)]]; rewrite V; cbn [negb].
      * (* a group with commands *)
        cbn [mbind option_bind mt_of_code N.eqb Pos.eqb]. unfold receive_command. cbn [cp_mt cp_gid cp_payload].
        pose proof (reset_like_spec b rest W M) as Rl. unfold reset_like in Rl. cbn [decode_control_packet] in Rl.
        rewrite hdr_mt_div, hdr_low_mod, M, V in Rl by done. cbn [negb mbind option_bind mt_of_code N.eqb Pos.eqb] in Rl.
        assert (forall c, specialize_command (b mod 16) rest = SpCommand c <-> wf_cmd c /\ encodes c (b :: rest)) as Sp.
        { intros c. rewrite <- decode_command_iff by done. cbn [decode_control_packet]. rewrite hdr_mt_div, hdr_low_mod, M, V by done.
          cbn [negb mbind option_bind mt_of_code N.eqb Pos.eqb]. split.
          - intros S. by eexists.
          - intros (cp & E & _ & S). by injection E as <-. }
        destruct (d_is_reset d) eqn:R; cbn [negb andb].
        -- destruct (specialize_command (b mod 16) rest) as [c| | |] eqn:S.
           ++ destruct (proj1 (Sp c) eq_refl) as [Wc Ec]. rewrite (command_crash _ _ _ I Wc), <- (fatal_command_on p h d c L).
              split; [intros F; by apply (FatalCommand p h c); [apply Sv| | |]|]. intros F.
              inversion F as [|? [[? Hx]|?]|? ? ? ? ?|? ? ? ? ? Nc|? ? ? ? Hx ?|? ? ? ? ? Ns|c' ? ? Wc' E' ?]; subst; try lia.
              ** exfalso. cbn in Gi, Hx. lia.
              ** destruct Nc. by exists c.
              ** exfalso. cbn in Gi, Hx. lia.
              ** destruct Ns. by apply Sv.
              ** by rewrite (encodes_inj c c' (b :: rest)) by done.
           ++ split; [|done]. intros _. apply FatalMalformed; [by apply Sv|done|done|]. intros (c & Wc & Ec).
              pose proof (proj2 (Sp c) (conj Wc Ec)). congruence.
           ++ split; [|done]. intros _. apply FatalMalformed; [by apply Sv|done|done|]. intros (c & Wc & Ec).
              pose proof (proj2 (Sp c) (conj Wc Ec)). congruence.
           ++ exfalso. apply specialize_none in S. congruence.
        -- assert (~ serving p h) as Ns by (rewrite Sv; done).
           destruct (is_core_device_reset_cmd _) eqn:Rs; cbn [negb].
           ++ destruct (proj1 Rl eq_refl) as [G0 (o & r1 & r2 & args & -> & Ho)].
              destruct (decide (args = [0])) as [->|Na].
              ** (* a reset *)
                 assert (specialize_command (b mod 16) (o :: r1 :: r2 :: [0]) = SpCommand (CmdDeviceReset 0)) as ->.
                 { apply Sp. split; [done|]. by exists b, o, r1, r2. }
                 cbn [handle_command]. unfold core_device_reset. destruct (device_init _). cbn. split; [done|]. intros F.
                 inversion F as [|? [[? Hx]|?]|? ? ? ? ?|? ? ? ? ? Nc|? ? ? ? Hx ?|? ? ? ? ? Ns' ? ? ? Na|c' ? ? Wc' E' ?]; subst; try lia; try done.
              ** split; [|intros _; destruct (specialize_command _ _) as [c| | |] eqn:S; [exfalso|done|done|apply specialize_none in S; congruence]].
                 { intros _. by apply FatalReset. }
                 destruct (proj1 (Sp c) eq_refl) as [Wc Ec].
                 assert (c = CmdDeviceReset 0) as ->.
                 { apply (reset_like_command c (b :: o :: r1 :: r2 :: args)); try done. by apply reset_like_spec; eauto 10. }
                 destruct Ec as (? & ? & ? & ? & E & _). injection E as <- <- <- <- E. done.
           ++ cbn. split; [done|]. intros F.
              inversion F as [|? [[? Hx]|?]|? ? ? ? ?|? ? ? ? ? Nc|? ? ? ? Hx ?|? ? ? ? ? Ns' ? G0 ? Na|c' ? ? Wc' E' ?]; subst; try lia; try done.
              ** cbn in Gi, Hx. lia.
              ** assert (false = true) as ?; [|done]. apply Rl. split; [done|]. eauto 10.
      * (* an unassigned group *)
        destruct rest as [|o rest].
        -- split; [|done]. intros _. apply FatalLone. by left.
        -- split; [done|]. intros F.
           inversion F as [|? [[? Hx]|?]|? ? ? ? ?|? ? ? ? Hx Nc|? ? ? ? Hx ?|? ? ? ? ? Ns' ? G0 ? Na|c' ? ? Wc' E' ?]; subst; try lia; try done.
           ++ cbn in Gi, Hx. lia.
           ++ cbn in Gi, Hx. lia.
           ++ cbn in Gi. lia.
           ++ destruct E' as (? & ? & ? & ? & E & _ & G & _). injection E as <- _. rewrite G in Gi. cbn in Gi. destruct c'; cbn in Gi; lia.
      * (* a group without commands *)
        cbn [mbind option_bind mt_of_code N.eqb Pos.eqb]. unfold receive_command. cbn [cp_mt cp_gid cp_payload].
        assert (specialize_command (b mod 16) rest = SpNone) as -> by by apply specialize_none.
        assert (is_core_device_reset_cmd (ControlPacket MtCommand (b mod 16) rest) = false) as ->.
        { unfold is_core_device_reset_cmd. cbn [cp_gid]. destruct (N.eqb_spec (b mod 16) GID_CORE) as [E|E]; [|done].
          rewrite E in Df. discriminate. }
        rewrite andb_true_r. destruct (d_is_reset d) eqn:R; cbn [negb].
        -- destruct rest as [|b1 [|b2 rest]]; cbn.
           ++ split; [|done]. intros _. apply FatalGroup; [by apply Sv|done|done|cbn; lia].
           ++ split; [|done]. intros _. apply FatalGroup; [by apply Sv|done|done|cbn; lia].
           ++ split; [done|]. intros F.
              inversion F as [|? [[? Hx]|?]|? ? ? ? ?|? ? ? ? Hx Nc|? ? ? ? Hx Hl|? ? ? ? ? Ns' ? G0 ? Na|c' ? ? Wc' E' ?]; subst; try lia; try done.
              ** cbn in Gi, Hx. lia.
              ** cbn in Hl. lia.
              ** cbn in Gi. lia.
              ** destruct E' as (? & ? & ? & ? & E & _ & G & _). injection E as <- _. rewrite G in Gi. cbn in Gi. destruct c'; cbn in Gi; lia.
        -- cbn. assert (~ serving p h) as Ns by (rewrite Sv; done). split; [done|]. intros F.
           inversion F as [|? [[? Hx]|?]|? ? ? ? ?|? ? ? ? Hx Nc|? ? ? ? Hx Hl|? ? ? ? ? Ns' ? G0 ? Na|c' ? ? Wc' E' ?]; subst; try lia; try done.
           ++ cbn in Gi, Hx. lia.
           ++ cbn in Gi. lia.
    + split; [done|]. intros F.
      inversion F as [|? [[? Hx]|?]|? ? ? ? ?|? ? ? ? Hx Nc|? ? ? ? Hx Hl|? ? ? ? ? Ns' ? G0 ? Na|c' ? ? Wc' E' ?]; subst; try lia; try done.
      apply En in E'. lia.
    + split; [done|]. intros F.
      inversion F as [|? [[? Hx]|?]|? ? ? ? ?|? ? ? ? Hx Nc|? ? ? ? Hx Hl|? ? ? ? ? Ns' ? G0 ? Na|c' ? ? Wc' E' ?]; subst; try lia; try done.
      apply En in E'. lia.
  - assert (4 <= b / 32) as Hm.
    { unfold mt_of_code in M. generalize dependent (b / 32). intros n _ M.
      destruct (N.eqb_spec n 0); [discriminate|]. destruct (N.eqb_spec n 1); [discriminate|].
      destruct (N.eqb_spec n 2); [discriminate|]. destruct (N.eqb_spec n 3); [discriminate|]. lia. }
    assert (decode_control_packet (b :: rest) = None) as ->.
    { cbn [decode_control_packet]. rewrite hdr_low_mod, hdr_mt_div, M by done. by destruct (negb _). }
    destruct rest as [|o rest].
    + split; [|done]. intros _. apply FatalLone. by right.
    + split; [done|]. intros F.
      inversion F as [|? [[? Hx]|?]|? ? ? ? ?|? ? ? ? Hx Nc|? ? ? ? Hx Hl|? ? ? ? ? Ns' ? G0 ? Na|c' ? ? Wc' E' ?]; subst; try lia; try done.
      apply En in E'. lia.
Qed.
