(** Invariants of the reachable states. *)
From Verif Require Import Base Uci MacAddress AppConfig Codec Session Device Pica.
From Verif Require Import BaseFacts AppConfigSpec AppConfigFacts CodecSpec CodecFacts ContextSpec.

(** ** Configurations *)
Record cfg_ok (c : app_config) : Prop := {
  co_get : forall id v, app_config_get c id = Some v -> wf_bytes v;
  co_mode : mac_address_mode c < 3;
  co_dst : Forall wf_mac (dst_mac_address c);
  co_mac : forall m, device_mac_address c = Some m -> wf_mac m;
  co_short : forall id v, app_config_get c id = Some v -> id <> T_DST_MAC_ADDRESS -> short_list v;
  co_duration : word32 (ranging_duration c) }.

Lemma default_cfg_ok : cfg_ok default_app_config.
Proof.
  split; [|reflexivity|constructor|discriminate| |reflexivity].
  - intros id v H. destruct id; cbn in H; try discriminate; apply (inj Some) in H; subst v;
      repeat constructor.
  - intros id v H _. destruct id; cbn in H; try discriminate; apply (inj Some) in H; subst v;
      unfold short_list; cbn; lia.
Qed.

Lemma set_mode c id v c' b : app_config_set c id v = Ret (c', b) -> mac_address_mode c < 3 ->
  mac_address_mode c' < 3.
Proof.
  intros H M.
  destruct (bool_decide_reflect (id = T_MAC_ADDRESS_MODE)) as [->|Hne].
  - cbn [app_config_set] in H. unfold assign in H.
    destruct (try_parse VALUES_MacAddressMode v) as [n|] eqn:E; injection H as <- <-; [|done].
    apply try_parse_spec in E as [_ E]. cbn in E. cbn [mac_address_mode set_mac_address_mode]. lia.
  - pose proof (set_other _ _ _ _ _ T_MAC_ADDRESS_MODE H Hne) as G. cbn [app_config_get] in G.
    injection G as ->. done.
Qed.
Lemma set_duration c id v c' b : app_config_set c id v = Ret (c', b) -> wf_bytes v -> word32 (ranging_duration c) ->
  word32 (ranging_duration c').
Proof.
  intros H W D. destruct id; cbn [app_config_set] in H; unfold assign in H; case_set H; try discriminate; injection H as <- <-; try exact D.
  match goal with E : try_parse_uint 4 v = Some _ |- _ => unfold try_parse_uint in E; destruct (Nat.eqb_spec (length v) 4) as [L|]; [|discriminate];
    injection E as <- end.
  pose proof (le_nat_bound v W) as B. rewrite L in B. exact B.
Qed.
Lemma chunks_macs (f : bytes -> mac_address) k n v : wf_bytes v -> length v = (n * k)%nat -> (0 < k)%nat ->
  (forall l, wf_bytes l -> length l = k -> wf_mac (f l)) -> Forall wf_mac (map f (chunks k v)).
Proof.
  intros W L K F. destruct (chunks_length k v n) as [_ Hl]; [done|lia|].
  pose proof (chunks_wf k v W) as Hw. apply Forall_map. apply Forall_forall. intros x Hx.
  rewrite Forall_forall in Hl, Hw. apply F; auto.
Qed.
Lemma set_macs c id v c' b : app_config_set c id v = Ret (c', b) -> wf_bytes v -> cfg_ok c ->
  Forall wf_mac (dst_mac_address c') /\ (forall m, device_mac_address c' = Some m -> wf_mac m).
Proof.
  intros H W O. destruct O as [_ _ D M _].
  assert (forall l k, length l = k -> (k = 2 \/ k = 8)%nat -> wf_bytes l ->
    wf_mac (if (k =? 2)%nat then MShort l else MExtended l)) as WM.
  { intros l k L [-> | ->] Wl; cbn; auto. }
  destruct id; cbn [app_config_set] in H; unfold assign in H;
    lazymatch type of H with
    | context [MacAddressMode1] => idtac
    | _ => case_set H; try discriminate; injection H as <- <-; exact (conj D M)
    end.
  - destruct (mac_address_mode c =? MAC_MODE_0);
      [|destruct (mac_address_mode c =? MAC_MODE_1); [discriminate|]].
    + destruct (try_array 2 v) as [l|] eqn:E; cbn in H; injection H as <- <-; [|by split].
      apply try_array_spec in E as [L ->]. split; [exact D|]. intros m Em. injection Em as <-. by apply (WM _ 2%nat); auto.
    + destruct (try_array 8 v) as [l|] eqn:E; cbn in H; injection H as <- <-; [|by split].
      apply try_array_spec in E as [L ->]. split; [exact D|]. intros m Em. injection Em as <-. by apply (WM _ 8%nat); auto.
  - destruct (mac_address_mode c =? MAC_MODE_1); [discriminate|].
    destruct (Nat.eqb_spec (length v) (N.to_nat (number_of_controlees c)
      * (if mac_address_mode c =? MAC_MODE_0 then 2 else 8))) as [L|];
      cbn [negb] in H; injection H as <- <-; [|by split].
    split; [|exact M]. cbn [dst_mac_address set_dst_mac_address].
    destruct (mac_address_mode c =? MAC_MODE_0); (eapply chunks_macs; [done|exact L|lia|]);
      intros l Wl Ll; [by apply (WM _ 2%nat); auto|by apply (WM _ 8%nat); auto].
Qed.
Lemma set_cfg_ok c id v c' b : app_config_set c id v = Ret (c', b) -> wf_bytes v -> short_list v ->
  cfg_ok c -> cfg_ok c'.
Proof.
  intros H W Sh O. destruct (set_macs _ _ _ _ _ H W O) as [D M]. split; [|by eapply set_mode, co_mode|done|done| |by eapply set_duration, co_duration].
  2:{ intros id' v' G Nd. destruct (bool_decide_reflect (id = id')) as [<-|Hne].
      - destruct b.
        + rewrite (set_readback _ _ _ _ W H) in G. injection G as <-. unfold readback.
          destruct (bool_decide_reflect (id = T_UWB_INITIATION_TIME)) as [->|]; [|done].
          destruct (_ && _) eqn:E; [|done]. apply andb_true_iff in E as [_ E].
          apply Nat.eqb_eq in E. unfold short_list. rewrite app_length, E. cbn. lia.
        + apply set_refused in H as ->. by eapply co_short.
      - rewrite (set_other _ _ _ _ _ id' H Hne) in G. by eapply co_short. }
  intros id' v' G. destruct (bool_decide_reflect (id = id')) as [<-|Hne].
  - destruct b.
    + rewrite (set_readback _ _ _ _ W H) in G. injection G as <-. unfold readback.
      destruct (_ && _); [|done]. apply wf_bytes_app. split; [done|]. repeat constructor.
    + apply set_refused in H as ->. by eapply co_get.
  - rewrite (set_other _ _ _ _ _ id' H Hne) in G. by eapply co_get.
Qed.

Lemma set_tlvs_ok c tlvs inv c' inv' : set_tlvs c tlvs inv = Ret (c', inv') ->
  Forall (fun p => wf_bytes p.2 /\ short_list p.2) tlvs -> cfg_ok c -> cfg_ok c'.
Proof.
  revert c inv. induction tlvs as [|[id v] tlvs IH]; intros c inv H W O; cbn [set_tlvs] in H.
  - injection H as <- <-. done.
  - destruct (app_config_set c id v) as [[c1 ok]|] eqn:E; [|discriminate]. cbn [obind] in H.
    inversion W as [|? ? [??]]; subst. eapply IH; [exact H|done|]. by eapply set_cfg_ok.
Qed.
Lemma dst_cfg_ok c dst : cfg_ok c -> Forall wf_mac dst ->
  cfg_ok (set_dst_mac_address dst (set_number_of_controlees (N.of_nat (length dst) mod 256) c)).
Proof.
  intros [G M D A B] F. split; try done.
  2:{ intros id v H Nd. destruct id eqn:E; try (refine (B id v _ _); subst id; [exact H|done]); [|done].
      cbn in H. injection H as <-. unfold short_list. cbn. lia. }
  intros id v H. destruct id eqn:E; try (refine (G id v _); subst id; exact H).
  - cbn in H. injection H as <-. repeat constructor. apply N.mod_lt. lia.
  - cbn in H. injection H as <-. apply wf_bytes_concat. apply Forall_map. eapply Forall_impl; [exact F|].
    intros [l|l] [_ Hl]; exact Hl.
Qed.

(** ** Sessions *)
Record session_ok (id : N) (s : session) : Prop := {
  so_id : s_id s = id;
  so_word : word32 id;
  so_type : In (s_type s) VALUES_SessionType;
  so_mandatory : s_state s = SsIdle \/ s_state s = SsActive -> missing_mandatory (s_cfg s) = false;
  so_unset : device_mac_address (s_cfg s) = None -> dst_mac_address (s_cfg s) = [];
  so_active : s_state s = SsActive -> s_task s = true;
  so_task : s_task s = true -> s_state s = SsActive \/ s_state s = SsIdle;
  so_cfg : cfg_ok (s_cfg s);
  so_seq : word32 (s_seq s);
  so_data : wf_bytes (s_data s) }.

(** Number of active sessions. *)
Definition is_active (kv : N * session) : Prop := s_state kv.2 = SsActive.
Global Instance is_active_dec kv : Decision (is_active kv).
Proof. unfold is_active. apply _. Defined.
Definition actives (m : gmap N session) : nat := size (filter is_active m).

Lemma actives_empty : actives ∅ = 0%nat.
Proof. unfold actives. by rewrite map_filter_empty, map_size_empty. Qed.
Lemma actives_delete m id s : m !! id = Some s ->
  actives m = (actives (delete id m) + if bool_decide (s_state s = SsActive) then 1 else 0)%nat.
Proof.
  intros H. unfold actives. rewrite map_filter_delete.
  destruct (bool_decide_reflect (s_state s = SsActive)) as [A|A].
  - assert (filter is_active m !! id = Some s) as F by by apply map_filter_lookup_Some.
    rewrite (map_size_delete_Some _ _ (ex_intro _ s F)).
    assert (size (filter is_active m) <> 0%nat) by (intros Z; apply map_size_empty_inv in Z; rewrite Z in F; done). lia.
  - rewrite delete_notin; [lia|]. apply map_filter_lookup_None. right. intros s' E. rewrite H in E.
    injection E as <-. done.
Qed.
Lemma actives_insert_new m id s : m !! id = None ->
  actives (<[id := s]> m) = (actives m + if bool_decide (s_state s = SsActive) then 1 else 0)%nat.
Proof.
  intros H. rewrite (actives_delete _ id s) by apply lookup_insert. by rewrite delete_insert.
Qed.
Lemma actives_insert m id s s' : m !! id = Some s ->
  (actives (<[id := s']> m) + (if bool_decide (s_state s = SsActive) then 1 else 0)
   = actives m + if bool_decide (s_state s' = SsActive) then 1 else 0)%nat.
Proof.
  intros H. rewrite (actives_delete (<[id := s']> m) id s') by apply lookup_insert.
  rewrite (actives_delete m id s) by done. rewrite delete_insert_delete. lia.
Qed.
Lemma actives_pos m id s : m !! id = Some s -> s_state s = SsActive -> (0 < actives m)%nat.
Proof. intros H A. rewrite (actives_delete _ _ _ H), bool_decide_true by done. lia. Qed.

(** ** Devices *)
(** The bad outputs after which the counters may disagree with the sessions. *)
Definition bad_msg (m : msg) : bool :=
  match m with
  | SessionInitRsp st => st =? STATUS_ERROR_SESSION_DUPLICATE
  | SessionStatusNtf _ _ r => r =? REASON_ERROR_INVALID_NUM_OF_CONTROLEES
  | _ => false
  end.
Definition bad_eff (e : eff) : bool :=
  match e with Send m | After _ m => bad_msg m | _ => false end.

Record dinv (clean : bool) (d : device) : Prop := {
  di_session : forall id s, d_sessions d !! id = Some s -> session_ok id s;
  di_size : (size (d_sessions d) <= 255)%nat;
  di_active : N.of_nat (actives (d_sessions d)) <= d_active d;
  di_state : d_state d = if d_active d =? 0 then DsReady else DsActive;
  di_country : length (d_country d) = 2%nat;
  di_cfg : d_cfg_state d = DsError;
  di_reset : d_is_reset d = false -> d_sessions d = ∅;
  di_clean : clean = true -> N.of_nat (actives (d_sessions d)) = d_active d
    /\ forall id s, d_sessions d !! id = Some s -> s_task s = true -> s_state s = SsActive }.

Lemma dinv_weaken c d : dinv c d -> dinv false d.
Proof. intros []. by split. Qed.
Lemma dinv_weaken_andb c b d : dinv c d -> dinv (c && b) d.
Proof. intros []. split; auto. intros E. apply andb_true_iff in E as [? _]. auto. Qed.

Lemma session_new_ok id ty : word32 id -> In ty VALUES_SessionType -> session_ok id (session_new id ty).
Proof.
  intros. split; cbn; auto; try discriminate; try done; try apply default_cfg_ok; try by intros [?|?].
  constructor.
Qed.

(** Replace one session of a device, keeping the number of active sessions in step. *)
Lemma dinv_update c d id s s' act st :
  dinv c d -> d_sessions d !! id = Some s -> session_ok id s' ->
  (s_state s' = SsActive -> s_task s' = true) ->
  N.of_nat (actives (d_sessions d)) + (if bool_decide (s_state s' = SsActive) then 1 else 0)
    <= act + (if bool_decide (s_state s = SsActive) then 1 else 0) ->
  st = (if act =? 0 then DsReady else DsActive) ->
  forall c', (c' = true -> c = true /\
     N.of_nat (actives (d_sessions d)) + (if bool_decide (s_state s' = SsActive) then 1 else 0)
       = act + (if bool_decide (s_state s = SsActive) then 1 else 0)
     /\ (s_task s' = true -> s_state s' = SsActive)) ->
  dinv c' (Device (d_is_reset d) (d_handle d) (d_mac d) (d_cfg_state d) (d_low_power d) st
            (<[id := s']> (d_sessions d)) (d_country d) act).
Proof.
  intros I L O T A S c' C.
  pose proof (actives_insert _ _ _ s' L) as AI.
  destruct I as [Is Iz Ia It Ic Ig Ir Icl].
  split; cbn [d_sessions d_active d_state d_country d_cfg_state d_is_reset]; auto.
  - intros id' s'' H. destruct (N.eq_dec id id') as [<-|Hne].
    + rewrite lookup_insert in H. injection H as <-. done.
    + rewrite lookup_insert_ne in H by done. auto.
  - rewrite map_size_insert_Some by (by eexists). done.
  - destruct (bool_decide (s_state s = SsActive)), (bool_decide (s_state s' = SsActive)); lia.
  - intros R. apply Ir in R. rewrite R, lookup_empty in L. discriminate.
  - intros E. destruct (C E) as (E' & CA & CT). destruct (Icl E') as [Ca Ct]. split.
    + destruct (bool_decide (s_state s = SsActive)), (bool_decide (s_state s' = SsActive)); lia.
    + intros id' s'' H. destruct (N.eq_dec id id') as [<-|Hne].
      * rewrite lookup_insert in H. injection H as <-. done.
      * rewrite lookup_insert_ne in H by done. eauto.
Qed.

Lemma Ret_inj {A} (a b : A) : Ret a = Ret b -> a = b.
Proof. by intros [= ->]. Qed.

(** ** Handlers preserve the invariant *)
Lemma s_set_state_same s : s_set_state (s_state s) s = s.
Proof. by destruct s. Qed.
Lemma session_set_state_eq st r s : session_set_state st r s =
  (s_set_state st s, if bool_decide (st = s_state s) then [] else [After 1 (SessionStatusNtf (s_id s) st r)]).
Proof.
  unfold session_set_state. destruct (bool_decide_reflect (st = s_state s)) as [->|]; [|done].
  by rewrite s_set_state_same.
Qed.
Lemma stop_ranging_task_eq s : stop_ranging_task s =
  (s_set_task false s, if s_task s then [AbortRanging (s_id s)] else []).
Proof. unfold stop_ranging_task. destruct s as [? ? ? ? ? ? []]; done. Qed.
Lemma device_set_state_eq st d : device_set_state st d =
  (d_set_state st d, if bool_decide (st = d_state d) then [] else [After 5 (CoreDeviceStatusNtf st)]).
Proof.
  unfold device_set_state. destruct (bool_decide_reflect (st = d_state d)) as [->|]; [|done].
  by destruct d.
Qed.
Definition bad_effs (e : list eff) : bool := existsb bad_eff e.
Lemma bad_effs_app e e' : bad_effs (e ++ e') = bad_effs e || bad_effs e'.
Proof. apply existsb_app. Qed.
Lemma bad_drop s : bad_effs (session_drop s) = false.
Proof.
  unfold session_drop. rewrite stop_ranging_task_eq, session_set_state_eq, bad_effs_app.
  destruct (s_task s), (bool_decide _); reflexivity.
Qed.

(** The session record after a change of state or of configuration. *)
Lemma session_ok_set_cfg id s c : session_ok id s -> cfg_ok c ->
  missing_mandatory c = false -> session_ok id (s_set_cfg c s).
Proof.
  intros [] C M. split; try done. cbn. intros E. unfold missing_mandatory in M. rewrite E in M. cbn in M.
  by rewrite orb_true_r in M.
Qed.
Lemma session_ok_set_data id s v : session_ok id s -> wf_bytes v -> session_ok id (s_set_data v s).
Proof. intros [] W. by split. Qed.
Lemma session_ok_set_seq id s v : session_ok id s -> word32 v -> session_ok id (s_set_seq v s).
Proof. intros [] W. by split. Qed.
Lemma session_ok_stopped id s : session_ok id s -> s_state s = SsActive ->
  session_ok id (s_set_state SsIdle (s_set_task false s)).
Proof. intros [] A. split; cbn; auto; discriminate. Qed.

(** Changing a session but neither its state nor its task. *)
Lemma dinv_frame c d id s s' : dinv c d -> d_sessions d !! id = Some s -> session_ok id s' ->
  s_state s' = s_state s -> s_task s' = s_task s ->
  dinv c (d_set_sessions (<[id := s']> (d_sessions d)) d).
Proof.
  intros I L O E T. pose proof I as [? ? Ia It ? ? ? Ic].
  apply (dinv_update c d id s s' (d_active d) (d_state d)); auto.
  - apply (so_active _ _ O).
  - rewrite E. lia.
  - intros C. destruct (Ic C) as [C1 C2]. split; [done|]. rewrite E, T. split; [lia|]. by apply C2 with id.
Qed.

(** Stopping an active session. *)
Lemma dinv_stop c d id s st : dinv c d -> d_sessions d !! id = Some s -> s_state s = SsActive ->
  st = (if d_active d - 1 =? 0 then DsReady else DsActive) ->
  dinv c (Device (d_is_reset d) (d_handle d) (d_mac d) (d_cfg_state d) (d_low_power d) st
            (<[id := s_set_state SsIdle (s_set_task false s)]> (d_sessions d)) (d_country d) (d_active d - 1)).
Proof.
  intros I L A ->. pose proof I as [Is ? Ia It ? ? ? Ic].
  pose proof (actives_pos _ _ _ L A).
  eapply dinv_update; [exact I|exact L| |discriminate| |done|].
  - by apply session_ok_stopped; auto.
  - rewrite (bool_decide_true _ A). cbn [s_state s_set_state]. rewrite bool_decide_false by done. lia.
  - intros C. destruct (Ic C) as [C1 C2]. split; [done|]. rewrite (bool_decide_true _ A).
    cbn [s_state s_set_state]. rewrite bool_decide_false by done. split; [lia|done].
Qed.

Lemma dec_active_inv d d' e : device_dec_active d = Ret (d', e) ->
  0 < d_active d /\
  d' = d_set_state (if d_active d - 1 =? 0 then DsReady else d_state d) (d_set_active (d_active d - 1) d) /\
  e = (if (d_active d - 1 =? 0) && negb (bool_decide (DsReady = d_state d)) then [After 5 (CoreDeviceStatusNtf DsReady)] else []).
Proof.
  unfold device_dec_active. destruct (N.eqb_spec (d_active d) 0); [discriminate|].
  intros H. split; [lia|]. revert H. cbn [d_active d_set_active].
  destruct (d_active d - 1 =? 0); intros H.
  - rewrite device_set_state_eq in H. injection H as <- <-. cbn [d_state d_set_active andb].
    split; [done|]. by destruct (bool_decide _).
  - injection H as <- <-. split; [by destruct d|done].
Qed.
Lemma bad_dec d d' e : device_dec_active d = Ret (d', e) -> bad_effs e = false.
Proof. intros H. apply dec_active_inv in H as (_ & _ & ->). by destruct (_ && _). Qed.

(** Number of controlees in the list: all short addresses. *)
Definition wf_short (m : mac_address) : Prop := exists l, m = MShort l /\ length l = 2%nat /\ wf_bytes l.
Lemma wf_short_mac m : wf_short m -> wf_mac m.
Proof. intros (l & -> & L & W). done. Qed.
Lemma multicast_controlees_short a b l : wf_bytes b -> multicast_controlees a b = Some l ->
  Forall wf_short l /\ short_list l.
Proof.
  intros W H. unfold multicast_controlees in H.
  apply fmap_Some in H as (cs & H & ->).
  apply decode_controlees_sound in H as (l' & -> & S & F & _); [|done].
  split; [|unfold short_list in *; by rewrite !map_length].
  rewrite map_map. apply Forall_map. eapply Forall_impl; [exact F|].
  intros [[x n] k] (L & Wx & _). exists x. done.
Qed.
Lemma Forall_filter' {A} (P Q : A -> Prop) `{forall x, Decision (Q x)} l : Forall P l -> Forall P (filter Q l).
Proof. rewrite !Forall_forall. intros F x Hx. apply elem_of_list_filter in Hx as [_ Hx]. auto. Qed.
Definition status_ok (p : bytes * N) : Prop := length p.1 = 2%nat /\ wf_bytes p.1 /\ byte p.2.
Lemma add_controlees_ok kr l dst st rsp dst' st' rsp' :
  add_controlees kr l dst st rsp = Ret (dst', st', rsp') -> Forall wf_short l -> Forall wf_mac dst ->
  Forall status_ok rsp -> byte st ->
  Forall wf_mac dst' /\ Forall status_ok rsp' /\ (length rsp' <= length rsp + length l)%nat /\ byte st'.
Proof.
  revert dst st rsp. induction l as [|a l IH]; intros dst st rsp H Fl Fd Fr B; cbn [add_controlees] in H.
  - injection H as <- <- <-. cbn. split_and!; auto. lia.
  - inversion Fl as [|? ? (b & -> & Lb & Wb) Fl']; subst. cbn [short_bytes obind] in H.
    assert (forall x, byte x -> Forall status_ok (rsp ++ [(b, x)])) as FA.
    { intros x Hx. apply Forall_app. split; [done|]. by repeat constructor. }
    destruct kr; [|destruct (negb _); [destruct (Nat.eqb _ _)|]]; apply IH in H; auto; try done;
      try (destruct H as (H1 & H2 & H3 & H4); split_and!; auto; rewrite ?app_length in H3; cbn [length] in *; lia).
    all: first [by apply FA|apply Forall_app; split; [done|]; repeat constructor; done].
Qed.
Lemma remove_controlees_ok id att l dst st rsp ntf e dst' st' rsp' ntf' e' :
  remove_controlees id att l dst st rsp ntf e = Ret (dst', st', rsp', ntf', e') ->
  Forall wf_short l -> Forall wf_mac dst -> Forall status_ok rsp -> Forall status_ok ntf -> byte st ->
  Forall wf_mac dst' /\ Forall status_ok rsp' /\ Forall status_ok ntf' /\ (length rsp' <= length rsp + length l)%nat
  /\ (length ntf' <= length ntf + length l)%nat /\ byte st'
  /\ exists e'', e' = e ++ e'' /\ Forall (fun x => exists a n, x = SpawnStop a id n /\ wf_mac a) e''.
Proof.
  revert dst st rsp ntf e. induction l as [|a l IH]; intros dst st rsp ntf e H Fl Fd Fr Fn B; cbn [remove_controlees] in H.
  - injection H as <- <- <- <- <-. cbn. split_and!; auto; [lia|lia|]. exists []. by rewrite app_nil_r.
  - inversion Fl as [|? ? (b & -> & Lb & Wb) Fl']; subst. cbn [short_bytes obind] in H.
    assert (forall x l, byte x -> Forall status_ok l -> Forall status_ok (l ++ [(b, x)])) as FA.
    { intros x l0 Hx ?. apply Forall_app. split; [done|]. by repeat constructor. }
    destruct (negb _).
    + apply IH in H; auto; [|by apply FA|done]. destruct H as (H1 & H2 & H3 & H4 & H5 & H6 & H7).
      rewrite ?app_length in *; cbn [length] in *. split_and!; auto; lia.
    + apply IH in H; auto; [|by apply Forall_filter'|by apply FA|by apply FA].
      destruct H as (H1 & H2 & H3 & H4 & H5 & H6 & e'' & -> & H7).
      rewrite ?app_length in *; cbn [length] in *. split_and!; auto; try lia.
      destruct (att =? 0); [by exists e''|]. eexists. rewrite <- app_assoc. split; [done|].
      cbn. constructor; [|done]. eexists _, _. split; [done|]. done.
Qed.
Lemma short_no_crash_add kr l dst st rsp : Forall wf_short l -> exists r, add_controlees kr l dst st rsp = Ret r.
Proof.
  intros F. revert dst st rsp. induction F as [|a l (b & -> & _) F IH]; intros; cbn [add_controlees]; [by eexists|].
  cbn [short_bytes obind]. destruct kr; [|destruct (negb _); [destruct (Nat.eqb _ _)|]]; apply IH.
Qed.
Lemma short_no_crash_remove id att l dst st rsp ntf e : Forall wf_short l ->
  exists r, remove_controlees id att l dst st rsp ntf e = Ret r.
Proof.
  intros F. revert dst st rsp ntf e. induction F as [|a l (b & -> & _) F IH]; intros; cbn [remove_controlees]; [by eexists|].
  cbn [short_bytes obind]. destruct (negb _); apply IH.
Qed.

(** The two outcomes of the update of a multicast list. *)
Lemma multicast_finish_eq d id s dst : multicast_finish d id s dst =
  (d_set_sessions (<[id := s_set_state (match dst with [] => SsIdle | _ => s_state s end)
     (s_set_cfg (set_dst_mac_address dst (set_number_of_controlees (N.of_nat (length dst) mod 256) (s_cfg s))) s)]>
     (d_sessions d)) d,
   match dst with
   | [] => if bool_decide (SsIdle = s_state s) then []
           else [After 1 (SessionStatusNtf (s_id s) SsIdle REASON_ERROR_INVALID_NUM_OF_CONTROLEES)]
   | _ => [] end).
Proof.
  unfold multicast_finish. destruct dst.
  - by rewrite session_set_state_eq.
  - by destruct s.
Qed.
Lemma dinv_multicast_finish c d id s dst d' e : dinv c d -> d_sessions d !! id = Some s ->
  s_state s = SsIdle \/ s_state s = SsActive -> Forall wf_mac dst ->
  multicast_finish d id s dst = (d', e) -> dinv (c && negb (bad_effs e)) d'.
Proof.
  intros I L St F H. rewrite multicast_finish_eq in H. injection H as <- <-.
  pose proof I as [Is ? Ia It ? ? ? Ic]. pose proof (Is _ _ L) as O.
  assert (session_ok id (s_set_cfg (set_dst_mac_address dst (set_number_of_controlees (N.of_nat (length dst) mod 256) (s_cfg s))) s)) as O'.
  { apply session_ok_set_cfg; [done|apply dst_cfg_ok; [apply (so_cfg _ _ O)|done]|]. by apply (so_mandatory _ _ O). }
  destruct dst as [|a dst].
  - destruct St as [St|St]; rewrite St.
    + cbn [bool_decide]. rewrite bool_decide_true by done. cbn [bad_effs existsb negb]. rewrite andb_true_r.
      eapply dinv_frame; [done|done| |done|done]. rewrite <- St. exact O'.
    + rewrite bool_decide_false by done. cbn -[d_set_sessions s_set_state]. rewrite andb_false_r.
      eapply (dinv_update c d id s _ (d_active d) (d_state d)); [done|done| | | |done|done].
      * destruct O' as [? ? ? M ? ? ? ? ?]. split; cbn; auto; try discriminate.
      * discriminate.
      * rewrite (bool_decide_true _ St). cbn [s_state s_set_state]. rewrite bool_decide_false by done. lia.
  - cbn [bad_effs existsb negb]. rewrite andb_true_r.
    eapply dinv_frame; [done|done| |done|done].
    change (s_state s) with (s_state (s_set_cfg (set_dst_mac_address (a :: dst) (set_number_of_controlees (N.of_nat (length (a :: dst)) mod 256) (s_cfg s))) s)).
    by rewrite s_set_state_same.
Qed.

Lemma dinv_new h m : dinv true (d_set_state DsReady (device_new h m)).
Proof.
  split; cbn; auto; try (intros id s H; by rewrite lookup_empty in H); try lia.
  all: rewrite ?map_size_empty, ?actives_empty; try lia.
  intros _. split; [done|]. intros id s H; by rewrite lookup_empty in H.
Qed.
Lemma dinv_reset c d : dinv c (core_device_reset d).1.1.
Proof.
  unfold core_device_reset, device_init. rewrite device_set_state_eq. cbn [fst].
  destruct (dinv_new (d_handle d) (d_mac d)) as [? ? ? ? ? ? ? C]. split; auto.
Qed.

Lemma dinv_session_init c d id ty d' e m : dinv c d -> d_is_reset d = true -> word32 id -> In ty VALUES_SessionType ->
  session_init d id ty = (d', e, m) -> dinv (c && negb (bad_effs (e ++ [Send m]))) d'.
Proof.
  intros I R W T H. pose proof I as [Is Iz Ia It ? ? Ir Ic]. unfold session_init in H.
  destruct (Nat.leb_spec MAX_SESSION (size (d_sessions d))) as [Hm|Hm].
  { injection H as <- <- <-. by apply dinv_weaken_andb. }
  destruct (d_sessions d !! id) as [old|] eqn:L.
  - injection H as <- <- <-. rewrite bad_effs_app, bad_drop. cbn -[d_set_sessions]. rewrite andb_false_r.
    eapply (dinv_update c d id old _ (d_active d) (d_state d)); [done|done|by apply session_new_ok|done| |done|done].
    cbn [s_state session_new]. rewrite (bool_decide_false (SsDeinit = SsActive)) by done.
    destruct (bool_decide _); lia.
  - unfold session_init_state in H. rewrite session_set_state_eq in H. cbn in H. injection H as <- <- <-.
    rewrite andb_true_r. pose proof (actives_insert_new (d_sessions d) id (s_set_state SsInit (session_new id ty)) L) as AI.
    cbn [s_state s_set_state] in AI. rewrite bool_decide_false, Nat.add_0_r in AI by done.
    split; cbn [d_sessions d_active d_state d_country d_cfg_state d_is_reset d_set_sessions]; auto.
    + intros id' s H. destruct (N.eq_dec id id') as [<-|Hne].
      * rewrite lookup_insert in H. injection H as <-.
        destruct (session_new_ok id ty W T). split; cbn; auto; try discriminate. by intros [?|?].
      * rewrite lookup_insert_ne in H by done. auto.
    + rewrite map_size_insert_None by done. unfold MAX_SESSION in Hm. lia.
    + by rewrite AI.
    + rewrite R. discriminate.
    + intros C. destruct (Ic C) as [C1 C2]. rewrite AI. split; [done|].
      intros id' s H. destruct (N.eq_dec id id') as [<-|Hne].
      * rewrite lookup_insert in H. injection H as <-. done.
      * rewrite lookup_insert_ne in H by done. eauto.
Qed.

Lemma dinv_session_deinit c d id d' e m : dinv c d -> session_deinit d id = Ret (d', e, m) ->
  dinv (c && negb (bad_effs (e ++ [Send m]))) d'.
Proof.
  intros I H. pose proof I as [Is Iz Ia It ? ? Ir Ic]. unfold session_deinit in H.
  destruct (d_sessions d !! id) as [s|] eqn:L;
    [|injection H as <- <- <-; by apply dinv_weaken_andb].
  pose proof (actives_delete _ _ _ L) as AD.
  assert (forall act st d0, act = d_active d - (if bool_decide (s_state s = SsActive) then 1 else 0) ->
    st = (if act =? 0 then DsReady else DsActive) ->
    d0 = Device (d_is_reset d) (d_handle d) (d_mac d) (d_cfg_state d) (d_low_power d) st
            (delete id (d_sessions d)) (d_country d) act -> dinv c d0) as G.
  { intros act st d0 Eact Est ->. split; cbn [d_sessions d_active d_state d_country d_cfg_state d_is_reset]; auto.
    - intros id' s' H'. apply lookup_delete_Some in H' as [? H']. auto.
    - rewrite map_size_delete_Some by by eexists. lia.
    - rewrite Eact. destruct (bool_decide _); lia.
    - intros R. rewrite (Ir R). apply delete_empty.
    - intros C. destruct (Ic C) as [C1 C2]. split.
      + rewrite Eact. destruct (bool_decide _); lia.
      + intros id' s' H'. apply lookup_delete_Some in H' as [? H']. eauto. }
  destruct (bool_decide_reflect (s_state s = SsActive)) as [A|A].
  - destruct (device_dec_active d) as [[d1 e1]|] eqn:D; [|discriminate]. cbn [obind] in H. injection H as <- <- <-.
    rewrite !bad_effs_app, bad_drop, (bad_dec _ _ _ D). cbn [bad_effs existsb bad_eff bad_msg orb negb]. rewrite andb_true_r.
    apply dec_active_inv in D as (P & -> & _).
    eapply G; [reflexivity| |reflexivity]. cbn [d_state d_set_state d_set_active]. rewrite It.
    destruct (d_active d - 1 =? 0); [done|]. destruct (N.eqb_spec (d_active d) 0); [lia|done].
  - cbn [obind] in H. injection H as <- <- <-.
    rewrite !bad_effs_app, bad_drop. cbn [bad_effs existsb bad_eff bad_msg orb negb]. rewrite andb_true_r.
    eapply G; [symmetry; apply N.sub_0_r| |reflexivity]. done.
Qed.

Lemma dinv_set_app_config c d id l d' e m : dinv c d -> Forall (fun p => wf_bytes p.2 /\ short_list p.2) l ->
  session_set_app_config d id l = Ret (d', e, m) -> dinv (c && negb (bad_effs (e ++ [Send m]))) d'.
Proof.
  intros I F H. pose proof I as [Is Iz Ia It ? ? Ir Ic]. unfold session_set_app_config in H.
  assert (forall e' m', (d, e', m') = (d', e, m) -> dinv (c && negb (bad_effs (e ++ [Send m]))) d') as Same.
  { intros e' m' E. injection E as <- <- <-. by apply dinv_weaken_andb. }
  destruct (d_sessions d !! id) as [s|] eqn:L; [|injection H; intros; subst; by apply dinv_weaken_andb].
  destruct (negb _); [discriminate|].
  destruct (bool_decide _ && _); [injection H as <- <- <-; by apply dinv_weaken_andb|].
  destruct (negb _ && _) eqn:St; [injection H as <- <- <-; by apply dinv_weaken_andb|].
  destruct (set_tlvs _ _ _) as [[c' inv]|] eqn:S; [|discriminate]. cbn [obind] in H.
  destruct (missing_mandatory c') eqn:M; [injection H as <- <- <-; by apply dinv_weaken_andb|].
  destruct inv; [|injection H as <- <- <-; by apply dinv_weaken_andb].
  pose proof (Is _ _ L) as O.
  assert (session_ok id (s_set_cfg c' s)) as O'.
  { apply session_ok_set_cfg; [done|eapply set_tlvs_ok; [exact S|done|apply (so_cfg _ _ O)]|done]. }
  cbn [s_state s_set_cfg] in H.
  destruct (bool_decide_reflect (s_state s = SsInit)) as [Si|Si].
  - rewrite session_set_state_eq in H. injection H as <- <- <-.
    cbn [s_state s_set_cfg]. rewrite Si. rewrite bool_decide_false by done.
    cbn [bad_effs existsb bad_eff bad_msg app orb negb]. rewrite andb_true_r.
    eapply (dinv_update c d id s _ (d_active d) (d_state d)); [done|done| |done| |done|].
    + destruct O' as [? ? ? M' ? T ? ? ?]. split; cbn; auto; try discriminate.
    + cbn [s_state s_set_state s_set_cfg]. rewrite Si, !bool_decide_false by done. lia.
    + intros C. destruct (Ic C) as [C1 C2]. split; [done|]. cbn [s_state s_set_state s_set_cfg].
      rewrite Si, !bool_decide_false by done. split; [lia|]. cbn. intros T.
      pose proof (C2 _ _ L T). congruence.
  - injection H as <- <- <-. cbn [bad_effs existsb bad_eff bad_msg app orb negb]. rewrite andb_true_r.
    by eapply dinv_frame.
Qed.

Lemma bad_spawn id e : Forall (fun x => exists a n, x = SpawnStop a id n /\ wf_mac a) e -> bad_effs e = false.
Proof. induction 1 as [|x e (a & n & -> & _) _ IH]; [done|exact IH]. Qed.
Lemma dinv_multicast c d id a b d' e m : dinv c d -> wf_bytes b ->
  session_update_controller_multicast_list d id a b = Ret (d', e, m) ->
  dinv (c && negb (bad_effs (e ++ [Send m]))) d'.
Proof.
  intros I W H. pose proof I as [Is Iz Ia It ? ? Ir Ic]. unfold session_update_controller_multicast_list in H.
  destruct (d_sessions d !! id) as [s|] eqn:L; [|injection H; intros; subst; by apply dinv_weaken_andb].
  destruct (_ || _) eqn:P; [injection H; intros; subst; by apply dinv_weaken_andb|].
  assert (s_state s = SsIdle \/ s_state s = SsActive) as St.
  { destruct (s_state s); auto; discriminate P. }
  destruct (multicast_controlees a b) as [cs|] eqn:M; [|injection H; intros; subst; by apply dinv_weaken_andb].
  apply multicast_controlees_short in M as [Fc _]; [|done].
  pose proof (co_dst _ (so_cfg _ _ (Is _ _ L))) as Fd.
  assert (forall kr, (let! (dst, status, rsp) := add_controlees kr cs (dst_mac_address (s_cfg s)) STATUS_OK [] in
      let '(d, e3) := multicast_finish d id s dst in
      Ret (d, e3, SessionUpdateControllerMulticastListRsp status rsp)) = Ret (d', e, m) ->
    dinv (c && negb (bad_effs (e ++ [Send m]))) d') as Add.
  { intros kr H'. destruct (add_controlees kr cs _ _ _) as [[[dst st] rsp]|] eqn:A; [|discriminate]. cbn [obind] in H'.
    apply add_controlees_ok in A as (Fd' & _); [|done|done|done|done].
    destruct (multicast_finish d id s dst) as [d1 e3] eqn:Fi. injection H' as <- <- <-.
    rewrite bad_effs_app. cbn. rewrite orb_false_r. by eapply dinv_multicast_finish. }
  destruct a; [by eapply Add| |by eapply Add|by eapply Add].
  destruct (remove_controlees _ _ _ _ _ _ _ _) as [[[[[dst st] rsp] ntf] e1]|] eqn:A; [|discriminate]. cbn [obind] in H.
  apply remove_controlees_ok in A as (Fd' & _ & _ & _ & _ & _ & e'' & -> & Fe); [|done|done|done|done|done].
  destruct (multicast_finish d id s dst) as [d1 e3] eqn:Fi. injection H as <- <- <-.
  rewrite !bad_effs_app. cbn [app]. rewrite (bad_spawn _ _ Fe). cbn [bad_effs existsb bad_eff bad_msg orb]. rewrite orb_false_r.
  replace (bad_effs (if bool_decide (s_state s = SsActive) then _ else _)) with false by by destruct (bool_decide _).
  cbn [orb]. exact (dinv_multicast_finish _ _ _ _ _ _ _ I L St Fd' Fi).
Qed.

Lemma bad_cons x e : bad_effs (x :: e) = bad_eff x || bad_effs e.
Proof. done. Qed.
Lemma bad_if (b : bool) e : bad_effs e = false -> bad_effs (if b then [] else e) = false.
Proof. by destruct b. Qed.
Lemma bad_if' (b : bool) e : bad_effs e = false -> bad_effs (if b then e else []) = false.
Proof. by destruct b. Qed.
Lemma dinv_session_start c d id d' e m : dinv c d -> session_start d id = Ret (d', e, m) ->
  dinv (c && negb (bad_effs (e ++ [Send m]))) d'.
Proof.
  intros I H. pose proof I as [Is Iz Ia It ? ? Ir Ic]. unfold session_start in H.
  destruct (d_sessions d !! id) as [s|] eqn:L; [|injection H; intros; subst; by apply dinv_weaken_andb].
  destruct (bool_decide_reflect (s_state s = SsIdle)) as [St|St]; cbn [negb] in H;
    [|injection H; intros; subst; by apply dinv_weaken_andb].
  destruct (s_task s) eqn:T; [discriminate|].
  rewrite session_set_state_eq, device_set_state_eq in H. injection H as <- <- <-.
  rewrite !bad_effs_app. cbn [s_state s_set_task].
  rewrite (bad_cons (SpawnRanging _ _)), bad_effs_app, !bad_if by done. cbn [bad_effs existsb bad_eff bad_msg app orb negb]. rewrite andb_true_r.
  pose proof (Is _ _ L) as O.
  eapply (dinv_update c d id s _ (d_active d + 1) DsActive); [done|done| |done| | |].
  - destruct O as [? ? ? M ? ? ? ? ?]. split; cbn; auto; try discriminate.
  - cbn [s_state s_set_state s_set_task]. rewrite St, (bool_decide_true (SsActive = SsActive)), (bool_decide_false (SsIdle = SsActive)) by done. lia.
  - destruct (N.eqb_spec (d_active d + 1) 0); [lia|done].
  - intros C. destruct (Ic C) as [C1 C2]. split; [done|]. cbn [s_state s_set_state s_set_task].
    rewrite St, (bool_decide_true (SsActive = SsActive)), (bool_decide_false (SsIdle = SsActive)) by done. split; [lia|done].
Qed.

Lemma dinv_session_stop c d id d' e m : dinv c d -> session_stop d id = Ret (d', e, m) ->
  dinv (c && negb (bad_effs (e ++ [Send m]))) d'.
Proof.
  intros I H. pose proof I as [Is Iz Ia It ? ? Ir Ic]. unfold session_stop in H.
  destruct (d_sessions d !! id) as [s|] eqn:L; [|injection H; intros; subst; by apply dinv_weaken_andb].
  destruct (bool_decide_reflect (s_state s = SsActive)) as [St|St]; cbn [negb] in H;
    [|injection H; intros; subst; by apply dinv_weaken_andb].
  rewrite stop_ranging_task_eq, session_set_state_eq in H.
  destruct (device_dec_active _) as [[d1 e3]|] eqn:D; [|discriminate]. cbn [obind] in H. injection H as <- <- <-.
  rewrite !bad_effs_app, (bad_dec _ _ _ D). cbn [s_state s_set_task].
  rewrite bad_if, bad_if' by done. cbn [bad_effs existsb bad_eff bad_msg app orb negb]. rewrite andb_true_r.
  apply dec_active_inv in D as (P & -> & _). cbn [d_active d_set_sessions] in *.
  eapply (dinv_stop c d id s); [done|done|done|]. cbn [d_state d_set_state d_set_active d_set_sessions]. rewrite It.
  destruct (d_active d - 1 =? 0); [done|]. destruct (N.eqb_spec (d_active d) 0); [lia|done].
Qed.

(** No underflow of the counter of active sessions. *)
Lemma dec_active_ok c d id s : dinv c d -> d_sessions d !! id = Some s -> s_state s = SsActive ->
  exists r, device_dec_active d = Ret r.
Proof.
  intros [? ? Ia ? ? ? ? ?] L A. pose proof (actives_pos _ _ _ L A). unfold device_dec_active.
  destruct (N.eqb_spec (d_active d) 0); [lia|]. destruct (_ =? 0); by eexists.
Qed.

Lemma dinv_handle_command c d cmd d' e m : dinv c d -> d_is_reset d = true \/ (exists r, cmd = CmdDeviceReset r) -> wf_cmd cmd ->
  handle_command d cmd = Ret (d', e, m) -> dinv (c && negb (bad_effs (e ++ [Send m]))) d'.
Proof.
  intros I R W H.
  assert (forall x, Ret (d, [], x) = Ret (d', e, m) -> dinv (c && negb (bad_effs (e ++ [Send m]))) d') as Same.
  { intros x E. injection E as <- <- <-. by apply dinv_weaken_andb. }
  destruct cmd; cbn [handle_command wf_cmd] in H, W; try (by eapply Same).
  - apply dinv_weaken_andb. apply Ret_inj in H. assert (d' = (core_device_reset d).1.1) as -> by by rewrite H. apply dinv_reset.
  - unfold core_get_device_info in H. destruct (bool_decide _); [|discriminate]. by eapply Same.
  - destruct (core_set_config d _) as [[d1 m1]|] eqn:S; [|discriminate]. cbn [obind] in H. injection H as <- <- <-.
    unfold core_set_config in S. destruct (negb _); [discriminate|].
    destruct (set_config_loop _ _ _) as [lp inv]. injection S as <- <-.
    apply dinv_weaken_andb. destruct I. by split.
  - destruct R as [R|[? R]]; [|discriminate R]. destruct W. apply Ret_inj in H. eapply dinv_session_init; [done..|exact H].
  - by eapply dinv_session_deinit.
  - eapply dinv_set_app_config; [done| |exact H]. eapply Forall_impl; [apply W|]. intros ? (? & ? & ?). done.
  - destruct W. by eapply dinv_multicast.
  - by eapply dinv_session_start.
  - by eapply dinv_session_stop.
  - unfold android_set_country_code in H. injection H as <- <- <-. apply dinv_weaken_andb.
    destruct W. destruct I. by split.
Qed.

(** ** Reception of a packet, by kind of packet *)
(** A command of the core group with the opcode of the reset. *)
Definition reset_like (packet : bytes) : bool :=
  match decode_control_packet packet with Some c => is_core_device_reset_cmd c | None => false end.
Inductive received (d : device) (packet : bytes) : device -> list eff -> Prop :=
  | RcIgnored : hd 0 packet / 32 = 2 \/ hd 0 packet / 32 = 3 -> received d packet d []
  | RcBadData : hd 0 packet / 32 = 0 -> decode_data_packet packet = DdError -> received d packet d []
  | RcData p d' m b : hd 0 packet / 32 = 0 -> decode_data_packet packet = DdPacket p ->
      device_data_message_snd d p = Ret (d', m) -> wire m = Some b -> received d packet d' [Send m]
  | RcUnknown h o rest : packet = h :: o :: rest ->
      (h / 32 = 1 /\ valid_gid (h mod 16) = false) \/ 4 <= h / 32 ->
      received d packet d
        [Send (UnknownCmdRsp (h mod 16) (o mod 64) (if valid_gid (h mod 16) then STATUS_UNKNOWN_OID else STATUS_UNKNOWN_GID))]
  | RcGate : hd 0 packet / 32 = 1 -> valid_gid (hd 0 packet mod 16) = true -> d_is_reset d = false ->
      reset_like packet = false -> received d packet d [Send (CoreDeviceStatusNtf DsError)]
  | RcCommand c d' e m b : wf_cmd c -> encodes c packet ->
      d_is_reset d = true \/ c = CmdDeviceReset UWBS_RESET ->
      handle_command d c = Ret (d', e, m) -> wire m = Some b -> received d packet d' (e ++ [Send m])
  | RcGroup h b1 b2 rest : packet = h :: b1 :: b2 :: rest -> h / 32 = 1 -> d_is_reset d = true ->
      valid_gid (h mod 16) = true -> defined_group (h mod 16) = false ->
      received d packet d [Send (UnknownGroupRsp (h mod 16) b1 b2)].

Lemma hdr_mt_cases h : h < 256 ->
  parse_message_type h = match mt_of_code (h / 32) with Some mt => mt | None => MtCommand end.
Proof. intros. unfold parse_message_type. fold (hdr_mt h). by rewrite hdr_mt_div. Qed.
Lemma reset_like_command c packet : wf_bytes packet -> wf_cmd c -> encodes c packet ->
  reset_like packet = true -> c = CmdDeviceReset UWBS_RESET.
Proof.
  intros W Wc E R. destruct (proj2 (decode_command_iff c packet W) (conj Wc E)) as (cp & D & _ & S).
  unfold reset_like in R. rewrite D in R. unfold is_core_device_reset_cmd in R.
  apply andb_true_iff in R as [G R]. destruct (decode_group _ _) as [[oid b]|] eqn:Dg; [|done].
  unfold specialize_command in S. rewrite G, Dg in S. unfold specialize_core in S. rewrite R in S.
  apply sp_spec in S. inv_bind S. apply p_end_Some in S as [_ ->].
  unfold p_enum in E0. inv_bind E0. apply bind_inv in E0 as (x' & M & E0). injection E0 as <- _.
  apply member_spec in M as [-> M]. destruct M as [<-|[]]. done.
Qed.
Lemma receive_received d packet d' e : wf_bytes packet -> receive_packet d packet = Ret (d', e) ->
  received d packet d' e.
Proof.
  intros W H. destruct packet as [|h rest]; [discriminate|]. unfold receive_packet in H.
  pose proof W as W0. apply wf_bytes_cons in W0 as [Hh Wr]. rewrite hdr_mt_cases in H by done.
  assert (forall x, (let! e := send_control x in Ret (d, e)) = Ret (d', e) -> d' = d /\ e = [Send x] /\ exists b, wire x = Some b) as SC.
  { intros x E. unfold send_control in E. destruct (wire x) as [b|]; [|discriminate]. injection E as <- <-. by eauto. }
  assert (Unk : forall o rest', rest = o :: rest' -> ((h / 32 = 1 /\ valid_gid (h mod 16) = false) \/ 4 <= h / 32) ->
    Ret (d, [Send (UnknownCmdRsp (N.land h 15) (N.land o 63)
         (if valid_gid (N.land h 15) then STATUS_UNKNOWN_OID else STATUS_UNKNOWN_GID))]) = Ret (d', e) ->
    received d (h :: rest) d' e).
  { intros o rest' -> C E. injection E as <- <-. change (N.land h 15) with (hdr_low h). rewrite hdr_low_mod by done.
    apply wf_bytes_cons in Wr as [? _]. rewrite land_3f by done. by eapply RcUnknown. }
  destruct (mt_of_code (h / 32)) as [mt|] eqn:M.
  - apply mt_of_code_inv in M. destruct mt; cbn [mt_code] in M.
    + destruct (decode_data_packet (h :: rest)) as [| |p] eqn:D; [|discriminate|].
      * injection H as <- <-. by apply RcBadData.
      * destruct (device_data_message_snd d p) as [[d1 m]|] eqn:S; [|discriminate]. cbn [obind] in H.
        unfold send_control in H. destruct (wire m) as [b|] eqn:Wm; [|discriminate]. injection H as <- <-.
        by eapply RcData.
    + destruct (decode_control_packet (h :: rest)) as [cp|] eqn:D.
      * pose proof D as D0. cbn [decode_control_packet] in D0. rewrite hdr_low_mod, hdr_mt_div in D0 by done.
        destruct (valid_gid (h mod 16)) eqn:V; [|discriminate]. rewrite M in D0. cbn in D0. injection D0 as <-.
        destruct (receive_command d _) as [[[d1 e1] m]|] eqn:R; [|discriminate]. cbn [obind] in H.
        unfold send_control in H. destruct (wire m) as [b|] eqn:Wm; [|discriminate]. injection H as <- <-.
        unfold receive_command in R. cbn [cp_mt cp_gid cp_payload] in R.
        destruct (negb (d_is_reset d) && negb _) eqn:G.
        { injection R as <- <- <-. apply andb_true_iff in G as [G1 G2]. apply negb_true_iff in G1, G2.
          apply RcGate; auto. unfold reset_like. by rewrite D. }
        destruct (specialize_command (h mod 16) rest) as [c| | |] eqn:S; [|discriminate|discriminate|].
        -- assert (wf_cmd c /\ encodes c (h :: rest)) as [Wc E].
           { apply decode_command_iff; [done|]. eexists. split; [exact D|]. done. }
           eapply RcCommand; eauto. apply andb_false_iff in G as [G|G]; apply negb_false_iff in G; [by left|].
           right. apply (reset_like_command c (h :: rest)); [done|done|done|]. unfold reset_like. by rewrite D.
        -- destruct rest as [|b1 [|b2 rest]]; try discriminate R. injection R as <- <- <-.
           assert (defined_group (h mod 16) = false) as Df.
           { unfold specialize_command in S. unfold defined_group. cbn [existsb].
             destruct (h mod 16 =? GID_CORE) eqn:E0; [destruct (decode_group _ _) as [[? ?]|]; [|discriminate]; exfalso|].
             { unfold specialize_core, sp, sp_unimplemented in S. repeat case_match; discriminate. }
             destruct (h mod 16 =? GID_SESSION_CONFIG) eqn:E1; [destruct (decode_group _ _) as [[? ?]|]; [|discriminate]; exfalso|].
             { unfold specialize_session_config, sp, sp_unimplemented in S. repeat case_match; discriminate. }
             destruct (h mod 16 =? GID_SESSION_CONTROL) eqn:E2; [destruct (decode_group _ _) as [[? ?]|]; [|discriminate]; exfalso|].
             { unfold specialize_session_control, sp, sp_unimplemented in S. repeat case_match; discriminate. }
             destruct (h mod 16 =? GID_VENDOR_ANDROID) eqn:E3; [destruct (decode_group _ _) as [[? ?]|]; [|discriminate]; exfalso|].
             { unfold specialize_android, sp, sp_unimplemented in S. repeat case_match; discriminate. }
             unfold GID_CORE, GID_SESSION_CONFIG, GID_SESSION_CONTROL, GID_VENDOR_ANDROID in *.
             by rewrite E0, E1, E2, E3. }
           apply andb_false_iff in G as [G|G]; apply negb_false_iff in G.
           ++ by eapply RcGroup.
           ++ exfalso. unfold is_core_device_reset_cmd in G. cbn [cp_gid] in G.
              apply andb_true_iff in G as [G _]. apply N.eqb_eq in G. rewrite G in Df. discriminate.
      * cbn [decode_control_packet] in D. rewrite hdr_low_mod, hdr_mt_div, M in D by done.
        destruct (valid_gid (h mod 16)) eqn:V; [discriminate|].
        destruct rest as [|o rest]; [discriminate|]. by eapply Unk; auto.
    + injection H as <- <-. apply RcIgnored. cbn. auto.
    + injection H as <- <-. apply RcIgnored. cbn. auto.
  - assert (4 <= h / 32) as Hm.
    { unfold mt_of_code in M. generalize dependent (h / 32). intros n ? M.
      destruct (N.eqb_spec n 0); [discriminate|]. destruct (N.eqb_spec n 1); [discriminate|].
      destruct (N.eqb_spec n 2); [discriminate|]. destruct (N.eqb_spec n 3); [discriminate|]. lia. }
    assert (decode_control_packet (h :: rest) = None) as D.
    { cbn [decode_control_packet]. rewrite hdr_low_mod, hdr_mt_div, M by done. by destruct (negb _). }
    rewrite D in H. destruct rest as [|o rest]; [discriminate|]. by eapply Unk; auto.
Qed.

Lemma decode_data_wf packet handle dst seq data : wf_bytes packet -> hd 0 packet / 32 = 0 ->
  decode_data_packet packet = DdPacket (DataMessageSnd handle dst seq data) -> wf_bytes data.
Proof.
  intros W H D. destruct packet as [|h b]; [discriminate|].
  apply decode_data_snd_iff in D; [|done|by exists h]. apply D.
Qed.

Lemma dinv_data c d packet p d' m : dinv c d -> wf_bytes packet -> hd 0 packet / 32 = 0 ->
  decode_data_packet packet = DdPacket p -> device_data_message_snd d p = Ret (d', m) -> dinv c d'.
Proof.
  intros I W Hh D H. destruct p as [handle dst seq data|]; cbn [device_data_message_snd] in H; [|by injection H as <- _].
  destruct (d_sessions d !! handle) as [s|] eqn:L; [|by injection H as <- _].
  destruct (session_data_message_snd _ _ _ _) as [[s' m']|] eqn:S; [|discriminate]. cbn [obind] in H. injection H as <- <-.
  unfold session_data_message_snd in S. pose proof (di_session _ _ I _ _ L) as O.
  destruct (negb _); [injection S as <- _; eapply dinv_frame; eauto|].
  destruct (negb _); [discriminate|]. injection S as <- _.
  eapply dinv_frame; eauto. apply session_ok_set_data; [done|]. apply wf_bytes_app. split; [apply (so_data _ _ O)|].
  by eapply decode_data_wf.
Qed.

Lemma dinv_received c d packet d' e : dinv c d -> wf_bytes packet -> received d packet d' e ->
  dinv (c && negb (bad_effs e)) d'.
Proof.
  intros I W R. destruct R.
  all: try (by apply dinv_weaken_andb).
  - apply dinv_weaken_andb. by eapply dinv_data.
  - eapply dinv_handle_command; [done| |done|done]. destruct H1 as [?| ->]; [by left|right; by eexists].
Qed.

Lemma received_same d packet d' e : received d packet d' e -> d_handle d' = d_handle d /\ d_mac d' = d_mac d.
Proof.
  intros R. destruct R; try done.
  - destruct p; cbn [device_data_message_snd] in H1; [|by injection H1 as <- _].
    destruct (d_sessions d !! _); [|by injection H1 as <- _].
    destruct (session_data_message_snd _ _ _ _) as [[s' m']|] eqn:S; [|discriminate]. by injection H1 as <- <-.
  - clear H3. destruct c; cbn [handle_command] in H2; try (by injection H2 as <- _ _).
    + unfold core_get_device_info in H2. destruct (bool_decide _); [|discriminate]. by injection H2 as <- _ _.
    + unfold core_set_config in H2. destruct (negb _); [discriminate|]. destruct (set_config_loop _ _ _).
      by injection H2 as <- _ _.
    + apply Ret_inj in H2. unfold session_init in H2. destruct (Nat.leb _ _); [by injection H2 as <- _ _|].
      destruct (d_sessions d !! _); [by injection H2 as <- _ _|].
      unfold session_init_state in H2. rewrite session_set_state_eq in H2. by injection H2 as <- _ _.
    + unfold session_deinit in H2. destruct (d_sessions d !! _) as [s|]; [|by injection H2 as <- _ _].
      destruct (bool_decide _); [|by injection H2 as <- _ _].
      destruct (device_dec_active d) as [[d1 e1]|] eqn:D; [|discriminate]. apply dec_active_inv in D as (_ & -> & _).
      by injection H2 as <- _ _.
    + unfold session_set_app_config in H2. destruct (d_sessions d !! _) as [s|]; [|by injection H2 as <- _ _].
      destruct (negb _); [discriminate|]. destruct (_ && _); [by injection H2 as <- _ _|].
      destruct (negb _ && _); [by injection H2 as <- _ _|].
      destruct (set_tlvs _ _ _) as [[c' inv]|]; [|discriminate]. cbn [obind] in H2.
      destruct (missing_mandatory _); [by injection H2 as <- _ _|].
      destruct inv; [|by injection H2 as <- _ _].
      rewrite session_set_state_eq in H2. destruct (bool_decide _); by injection H2 as <- _ _.
    + unfold session_update_controller_multicast_list in H2. destruct (d_sessions d !! _) as [s|]; [|by injection H2 as <- _ _].
      destruct (_ || _); [by injection H2 as <- _ _|]. destruct (multicast_controlees _ _); [|by injection H2 as <- _ _].
      assert (forall kr l st dst, (let! (dst, status, rsp) := add_controlees kr l dst st [] in
        let '(d, e3) := multicast_finish d id s dst in
        Ret (d, e3, SessionUpdateControllerMulticastListRsp status rsp)) = Ret (d', e, m) ->
        d_handle d' = d_handle d /\ d_mac d' = d_mac d) as Add.
      { clear H2. intros kr l0 st dst H2. destruct (add_controlees _ _ _ _ _) as [[[? ?] ?]|]; [|discriminate].
        cbn [obind] in H2. rewrite multicast_finish_eq in H2. by injection H2 as <- _ _. }
      destruct action; [by eapply Add| |by eapply Add|by eapply Add].
      destruct (remove_controlees _ _ _ _ _ _ _ _) as [[[[[? ?] ?] ?] ?]|]; [|discriminate].
      cbn [obind] in H2. rewrite multicast_finish_eq in H2. by injection H2 as <- _ _.
    + unfold session_start in H2. destruct (d_sessions d !! _) as [s|]; [|by injection H2 as <- _ _].
      destruct (negb _); [by injection H2 as <- _ _|]. destruct (s_task s); [discriminate|].
      rewrite session_set_state_eq, device_set_state_eq in H2. by injection H2 as <- _ _.
    + unfold session_stop in H2. destruct (d_sessions d !! _) as [s|]; [|by injection H2 as <- _ _].
      destruct (negb _); [by injection H2 as <- _ _|]. rewrite stop_ranging_task_eq, session_set_state_eq in H2.
      destruct (device_dec_active _) as [[d1 e1]|] eqn:D; [|discriminate]. apply dec_active_inv in D as (_ & -> & _).
      by injection H2 as <- _ _.
Qed.

(** ** Environment *)
Definition bad_out (h : N) (outs : list out) : bool := existsb bad_msg (messages h outs).

Record pinv (clean : N -> bool) (p : pica) : Prop := {
  pi_device : forall h d, p_devices p !! h = Some d ->
    dinv (clean h) d /\ d_handle d = h /\ d_mac d = mac_of_handle h /\ h < p_counter p;
  pi_anchor : forall m a, p_anchors p !! m = Some a -> wf_mac m /\ a < p_counter p /\ p_devices p !! a = None;
  pi_anchors : forall m m' a, p_anchors p !! m = Some a -> p_anchors p !! m' = Some a -> m = m' }.

Lemma messages_app h o o' : messages h (o ++ o') = messages h o ++ messages h o'.
Proof. unfold messages. by rewrite map_app, concat_app. Qed.
Lemma bad_out_app h o o' : bad_out h (o ++ o') = bad_out h o || bad_out h o'.
Proof. unfold bad_out. by rewrite messages_app, existsb_app. Qed.
Lemma bad_out_eff h e : bad_out h (map (OEff h) e) = bad_effs e.
Proof.
  induction e as [|x e IH]; [done|]. change (bad_out h ([OEff h x] ++ map (OEff h) e) = bad_effs ([x] ++ e)).
  rewrite bad_out_app, bad_effs_app, IH. f_equal. unfold bad_out, messages. cbn.
  destruct x; cbn; rewrite ?N.eqb_refl; done.
Qed.
Lemma messages_other h h' e : h <> h' -> messages h (map (OEff h') e) = [].
Proof.
  intros Hne. induction e as [|x e IH]; [done|]. change (messages h ([OEff h' x] ++ map (OEff h') e) = []).
  rewrite messages_app, IH, app_nil_r. unfold messages. cbn. apply N.eqb_neq in Hne. rewrite N.eqb_sym in Hne.
  destruct x; cbn; rewrite ?Hne; done.
Qed.

Lemma pinv_weaken cl cl' p : pinv cl p -> (forall h, cl' h = true -> cl h = true) -> pinv cl' p.
Proof.
  intros [D A U] C. split; auto. intros h d L. destruct (D _ _ L) as (I & ? & ? & ?). split_and!; auto.
  destruct I. split; auto.
Qed.
Lemma dinv_imp (c c' : bool) d : dinv c d -> (c' = true -> c = true) -> dinv c' d.
Proof. intros [] C. split; auto. Qed.

Lemma pinv_set_device cl cl' p h d d' : pinv cl p -> p_devices p !! h = Some d -> dinv (cl' h) d' ->
  d_handle d' = d_handle d -> d_mac d' = d_mac d ->
  (forall h', h' <> h -> cl' h' = true -> cl h' = true) -> pinv cl' (p_set_device h d' p).
Proof.
  intros [D A U] L I Eh Em C. destruct (D _ _ L) as (? & ? & ? & ?).
  split; cbn [p_devices p_counter p_anchors p_set_device p_set_devices]; auto.
  - intros h' d'' L'. destruct (N.eq_dec h h') as [<-|Hne].
    + rewrite lookup_insert in L'. injection L' as <-. split_and!; auto; congruence.
    + rewrite lookup_insert_ne in L' by done. destruct (D _ _ L') as (? & ? & ? & ?). split_and!; auto.
      eapply dinv_imp; eauto.
  - intros m a La. destruct (A _ _ La) as (? & ? & Na). split_and!; auto. rewrite lookup_insert_ne; [done|].
    intros ->. congruence.
Qed.

Lemma stop_controlee_inv c m id d : dinv c d -> dinv c (stop_controlee m id d).1.
Proof.
  intros I. unfold stop_controlee. destruct (d_sessions d !! id) as [s|] eqn:L; [|done].
  destruct (negb _); [done|]. destruct (bool_decide_reflect (s_state s = SsActive)) as [A|]; [|done].
  rewrite stop_ranging_task_eq, session_set_state_eq. cbn [d_active d_set_active d_set_sessions].
  pose proof I as [? ? Ia It ? ? ? ?]. pose proof (actives_pos _ _ _ L A).
  assert (forall st, st = (if d_active d - 1 =? 0 then DsReady else DsActive) ->
    dinv c (Device (d_is_reset d) (d_handle d) (d_mac d) (d_cfg_state d) (d_low_power d) st
            (<[id := s_set_state SsIdle (s_set_task false s)]> (d_sessions d)) (d_country d) (d_active d - 1))) as G.
  { intros st E. by apply dinv_stop. }
  destruct (d_active d - 1 =? 0) eqn:Z.
  - rewrite device_set_state_eq. cbn [fst]. by apply G.
  - cbn [fst]. eapply (G (d_state d)). rewrite It. destruct (N.eqb_spec (d_active d) 0); [lia|done].
Qed.
Lemma stop_controlee_same m id d : d_handle (stop_controlee m id d).1 = d_handle d /\ d_mac (stop_controlee m id d).1 = d_mac d.
Proof.
  unfold stop_controlee. destruct (d_sessions d !! id) as [s|] eqn:L; [|done].
  destruct (negb _); [done|]. destruct (bool_decide _); [|done].
  rewrite stop_ranging_task_eq, session_set_state_eq. destruct (_ =? 0); [|done]. by rewrite device_set_state_eq.
Qed.

(** What a ranging round does to the state. *)
Lemma ranging_inv e p h id p' outs : ranging e p h id = Ret (p', outs) ->
  exists d s ms1 ms2 peers o1 o2 s',
    p_devices p !! h = Some d /\ d_sessions d !! id = Some s
    /\ anchor_measurements (env_estimate e) (p_anchors p) (d_handle d) (dst_mac_address (s_cfg s)) = Ret ms1
    /\ peer_loop (env_estimate e) (p_devices p) h d s id (env_order e (map_to_list (p_devices p)).*1) = Ret (ms2, peers)
    /\ send_data (p_closed p) s id peers = Ret o1
    /\ send_info_ntf (p_closed p) h id s (ms1 ++ ms2) = Ret (s', o2)
    /\ p' = p_set_device h (d_set_sessions (<[id := clear_data s']> (d_sessions d)) d) p
    /\ outs = o1 ++ o2.
Proof.
  unfold ranging. intros H. destruct (p_devices p !! h) as [d|] eqn:L; [|discriminate].
  destruct (d_sessions d !! id) as [s|] eqn:Ls; [|discriminate].
  destruct (anchor_measurements _ _ _ _) as [ms1|] eqn:E1; [|discriminate]. cbn [obind] in H.
  destruct (peer_loop _ _ _ _ _ _ _) as [[ms2 peers]|] eqn:E2; [|discriminate]. cbn [obind] in H.
  destruct (send_data _ _ _ _) as [o1|] eqn:E3; [|discriminate]. cbn [obind] in H.
  destruct (send_info_ntf _ _ _ _ _) as [[s' o2]|] eqn:E4; [|discriminate]. cbn [obind] in H.
  injection H as <- <-. by exists d, s, ms1, ms2, peers, o1, o2, s'.
Qed.
Lemma send_info_session closed h id s ms s' o : send_info_ntf closed h id s ms = Ret (s', o) ->
  (is_session_info_ntf_enabled s = false /\ s' = s /\ o = [])
  \/ (is_session_info_ntf_enabled s = true /\ s_seq s <> 4294967295 /\ s' = s_set_seq (s_seq s + 1) s
      /\ h ∉ closed /\ o = [OEff h (Send (SessionInfoNtf (s_seq s) id 0 0 ms []))]
      /\ exists b, wire (SessionInfoNtf (s_seq s) id 0 0 ms []) = Some b).
Proof.
  unfold send_info_ntf. destruct (is_session_info_ntf_enabled s); [|intros [= <- <-]; by left].
  destruct (wire _) as [b|] eqn:W; [|discriminate]. case_bool_decide; [discriminate|].
  destruct (N.eqb_spec (s_seq s) 4294967295); [discriminate|].
  intros H'. apply Ret_inj in H'. injection H' as <- <-. right. split_and!; auto. by exists b.
Qed.
Lemma ranging_dinv c d id s s' closed h ms o : dinv c d -> d_sessions d !! id = Some s ->
  send_info_ntf closed h id s ms = Ret (s', o) ->
  dinv c (d_set_sessions (<[id := clear_data s']> (d_sessions d)) d).
Proof.
  intros I L S. pose proof (di_session _ _ I _ _ L) as O. apply send_info_session in S as [(_ & -> & _)|(_ & Hs & -> & _)].
  - eapply dinv_frame; eauto. by apply session_ok_set_data; [|constructor].
  - eapply dinv_frame; eauto. apply session_ok_set_data; [|constructor]. apply session_ok_set_seq; [done|].
    pose proof (so_seq _ _ O). unfold word32 in *. lia.
Qed.

Lemma pinv_step cl e p o p' outs : pinv cl p -> wf_op o -> step e p o = Ret (p', outs) ->
  pinv (fun h => cl h && negb (bad_out h outs)) p'.
Proof.
  intros I W H. pose proof I as [D A U].
  assert (forall (b : bool) h, cl h && b = true -> cl h = true) as Wk.
  { intros b h E. by apply andb_true_iff in E as [E _]. }
  destruct o; cbn [step] in H.
  - apply Ret_inj in H. unfold add_device, device_init in H. rewrite device_set_state_eq in H.
    cbn [d_mac d_set_state device_new] in H. injection H as <- _.
    split; cbn [p_devices p_counter p_anchors].
    + intros h d L. destruct (N.eq_dec (p_counter p) h) as [<-|Hne].
      * rewrite lookup_insert in L. injection L as <-. split_and!; [|done|done|lia].
        eapply dinv_imp; [apply dinv_new|done].
      * rewrite lookup_insert_ne in L by done. destruct (D _ _ L) as (? & ? & ? & ?). split_and!; auto; [|lia].
        eapply dinv_imp; [done|]. intros E. apply andb_true_iff in E. tauto.
    + intros m a L. destruct (A _ _ L) as (? & ? & ?). split_and!; [done|lia|]. rewrite lookup_insert_ne; [done|lia].
    + done.
  - apply Ret_inj in H. eapply pinv_weaken; [|intros h' E; exact (Wk _ _ E)]. unfold disconnect in H.
    destruct (p_devices p !! h) as [d|] eqn:L; injection H as <- _; [|done].
    split; cbn [p_devices p_counter p_anchors p_set_devices]; auto.
    + intros h' d' L'. apply lookup_delete_Some in L' as [? L']. auto.
    + intros m a La. destruct (A _ _ La) as (? & ? & ?). split_and!; auto. rewrite lookup_delete_None. auto.
  - apply ranging_inv in H as (d & s & ms1 & ms2 & peers & o1 & o2 & s' & L & Ls & _ & _ & _ & Si & -> & ->).
    destruct (D _ _ L) as (Id & ? & ? & ?).
    eapply pinv_set_device; [done|done| |done|done|intros h' _ E; exact (Wk _ _ E)].
    eapply dinv_imp; [eapply ranging_dinv; eauto|]. apply Wk.
  - apply Ret_inj in H. unfold stop_controlee_ranging in H. injection H as <- _.
    split; cbn [p_devices p_counter p_anchors p_set_devices]; auto.
    + intros h d L. rewrite lookup_fmap in L. destruct (p_devices p !! h) as [d0|] eqn:L0; [|discriminate].
      injection L as <-. destruct (D _ _ L0) as (? & ? & ? & ?). destruct (stop_controlee_same m id d0) as [-> ->].
      split_and!; auto. apply stop_controlee_inv. eapply dinv_imp; [done|]. apply Wk.
    + intros m' a La. destruct (A _ _ La) as (? & ? & N0). split_and!; auto. by rewrite lookup_fmap, N0.
  - unfold uci_packet in H. destruct (p_devices p !! h) as [d|] eqn:L.
    + destruct (receive_packet d packet) as [[d1 e1]|] eqn:R; [|discriminate]. cbn [obind] in H. injection H as <- <-.
      apply receive_received in R; [|done]. destruct (received_same _ _ _ _ R) as [? ?].
      destruct (D _ _ L) as (Id & ? & ? & ?).
      eapply pinv_set_device; [done|done| |done|done|intros h' _ E; exact (Wk _ _ E)].
      cbn beta. rewrite bad_out_eff. by eapply dinv_received.
    + injection H as <- <-. eapply pinv_weaken; [done|]. intros h' E; exact (Wk _ _ E).
  - unfold create_anchor in H. eapply pinv_weaken; [|intros h' E; exact (Wk _ _ E)].
    destruct (get_category p m); [injection H as <- _; done|].
    destruct (p_anchors p !! m) eqn:L; [discriminate|]. injection H as <- _.
    split; cbn [p_devices p_counter p_anchors].
    + intros h d Ld. destruct (D _ _ Ld) as (? & ? & ? & ?). split_and!; auto. lia.
    + intros m' a La. destruct (decide (m = m')) as [<-|Hne].
      * rewrite lookup_insert in La. injection La as <-. split_and!; [done|lia|].
        destruct (p_devices p !! p_counter p) eqn:Ld; [|done]. destruct (D _ _ Ld) as (? & ? & ? & ?). lia.
      * rewrite lookup_insert_ne in La by done. destruct (A _ _ La) as (? & ? & ?). split_and!; auto. lia.
    + intros m1 m2 a. destruct (decide (m = m1)) as [<-|H1], (decide (m = m2)) as [<-|H2];
        rewrite ?lookup_insert, ?lookup_insert_ne by done; auto.
      * intros E1 E2. injection E1 as <-. destruct (A _ _ E2) as (? & ? & ?). lia.
      * intros E1 E2. injection E2 as <-. destruct (A _ _ E1) as (? & ? & ?). lia.
      * apply U.
  - apply Ret_inj in H. unfold destroy_anchor in H. eapply pinv_weaken; [|intros h' E; exact (Wk _ _ E)].
    destruct (p_anchors p !! m) eqn:L; injection H as <- _; [|done].
    split; cbn [p_devices p_counter p_anchors]; auto.
    + intros m' a La. apply lookup_delete_Some in La as [? La]. auto.
    + intros m1 m2 a E1 E2. apply lookup_delete_Some in E1 as [? E1], E2 as [? E2]. eauto.
  - apply Ret_inj in H. injection H as <- <-. eapply pinv_weaken; [|intros h' E; exact (Wk _ _ E)]. by split.
Qed.

Lemma pinv_new cl : pinv cl pica_new.
Proof. split; intros *; cbn; rewrite lookup_empty; discriminate. Qed.
Lemma run_app p l l' : run p (l ++ l') =
  let! (p1, o1) := run p l in let! (p2, o2) := run p1 l' in Ret (p2, o1 ++ o2).
Proof.
  revert p. induction l as [|[e o] l IH]; intros p; cbn [run app].
  - cbn [obind]. by destruct (run p l') as [[? ?]|].
  - destruct (step e p o) as [[p1 o1]|]; [|done]. cbn [obind]. rewrite IH.
    destruct (run p1 l) as [[p2 o2]|]; [|done]. cbn [obind].
    destruct (run p2 l') as [[p3 o3]|]; [|done]. cbn [obind]. by rewrite app_assoc.
Qed.
Lemma run_snoc p l e o p' outs : run p (l ++ [(e, o)]) = Ret (p', outs) ->
  exists p1 o1 o2, run p l = Ret (p1, o1) /\ step e p1 o = Ret (p', o2) /\ outs = o1 ++ o2.
Proof.
  rewrite run_app. destruct (run p l) as [[p1 o1]|]; [|discriminate]. cbn [obind run].
  destruct (step e p1 o) as [[p2 o2]|] eqn:E; [|discriminate]. cbn [obind]. rewrite app_nil_r.
  intros H. injection H as <- <-. by exists p1, o1, o2.
Qed.

(** Induction on the length of a history. *)
Lemma reaches_ind (P : list (env * op) -> pica -> list out -> Prop) :
  P [] pica_new [] ->
  (forall l p outs e o p' outs', reaches l p outs -> P l p outs -> wf_env e -> wf_op o ->
     step e p o = Ret (p', outs') -> P (l ++ [(e, o)]) p' (outs ++ outs')) ->
  forall l p outs, reaches l p outs -> P l p outs.
Proof.
  intros P0 PS l. induction l as [|[e o] l IH] using rev_ind; intros p outs [F R].
  - cbn in R. injection R as <- <-. done.
  - apply Forall_app in F as [F Fo]. inversion Fo as [|? ? [We Wo] _]; subst.
    apply run_snoc in R as (p1 & o1 & o2 & R & S & ->). eapply PS; eauto; [split|apply IH; split]; done.
Qed.
Lemma reaches_snoc l p outs e o p' outs' : reaches l p outs -> wf_env e -> wf_op o ->
  step e p o = Ret (p', outs') -> reaches (l ++ [(e, o)]) p' (outs ++ outs').
Proof.
  intros [F R] We Wo S. split.
  - apply Forall_app. split; [done|]. by repeat constructor.
  - rewrite run_app, R. cbn [obind run]. rewrite S. cbn [obind]. by rewrite app_nil_r.
Qed.

Lemma reaches_pinv l p outs : reaches l p outs -> pinv (fun h => negb (bad_out h outs)) p.
Proof.
  revert l p outs. apply reaches_ind; [apply pinv_new|].
  intros l p outs e o p' outs' _ I _ Wo S. eapply pinv_weaken; [by eapply pinv_step|].
  intros h. cbn beta. rewrite bad_out_app, negb_orb. done.
Qed.
Lemma reachable_pinv p : reachable p -> pinv (fun _ => false) p.
Proof. intros (l & outs & R). eapply pinv_weaken; [by eapply reaches_pinv|done]. Qed.
Lemma reachable_dinv p h d : reachable p -> p_devices p !! h = Some d -> dinv false d.
Proof. intros R L. apply reachable_pinv in R. by destruct (pi_device _ _ R _ _ L). Qed.
Lemma reachable_step p e o p' outs : reachable p -> wf_env e -> wf_op o -> step e p o = Ret (p', outs) -> reachable p'.
Proof. intros (l & outs0 & R) We Wo S. eexists _, _. by eapply reaches_snoc. Qed.
