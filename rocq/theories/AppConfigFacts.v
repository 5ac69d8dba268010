(** Proofs about AppConfig.v. *)
From Verif Require Import Base Uci Codec BaseFacts MacAddress AppConfig AppConfigSpec.

(** *** Parameter identifiers *)
Definition tlv_check (b : N) : bool :=
  match tlv_of_byte b with
  | Some (T_OTHER b') => (b' =? b) && negb (existsb (N.eqb b) parameters.*1)
  | Some id => (tlv_byte id =? b) && existsb (N.eqb b) parameters.*1
  | None => existsb (N.eqb b) tlv_invalid && negb (existsb (N.eqb b) parameters.*1)
  end.
Lemma tlv_check_all b : b < 256 -> tlv_check b = true.
Proof. apply forall_bytes. vm_compute. reflexivity. Qed.

(** Identifiers the decoder can produce. *)
Definition wf_tlv (id : tlv_id) : Prop := tlv_of_byte (tlv_byte id) = Some id /\ tlv_byte id < 256.

Lemma tlv_of_byte_wf b id : tlv_of_byte b = Some id -> wf_tlv id /\ tlv_byte id = b.
Proof.
  intros H. assert (tlv_byte id = b) as E.
  { unfold tlv_of_byte in H. destruct (List.find _ known_tlvs) as [i|] eqn:F.
    - apply find_some in F as [_ F]. apply (inj Some) in H; subst. by apply N.eqb_eq.
    - case_match; [|done]. apply (inj Some) in H; subst. reflexivity. }
  split; [|done]. unfold wf_tlv. rewrite E. split; [done|].
  unfold tlv_of_byte in H. destruct (List.find _ known_tlvs) as [i|] eqn:F.
  - apply find_some in F as [F1 F2]. apply N.eqb_eq in F2. subst b.
    assert (forallb (fun i => tlv_byte i <? 256) known_tlvs = true) as G by reflexivity.
    rewrite forallb_forall in G. apply G in F1. lia.
  - case_match eqn:G; [|done]. lia.
Qed.

Lemma tlv_byte_inj id id' : wf_tlv id -> wf_tlv id' -> tlv_byte id = tlv_byte id' -> id = id'.
Proof. intros [H _] [H' _] E. congruence. Qed.

(** *** Elementary parsers *)
Lemma existsb_In b l : existsb (N.eqb b) l = true <-> In b l.
Proof.
  rewrite existsb_exists. split.
  - intros (x & H & E). apply N.eqb_eq in E. by subst.
  - intros H. exists b. split; [done|apply N.eqb_refl].
Qed.
Lemma try_parse_spec l v n : try_parse l v = Some n <-> v = [n] /\ In n l.
Proof.
  unfold try_parse. destruct v as [|b [|b' v]]; try (split; [done|intros [? _]; done]).
  destruct (existsb (N.eqb b) l) eqn:E.
  - apply existsb_In in E. split; [intros H; apply (inj Some) in H; by subst|].
    intros [H _]. injection H as <-. done.
  - split; [done|]. intros [H I]. injection H as ->. apply existsb_In in I. congruence.
Qed.
Lemma try_parse_uint_spec k v n : try_parse_uint k v = Some n <-> length v = k /\ n = le_nat v.
Proof.
  unfold try_parse_uint. destruct (Nat.eqb_spec (length v) k); split; try done.
  - intros H. apply (inj Some) in H. done.
  - intros [_ ->]. done.
  - intros [? _]. done.
Qed.
Lemma try_array_spec k v n : try_array k v = Some n <-> length v = k /\ n = v.
Proof.
  unfold try_array. destruct (Nat.eqb_spec (length v) k); split; try done.
  - intros H. apply (inj Some) in H. done.
  - intros [_ ->]. done.
  - intros [? _]. done.
Qed.

Lemma chunks_fuel_S {A} (k fuel : nat) (l : list A) : l <> [] ->
  chunks_fuel (S fuel) k l = take k l :: chunks_fuel fuel k (drop k l).
Proof. by destruct l. Qed.
Lemma concat_chunks_fuel {A} (k fuel : nat) (l : list A) : (0 < k)%nat -> (length l <= fuel)%nat ->
  concat (chunks_fuel fuel k l) = l.
Proof.
  intros Hk. revert l; induction fuel as [|fuel IH]; intros l Hl.
  - destruct l; [done|simpl in Hl; lia].
  - destruct (decide (l = [])) as [->|Hne]; [done|].
    rewrite chunks_fuel_S by done. cbn [concat].
    rewrite IH; [apply take_drop|]. rewrite drop_length. destruct l; simpl in *; [done|lia].
Qed.
Lemma concat_chunks {A} (k : nat) (l : list A) : (0 < k)%nat -> concat (chunks k l) = l.
Proof. intros. by apply concat_chunks_fuel. Qed.
Lemma chunks_fuel_length {A} (k fuel : nat) (l : list A) n : (0 < k)%nat ->
  length l = (n * k)%nat -> (length l <= fuel)%nat ->
  length (chunks_fuel fuel k l) = n /\ Forall (fun c => length c = k) (chunks_fuel fuel k l).
Proof.
  intros Hk. revert l n; induction fuel as [|fuel IH]; intros l n Hn Hl.
  - destruct l; simpl in *; [|lia]. split; [|constructor]. destruct n; [done|lia].
  - destruct (decide (l = [])) as [->|Hne].
    + simpl in *. split; [|constructor]. destruct n; [done|lia].
    + assert (0 < length l)%nat by (destruct l; [done|simpl; lia]).
      destruct n as [|n]; [lia|]. rewrite chunks_fuel_S by done.
      destruct (IH (drop k l) n) as [I1 I2].
      * rewrite drop_length. lia.
      * rewrite drop_length. lia.
      * cbn [length]. split; [by rewrite I1|]. constructor; [|done].
        rewrite take_length. lia.
Qed.
Lemma chunks_length {A} (k : nat) (l : list A) n : (0 < k)%nat -> length l = (n * k)%nat ->
  length (chunks k l) = n /\ Forall (fun c => length c = k) (chunks k l).
Proof. intros. by apply chunks_fuel_length. Qed.
Lemma chunks_wf k v : wf_bytes v -> Forall wf_bytes (chunks k v).
Proof.
  unfold chunks. generalize (length v) as fuel. intros fuel; revert v.
  induction fuel as [|fuel IH]; intros v W; [constructor|].
  destruct v as [|b v]; [constructor|]. cbn [chunks_fuel]. constructor.
  - by apply wf_bytes_take.
  - apply IH. by apply wf_bytes_drop.
Qed.

(** *** C14: a refused parameter changes nothing. *)
Lemma set_refused c id v c' : app_config_set c id v = Ret (c', false) -> c' = c.
Proof.
  destruct id; cbn [app_config_set]; unfold assign; intros H;
    repeat match type of H with
      | context [match ?x with _ => _ end] => destruct x
      end; congruence.
Qed.

(** *** C13: the other parameters are unchanged. *)
Lemma set_other c id v c' b id' : app_config_set c id v = Ret (c', b) -> id <> id' ->
  app_config_get c' id' = app_config_get c id'.
Proof.
  intros H Hne. destruct id; cbn [app_config_set] in H; unfold assign in H;
    repeat match type of H with
      | context [match ?x with _ => _ end] => destruct x
      end; try discriminate; injection H as <- <-; try reflexivity;
    destruct id'; first [reflexivity | congruence].
Qed.

(** *** C12: read back. *)
Definition readback (id : tlv_id) (v : bytes) : bytes :=
  if bool_decide (id = T_UWB_INITIATION_TIME) && Nat.eqb (length v) 4 then v ++ [0; 0; 0; 0] else v.

Lemma concat_macs_short ls : concat (map mac_to_vec (map MShort ls)) = concat ls.
Proof. induction ls; simpl; congruence. Qed.
Lemma concat_macs_extended ls : concat (map mac_to_vec (map MExtended ls)) = concat ls.
Proof. induction ls; simpl; congruence. Qed.
Lemma le_bytes_zero_extend l k : wf_bytes l -> le_bytes (length l + k) (le_nat l) = l ++ repeat 0 k.
Proof.
  intros W. induction W as [|b l Hb Hl IH].
  - simpl. induction k as [|k IHk]; [reflexivity|]. cbn [le_bytes repeat].
    change (0 / 256) with 0. change (0 mod 256) with 0. by rewrite IHk.
  - cbn [length Nat.add le_bytes le_nat app]. unfold is_byte in Hb.
    replace ((b + 256 * le_nat l) mod 256) with b; [replace ((b + 256 * le_nat l) / 256) with (le_nat l); [by rewrite IH|]|].
    + apply (N.div_unique _ _ _ b); lia.
    + apply (N.mod_unique _ _ (le_nat l)); lia.
Qed.
Lemma aoa_bound_readback ls : Forall (fun c => length c = 2%nat) ls -> Forall wf_bytes ls ->
  concat (map (le_bytes 2) (map le_nat ls)) = concat ls.
Proof.
  induction 1 as [|c ls Hc Hls IH]; intros W; [reflexivity|].
  apply Forall_cons in W as [W1 W2]. cbn [map concat]. rewrite IH by done. f_equal.
  rewrite <- Hc. by apply le_bytes_nat.
Qed.
Lemma le_nat_single b : b < 256 -> [le_nat [b]] = [b].
Proof. intros. cbn [le_nat]. f_equal. lia. Qed.

Ltac case_set H :=
  repeat match type of H with
    | context [match ?x with _ => _ end] => let E := fresh "E" in destruct x eqn:E
    end.

Local Arguments le_bytes : simpl never.
Local Arguments le_nat : simpl never.
Local Arguments chunks : simpl never.
Lemma le_bytes_nat_len k v : length v = k -> wf_bytes v -> le_bytes k (le_nat v) = v.
Proof. intros <- W. by apply le_bytes_nat. Qed.
Lemma le_nat_len1 v : length v = 1%nat -> wf_bytes v -> [le_nat v] = v.
Proof.
  intros L W. destruct v as [|b [|? ?]]; try discriminate L. apply wf_bytes_cons in W as [? _].
  by apply le_nat_single.
Qed.
Lemma map_mac_chunks k v (f : bytes -> mac_address) : (forall l, mac_to_vec (f l) = l) ->
  (0 < k)%nat -> concat (map mac_to_vec (map f (chunks k v))) = v.
Proof.
  intros Hf Hk. rewrite map_map. rewrite (map_ext _ id) by (intros; apply Hf).
  rewrite map_id. by apply concat_chunks.
Qed.

Lemma set_readback c id v c' : wf_bytes v -> app_config_set c id v = Ret (c', true) ->
  app_config_get c' id = Some (readback id v).
Proof.
  intros W H.
  destruct id; cbn [app_config_set] in H; unfold assign in H;
    case_set H; try discriminate; injection H as <-; cbn [app_config_get];
    unfold readback;
    try (rewrite (bool_decide_false (_ = T_UWB_INITIATION_TIME)) by discriminate; cbn [andb]);
    repeat match goal with
      | E : fmap _ _ = Some _ |- _ => apply fmap_Some in E as (? & E & ->)
      end;
    repeat match goal with
      | E : try_parse _ _ = Some _ |- _ => apply try_parse_spec in E as [-> _]
      | E : try_parse_uint _ _ = Some _ |- _ => apply try_parse_uint_spec in E as [E ->]
      | E : try_array _ _ = Some _ |- _ => apply try_array_spec in E as [E ->]
      end;
    try reflexivity; simpl; f_equal;
    try (by apply le_nat_len1);
    try (by apply le_bytes_nat_len);
    try (by apply map_mac_chunks; [|lia]).
  - (* AOA_BOUND_CONFIG *)
    destruct (length v =? 8)%nat eqn:L; [|discriminate]. apply Nat.eqb_eq in L.
    match goal with E : Some _ = Some _ |- _ => apply (inj Some) in E; subst end.
    destruct (chunks_length 2 v 4) as [_ F]; [lia|lia|].
    rewrite aoa_bound_readback by (try apply chunks_wf; done). apply concat_chunks. lia.
  - (* UWB_INITIATION_TIME *)
    destruct (length v =? 4)%nat eqn:L.
    + match goal with E : try_parse_uint _ _ = Some _ |- _ => apply try_parse_uint_spec in E as [_ ->] end.
      apply Nat.eqb_eq in L.
      pose proof (le_bytes_zero_extend v 4 W) as Z. rewrite L in Z. exact Z.
    + match goal with E : try_parse_uint _ _ = Some _ |- _ => apply try_parse_uint_spec in E as [L' ->] end.
      by apply le_bytes_nat_len.
  - (* SUB_SESSION_KEY *)
    destruct (Nat.eqb (length v) 16); [|destruct (Nat.eqb (length v) 32); [|discriminate]];
      match goal with E : Some _ = Some _ |- _ => apply (inj Some) in E; subst end; reflexivity.
Qed.

(** *** C15: accepted values. *)
Definition shape_of (b : N) : option shape :=
  snd <$> List.find (fun p => fst p =? b) parameters.

Lemma find_NoDup (l : list (N * shape)) b sh : NoDup l.*1 ->
  (In (b, sh) l <-> snd <$> List.find (fun p => fst p =? b) l = Some sh).
Proof.
  induction l as [|[b' sh'] l IH]; intros N; [split; done|].
  cbn [fmap list_fmap] in N. apply NoDup_cons in N as [N1 N2]. cbn [In List.find fst].
  destruct (N.eqb_spec b' b) as [->|Hne].
  - split.
    + intros [E|E]; [injection E as <-; done|]. destruct N1.
      apply elem_of_list_In, in_map_iff. exists (b, sh). done.
    + intros E. injection E as <-. by left.
  - rewrite <- IH by done. split; [intros [E|E]; [congruence|done]|auto].
Qed.
Lemma shape_of_spec b sh : In (b, sh) parameters <-> shape_of b = Some sh.
Proof.
  apply find_NoDup. apply (bool_decide_unpack _). vm_compute. exact I.
Qed.

Lemma assign_true {A} c (f : A -> app_config -> app_config) (o : option A) :
  (exists c', assign c f o = Ret (c', true)) <-> is_Some o.
Proof.
  unfold assign. destruct o; split; eauto.
  - intros [? ?]. discriminate.
  - intros [? ?]. discriminate.
Qed.
Lemma is_Some_fmap_iff {A B} (f : A -> B) (o : option A) : is_Some (f <$> o) <-> is_Some o.
Proof. apply fmap_is_Some. Qed.
Lemma is_Some_try_parse l v : is_Some (try_parse l v) <-> exists b, v = [b] /\ In b l.
Proof.
  split; [intros [n H]|intros (n & H)]; [apply try_parse_spec in H|exists n; apply try_parse_spec]; eauto.
Qed.
Lemma is_Some_try_uint k v : is_Some (try_parse_uint k v) <-> length v = k.
Proof.
  split; [intros [n H]; apply try_parse_uint_spec in H as [H _]; exact H|].
  intros H. exists (le_nat v). by apply try_parse_uint_spec.
Qed.
Lemma is_Some_try_array k v : is_Some (try_array k v) <-> length v = k.
Proof.
  split; [intros [n H]; apply try_array_spec in H as [H _]; exact H|].
  intros H. exists v. by apply try_array_spec.
Qed.

Lemma ex_shape b sh (P : shape -> Prop) : shape_of b = Some sh ->
  ((exists sh', In (b, sh') parameters /\ P sh') <-> P sh).
Proof.
  intros H. split.
  - intros (sh' & I & HP). apply shape_of_spec in I. congruence.
  - intros HP. exists sh. split; [by apply shape_of_spec|done].
Qed.

Lemma set_accepted c id v : wf_tlv id -> mac_address_mode c < 3 ->
  (exists c', app_config_set c id v = Ret (c', true)) <->
  exists sh, In (tlv_byte id, sh) parameters
    /\ acceptable (mac_address_mode c) (number_of_controlees c) sh v.
Proof.
  intros Wid Wm.
  destruct id;
    try (etransitivity; [|symmetry; refine (ex_shape _ _ (fun sh => acceptable (mac_address_mode c) (number_of_controlees c) sh v) _); reflexivity]); cbn [app_config_set tlv_byte acceptable snd];
    rewrite ?assign_true, ?is_Some_fmap_iff, ?is_Some_try_parse, ?is_Some_try_uint, ?is_Some_try_array;
    try reflexivity.
  - (* DEVICE_MAC_ADDRESS *)
    unfold address_size, MAC_MODE_0, MAC_MODE_1.
    destruct (N.eqb_spec (mac_address_mode c) 0) as [E|E].
    + rewrite assign_true, is_Some_fmap_iff, is_Some_try_array. split; congruence.
    + destruct (N.eqb_spec (mac_address_mode c) 1) as [E1|E1].
      * rewrite E1. split; [intros [? ?]; discriminate|discriminate].
      * rewrite assign_true, is_Some_fmap_iff, is_Some_try_array.
        destruct (N.eqb_spec (mac_address_mode c) 2); [|lia]. split; congruence.
  - (* DST_MAC_ADDRESS *)
    unfold address_size, MAC_MODE_0, MAC_MODE_1.
    destruct (N.eqb_spec (mac_address_mode c) 1) as [E1|E1].
    + rewrite E1. split; [intros [? ?]; discriminate|intros (? & ? & _); discriminate].
    + destruct (N.eqb_spec (mac_address_mode c) 0) as [E|E];
        [|destruct (N.eqb_spec (mac_address_mode c) 2); [|lia]].
      * destruct (Nat.eqb_spec (length v) (N.to_nat (number_of_controlees c) * 2)); cbn [negb].
        -- split; eauto.
        -- split; [intros [? ?]; discriminate|]. intros (k & K & L). injection K as <-. done.
      * destruct (Nat.eqb_spec (length v) (N.to_nat (number_of_controlees c) * 8)); cbn [negb].
        -- split; eauto.
        -- split; [intros [? ?]; discriminate|]. intros (k & K & L). injection K as <-. done.
  - (* AOA_BOUND_CONFIG *)
    destruct (Nat.eqb_spec (length v) 8); split; eauto; [intros [? ?]; discriminate|done].
  - (* UWB_INITIATION_TIME *)
    destruct (Nat.eqb_spec (length v) 4) as [L|L]; rewrite is_Some_try_uint; cbn [In]; intuition congruence.
  - (* SESSION_KEY *) split; eauto.
  - (* SUB_SESSION_KEY *)
    cbn [In]. destruct (Nat.eqb_spec (length v) 16) as [L|L]; [split; eauto|].
    destruct (Nat.eqb_spec (length v) 32) as [L'|L']; [split; eauto|].
    split; [intros [? ?]; discriminate|intuition congruence].
  - (* unsupported *)
    split; [intros [? ?]; discriminate|].
    intros (sh & H & _). destruct Wid as [Wid Wb]. cbn [tlv_byte] in *.
    pose proof (tlv_check_all _ Wb) as E. unfold tlv_check in E. rewrite Wid in E.
    apply andb_true_iff in E as [_ E]. apply negb_true_iff in E.
    assert (existsb (N.eqb b) parameters.*1 = true); [|congruence].
    apply existsb_In, in_map_iff. exists (b, sh). done.
Qed.

(** Setting never panics, except an address in address mode 1. *)
Lemma set_no_panic c id v : ~ (mac_address_mode c = 1 /\ (id = T_DEVICE_MAC_ADDRESS \/ id = T_DST_MAC_ADDRESS)) ->
  exists c' b, app_config_set c id v = Ret (c', b).
Proof.
  intros H. unfold not in H.
  destruct id; cbn [app_config_set]; unfold assign;
    try (destruct (_ : option _); eauto; fail);
    try (match goal with |- context [match ?x with Some _ => _ | None => _ end] => destruct x; eauto end; fail); eauto.
  - unfold MAC_MODE_0, MAC_MODE_1. destruct (N.eqb_spec (mac_address_mode c) 0).
    + destruct (_ <$> _); eauto.
    + destruct (N.eqb_spec (mac_address_mode c) 1); [tauto|]. destruct (_ <$> _); eauto.
  - unfold MAC_MODE_0, MAC_MODE_1. destruct (N.eqb_spec (mac_address_mode c) 1); [tauto|].
    destruct (N.eqb_spec (mac_address_mode c) 0); destruct (negb _); eauto.
Qed.
Lemma set_panic c id v : mac_address_mode c = 1 -> id = T_DEVICE_MAC_ADDRESS \/ id = T_DST_MAC_ADDRESS ->
  app_config_set c id v = Crash MacAddressMode1.
Proof. intros E [-> | ->]; cbn [app_config_set]; by rewrite E. Qed.
