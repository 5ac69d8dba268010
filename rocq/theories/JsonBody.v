(** Which JSON values are positions. *)
From Coq Require Import Strings.String Strings.Ascii.
From Verif Require Import Base Uci MacAddress Pica Http Json JsonSpec JsonFacts JsonUnique JsonRead JsonRead2.

Lemma decode16_ascii u : ascii_text u -> decode16 u = Some u.
Proof.
  induction 1 as [|c u H Hu IH]; [done|]. cbn. replace (low_surrogate c) with false by (unfold low_surrogate; lia).
  replace (high_surrogate c) with false by (unfold high_surrogate; lia). by rewrite IH.
Qed.
Lemma utf8_ascii s : ascii_text s -> concat (map utf8 s) = s.
Proof. induction 1 as [|c s H Hs IH]; [done|]. cbn. unfold utf8 at 1. replace (c <? 128) with true by lia. by rewrite IH. Qed.
Lemma utf8_ascii_inv s : ascii_text (concat (map utf8 s)) -> ascii_text s.
Proof.
  induction s as [|c s IH]; [constructor|]. cbn. intros [A B]%Forall_app. constructor; [|by apply IH].
  unfold utf8 in A. repeat case_match; [lia|inversion A; subst; lia..].
Qed.
Lemma decode16_ascii_inv u s : decode16 u = Some s -> ascii_text s -> u = s.
Proof.
  remember (length u) as n eqn:En. revert u s En. induction (lt_wf n) as [n _ IH]. intros u s En H A.
  destruct u as [|a u]; [by injection H as <-|]. cbn in H.
  destruct (low_surrogate a) eqn:L; [done|]. destruct (high_surrogate a) eqn:K.
  - destruct u as [|b u]; [done|]. destruct (low_surrogate b) eqn:M; [|done].
    destruct (decode16 u) as [x|] eqn:D; [|done]. injection H as <-. inversion A. lia.
  - destruct (decode16 u) as [x|] eqn:D; [|done]. injection H as <-. inversion A; subst. f_equal. by apply (IH (length u)); [cbn; lia|..].
Qed.
Lemma key_ascii k name : ascii_text name -> key_text k = Some name <-> k = name.
Proof.
  intros A. unfold key_text. split.
  - destruct (decode16 k) as [s|] eqn:D; [|done]. intros E. injection E as E.
    assert (ascii_text s) as B by (apply utf8_ascii_inv; by rewrite E). rewrite (decode16_ascii_inv k s D B). rewrite <-E. by rewrite utf8_ascii.
  - intros ->. rewrite decode16_ascii by done. cbn. by rewrite utf8_ascii.
Qed.

Lemma names_ascii i name range : field_names !! i = Some (name, range) -> ascii_text name.
Proof. do 6 (destruct i as [|i]; [intros [= <- <-]; by apply ascii_dec|]). by destruct i. Qed.
Lemma field_index_spec name i range : field_index field_names name = Some (i, range) <-> field_names !! i = Some (name, range).
Proof.
  assert (forall l, NoDup l.*1 -> field_index l name = Some (i, range) <-> l !! i = Some (name, range)) as G.
  { intros l. revert i. induction l as [|[n r] l IH]; intros i ND; cbn; [split; [done|by destruct i]|]. apply NoDup_cons in ND as [N ND].
    destruct (bool_decide (n = name)) eqn:B; [apply bool_decide_eq_true in B as ->|apply bool_decide_eq_false in B].
    - split; [intros E; by injection E as <- <-|]. destruct i as [|i]; cbn; intros E; [by injection E as ->|].
      exfalso. apply N. apply elem_of_list_fmap. exists (name, range). split; [done|]. by eapply elem_of_list_lookup_2.
    - destruct i as [|i]; cbn.
      + split; [destruct (field_index l name) as [[]|]; done|]. intros E. by injection E as -> ->.
      + rewrite <-IH by done. destruct (field_index l name) as [[j q]|]; cbn; [|done]. split; intros E; injection E as -> ->; done. }
  apply G. apply (bool_decide_unpack (NoDup field_names.*1)). by vm_compute.
Qed.

Definition slot (ms : list (list N * json)) (name : bytes) (range : Z * Z) (o o' : option Z) : Prop :=
  filter (fun m => m.1 = name) ms = [] /\ o' = o \/
  o = None /\ exists v z, filter (fun m => m.1 = name) ms = [(name, v)] /\ int_of range v = Some z /\ o' = Some z.
Lemma slot_other k v ms name range o o' : k <> name -> slot ((k, v) :: ms) name range o o' <-> slot ms name range o o'.
Proof. intros N. unfold slot. by rewrite filter_cons_False by done. Qed.
Lemma slot_filled k v ms range z z0 o' : int_of range v = z -> slot ((k, v) :: ms) k range (Some z0) o' <-> False.
Proof. intros E. unfold slot. rewrite filter_cons_True by done. split; [|done]. by intros [[? _]|[? _]]. Qed.
Lemma slot_empty k v ms range z o' : int_of range v = Some z -> slot ((k, v) :: ms) k range None o' <-> slot ms k range (Some z) o'.
Proof.
  intros E. unfold slot. rewrite filter_cons_True by done. split.
  - intros [[? _]|(_ & v' & z' & F & I & ->)]; [done|]. injection F as <- F. left. split; [done|]. by rewrite E in I.
  - intros [[F ->]|[? _]]; [|done]. right. split; [done|]. exists v, z. by rewrite F.
Qed.
Lemma slot_bad k v ms range o' : int_of range v = None -> slot ((k, v) :: ms) k range None o' -> False.
Proof. intros E. unfold slot. rewrite filter_cons_True by done. intros [[? _]|(_ & v' & z' & F & I & ->)]; [done|]. injection F as <- F. by rewrite E in I. Qed.

Lemma fold_spec ms (acc acc' : list (option Z)) : length acc = 6%nat ->
  fold_fields acc ms = Some acc' <->
  (forall k u, (k, u) ∈ ms -> is_Some (key_text k)) /\ length acc' = 6%nat /\
  forall i name range o, field_names !! i = Some (name, range) -> acc !! i = Some o -> exists o', acc' !! i = Some o' /\ slot ms name range o o'.
Proof.
  revert acc. induction ms as [|[k v] ms IH]; intros acc L.
  - cbn [fold_fields]. split.
    + intros E. injection E as <-. split_and!; [by intros ? ? ?%elem_of_nil|done|]. intros i name range o F A. exists o. split; [done|by left].
    + intros (_ & L' & H). f_equal. apply list_eq. intros i. destruct (acc !! i) as [o|] eqn:A.
      * destruct (field_names !! i) as [[name range]|] eqn:F.
        -- destruct (H i name range o F A) as (o' & A' & [[_ ->]|(_ & ? & ? & ? & _)]); [|done]. symmetry. exact A'.
        -- apply lookup_lt_Some in A. apply lookup_ge_None in F. cbn in F. lia.
      * symmetry. apply lookup_ge_None. apply lookup_ge_None in A. lia.
  - rewrite fold_fields_cons. unfold field_step, position_fields. destruct (key_text k) as [name0|] eqn:K.
    2: { split; [done|]. intros (H & _). specialize (H k v ltac:(left)). rewrite K in H. by destruct H. }
    cbn [mbind option_bind].
    assert (forall X, (forall k' u, (k', u) ∈ (k, v) :: ms -> is_Some (key_text k')) /\ X <-> (forall k' u, (k', u) ∈ ms -> is_Some (key_text k')) /\ X) as HK.
    { intros X. split; intros [A B]; (split; [|done]); intros k' u I; [apply (A k' u); by right|].
      apply elem_of_cons in I as [I|I]; [injection I as -> ->; by rewrite K|by apply (A k' u)]. }
    destruct (field_index field_names name0) as [[j range0]|] eqn:FI.
    + apply field_index_spec in FI. assert (k = name0) as -> by (apply key_ascii; [by eapply names_ascii|done]).
      assert (exists o, acc !! j = Some o) as [o Ao].
      { apply lookup_lt_is_Some. apply lookup_lt_Some in FI. cbn in FI. lia. }
      rewrite Ao. destruct o as [z0|].
      * split; [done|]. intros (_ & _ & H). destruct (H j name0 range0 _ FI Ao) as (o' & _ & [[S _]|[S _]]); [|done]. by rewrite filter_cons_True in S.
      * destruct (int_of range0 v) as [z|] eqn:I; cbn [mbind option_bind].
        -- rewrite IH by (by rewrite insert_length). rewrite HK. apply and_iff_compat_l, and_iff_compat_l. split; intros H i name range o F A.
           ++ destruct (decide (i = j)) as [->|Ne].
              ** rewrite FI in F. injection F as <- <-. rewrite Ao in A. injection A as <-.
                 destruct (H j name0 range0 (Some z) FI) as (o' & B & S); [by apply list_lookup_insert; apply lookup_lt_Some in Ao|].
                 exists o'. split; [done|]. by apply (slot_empty _ _ _ _ z).
              ** destruct (H i name range o F) as (o' & B & S); [by rewrite list_lookup_insert_ne|]. exists o'. split; [done|]. apply slot_other; [|done].
                 intros ->. apply field_index_spec in F, FI. rewrite F in FI. by injection FI.
           ++ destruct (decide (i = j)) as [->|Ne].
              ** rewrite FI in F. injection F as <- <-. rewrite list_lookup_insert in A by (by apply lookup_lt_Some in Ao). injection A as <-.
                 destruct (H j name0 range0 None FI Ao) as (o' & B & S). exists o'. split; [done|]. by apply (slot_empty _ v).
              ** rewrite list_lookup_insert_ne in A by done. destruct (H i name range o F A) as (o' & B & S). exists o'. split; [done|]. eapply slot_other; [|done].
                 intros ->. apply field_index_spec in F, FI. rewrite F in FI. by injection FI.
        -- split; [done|]. intros (_ & _ & H). destruct (H j name0 range0 _ FI Ao) as (o' & _ & S). exfalso. by eapply slot_bad.
    + cbn [mbind option_bind]. rewrite IH by done. rewrite HK. apply and_iff_compat_l, and_iff_compat_l.
      assert (forall i name range, field_names !! i = Some (name, range) -> k <> name) as Nk.
      { intros i name range F ->. assert (key_text name = Some name) as E by (apply key_ascii; [by eapply names_ascii|done]).
        rewrite E in K. injection K as ->. apply field_index_spec in F. by rewrite F in FI. }
      split; intros H i name range o F A; destruct (H i name range o F A) as (o' & B & S); exists o'; (split; [done|]); by eapply slot_other; [eapply Nk|].
Qed.

Lemma members_parts ms t : members ms t -> forall k u, (k, u) ∈ ms -> Forall (fun c => c < 65536) k /\ exists s, value u s.
Proof.
  assert (forall k v t, member k v t -> Forall (fun c => c < 65536) k /\ exists s, value v s) as M.
  { intros k v t' H. destruct H as [k tk w w' v t' Hk _ _ H]. split; [by eapply chars_small|by eexists]. }
  induction 1 as [k v w t w' A H B|k v w t w' l s A H B L IH]; intros k' u I.
  - apply elem_of_list_singleton in I. injection I as -> ->. by eapply M.
  - apply elem_of_cons in I as [I|I]; [injection I as -> ->; by eapply M|by eapply IH].
Qed.
Lemma elements_parts l t : elements l t -> forall u, u ∈ l -> exists s, value u s.
Proof.
  induction 1 as [v w t w' A H B|v w t w' l s A H B L IH]; intros u I.
  - apply elem_of_list_singleton in I as ->. by eexists.
  - apply elem_of_cons in I as [->|I]; [by eexists|by eapply IH].
Qed.

Lemma one_member_slot ms (name : string) lo hi z : (forall k u, (k, u) ∈ ms -> exists s, value u s) ->
  one_member ms name (integer_in lo hi z) <-> slot ms (str name) (lo, hi) None (Some z).
Proof.
  intros V. assert (forall v, filter (fun m => m.1 = str name) ms = [(str name, v)] -> exists s, value v s) as VV.
  { intros v E. assert ((str name, v) ∈ ms) as I; [|by eapply V]. assert ((str name, v) ∈ filter (fun m => m.1 = str name) ms) as J by (rewrite E; left).
    by apply elem_of_list_filter in J as [_ J]. }
  unfold one_member, slot. split.
  - intros (v & F & I). right. split; [done|]. exists v, z. split_and!; try done. destruct (VV v F) as (s & S). by eapply int_of_spec.
  - intros [[_ ?]|(_ & v & z' & F & I & E)]; [done|]. injection E as <-. exists v. split; [done|]. destruct (VV v F) as (s & S). by eapply int_of_spec.
Qed.

Lemma object_position ms x y z yaw pitch roll :
  (forall k u, (k, u) ∈ ms -> Forall (fun c => c < 65536) k /\ exists s, value u s) ->
  (fields_of (JObject ms) = Some [x; y; z; yaw; pitch; roll] <-> is_position (JObject ms) x y z yaw pitch roll).
Proof.
  intros V. cbn [fields_of].
  assert ((acc ← fold_fields (replicate 6 None) ms; mapM (M := option) (fun x => x) acc) = Some [x; y; z; yaw; pitch; roll] <->
          fold_fields (replicate 6 None) ms = Some [Some x; Some y; Some z; Some yaw; Some pitch; Some roll]) as ->.
  { destruct (fold_fields _ ms) as [acc|]; [|done]. cbn [mbind option_bind]. split.
    - intros E. f_equal. apply mapM_Some_1 in E.
      repeat match goal with H : Forall2 _ _ (_ :: _) |- _ => apply Forall2_cons_inv_r in H as (? & ? & -> & H & ->) | H : Forall2 _ _ [] |- _ => apply Forall2_nil_inv_r in H as -> end. done.
    - intros E. by injection E as ->. }
  rewrite fold_spec by done.
  assert (forall k u, (k, u) ∈ ms -> unicode k <-> is_Some (key_text k)) as U.
  { intros k u I. destruct (V k u I) as [S _]. rewrite decode16_unicode by done. unfold key_text. destruct (decode16 k); cbn; split; intros []; done. }
  assert (forall k u, (k, u) ∈ ms -> exists s, value u s) as V' by (intros k u I; by destruct (V k u I)).
  unfold is_position, int16, int8. split.
  - intros (K & _ & H). left. exists ms. split; [done|]. split; [intros k u I; apply (U k u I); by apply (K k u)|].
    assert (forall i (name : string) lo hi w, field_names !! i = Some (str name, (lo, hi)) -> (i < 6)%nat ->
      [Some x; Some y; Some z; Some yaw; Some pitch; Some roll] !! i = Some (Some w) -> one_member ms name (integer_in lo hi w)) as G.
    { intros i name lo hi w F Hi A. apply one_member_slot; [done|]. destruct (H i (str name) (lo, hi) None F) as (o' & B & S).
      { by apply lookup_replicate_2. } rewrite A in B. by injection B as <-. }
    split_and!; [apply (G 0%nat)|apply (G 1%nat)|apply (G 2%nat)|apply (G 3%nat)|apply (G 4%nat)|apply (G 5%nat)]; done || lia.
  - intros [(ms' & E & K & H1 & H2 & H3 & H4 & H5 & H6)|(? & ? & ? & ? & ? & ? & ? & _)]; [|done]. injection E as <-.
    split; [intros k u I; apply (U k u I); by apply (K k u)|]. split; [done|]. intros i name range o F A.
    apply lookup_replicate in A as [-> _]. apply one_member_slot in H1, H2, H3, H4, H5, H6; try done.
    do 6 (destruct i as [|i]; [injection F as <- <-; by eexists|]). by destruct i.
Qed.

Lemma array_position l x y z yaw pitch roll : (forall u, u ∈ l -> exists s, value u s) ->
  (fields_of (JArray l) = Some [x; y; z; yaw; pitch; roll] <-> is_position (JArray l) x y z yaw pitch roll).
Proof.
  intros V. cbn [fields_of].
  assert (forall rs l r, fold_elements rs l = Some r <-> Forall2 (fun '(q, v) z => int_of q v = Some z) (zip rs l) r /\ length rs = length l) as G.
  { clear. induction rs as [|q rs IH]; intros [|v l] r; cbn; try (split; [done|]; by intros []).
    - split; [intros E; by injection E as <-|]. intros [F _]. by apply Forall2_nil_inv_l in F as ->.
    - destruct (int_of q v) as [n|] eqn:E; cbn.
      + destruct (fold_elements rs l) as [r'|] eqn:R; cbn.
        * split.
          -- intros X. injection X as <-. apply IH in R as [A B]. split; [by constructor|by f_equal].
          -- intros [A B]. injection B as B. apply Forall2_cons_inv_l in A as (n' & r'' & N & A & ->). rewrite E in N. injection N as ->.
             assert (fold_elements rs l = Some r'') as R' by by apply IH. rewrite R in R'. by injection R' as ->.
        * split; [done|]. intros [A B]. injection B as B. apply Forall2_cons_inv_l in A as (n' & r'' & N & A & ->).
          assert (fold_elements rs l = Some r'') as R' by by apply IH. by rewrite R in R'.
      + split; [done|]. intros [A B]. apply Forall2_cons_inv_l in A as (n' & r'' & N & A & ->). by rewrite E in N. }
  rewrite G. clear G. unfold is_position, int16, int8. split.
  - intros [A B]. right. destruct l as [|v1 [|v2 [|v3 [|v4 [|v5 [|v6 [|]]]]]]]; try done. exists v1, v2, v3, v4, v5, v6. split; [done|].
    assert (forall lo hi v w, v ∈ [v1; v2; v3; v4; v5; v6] -> int_of (lo, hi) v = Some w -> integer_in lo hi w v) as J.
    { intros lo hi v w I E. destruct (V v I) as (s & S). by eapply int_of_spec. }
    cbn in A. repeat match goal with H : Forall2 _ (_ :: _) (_ :: _) |- _ => apply Forall2_cons in H as [? H] end.
    split_and!; (apply J; [set_solver|done]).
  - intros [(? & ? & _)|(v1 & v2 & v3 & v4 & v5 & v6 & E & H1 & H2 & H3 & H4 & H5 & H6)]; [done|]. injection E as ->. split; [|done].
    assert (forall lo hi v w, v ∈ [v1; v2; v3; v4; v5; v6] -> integer_in lo hi w v -> int_of (lo, hi) v = Some w) as J.
    { intros lo hi v w I E. destruct (V v I) as (s & S). by eapply int_of_spec. }
    cbn. repeat constructor; (apply J; [set_solver|done]).
Qed.

Lemma fields_position v t x y z yaw pitch roll : value v t -> fields_of v = Some [x; y; z; yaw; pitch; roll] <-> is_position v x y z yaw pitch roll.
Proof.
  intros H. destruct H as [| | |t H|u t H|w H|l t H|w H|l t H].
  1-5: split; [done|]; intros [(? & ? & _)|(? & ? & ? & ? & ? & ? & ? & _)]; done.
  - apply array_position. by intros u ?%elem_of_nil.
  - apply array_position. by eapply elements_parts.
  - apply object_position. by intros k u ?%elem_of_nil.
  - apply object_position. by eapply members_parts.
Qed.
Lemma fields_six v l : fields_of v = Some l -> length l = 6%nat.
Proof.
  destruct v as [| | | |l'|ms]; cbn [fields_of]; try done.
  - assert (forall rs l r, fold_elements rs l = Some r -> length r = length rs) as G; [|intros E; by apply G in E].
    clear. induction rs as [|q rs IH]; intros [|v l] r; cbn; try done; [intros E; by injection E as <-|].
    destruct (int_of q v); [|done]. cbn. destruct (fold_elements rs l) eqn:R; [|done]. cbn. intros E. injection E as <-. cbn. f_equal. by eapply IH.
  - destruct (fold_fields _ ms) as [acc|] eqn:F; [|done]. cbn [mbind option_bind]. intros M. apply mapM_length in M. apply fold_spec in F as (_ & F & _); [|done]. lia.
Qed.

Section Body.
Context {P : Type} (position_new : Z -> Z -> Z -> Z -> Z -> Z -> P).
Lemma body_accepts v t x y z yaw pitch roll : json_text v t -> is_position v x y z yaw pitch roll -> body_of position_new t = BodyPosition (position_new x y z yaw pitch roll).
Proof.
  intros J I. rewrite (body_read position_new v t J). destruct J as (w & s & w' & _ & H & _). unfold body_result.
  by rewrite (proj2 (fields_position v s x y z yaw pitch roll H) I).
Qed.
Lemma body_refuses v t : json_text v t -> ~ (exists x y z yaw pitch roll, is_position v x y z yaw pitch roll) -> body_of position_new t = BodyInvalid.
Proof.
  intros J N. rewrite (body_read position_new v t J). destruct J as (w & s & w' & _ & H & _). unfold body_result.
  destruct (fields_of v) as [l|] eqn:E; [|done]. pose proof (fields_six v l E) as L.
  destruct l as [|x [|y [|z [|yaw [|pitch [|roll [|]]]]]]]; try done. destruct N. exists x, y, z, yaw, pitch, roll. by eapply fields_position.
Qed.
Lemma body_cases v t : json_text v t ->
  (exists x y z yaw pitch roll, is_position v x y z yaw pitch roll /\ body_of position_new t = BodyPosition (position_new x y z yaw pitch roll)) \/
  (~ (exists x y z yaw pitch roll, is_position v x y z yaw pitch roll) /\ body_of position_new t = BodyInvalid).
Proof.
  intros J. pose proof J as (w & s & w' & _ & H & _). destruct (fields_of v) as [l|] eqn:E.
  - left. pose proof (fields_six v l E) as L. destruct l as [|x [|y [|z [|yaw [|pitch [|roll [|]]]]]]]; try done.
    assert (is_position v x y z yaw pitch roll) as I by by eapply fields_position. exists x, y, z, yaw, pitch, roll. split; [done|]. by eapply body_accepts.
  - right. assert (~ (exists x y z yaw pitch roll, is_position v x y z yaw pitch roll)) as N.
    { intros (x & y & z & yaw & pitch & roll & I). apply (fields_position v s) in I; [|done]. by rewrite E in I. }
    split; [done|]. by eapply body_refuses.
Qed.
End Body.
