(** Proofs about ConsoleLine.v. *)
From Coq Require Import Strings.String.
From Verif Require Import Base Uci MacAddress MacSpec Http Json JsonSpec PyHost Console ConsoleLine ConsoleLineSpec.

(** ** Blanks *)
Definition ink (t : bytes) : Prop := Forall (fun c => is_space c = false /\ c <> 32) t.
Lemma clean_ink t : clean t -> ink t.
Proof.
  induction 1 as [|c t (Hl & Hh & _) _ IH]; constructor; [|done]. unfold is_space. split; [|lia].
  destruct (N.leb_spec 9 c), (N.leb_spec c 13), (N.leb_spec 28 c), (N.leb_spec c 32); simpl; done || lia.
Qed.
Lemma word_ink w : wf_word w -> ink (word_text w) /\ word_text w <> [].
Proof.
  destruct w as [t|k v]; simpl.
  - intros [? ?]. split; [by apply clean_ink|done].
  - intros [?%clean_ink ?%clean_ink]. split; [|by destruct k].
    apply Forall_app; split; [done|]. constructor; [done|done].
Qed.
Lemma skip_repeat n l : skip_spaces (repeat 32 n ++ l) = skip_spaces l.
Proof. induction n; simpl; auto. Qed.
Lemma rev_repeat (n : nat) : rev (repeat 32 n) = repeat 32 n.
Proof. induction n as [|n IH]; [done|]. simpl. rewrite IH. clear IH. induction n; simpl; congruence. Qed.
Lemma rstrip_blanks l n : rstrip (l ++ repeat 32 n) = rstrip l.
Proof. unfold rstrip. by rewrite rev_app_distr, rev_repeat, skip_repeat. Qed.
Lemma rstrip_ink l t : ink t -> t <> [] -> rstrip (l ++ t) = l ++ t.
Proof.
  intros Ht Hne. unfold rstrip. rewrite rev_app_distr.
  destruct (rev t) as [|c r] eqn:E.
  - apply (f_equal (@rev N)) in E. rewrite rev_involutive in E. done.
  - assert (Hc : is_space c = false).
    { assert (Hin : c ∈ t) by (apply elem_of_list_In, in_rev, elem_of_list_In; rewrite E; left).
      unfold ink in Ht. rewrite Forall_forall in Ht. by apply Ht. }
    simpl. rewrite Hc. change (c :: r ++ rev l) with ((c :: r) ++ rev l).
    rewrite <- E, <- rev_app_distr. apply rev_involutive.
Qed.

(** ** Pieces *)
Lemma split_none sep t : Forall (fun c => c <> sep) t -> split_at sep t = [t].
Proof. induction 1 as [|c t Hc _ IH]; simpl; [done|]. apply N.eqb_neq in Hc. by rewrite Hc, IH. Qed.
Lemma split_sep sep t l : Forall (fun c => c <> sep) t -> split_at sep (t ++ sep :: l) = t :: split_at sep l.
Proof.
  induction 1 as [|c t Hc _ IH]; simpl; [by rewrite N.eqb_refl|]. apply N.eqb_neq in Hc. by rewrite Hc, IH.
Qed.
Lemma split_repeat n l : split_at 32 (repeat 32 n ++ l) = repeat [] n ++ split_at 32 l.
Proof. induction n; simpl; congruence. Qed.
Lemma arguments_blanks n ps : arguments (repeat [] n ++ ps) = arguments ps.
Proof. induction n; simpl; auto. Qed.
Lemma arguments_word w ps : wf_word w -> arguments (word_text w :: ps) =
  '(args, kargs) ← arguments ps; Some (match w with Plain t => (t :: args, kargs) | Keyed k v => (args, (k, v) :: kargs) end).
Proof.
  intros Hw. pose proof (word_ink w Hw) as [_ Hne]. simpl. rewrite bool_decide_eq_false_2 by done.
  assert (Hno : forall t, clean t -> Forall (fun c => c <> 61) t) by (intros t Ht; eapply Forall_impl; [exact Ht|simpl; tauto]).
  destruct w as [t|k v]; simpl in *.
  - destruct Hw as [Ht _]. rewrite split_none by auto. destruct (arguments ps) as [[]|]; done.
  - destruct Hw as [Hk Hv]. rewrite split_sep, split_none by auto. destruct (arguments ps) as [[]|]; done.
Qed.

(** The words without the blanks at the end. *)
Inductive trimmed : list word -> bytes -> Prop :=
  | TrEnd : trimmed [] []
  | TrWord n w ws l : wf_word w -> trimmed ws l -> trimmed (w :: ws) (32 :: repeat 32 n ++ word_text w ++ l).
Lemma trim ws l : typed_words ws l -> exists l0 n, l = l0 ++ repeat 32 n /\ trimmed ws l0.
Proof.
  induction 1 as [n|n w ws l Hw _ (l0 & m & -> & IH)].
  - exists [], n. split; [done|constructor].
  - exists (32 :: repeat 32 n ++ word_text w ++ l0), m. split; [|by constructor]. simpl. by rewrite <- !app_assoc.
Qed.
Lemma trimmed_rstrip ws l : trimmed ws l -> forall t, ink t -> t <> [] -> forall l1, rstrip (l1 ++ t ++ l) = l1 ++ t ++ l.
Proof.
  induction 1 as [|n w ws l Hw _ IH]; intros t Ht Hne l1.
  - rewrite app_nil_r. by apply rstrip_ink.
  - destruct (word_ink w Hw) as [Hi Hn]. specialize (IH (word_text w) Hi Hn (l1 ++ t ++ 32 :: repeat 32 n)).
    rewrite <- !app_assoc in IH. simpl in IH. rewrite <- ?app_assoc in IH. exact IH.
Qed.
Lemma ink_blank t : ink t -> Forall (fun c => c <> 32) t.
Proof. intros H. eapply Forall_impl; [exact H|simpl; tauto]. Qed.
Lemma trimmed_split ws l : trimmed ws l -> forall t, ink t -> exists ps, split_at 32 (t ++ l) = t :: ps /\ arguments ps = Some (plain ws, keyed ws).
Proof.
  induction 1 as [|n w ws l Hw _ IH]; intros t Ht.
  - exists []. rewrite app_nil_r. split; [apply split_none, ink_blank, Ht|done].
  - destruct (word_ink w Hw) as [Hi Hn]. destruct (IH (word_text w) Hi) as (ps & E & A).
    exists (repeat [] n ++ word_text w :: ps). split.
    + rewrite split_sep by (by apply ink_blank). by rewrite split_repeat, E.
    + rewrite arguments_blanks, arguments_word, A by done. by destruct w.
Qed.
Section Line.
Context (file : bytes -> option bytes).
Lemma line_typed name ws l : typed name ws l -> line file l =
  if bool_decide (name = str "quit") || bool_decide (name = str "q") then Some Leave
  else match assoc name signatures with
       | None => Some Undefined
       | Some sg => vs ← bind sg (plain ws) (keyed ws); invoke file name vs
       end.
Proof.
  intros (Hc & Hne & l' & -> & Ht). destruct (trim _ _ Ht) as (l0 & n & -> & H0).
  unfold line. rewrite app_assoc, rstrip_blanks.
  rewrite (trimmed_rstrip _ _ H0 name (clean_ink _ Hc) Hne [] : rstrip (name ++ l0) = name ++ l0).
  destruct (trimmed_split _ _ H0 name (clean_ink _ Hc)) as (ps & -> & ->). done.
Qed.
End Line.

(** ** Binding *)
Lemma assoc_none {A} k (l : list (bytes * A)) : k ∉ l.*1 -> assoc k l = None.
Proof.
  unfold assoc. induction l as [|[k' a] l IH]; [done|]. simpl. rewrite not_elem_of_cons. intros [Hne Hn].
  rewrite bool_decide_eq_false_2 by done. auto.
Qed.
Lemma assoc_some {A} k a (l : list (bytes * A)) : NoDup l.*1 -> (k, a) ∈ l -> assoc k l = Some a.
Proof.
  unfold assoc. induction l as [|[k' a'] l IH]; simpl; [by rewrite elem_of_nil|].
  rewrite NoDup_cons, elem_of_cons. intros [Hn Hd] [[= <- <-]|Hin].
  - by rewrite bool_decide_eq_true_2.
  - rewrite bool_decide_eq_false_2; [auto|]. intros ->. apply Hn. apply elem_of_list_fmap. by exists (k, a).
Qed.
Lemma assoc_in {A} k a (l : list (bytes * A)) : assoc k l = Some a -> (k, a) ∈ l.
Proof.
  unfold assoc. induction l as [|[k' a'] l IH]; simpl; [done|]. case_bool_decide; simpl.
  - intros [= ->]. subst. left.
  - intros H1. right. auto.
Qed.
Lemma fst_rev {A B} (l : list (A * B)) : (rev l).*1 = rev l.*1.
Proof. apply map_rev. Qed.
Lemma elem_of_rev {A} (x : A) l : x ∈ rev l <-> x ∈ l.
Proof. rewrite !elem_of_list_In, <- in_rev. done. Qed.
Lemma bind_params_ok params : forall args (kargs : list (bytes * bytes)) vs,
  length vs = length params -> (length args <= length params)%nat -> NoDup kargs.*1 ->
  (forall i p, (i < length args)%nat -> params !! i = Some p -> p.1 ∉ kargs.*1) ->
  (forall i v, vs !! i = Some v -> args !! i = Some v
     \/ (length args <= i)%nat /\ exists name value, params !! i = Some (name, value) /\ ((name, v) ∈ kargs \/ name ∉ kargs.*1 /\ value = Some v)) ->
  bind_params params args kargs = Some vs.
Proof.
  induction params as [|[name value] params IH]; intros args kargs vs Hl Ha Hd Hf Hv.
  - destruct vs; [|done]. destruct args; [done|simpl in *; lia].
  - destruct vs as [|v vs]; [done|]. simpl in Hl. destruct args as [|a args]; simpl.
    + assert (match assoc name (rev kargs) with Some v => Some v | None => value end = Some v) as ->.
      { destruct (Hv 0%nat v eq_refl) as [?|(_ & n' & v' & [= <- <-] & [Hin|[Hn ->]])]; [done| |].
        - rewrite (assoc_some name v); [done| |by apply elem_of_rev].
          rewrite fst_rev. apply NoDup_ListNoDup, NoDup_rev, NoDup_ListNoDup, Hd.
        - rewrite assoc_none; [done|]. by rewrite fst_rev, elem_of_rev. }
      simpl. rewrite (IH [] kargs vs); [done|lia|simpl; lia|done| |].
      * intros i p Hi. simpl in Hi. lia.
      * intros i u Hi. right. destruct (Hv (S i) u Hi) as [?|(_ & H1)]; [done|]. split; [simpl; lia|exact H1].
    + rewrite assoc_none by (apply (Hf 0%nat (name, value)); simpl; [lia|done]).
      destruct (Hv 0%nat v eq_refl) as [[= <-]|[Hi _]]; [|simpl in Hi; lia].
      simpl in *. rewrite (IH args kargs vs); [done|lia|lia|done| |].
      * intros i p Hi. apply (Hf (S i) p). lia.
      * intros i u Hi. destruct (Hv (S i) u Hi) as [?|(? & H1)]; [by left|]. right. split; [lia|exact H1].
Qed.
Lemma manual_signatures : map (fun x => (x.1, sg_params x.2)) signatures = manual.
Proof. vm_compute. reflexivity. Qed.
Lemma manual_names : bool_decide (NoDup manual.*1) = true.
Proof. vm_compute. reflexivity. Qed.
Lemma manual_self : forallb (fun x => negb (bool_decide (str "self" ∈ x.2.*1))) manual = true.
Proof. vm_compute. reflexivity. Qed.
Lemma manual_quit : bool_decide (str "quit" ∉ manual.*1 /\ str "q" ∉ manual.*1) = true.
Proof. vm_compute. reflexivity. Qed.
Lemma signature_names : signatures.*1 = manual.*1.
Proof. vm_compute. reflexivity. Qed.
Lemma manual_entry name params : (name, params) ∈ manual -> exists sg, assoc name signatures = Some sg /\ sg_params sg = params.
Proof.
  rewrite <- manual_signatures. rewrite elem_of_list_fmap. intros ([n sg] & [= -> ->] & Hin).
  exists sg. split; [|done]. apply assoc_some; [|done]. rewrite signature_names.
  apply (bool_decide_eq_true_1 _ manual_names).
Qed.
Lemma not_quit name params : (name, params) ∈ manual -> bool_decide (name = str "quit") || bool_decide (name = str "q") = false.
Proof.
  intros Hin. assert (Hm : name ∈ manual.*1) by (apply elem_of_list_fmap; by exists (name, params)).
  destruct (bool_decide_eq_true_1 _ manual_quit) as [Hq Hq'].
  rewrite !bool_decide_eq_false_2; [done| |]; intros ->; done.
Qed.
Lemma not_self name params : (name, params) ∈ manual -> str "self" ∉ params.*1.
Proof.
  intros Hin. pose proof manual_self as Hs. rewrite forallb_forall in Hs.
  specialize (Hs _ (proj1 (elem_of_list_In _ _) Hin)). simpl in Hs. apply negb_true_iff in Hs.
  by apply bool_decide_eq_false_1 in Hs.
Qed.
Lemma bind_ok name sg ws vs : (name, sg_params sg) ∈ manual -> supplied (sg_params sg) ws vs -> bind sg (plain ws) (keyed ws) = Some vs.
Proof.
  intros Hin (Hl & Hp & Hd & Hk & Hf & Hv). unfold bind.
  rewrite assoc_none by (intros Hs; by apply (not_self _ _ Hin), Hk).
  assert (forallb (fun kv : bytes * bytes => bool_decide (kv.1 ∈ (sg_params sg).*1)) (keyed ws) = true) as ->.
  { apply forallb_forall. intros kv Hkv. apply bool_decide_eq_true_2, Hk, elem_of_list_fmap. exists kv. split; [done|].
    by apply elem_of_list_In. }
  rewrite orb_true_r. by apply bind_params_ok.
Qed.

(** ** Values *)
Lemma py_digits_ok ds : forall acc, digits ds -> py_digits 10 acc false ds = Some (fold_left (fun v c => 10 * v + (c - 48)) ds acc).
Proof.
  induction ds as [|c ds IH]; intros acc Hd; [done|]. inversion Hd as [|? ? Hc Hds]; subst.
  simpl. assert (c =? 95 = false) as -> by (apply N.eqb_neq; lia).
  assert (hex_val c = Some (c - 48)) as ->.
  { unfold hex_val. destruct (N.leb_spec 48 c), (N.leb_spec c 57); simpl; done || lia. }
  assert (c - 48 <? 10 = true) as -> by (apply N.ltb_lt; lia). apply IH, Hds.
Qed.
Lemma py_digits_first ds : digits ds -> ds <> [] -> py_digits 10 0 true ds = Some (digits_to_N ds).
Proof.
  destruct ds as [|c ds]; [done|]. intros Hd _. inversion Hd as [|? ? Hc Hds]; subst. unfold digits_to_N.
  rewrite <- (py_digits_ok (c :: ds) 0 Hd). simpl.
  assert (c =? 95 = false) as -> by (apply N.eqb_neq; lia). done.
Qed.
Lemma strip_ink t : ink t -> t <> [] -> strip t = t.
Proof.
  intros Hi Hn. unfold strip. destruct t as [|c t]; [done|]. inversion Hi as [|? ? [Hc _] ?]; subst. simpl. rewrite Hc.
  apply (rstrip_ink [] (c :: t)); done.
Qed.
Lemma digits_ink ds : digits ds -> ink ds.
Proof.
  intros H. eapply Forall_impl; [exact H|]. intros c Hc. simpl in Hc. unfold is_space. split; [|lia].
  destruct (N.leb_spec 9 c), (N.leb_spec c 13), (N.leb_spec 28 c), (N.leb_spec c 32); simpl; done || lia.
Qed.
Lemma py_int_ok t z : integer_value t z -> py_int 10 t = Some z.
Proof.
  intros (ds & Hd & Hn & [[-> ->]|[-> ->]]); unfold py_int, py_prefix.
  - rewrite strip_ink by (by try apply digits_ink). change (10 =? 16) with false. cbv iota beta.
    destruct ds as [|c ds']; [done|]. pose proof (py_digits_first _ Hd Hn) as E. inversion Hd as [|? ? Hc ?]; subst.
    destruct (decide (c = 45)) as [->|]; [lia|]. destruct (decide (c = 43)) as [->|]; [lia|].
    transitivity (n ← py_digits 10 0 true (c :: ds'); Some (Z.of_N n)); [|by rewrite E].
    clear E Hd Hn. destruct c as [|p]; [done|]. do 6 (destruct p as [p|p|]; try reflexivity; try congruence).
  - rewrite strip_ink; [| |done].
    + change (10 =? 16) with false. cbv iota beta. by rewrite py_digits_first.
    + constructor; [done|by apply digits_ink].
Qed.
Lemma upper_val x a : upper_digits !! N.to_nat x = Some a -> hex_val a = Some x /\ x < 16 /\ 48 <= a <= 70 /\ a <> 58 /\ a <> 95.
Proof.
  intros H. assert (Hx : x < 16).
  { apply lookup_lt_Some in H. change (length upper_digits) with 16%nat in H. lia. }
  assert (Hr : x = 0 \/ x = 1 \/ x = 2 \/ x = 3 \/ x = 4 \/ x = 5 \/ x = 6 \/ x = 7 \/ x = 8 \/ x = 9 \/ x = 10 \/ x = 11
               \/ x = 12 \/ x = 13 \/ x = 14 \/ x = 15) by lia.
  repeat destruct Hr as [->|Hr]; try subst x; injection H as <-; vm_compute; repeat split; congruence.
Qed.
Lemma py_int_pair x y a b : upper_digits !! N.to_nat x = Some a -> upper_digits !! N.to_nat y = Some b ->
  (z ← py_int 16 [a; b]; n ← py_unsigned z; if n <? 256 then Some n else None) = Some (16 * x + y).
Proof.
  intros (Ex & Hx & Ha & Ha' & Ha'')%upper_val (Ey & Hy & Hb & Hb' & Hb'')%upper_val.
  assert (E : py_int 16 [a; b] = Some (Z.of_N (16 * x + y))).
  { unfold py_int. rewrite strip_ink; [| |done].
    - assert (P : py_prefix 16 [a; b] = [a; b]).
      { unfold py_prefix. simpl. destruct (decide (b = 120)) as [->|]; [lia|]. destruct (decide (b = 88)) as [->|]; [lia|].
        destruct a as [|p]; [done|]. do 6 (destruct p as [p|p|]; try reflexivity).
        destruct b as [|p]; [done|]. do 7 (destruct p as [p|p|]; try reflexivity; try congruence). }
      transitivity (n ← py_digits 16 0 true (py_prefix 16 [a; b]); Some (Z.of_N n)).
      { destruct (decide (a = 45)) as [->|]; [lia|]. destruct (decide (a = 43)) as [->|]; [lia|].
        clear P Ex Ey. destruct a as [|p]; [done|]. do 6 (destruct p as [p|p|]; try reflexivity; try congruence). }
      rewrite P. unfold py_digits. rewrite Ex, Ey.
      apply N.eqb_neq in Ha'', Hb''. rewrite Ha'', Hb''. apply N.ltb_lt in Hx, Hy. rewrite Hx, Hy. simpl. reflexivity.
    - assert (forall c, 48 <= c <= 70 -> is_space c = false /\ c <> 32).
      { intros c Hc. unfold is_space. split; [|lia].
        destruct (N.leb_spec 9 c), (N.leb_spec c 13), (N.leb_spec 28 c), (N.leb_spec c 32); simpl; done || lia. }
      repeat constructor; auto; by apply H. }
  rewrite E. change (Some (Z.of_N (16 * x + y)) ≫= ?f) with (f (Z.of_N (16 * x + y))).
  assert (py_unsigned (Z.of_N (16 * x + y)) = Some (16 * x + y)) as Hu.
  { unfold py_unsigned. destruct (Z.ltb_spec (Z.of_N (16 * x + y)) 0); [lia|]. by rewrite N2Z.id. }
  cbv beta. rewrite Hu. change (Some (16 * x + y) ≫= ?f) with (f (16 * x + y)). cbv beta.
  destruct (N.ltb_spec (16 * x + y) 256); [done|lia].
Qed.
Lemma parse_mac_ok dst t : printed dst t -> parse_mac_address t = Some dst.
Proof.
  unfold parse_mac_address. induction 1 as [x y a b Hx Hy|x y a b l s Hx Hy _ IH].
  - pose proof (upper_val _ _ Hx) as (_ & _ & _ & Ha & _). pose proof (upper_val _ _ Hy) as (_ & _ & _ & Hb & _).
    rewrite split_none by (repeat constructor; done). cbn [mapM]. by rewrite (py_int_pair x y).
  - pose proof (upper_val _ _ Hx) as (_ & _ & _ & Ha & _). pose proof (upper_val _ _ Hy) as (_ & _ & _ & Hb & _).
    change (a :: b :: 58 :: s) with ([a; b] ++ CH_COLON :: s).
    rewrite split_sep by (repeat constructor; done). cbn [mapM]. rewrite (py_int_pair x y) by done. simpl. by rewrite IH.
Qed.
Lemma printed_comma dst t : printed dst t -> Forall (fun c => c <> 44) t /\ t <> [].
Proof.
  induction 1 as [x y a b Hx Hy|x y a b l s Hx Hy _ [IH _]]; (split; [|done]);
    pose proof (upper_val _ _ Hx); pose proof (upper_val _ _ Hy); repeat constructor; try lia; done.
Qed.
Lemma addresses_ok dst t : addresses dst t ->
  mapM parse_mac_address (List.filter (fun a => negb (bool_decide (a = []))) (split_at 44 t)) = Some dst.
Proof.
  intros (ts & Hts & ->). induction Hts as [|d t dst ts Hd Hts IH]; [done|].
  destruct (printed_comma _ _ Hd) as [Hc Hn]. pose proof (parse_mac_ok _ _ Hd) as Hp.
  destruct ts as [|t' ts].
  - inversion Hts; subst. simpl. rewrite split_none by done. simpl. rewrite bool_decide_eq_false_2 by done. simpl. by rewrite Hp.
  - change (commas (t :: t' :: ts)) with (t ++ 44 :: commas (t' :: ts)). rewrite split_sep by done.
    simpl List.filter. rewrite bool_decide_eq_false_2 by done. cbn [negb mapM]. rewrite Hp. simpl. simpl in IH. by rewrite IH.
Qed.
Lemma invoke_ok file name vs a : stands file name vs a -> invoke file (str name) vs = Some a.
Proof.
  intros H.
  destruct H; repeat match goal with
    | H : integer_value _ _ |- _ => apply py_int_ok in H
    | H : printed _ _ |- _ => apply parse_mac_ok in H
    | H : addresses _ _ |- _ => apply addresses_ok in H
    end; unfold invoke;
  repeat match goal with |- context [named ?x ?y] => let r := eval vm_compute in (named x y) in change (named x y) with r end; cbv iota;
  repeat match goal with H : _ = Some _ |- _ => rewrite H; clear H; simpl end; try done.
Qed.

(** ** Words which are not used, and lines which end the console *)
Lemma assoc_skip {A} n k (v : A) l1 l2 : n <> k -> assoc n (l1 ++ (k, v) :: l2) = assoc n (l1 ++ l2).
Proof.
  intros Hn. unfold assoc. rewrite !omap_app. simpl. by rewrite bool_decide_eq_false_2 by done.
Qed.
Lemma bind_params_ext params : forall args (k1 k2 : list (bytes * bytes)),
  (forall n, n ∈ params.*1 -> assoc n k1 = assoc n k2 /\ assoc n (rev k1) = assoc n (rev k2)) ->
  bind_params params args k1 = bind_params params args k2.
Proof.
  induction params as [|[name value] params IH]; intros args k1 k2 H; [done|]. simpl.
  destruct (H name) as [E1 E2]; [left|]. destruct args as [|a args].
  - rewrite E2. rewrite (IH [] k1 k2); [done|]. intros n Hn. apply H. by right.
  - rewrite E1. rewrite (IH args k1 k2); [done|]. intros n Hn. apply H. by right.
Qed.
Lemma kargs_true : forallb (fun x => sg_kargs x.2 || bool_decide (x.1 = str "data_transfer")) signatures = true.
Proof. vm_compute. reflexivity. Qed.
Lemma bind_ignored name sg args l1 k v l2 : assoc name signatures = Some sg -> name <> str "data_transfer" ->
  k ∉ (sg_params sg).*1 -> k <> str "self" -> bind sg args (l1 ++ (k, v) :: l2) = bind sg args (l1 ++ l2).
Proof.
  intros Ha Hd Hk Hs. unfold bind. rewrite assoc_skip by done.
  assert (sg_kargs sg = true) as ->.
  { pose proof kargs_true as Ht. rewrite forallb_forall in Ht. apply assoc_in, elem_of_list_In in Ha. specialize (Ht _ Ha).
    simpl in Ht. rewrite (bool_decide_eq_false_2 _ Hd), orb_false_r in Ht. done. }
  simpl. rewrite (bind_params_ext (sg_params sg) args (l1 ++ (k, v) :: l2) (l1 ++ l2)); [done|].
  intros n Hn. assert (n <> k) by (intros ->; done). split; [by apply assoc_skip|].
  rewrite !rev_app_distr. simpl. rewrite <- app_assoc. simpl. by apply assoc_skip.
Qed.
Lemma plain_app ws1 ws2 : plain (ws1 ++ ws2) = plain ws1 ++ plain ws2.
Proof. apply omap_app. Qed.
Lemma keyed_app ws1 ws2 : keyed (ws1 ++ ws2) = keyed ws1 ++ keyed ws2.
Proof. apply omap_app. Qed.
Lemma bind_params_some params : forall args (kargs : list (bytes * bytes)) vs, bind_params params args kargs = Some vs ->
  (length args <= length params)%nat /\ (forall i p, (i < length args)%nat -> params !! i = Some p -> p.1 ∉ kargs.*1)
  /\ (forall i name, (length args <= i)%nat -> params !! i = Some (name, None) -> name ∈ kargs.*1).
Proof.
  induction params as [|[name value] params IH]; intros args kargs vs H; simpl in H.
  - destruct args; [|done]. split; [simpl; lia|]. split; intros; done.
  - destruct args as [|a args].
    + split; [simpl; lia|]. split; [intros i p Hi; simpl in Hi; lia|].
      destruct (assoc name (rev kargs)) as [v|] eqn:E.
      * simpl in H. destruct (bind_params params [] kargs) as [vs'|] eqn:Eb; [|done].
        intros [|i] n Hi Hp; [|apply (proj2 (proj2 (IH [] kargs vs' Eb)) i); [simpl; lia|done]].
        injection Hp as <- _. apply assoc_in in E. rewrite elem_of_rev in E. apply elem_of_list_fmap. by eexists (_, v).
      * destruct value as [value|]; [|done]. simpl in H. destruct (bind_params params [] kargs) as [vs'|] eqn:Eb; [|done].
        intros [|i] n Hi Hp; [done|]. apply (proj2 (proj2 (IH [] kargs vs' Eb)) i); [simpl; lia|done].
    + destruct (assoc name kargs) as [|] eqn:E; [done|].
      destruct (bind_params params args kargs) as [vs'|] eqn:Eb; [|done].
      destruct (IH args kargs vs' Eb) as (H1 & H2 & H3). split; [simpl; lia|]. split.
      * intros [|i] p Hi Hp; [|apply (H2 i); [simpl in Hi; lia|done]]. injection Hp as <-. simpl. intros Hin.
        apply elem_of_list_fmap in Hin as ([n v] & -> & Hin). simpl in *.
        unfold assoc in E. clear -E Hin. induction kargs as [|[n' v'] kargs IHk]; [by apply elem_of_nil in Hin|].
        simpl in E. case_bool_decide; [done|]. apply elem_of_cons in Hin as [[= <- <-]|Hin]; [done|]. auto.
      * intros [|i] n Hi Hp; [simpl in Hi; lia|]. apply (H3 i); [simpl in Hi; lia|done].
Qed.
