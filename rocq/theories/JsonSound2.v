(** What the reader accepts is a position in JSON. *)
From Coq Require Import Strings.String Strings.Ascii.
From Verif Require Import Base Uci MacAddress Pica Http Json JsonSpec JsonFacts JsonUnique JsonRead JsonRead2 JsonBody JsonSound.

Lemma prepend_got s x y r : prepend s x = Got y r -> exists y', x = Got y' r.
Proof. destruct x as [a t| |]; cbn; try done. intros E. injection E as _ <-. by exists a. Qed.
Lemma hex4_some a b c d n : hex4 a b c d = Some n -> is_Some (hex_val a) /\ is_Some (hex_val b) /\ is_Some (hex_val c) /\ is_Some (hex_val d).
Proof.
  unfold hex4. destruct (hex_val a); [|done]. cbn. destruct (hex_val b); [|done]. cbn. destruct (hex_val c); [|done]. cbn. destruct (hex_val d); [|done]. done.
Qed.
Lemma hex_ignore key st a b c d n t : hex4 a b c d = Some n ->
  ignore_value (SkString key) st (92 :: 117 :: a :: b :: c :: d :: t) = ignore_value (SkString key) st t.
Proof.
  intros ((va & Ha) & (vb & Hb) & (vc & Hc) & (vd & Hd))%hex4_some. cbn [ignore_value skip_step]. change (92 =? 34) with false. change (92 =? 92) with true. cbn iota.
  cbn [ignore_value skip_step]. change (simple_escape 117) with (None : option N). change (117 =? 117) with true. cbn iota. cbn [ignore_value skip_step]. by rewrite Ha, Hb, Hc, Hd.
Qed.
Lemma chars_ignore t x r : parse_chars t = Got x r -> ignore_value (SkString false) [] t = Got tt r.
Proof.
  remember (length t) as n eqn:En. revert t x En. induction (lt_wf n) as [n _ IH]. intros t x -> H.
  destruct t as [|c t]; [done|]. cbn [parse_chars] in H. destruct (c =? 34) eqn:C34.
  { apply N.eqb_eq in C34 as ->. by injection H as <- <-. }
  destruct (c =? 92) eqn:C92.
  - apply N.eqb_eq in C92 as ->. destruct t as [|e t]; [done|]. destruct (simple_escape e) as [d|] eqn:S.
    + apply prepend_got in H as (y & H). cbn [ignore_value skip_step]. change (92 =? 34) with false. change (92 =? 92) with true. cbn iota. cbn [ignore_value skip_step]. rewrite S.
      eapply (IH (length t)); [cbn; lia|done|done].
    + destruct (e =? 117) eqn:E; [|done]. apply N.eqb_eq in E as ->. destruct t as [|h1 [|h2 [|h3 [|h4 t]]]]; try done.
      destruct (hex4 h1 h2 h3 h4) as [v|] eqn:X; [|done]. rewrite (hex_ignore false [] h1 h2 h3 h4 v t X).
      destruct (low_surrogate v); [done|]. destruct (high_surrogate v).
      * destruct t as [|b t]; [done|]. destruct (b =? 92) eqn:B; [|done]. apply N.eqb_eq in B as ->. destruct t as [|e t]; [done|]. destruct (e =? 117) eqn:E; [|done]. apply N.eqb_eq in E as ->.
        destruct t as [|g1 [|g2 [|g3 [|g4 t]]]]; try done. destruct (hex4 g1 g2 g3 g4) as [v2|] eqn:X2; [|done]. rewrite (hex_ignore false [] g1 g2 g3 g4 v2 t X2).
        destruct (low_surrogate v2); [|done]. apply prepend_got in H as (y & H). eapply (IH (length t)); [cbn; lia|done|done].
      * apply prepend_got in H as (y & H). eapply (IH (length t)); [cbn; lia|done|done].
  - destruct (c <? 32) eqn:C32; [done|]. apply prepend_got in H as (y & H). cbn [ignore_value skip_step]. rewrite C34, C92, C32. eapply (IH (length t)); [cbn; lia|done|done].
Qed.
Lemma str_sound t x r : utf8_text t -> parse_str t = Got x r -> exists u s, chars u s /\ t = s ++ 34 :: r /\ utf8_text r.
Proof.
  intros U H. unfold parse_str in H. destruct (parse_chars t) as [y r'| |] eqn:P; try done. cbn in H. destruct (utf8_valid y); [|done]. injection H as _ ->.
  apply chars_ignore in P. apply string_sound in P as (u & s & t' & C & -> & T & A); [|done]. cbn in A. injection A as ->. by exists u, s.
Qed.

Lemma exponent_digits t : ignore_value SkExponent [] t = Got tt (skip_digits t).
Proof. induction t as [|c t IH]; [done|]. cbn [ignore_value skip_step skip_digits]. by destruct (is_digit c). Qed.
Lemma exponent_ignore t z r : parse_exponent t = Got z r -> ignore_value SkE [] t = Got tt r.
Proof.
  unfold parse_exponent. destruct t as [|c t]; [done|]. cbn [ignore_value skip_step]. destruct ((c =? 43) || (c =? 45)).
  - destruct t as [|d t]; [done|]. cbn [ignore_value skip_step]. destruct (is_digit d); [|done]. intros H. injection H as _ <-. apply exponent_digits.
  - destruct (is_digit c); [|done]. intros H. injection H as _ <-. apply exponent_digits.
Qed.
Lemma fraction_digits t : ignore_value SkFraction [] t = match skip_digits t with e :: v => if is_exponent e then ignore_value SkE [] v else Got tt (e :: v) | [] => Got tt [] end.
Proof.
  induction t as [|c t IH]; [done|]. cbn [ignore_value skip_step skip_digits]. destruct (is_digit c); [done|]. unfold sk_number. cbn [andb]. by destruct (is_exponent c).
Qed.
Lemma decimal_ignore t z r : parse_decimal t = Got z r -> ignore_value SkDot [] t = Got tt r.
Proof.
  unfold parse_decimal. destruct t as [|c t]; [done|]. cbn [ignore_value skip_step]. destruct (is_digit c); [|done]. rewrite fraction_digits.
  destruct (skip_digits t) as [|e v]; [intros H; by injection H as _ <-|]. destruct (is_exponent e); [apply exponent_ignore|]. intros H. by injection H as _ <-.
Qed.
Definition ignore_tail (t : bytes) : res unit :=
  match t with c :: u => if c =? 46 then ignore_value SkDot [] u else if is_exponent c then ignore_value SkE [] u else Got tt t | [] => Got tt [] end.
Lemma number_ignore positive n t z r : parse_number positive n t = Got z r -> ignore_tail t = Got tt r.
Proof.
  unfold parse_number, ignore_tail. destruct t as [|c t]; [intros H; by injection H as _ <-|]. destruct (c =? 46); [apply decimal_ignore|].
  destruct (is_exponent c); [apply exponent_ignore|]. intros H. by injection H as _ <-.
Qed.
Lemma int_digits t : ignore_value SkInt [] t = ignore_tail (skip_digits t).
Proof.
  induction t as [|c t IH]; [done|]. cbn [ignore_value skip_step skip_digits]. destruct (is_digit c); [done|]. unfold sk_number, ignore_tail. cbn [andb].
  destruct (c =? 46); [done|]. by destruct (is_exponent c).
Qed.
Lemma integer_ignore positive t z r : parse_integer positive t = Got z r -> ignore_value SkSign [] t = Got tt r.
Proof.
  unfold parse_integer. destruct t as [|c t]; [done|]. cbn [ignore_value skip_step]. destruct (c =? 48).
  - destruct t as [|d t]; [intros H; apply number_ignore in H; done|]. destruct (is_digit d) eqn:D; [done|]. intros H. apply number_ignore in H. cbn [ignore_value skip_step]. rewrite D.
    unfold sk_number. cbn [andb]. unfold ignore_tail in H. destruct (d =? 46); [done|]. by destruct (is_exponent d).
  - destruct (is_digit c); [|done]. intros H. apply number_ignore in H. by rewrite int_digits.
Qed.
Lemma invalid_type_not {A} t (x : A) r : invalid_type t <> Got x r.
Proof.
  destruct t as [|c u]; [done|]. cbn [invalid_type]. repeat case_match; try done.
  all: match goal with |- and_then ?e _ <> _ => destruct e; done end.
Qed.
Lemma value_spaces t : t = [] \/ ignore_value SkValue [] t = ignore_value SkValue [] (skip_spaces t).
Proof.
  right. induction t as [|c t IH]; [done|]. cbn [skip_spaces]. destruct (is_space c) eqn:S; [|done]. cbn [ignore_value skip_step]. by rewrite S.
Qed.
Lemma int_ignore range t z r : deserialize_int range t = Got z r -> ignore_value SkValue [] t = Got tt r.
Proof.
  unfold deserialize_int. destruct (value_spaces t) as [->|E]; [done|]. rewrite E. destruct (skip_spaces t) as [|c u] eqn:SS; [done|]. pose proof (skip_head _ _ _ SS) as S.
  cbn [ignore_value skip_step]. rewrite S. destruct (c =? 45) eqn:M.
  - apply N.eqb_eq in M as ->. destruct (parse_integer false u) as [n r'| |] eqn:P; try done. cbn [and_then]. intros H.
    assert (r' = r) as -> by (destruct n as [n|]; [|done]; destruct ((range.1 <=? n)%Z && (n <=? range.2)%Z); [by injection H|done]).
    by apply integer_ignore in P.
  - destruct (is_digit c) eqn:D.
    + destruct (parse_integer true (c :: u)) as [n r'| |] eqn:P; try done. cbn [and_then]. intros H.
      assert (r' = r) as -> by (destruct n as [n|]; [|done]; destruct ((range.1 <=? n)%Z && (n <=? range.2)%Z); [by injection H|done]).
      apply integer_ignore in P. cbn [ignore_value skip_step] in P. rewrite D in P. pose proof D as D'. apply digit_spec in D'.
      unfold sk_value. replace (c =? 110) with false by lia. replace (c =? 116) with false by lia. replace (c =? 102) with false by lia. replace (c =? 45) with false by lia. rewrite D.
      by destruct (c =? 48).
    + intros H. by apply invalid_type_not in H.
Qed.
Lemma int_sound' range t z r : utf8_text t -> deserialize_int range t = Got z r -> exists w v s, spaces w /\ value v s /\ t = w ++ s ++ r /\ utf8_text r.
Proof. intros U H. apply ignore_sound; [done|]. by eapply int_ignore. Qed.

Lemma utf8_skip t : utf8_text t -> utf8_text (skip_spaces t).
Proof. intros U. destruct (skip_spaces_spec t) as (w & W & E). rewrite E in U. eapply utf8_rest; [by apply spaces_ascii|done]. Qed.
Definition map_key (fuel : nat) (acc : position_fields) (t : bytes) : res position_fields :=
  match t with
  | [] => Eof
  | c :: u =>
      if c =? 34 then
        and_then (parse_str u) (fun name u =>
        let value := fun (read : bytes -> res position_fields) =>
          match skip_spaces u with
          | [] => Eof
          | c :: u => if c =? 58 then and_then (read u) (visit_map fuel false) else Bad
          end in
        match field_index field_names name with
        | Some (i, range) =>
            match acc !! i with
            | Some (Some _) => Bad
            | _ => value (fun u => and_then (deserialize_int range u) (fun z => Got (<[i := Some z]> acc)))
            end
        | None => value (fun u => and_then (ignore_value SkValue [] u) (fun _ => Got acc))
        end)
      else Bad
  end.
Lemma visit_map_eq fuel first acc t : visit_map (S fuel) first acc t =
  match skip_spaces t with
  | [] => Eof
  | c :: u => if c =? 125 then Got acc u else if first then map_key fuel acc (c :: u) else if c =? 44 then map_key fuel acc (skip_spaces u) else Bad
  end.
Proof. reflexivity. Qed.
Definition seq_element (range : Z * Z) (ranges : list (Z * Z)) (t : bytes) : res (list Z) :=
  match t with
  | [] => Eof
  | c :: _ =>
      if c =? 93 then Bad
      else and_then (deserialize_int range t) (fun z u => and_then (visit_seq false ranges u) (fun l => Got (z :: l)))
  end.
Lemma visit_seq_eq first range ranges t : visit_seq first (range :: ranges) t =
  match skip_spaces t with
  | [] => Eof
  | c :: u => if c =? 93 then Bad else if first then seq_element range ranges (c :: u) else if c =? 44 then seq_element range ranges (skip_spaces u) else Bad
  end.
Proof. reflexivity. Qed.
(** The members of the object. *)
Lemma map_sound fuel first acc t acc' r : utf8_text t -> visit_map fuel first acc t = Got acc' r ->
  exists w, spaces w /\ utf8_text r /\
    (t = w ++ 125 :: r \/ exists ms s, members ms s /\ t = (if first : bool then s else w ++ 44 :: s) ++ 125 :: r).
Proof.
  revert first acc t. induction fuel as [|fuel IH]; intros first acc t U H; [done|]. rewrite visit_map_eq in H.
  destruct (skip_spaces_spec t) as (w & W & E). pose proof (utf8_skip _ U) as U1. destruct (skip_spaces t) as [|c u] eqn:SS; [done|]. destruct (c =? 125) eqn:C125.
  { apply N.eqb_eq in C125 as ->. injection H as _ <-. exists w. split; [done|]. split; [by eapply utf8_tail|]. by left. }
  assert (forall t1, utf8_text t1 -> map_key fuel acc t1 = Got acc' r -> exists ms s, members ms s /\ t1 = s ++ 125 :: r /\ utf8_text r) as K.
  { clear -IH. intros t1 U H. unfold map_key in H. destruct t1 as [|c u]; [done|]. destruct (c =? 34) eqn:C; [|done]. apply N.eqb_eq in C as ->. apply utf8_tail in U; [|done].
    destruct (parse_str u) as [name u1| |] eqn:P; try done. cbn [and_then] in H. apply str_sound in P as (k & s & Ck & -> & U1); [|done].
    destruct (skip_spaces_spec u1) as (w1 & W1 & E1). pose proof (utf8_skip _ U1) as U2.
    assert (exists c u2 (read : bytes -> res position_fields), skip_spaces u1 = c :: u2 /\ c = 58 /\ and_then (read u2) (visit_map fuel false) = Got acc' r /\
      (forall a r', read u2 = Got a r' -> exists w v s, spaces w /\ value v s /\ u2 = w ++ s ++ r' /\ utf8_text r')) as (c & u2 & read & SS & -> & Hr & Rd).
    { destruct (field_index field_names name) as [[i range]|].
      - assert (match skip_spaces u1 with [] => Eof | c :: u2 => if c =? 58 then and_then (and_then (deserialize_int range u2) (fun z => Got (<[i := Some z]> acc))) (visit_map fuel false) else Bad end = Got acc' r) as H' by (destruct (acc !! i) as [[]|]; done).
        destruct (skip_spaces u1) as [|c u2]; [done|]. destruct (c =? 58) eqn:C; [|done]. apply N.eqb_eq in C as ->.
        eexists _, _, (fun u2 => and_then (deserialize_int range u2) (fun z => Got (<[i := Some z]> acc))). split; [done|]. split; [done|]. split; [done|].
        intros a r' G. destruct (deserialize_int range u2) as [z r''| |] eqn:D; try done. cbn in G. injection G as _ ->. eapply int_sound'; [|done]. by eapply utf8_tail.
      - destruct (skip_spaces u1) as [|c u2]; [done|]. destruct (c =? 58) eqn:C; [|done]. apply N.eqb_eq in C as ->.
        eexists _, _, (fun u2 => and_then (ignore_value SkValue [] u2) (fun _ => Got acc)). split; [done|]. split; [done|]. split; [done|].
        intros a r' G. destruct (ignore_value SkValue [] u2) as [[] r''| |] eqn:D; try done. cbn in G. injection G as _ ->. eapply ignore_sound; [|done]. by eapply utf8_tail. }
    rewrite SS in E1. subst u1. destruct (read u2) as [a r'| |] eqn:R; try done. cbn [and_then] in Hr. destruct (Rd _ _ eq_refl) as (w2 & v & s2 & W2 & V & -> & U3).
    apply IH in Hr as (w3 & W3 & Ur & [->|(ms & s3 & Ms & ->)]); [..|done].
    - exists [(k, v)], ([] ++ (34 :: s ++ 34 :: w1 ++ 58 :: w2 ++ s2) ++ w3). split; [constructor; [constructor|by constructor|done]|]. split; [|done].
      cbn. f_equal. rewrite <-!app_assoc. cbn. f_equal. f_equal. rewrite <-!app_assoc. cbn. f_equal. f_equal. by rewrite <-!app_assoc.
    - exists ((k, v) :: ms), ([] ++ (34 :: s ++ 34 :: w1 ++ 58 :: w2 ++ s2) ++ w3 ++ 44 :: s3). split; [constructor; [constructor|by constructor|done..]|]. split; [|done].
      cbn. f_equal. rewrite <-!app_assoc. cbn. f_equal. f_equal. rewrite <-!app_assoc. cbn. f_equal. f_equal. by rewrite <-!app_assoc. }
  destruct first.
  - apply K in H as (ms & s & Ms & Es & Ur); [|done]. exists w. split; [done|]. split; [done|]. right. rewrite Es in E.
    inversion Ms as [k v w1 s1 w2 W1 M W2|k v w1 s1 w2 l s' W1 M W2 L]; subst.
    + exists [(k, v)], ((w ++ w1) ++ s1 ++ w2). split; [constructor; [by apply Forall_app_2|done..]|]. by rewrite <-!app_assoc.
    + exists ((k, v) :: l), ((w ++ w1) ++ s1 ++ w2 ++ 44 :: s'). split; [constructor; [by apply Forall_app_2|done..]|]. rewrite <-!app_assoc. done.
  - destruct (c =? 44) eqn:C; [|done]. apply N.eqb_eq in C as ->. apply utf8_tail in U1; [|done]. destruct (skip_spaces_spec u) as (w0 & W0 & E0). apply K in H as (ms & s & Ms & Es & Ur); [|by apply utf8_skip].
    exists w. split; [done|]. split; [done|]. right. rewrite Es in E0. subst u t.
    inversion Ms as [k v w1 s1 w2 W1 M W2|k v w1 s1 w2 l s' W1 M W2 L]; subst.
    + exists [(k, v)], ((w0 ++ w1) ++ s1 ++ w2). split; [constructor; [by apply Forall_app_2|done..]|]. rewrite <-!app_assoc. cbn. by rewrite <-!app_assoc.
    + exists ((k, v) :: l), ((w0 ++ w1) ++ s1 ++ w2 ++ 44 :: s'). split; [constructor; [by apply Forall_app_2|done..]|]. rewrite <-!app_assoc. cbn. by rewrite <-!app_assoc.
Qed.
(** The elements of the list. *)
Lemma seq_sound ranges first t l r : utf8_text t -> visit_seq first ranges t = Got l r ->
  exists w, spaces w /\ utf8_text r /\
    (ranges = [] /\ t = w ++ 93 :: r \/ exists vs s, elements vs s /\ t = (if first : bool then s else w ++ 44 :: s) ++ 93 :: r).
Proof.
  revert first t l. induction ranges as [|range ranges IH]; intros first t l U H.
  - cbn [visit_seq] in H. destruct (skip_spaces_spec t) as (w & W & E). pose proof (utf8_skip _ U) as U1. destruct (skip_spaces t) as [|c u] eqn:SS; [done|]. destruct (c =? 93) eqn:C; [|done].
    apply N.eqb_eq in C as ->. injection H as _ <-. exists w. split; [done|]. split; [by eapply utf8_tail|]. by left.
  - rewrite visit_seq_eq in H. destruct (skip_spaces_spec t) as (w & W & E). pose proof (utf8_skip _ U) as U1. destruct (skip_spaces t) as [|c u] eqn:SS; [done|]. destruct (c =? 93) eqn:C93; [done|].
    assert (forall t1, utf8_text t1 -> seq_element range ranges t1 = Got l r -> exists vs s, elements vs s /\ t1 = s ++ 93 :: r /\ utf8_text r) as K.
    { clear -IH. intros t1 U H. unfold seq_element in H. destruct t1 as [|c u]; [done|]. destruct (c =? 93) eqn:C; [done|]. destruct (deserialize_int range (c :: u)) as [z u1| |] eqn:D; try done. cbn [and_then] in H.
      apply int_sound' in D as (w1 & v & s & W1 & V & -> & U1); [|done]. destruct (visit_seq false ranges u1) as [l' r'| |] eqn:Q; try done. cbn in H. injection H as _ ->.
      apply IH in Q as (w2 & W2 & Ur & [[_ ->]|(vs & s2 & Vs & ->)]); [..|done].
      - exists [v], (w1 ++ s ++ w2). split; [by constructor|]. split; [by rewrite <-!app_assoc|done].
      - exists (v :: vs), (w1 ++ s ++ w2 ++ 44 :: s2). split; [by constructor|]. split; [rewrite <-!app_assoc; done|done]. }
    destruct first.
    + apply K in H as (vs & s & Vs & Es & Ur); [|done]. exists w. split; [done|]. split; [done|]. right. rewrite Es in E.
      inversion Vs as [v w1 s1 w2 W1 M W2|v w1 s1 w2 l0 s' W1 M W2 L]; subst.
      * exists [v], ((w ++ w1) ++ s1 ++ w2). split; [constructor; [by apply Forall_app_2|done..]|]. by rewrite <-!app_assoc.
      * exists (v :: l0), ((w ++ w1) ++ s1 ++ w2 ++ 44 :: s'). split; [constructor; [by apply Forall_app_2|done..]|]. rewrite <-!app_assoc. done.
    + destruct (c =? 44) eqn:C; [|done]. apply N.eqb_eq in C as ->. apply utf8_tail in U1; [|done]. destruct (skip_spaces_spec u) as (w0 & W0 & E0). apply K in H as (vs & s & Vs & Es & Ur); [|by apply utf8_skip].
      exists w. split; [done|]. split; [done|]. right. rewrite Es in E0. subst u t.
      inversion Vs as [v w1 s1 w2 W1 M W2|v w1 s1 w2 l0 s' W1 M W2 L]; subst.
      * exists [v], ((w0 ++ w1) ++ s1 ++ w2). split; [constructor; [by apply Forall_app_2|done..]|]. rewrite <-!app_assoc. cbn. by rewrite <-!app_assoc.
      * exists (v :: l0), ((w0 ++ w1) ++ s1 ++ w2 ++ 44 :: s'). split; [constructor; [by apply Forall_app_2|done..]|]. rewrite <-!app_assoc. cbn. by rewrite <-!app_assoc.
Qed.
Lemma struct_sound t l r : utf8_text t -> deserialize_struct t = Got l r -> exists w v s, spaces w /\ value v s /\ t = w ++ s ++ r.
Proof.
  intros U H. unfold deserialize_struct in H. destruct (skip_spaces_spec t) as (w & W & E). pose proof (utf8_skip _ U) as U1. destruct (skip_spaces t) as [|c u] eqn:SS; [done|].
  destruct (c =? 91) eqn:C.
  - apply N.eqb_eq in C as ->. apply utf8_tail in U1; [|done]. apply seq_sound in H as (w1 & W1 & Ur & [[? ->]|(vs & s & Vs & ->)]); [done| |done].
    exists w, (JArray vs), (91 :: s ++ [93]). split; [done|]. split; [by constructor|]. subst t. f_equal. cbn. by rewrite <-app_assoc.
  - clear C. destruct (c =? 123) eqn:C; [|by apply invalid_type_not in H]. apply N.eqb_eq in C as ->. apply utf8_tail in U1; [|done].
    destruct (visit_map _ true _ u) as [acc r'| |] eqn:M; try done. cbn [and_then] in H. assert (r' = r) as -> by (destruct (mapM _ acc); [by injection H|done]).
    apply map_sound in M as (w1 & W1 & Ur & [->|(ms & s & Ms & ->)]); [..|done].
    + exists w, (JObject []), (123 :: w1 ++ [125]). split; [done|]. split; [by constructor|]. subst t. f_equal. cbn. by rewrite <-app_assoc.
    + exists w, (JObject ms), (123 :: s ++ [125]). split; [done|]. split; [by constructor|]. subst t. f_equal. cbn. by rewrite <-app_assoc.
Qed.

Section Sound.
Context {P : Type} (position_new : Z -> Z -> Z -> Z -> Z -> Z -> P).
(** Accepted texts are JSON positions. *)
Lemma body_sound t p : utf8_text t -> body_of position_new t = BodyPosition p ->
  exists v x y z yaw pitch roll, json_text v t /\ is_position v x y z yaw pitch roll /\ p = position_new x y z yaw pitch roll.
Proof.
  intros U H. assert (exists v, json_text v t) as (v & J).
  { revert H. unfold body_of. destruct (deserialize_struct t) as [l rest| |] eqn:D; try done. cbn [and_then]. destruct (skip_spaces_spec rest) as (w & W & E).
    destruct (skip_spaces rest); [|done]. intros _. apply struct_sound in D as (w1 & v & s & W1 & V & ->); [|done]. exists v, w1, s, w. rewrite app_nil_r in E. by subst. }
  destruct (body_cases position_new v t J) as [(x & y & z & yaw & pitch & roll & I & B)|[_ B]]; rewrite B in H; [|done].
  injection H as <-. by exists v, x, y, z, yaw, pitch, roll.
Qed.
End Sound.
