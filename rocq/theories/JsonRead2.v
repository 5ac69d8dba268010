(** The reader of positions, on JSON texts: skipped values, fields, bodies. *)
From Coq Require Import Strings.String Strings.Ascii.
From Verif Require Import Base Uci MacAddress Pica Http Json JsonSpec JsonUnique JsonRead.

(** ** Skipped values *)
Definition after_value (stack : list bool) (r : bytes) : res unit :=
  match stack with [] => Got tt r | _ => ignore_value SkAfter stack r end.
Lemma go s stack c t s' stack' : skip_step s stack c = SkGo s' stack' -> ignore_value s stack (c :: t) = ignore_value s' stack' t.
Proof. intros E. cbn [ignore_value]. by rewrite E. Qed.
Lemma ended s stack c t stack' : skip_step s stack c = sk_end stack' -> ignore_value s stack (c :: t) = after_value stack' t.
Proof. intros E. cbn [ignore_value]. rewrite E. by destruct stack'. Qed.
Lemma number_ended s stack r : stops r -> (s = SkZero \/ s = SkInt \/ s = SkFraction \/ s = SkExponent) -> ignore_value s stack r = after_value stack r.
Proof.
  intros S K. destruct r as [|c r]; [by destruct K as [->|[->|[->| ->]]], stack|].
  pose proof (stops_no_digit _ S) as D. cbn in D. destruct (stops_no_exponent _ _ S) as [E P].
  assert (skip_step s stack c = sk_after c stack) as F.
  { destruct K as [->|[->|[->| ->]]]; cbn [skip_step]; rewrite D; unfold sk_number; rewrite ?E, ?P; done. }
  cbn [ignore_value]. rewrite F. destruct stack; [done|]. cbn [after_value ignore_value skip_step]. done.
Qed.
Lemma skip_digits_go s stack ds r : digits ds -> (s = SkInt \/ s = SkFraction \/ s = SkExponent) -> ignore_value s stack (ds ++ r) = ignore_value s stack r.
Proof.
  intros H K. induction H as [|c ds H Hd IH]; [done|]. rewrite <-app_comm_cons. rewrite <-IH. apply go.
  assert (is_digit c = true) as D by (by apply is_digit_spec). destruct K as [->|[->| ->]]; cbn [skip_step]; by rewrite D.
Qed.
Lemma skip_exponent s stack exp r : exponent_ok exp -> stops r -> (s = SkZero \/ s = SkInt \/ s = SkFraction) -> ignore_value s stack (exp ++ r) = after_value stack r.
Proof.
  intros [->|(e & sign & c & ds & -> & He & Sg & [D1 D2]%digits_cons)] S K; [apply (number_ended s); [done|tauto]|].
  assert (is_exponent e = true) as E by (unfold is_exponent; lia). assert (is_digit e = false) as NE by (unfold is_digit; lia).
  assert (ignore_value SkExponent stack (ds ++ r) = after_value stack r) as F by (rewrite skip_digits_go by tauto; by apply number_ended; [|tauto]).
  rewrite <-app_comm_cons, (go s stack e _ SkE stack).
  2: { destruct K as [->|[->| ->]]; cbn [skip_step]; rewrite ?NE; unfold sk_number; rewrite E; replace (e =? 46) with false by lia; by rewrite ?andb_false_r. }
  rewrite <-app_assoc, <-app_comm_cons. assert ((c =? 43) || (c =? 45) = false) as N by (unfold is_digit in D1; lia).
  destruct Sg as [->|[->| ->]]; cbn [app].
  - rewrite (go SkE stack c _ SkExponent stack); [done|]. cbn [skip_step]. by rewrite N, D1.
  - rewrite (go SkE stack 43 _ SkESign stack) by done. rewrite (go SkESign stack c _ SkExponent stack); [done|]. cbn [skip_step]. by rewrite D1.
  - rewrite (go SkE stack 45 _ SkESign stack) by done. rewrite (go SkESign stack c _ SkExponent stack); [done|]. cbn [skip_step]. by rewrite D1.
Qed.
Lemma skip_fraction s stack frac exp r : fraction_ok frac -> exponent_ok exp -> stops r -> (s = SkZero \/ s = SkInt) -> ignore_value s stack (frac ++ exp ++ r) = after_value stack r.
Proof.
  intros [->|(c & ds & -> & [D1 D2]%digits_cons)] E S K; cbn [app]; [by apply skip_exponent; [..|tauto]|].
  rewrite (go s stack 46 _ SkDot stack) by (by destruct K as [->| ->]).
  rewrite (go SkDot stack c _ SkFraction stack) by (cbn [skip_step]; by rewrite D1).
  rewrite skip_digits_go by tauto. by apply skip_exponent; [..|tauto].
Qed.
Lemma skip_number t stack r : number t -> stops r -> ignore_value SkValue stack (t ++ r) = after_value stack r.
Proof.
  intros (minus & int & frac & exp & -> & M & I & F & E) S. rewrite <-!app_assoc.
  assert (forall s, (s = SkValue \/ s = SkSign) -> ignore_value s stack (int ++ frac ++ exp ++ r) = after_value stack r) as K.
  { intros s K. destruct I as [->|(c & ds & -> & Hc & D)].
    - cbn [app]. rewrite (go s stack 48 _ SkZero stack) by (by destruct K as [->| ->]). by apply skip_fraction; [..|tauto].
    - rewrite <-app_comm_cons. assert (is_digit c = true) as C by (apply is_digit_spec; lia).
      rewrite (go s stack c _ SkInt stack).
      + rewrite skip_digits_go by tauto. by apply skip_fraction; [..|tauto].
      + destruct K as [->| ->]; cbn [skip_step].
        * rewrite not_space by (unfold space; lia). unfold sk_value. rewrite C. by rewrite !(proj2 (N.eqb_neq c _)) by lia.
        * rewrite C. by rewrite !(proj2 (N.eqb_neq c _)) by lia. }
  destruct M as [->| ->]; cbn [app]; [by apply K; left|]. rewrite (go SkValue stack 45 _ SkSign stack) by done. by apply K; right.
Qed.
Lemma skip_chars u t key stack r : chars u t ->
  ignore_value (SkString key) stack (t ++ 34 :: r) = if key then ignore_value SkColon stack r else after_value stack r.
Proof.
  induction 1 as [|c s b u t Sc Ge N1 N2 U16 U8 H IH|e c u t He H IH|h1 h2 h3 h4 v1 v2 v3 v4 u t H1 H2 H3 H4 H IH].
  - cbn [app]. destruct key; [by apply go|by apply ended].
  - rewrite <-app_assoc, <-IH. pose proof (utf8_plain c b U8 Ge N1 N2) as F. clear -F.
    induction F as [|x b (H1 & H2 & H3) Hb IH]; [done|]. rewrite <-app_comm_cons, <-IH. apply go. cbn [skip_step].
    replace (x =? 34) with false by lia. replace (x =? 92) with false by lia. by replace (x <? 32) with false by lia.
  - rewrite <-!app_comm_cons. rewrite (go _ stack 92 _ (SkEscape key) stack) by done. rewrite <-IH. apply go. cbn [skip_step]. by rewrite (simple_escape_ok _ _ He).
  - rewrite <-!app_comm_cons. rewrite (go _ stack 92 _ (SkEscape key) stack) by done. rewrite (go _ stack 117 _ (SkHex key 4 true) stack) by done.
    rewrite (go _ stack h1 _ (SkHex key 3 true) stack) by (cbn [skip_step]; by rewrite (hex_val_ok _ _ H1)).
    rewrite (go _ stack h2 _ (SkHex key 2 true) stack) by (cbn [skip_step]; by rewrite (hex_val_ok _ _ H2)).
    rewrite (go _ stack h3 _ (SkHex key 1 true) stack) by (cbn [skip_step]; by rewrite (hex_val_ok _ _ H3)).
    rewrite (go _ stack h4 _ (SkString key) stack) by (cbn [skip_step]; by rewrite (hex_val_ok _ _ H4)). done.
Qed.
Lemma skip_white s stack w r : spaces w -> (s = SkValue \/ s = SkKey \/ s = SkColon \/ (s = SkOpened /\ stack <> []) \/ (s = SkAfter /\ stack <> [])) ->
  ignore_value s stack (w ++ r) = ignore_value s stack r.
Proof.
  intros H K. induction H as [|c w H Hw IH]; [done|]. rewrite <-app_comm_cons, <-IH. apply go. apply is_space_spec in H.
  destruct K as [->|[->|[->|[[-> N]|[-> N]]]]]; cbn [skip_step]; try (by rewrite H).
  - destruct stack; [done|]. by rewrite H.
  - destruct stack; [done|]. cbn [sk_after]. by rewrite H.
Qed.
Lemma starts_not_space v c : starts v c -> is_space c = false.
Proof. intros S. apply not_space. by destruct (starts_not _ _ S). Qed.

Lemma skip_json :
  (forall v t, value v t -> forall stack r, stops r -> ignore_value SkValue stack (t ++ r) = after_value stack r) /\
  (forall l t, elements l t -> forall stack r, ignore_value SkValue (false :: stack) (t ++ 93 :: r) = after_value stack r) /\
  (forall l t, members l t -> forall stack r, ignore_value SkKey (true :: stack) (t ++ 125 :: r) = after_value stack r) /\
  (forall k v t, member k v t -> forall stack r, stops r -> ignore_value SkKey (true :: stack) (t ++ r) = ignore_value SkAfter (true :: stack) r).
Proof.
  assert (forall c x, c = 93 \/ c = 125 \/ c = 44 \/ c = 58 \/ c = 34 -> stops (c :: x)) as ST by (cbn; unfold numeric; lia).
  apply json_mut.
  - intros stack r S. change (str "null" ++ r) with (110 :: 117 :: 108 :: 108 :: r).
    rewrite (go _ stack 110 _ (SkIdent [117; 108; 108]) stack), (go _ stack 117 _ (SkIdent [108; 108]) stack), (go _ stack 108 _ (SkIdent [108]) stack) by done. by apply ended.
  - intros stack r S. change (str "true" ++ r) with (116 :: 114 :: 117 :: 101 :: r).
    rewrite (go _ stack 116 _ (SkIdent [114; 117; 101]) stack), (go _ stack 114 _ (SkIdent [117; 101]) stack), (go _ stack 117 _ (SkIdent [101]) stack) by done. by apply ended.
  - intros stack r S. change (str "false" ++ r) with (102 :: 97 :: 108 :: 115 :: 101 :: r).
    rewrite (go _ stack 102 _ (SkIdent [97; 108; 115; 101]) stack), (go _ stack 97 _ (SkIdent [108; 115; 101]) stack),
      (go _ stack 108 _ (SkIdent [115; 101]) stack), (go _ stack 115 _ (SkIdent [101]) stack) by done. by apply ended.
  - intros t H stack r S. by apply skip_number.
  - intros u t H stack r S. rewrite <-app_comm_cons, <-app_assoc. cbn [app]. rewrite (go _ stack 34 _ (SkString false) stack) by done. by rewrite (skip_chars u t).
  - intros w H stack r S. rewrite <-app_comm_cons, <-app_assoc. cbn [app]. rewrite (go _ stack 91 _ SkOpened (false :: stack)) by done.
    rewrite skip_white by (try done; right; right; right; left; done). by apply ended.
  - intros l t H IH stack r S. rewrite <-app_comm_cons, <-app_assoc. cbn [app]. rewrite (go _ stack 91 _ SkOpened (false :: stack)) by done.
    rewrite <-IH. destruct (elements_head _ _ H) as (w & c & u & A & -> & B & C). rewrite <-app_assoc, <-app_comm_cons.
    rewrite !skip_white by (try done; tauto || (right; right; right; left; done)). cbn [ignore_value skip_step].
    rewrite not_space by done. by replace (c =? 93) with false by lia.
  - intros w H stack r S. rewrite <-app_comm_cons, <-app_assoc. cbn [app]. rewrite (go _ stack 123 _ SkOpened (true :: stack)) by done.
    rewrite skip_white by (try done; right; right; right; left; done). by apply ended.
  - intros l t H IH stack r S. rewrite <-app_comm_cons, <-app_assoc. cbn [app]. rewrite (go _ stack 123 _ SkOpened (true :: stack)) by done.
    rewrite <-IH. destruct (members_head _ _ H) as (w & u & A & ->). rewrite <-app_assoc, <-app_comm_cons.
    rewrite !skip_white by (try done; tauto || (right; right; right; left; done)). done.
  - intros v w t w' A H IH B stack r. rewrite <-!app_assoc. rewrite skip_white by tauto.
    rewrite IH by (by apply stops_spaces, ST; [|lia]). cbn [after_value]. rewrite skip_white by (try done; right; right; right; right; done). by apply ended.
  - intros v w t w' l s A H IH B L IHl stack r. rewrite <-!app_assoc. rewrite skip_white by tauto. rewrite <-app_comm_cons.
    rewrite IH by (by apply stops_spaces, ST; [|lia]). cbn [after_value]. rewrite skip_white by (try done; right; right; right; right; done).
    rewrite <-IHl. by apply go.
  - intros k v w t w' A H IH B stack r. rewrite <-!app_assoc. rewrite skip_white by tauto.
    rewrite IH by (by apply stops_spaces, ST; [|lia]). rewrite skip_white by (try done; right; right; right; right; done). by apply ended.
  - intros k v w t w' l s A H IH B L IHl stack r. rewrite <-!app_assoc. rewrite skip_white by tauto. rewrite <-app_comm_cons.
    rewrite IH by (by apply stops_spaces, ST; [|lia]). rewrite skip_white by (try done; right; right; right; right; done).
    rewrite <-IHl. by apply go.
  - intros k tk w w' v t Hk A B H IH stack r S. rewrite <-app_comm_cons, <-app_assoc. cbn [app]. rewrite (go _ _ 34 _ (SkString true) (true :: stack)) by done.
    rewrite (skip_chars k tk) by done. rewrite <-app_assoc, skip_white by tauto. rewrite <-app_comm_cons, (go _ _ 58 _ SkValue (true :: stack)) by done.
    rewrite <-app_assoc, skip_white by tauto. by rewrite IH.
Qed.

(** ** Fields *)
Definition int_of (range : Z * Z) (v : json) : option Z :=
  match v with
  | JNumber t => match deserialize_int range t with Got z [] => Some z | _ => None end
  | _ => None
  end.
Lemma ident_ok a r : parse_ident a (a ++ r) = Got tt r.
Proof. induction a as [|c a IH]; [done|]. cbn. by rewrite N.eqb_refl. Qed.
Definition number_result (t : bytes) (z : option Z) : Prop :=
  (forall r w range, spaces w -> stops r -> deserialize_int range (w ++ t ++ r) =
     match z with Some z => if (range.1 <=? z)%Z && (z <=? range.2)%Z then Got z r else Bad | None => Bad end).
Lemma read_number t : number t -> exists z, number_result t z /\
  forall x, z = Some x <-> integer_value t x /\ t <> str "-0".
Proof.
  intros (minus & int & frac & exp & -> & M & I & F & E).
  exists (match frac ++ exp with
       | [] => match minus with [] => Some (Z.of_N (digits_to_N int)) | _ => if digits_to_N int =? 0 then None else Some (- Z.of_N (digits_to_N int))%Z end
       | _ => None
       end). split.
  - intros r w range W S. unfold deserialize_int. rewrite skip_spaces_app by done. rewrite <-!app_assoc. destruct M as [->| ->]; cbn [app].
    + assert (exists c u, int ++ frac ++ exp ++ r = c :: u /\ is_digit c = true) as (c & u & Ec & D).
      { destruct I as [->|(c & ds & -> & Hc & D)]; [by eexists _, _|]. eexists _, _. split; [done|]. apply is_digit_spec. lia. }
      rewrite Ec, skip_spaces_stop by (unfold space, is_digit in *; lia). replace (c =? 45) with false by (unfold is_digit in D; lia). rewrite D.
      rewrite <-Ec. rewrite (parse_integer_ok true int frac exp r I F E S). cbn [and_then]. by destruct (frac ++ exp).
    + rewrite skip_spaces_stop by (unfold space; lia). change (45 =? 45) with true. cbn iota.
      rewrite (parse_integer_ok false int frac exp r I F E S). cbn [and_then]. by destruct (frac ++ exp).
  - assert (digits int /\ int <> []) as [Di Ni].
    { destruct I as [->|(c & ds & -> & Hc & D)]; (split; [|done]); [by repeat constructor|]. constructor; [lia|done]. }
    assert (forall ds, digits ds -> 45 ∉ ds /\ 46 ∉ ds /\ 101 ∉ ds /\ 69 ∉ ds) as ND.
    { intros ds H. split_and!; intros In; unfold digits in H; rewrite Forall_forall in H; apply H in In; lia. }
    assert (digits_to_N int = 0 <-> int = [48]) as Z0.
    { split; [|by intros ->]. destruct I as [->|(c & ds & -> & Hc & D)]; [done|]. unfold digits_to_N. cbn [fold_left]. intros Z. exfalso.
      assert (forall ds v, 0 < v -> 0 < fold_left (fun v c => 10 * v + (c - 48)) ds v) as P.
      { intros ds'. induction ds' as [|d ds' IH]; intros v V; [done|]. cbn [fold_left]. apply IH. lia. }
      specialize (P ds (10 * 0 + (c - 48)) ltac:(lia)). lia. }
    intros x. destruct (frac ++ exp) as [|y ys] eqn:FE.
    + apply app_eq_nil in FE as [-> ->]. rewrite !app_nil_r. destruct M as [->| ->]; cbn [app].
      * split.
        -- intros [= <-]. split; [by exists int; split_and!; [..|left]|]. intros ->. destruct (ND _ Di) as (K & _). apply K. vm_compute. left.
        -- intros [(ds & H1 & H2 & [[-> ->]|[-> ->]]) _]; [done|]. destruct (ND _ Di) as (K & _). exfalso. apply K. left.
      * destruct (digits_to_N int =? 0) eqn:Z.
        -- split; [done|]. apply N.eqb_eq, Z0 in Z as ->. by intros [_ []].
        -- split.
           ++ intros [= <-]. split; [by exists int; split_and!; [..|right]|]. intros K. injection K as ->. done.
           ++ intros [(ds & H1 & H2 & [[E1 ->]|[E1 ->]]) _]; [|by injection E1 as ->].
              destruct (ND _ H1) as (K & _). exfalso. apply K. rewrite <-E1. left.
    + split; [done|]. intros [(ds & H1 & H2 & K) _]. exfalso.
      assert (y ∈ y :: ys) as Iy by left. rewrite <-FE in Iy.
      assert (y = 46 \/ y = 101 \/ y = 69) as Hy.
      { destruct F as [->|(c & ds' & -> & _)]; [|injection FE as <- _; lia]. cbn in FE. destruct E as [->|(e & sg & c & ds' & -> & He & _)]; [done|]. injection FE as <- _. lia. }
      destruct (ND _ H1) as (K1 & K2 & K3 & K4).
      assert (y ∈ minus ++ int ++ y :: ys) as J by (apply elem_of_app; right; apply elem_of_app; right; left).
      destruct K as [[K _]|[K _]]; rewrite K in J; [|apply elem_of_cons in J as [J|J]; [lia|]]; destruct Hy as [->|[->| ->]]; done.
Qed.
Lemma read_int v t w r range : value v t -> spaces w -> stops r ->
  deserialize_int range (w ++ t ++ r) = match int_of range v with Some z => Got z r | None => Bad end.
Proof.
  intros H W S.
  assert (forall c u, t = c :: u -> starts v c -> (forall x, v <> JNumber x) -> deserialize_int range (w ++ t ++ r) = invalid_type (t ++ r)) as NN.
  { intros c u -> Sc N. unfold deserialize_int. rewrite skip_spaces_app by done. rewrite <-app_comm_cons.
    rewrite skip_spaces_stop by (by destruct (starts_not _ _ Sc)).
    assert (c <> 45 /\ is_digit c = false) as [A B].
    { unfold is_digit. destruct v as [|[]|x| | |]; cbn in Sc; [lia..|by destruct (N x)|lia|lia|lia]. }
    replace (c =? 45) with false by lia. by rewrite B. }
  destruct H as [| | |t H|u t H|x H|l t H|x H|l t H]; cbn [int_of].
  - rewrite (NN 110 (str "ull")) by done. change (str "null" ++ r) with (110 :: str "ull" ++ r). cbn [invalid_type]. change (110 =? 110) with true. cbn iota. by rewrite ident_ok.
  - rewrite (NN 116 (str "rue")) by done. change (str "true" ++ r) with (116 :: str "rue" ++ r). cbn [invalid_type]. change (116 =? 110) with false. change (116 =? 116) with true. cbn iota. by rewrite ident_ok.
  - rewrite (NN 102 (str "alse")) by done. change (str "false" ++ r) with (102 :: str "alse" ++ r). cbn [invalid_type]. change (102 =? 110) with false. change (102 =? 116) with false. change (102 =? 102) with true. cbn iota. by rewrite ident_ok.
  - destruct (read_number t H) as (z & R & _). rewrite (R r w range) by done.
    specialize (R [] [] range ltac:(constructor) I). cbn [app] in R. rewrite app_nil_r in R. rewrite R.
    destruct z as [z|]; [|done]. by destruct (_ && _).
  - rewrite (NN 34 (t ++ [34])) by done. rewrite <-app_comm_cons, <-app_assoc. change ([34] ++ r) with (34 :: r). cbn -[parse_str app]. rewrite (parse_str_ok u t) by done. by destruct (key_text u).
  - by rewrite (NN 91 (x ++ [93])) by done.
  - by rewrite (NN 91 (t ++ [93])) by done.
  - by rewrite (NN 123 (x ++ [125])) by done.
  - by rewrite (NN 123 (t ++ [125])) by done.
Qed.
Lemma int_of_spec lo hi v t z : value v t -> (int_of (lo, hi) v = Some z <-> integer_in lo hi z v).
Proof.
  intros H. destruct H as [| | |t H| | | | |]; cbn [int_of]; try (split; [done|]; by intros (? & ? & _)).
  destruct (read_number t H) as (y & R & E). specialize (R [] [] (lo, hi) ltac:(constructor) I). cbn [app] in R. rewrite app_nil_r in R. rewrite R. cbn [fst snd].
  split.
  - destruct y as [y|]; [|done]. destruct (_ && _) eqn:B; [|done]. intros K. injection K as K. subst y. destruct (proj1 (E z) eq_refl). apply andb_prop in B as [B1 B2]. cbn in B1, B2. exists t. split_and!; [done..|lia|lia].
  - intros (t' & [= <-] & A & B & C). rewrite (proj2 (E z) (conj A B)). by replace ((lo <=? z)%Z && (z <=? hi)%Z) with true by lia.
Qed.

(** ** Objects *)
Fixpoint fold_fields (acc : position_fields) (ms : list (list N * json)) : option position_fields :=
  match ms with
  | [] => Some acc
  | (k, v) :: ms =>
      name ← key_text k;
      match field_index field_names name with
      | Some (i, range) =>
          match acc !! i with
          | Some (Some _) => None
          | _ => z ← int_of range v; fold_fields (<[i := Some z]> acc) ms
          end
      | None => fold_fields acc ms
      end
  end.
Definition got_fields (r : bytes) (o : option position_fields) : res position_fields := match o with Some acc => Got acc r | None => Bad end.

(** One member. *)
Definition field_step (k : list N) (v : json) (acc : position_fields) : option position_fields :=
  name ← key_text k;
  match field_index field_names name with
  | Some (i, range) => match acc !! i with Some (Some _) => None | _ => z ← int_of range v; Some (<[i := Some z]> acc) end
  | None => Some acc
  end.
Lemma fold_fields_cons acc k v ms : fold_fields acc ((k, v) :: ms) = acc ← field_step k v acc; fold_fields acc ms.
Proof.
  cbn [fold_fields]. unfold field_step. destruct (key_text k) as [name|]; [|done]. cbn [mbind option_bind]. destruct (field_index field_names name) as [[i range]|]; [|done].
  destruct (acc !! i) as [[]|]; try done; by destruct (int_of range v).
Qed.
Lemma member_read fuel first acc k v w t r : spaces w -> member k v t -> stops r -> (first = true) ->
  visit_map (S fuel) first acc (w ++ t ++ r) = match field_step k v acc with Some acc => visit_map fuel false acc r | None => Bad end.
Proof.
  intros W M S ->. destruct M as [k tk w1 w2 v t Hk W1 W2 H]. cbn [visit_map]. rewrite skip_spaces_app by done. rewrite <-app_comm_cons, <-app_assoc.
  rewrite skip_spaces_stop by (unfold space; lia). change (34 =? 125) with false. change (34 =? 34) with true. cbn iota.
  rewrite <-app_comm_cons, (parse_str_ok k tk) by done. unfold field_step. destruct (key_text k) as [name|]; [|done]. cbn [and_then mbind option_bind].
  rewrite <-app_assoc, <-app_comm_cons, skip_spaces_app, skip_spaces_stop by (done || (unfold space; lia)). change (58 =? 58) with true. cbn iota. rewrite <-app_assoc.
  destruct (field_index field_names name) as [[i range]|].
  - rewrite (read_int v t w2 r range H W2 S). destruct (acc !! i) as [[]|]; try done; destruct (int_of range v); done.
  - rewrite skip_white by tauto. rewrite (proj1 skip_json v t H []) by done. done.
Qed.
Lemma comma_read fuel acc w s u : spaces w -> skip_spaces s = 34 :: u -> visit_map (S fuel) false acc (w ++ 44 :: s) = visit_map (S fuel) true acc s.
Proof. intros W E. cbn [visit_map]. rewrite skip_spaces_app, skip_spaces_stop by (done || (unfold space; lia)). rewrite E. done. Qed.
Lemma close_read fuel first acc w r : spaces w -> visit_map (S fuel) first acc (w ++ 125 :: r) = Got acc r.
Proof. intros W. cbn [visit_map]. rewrite skip_spaces_app, skip_spaces_stop by (done || (unfold space; lia)). done. Qed.
Lemma members_read ms t : members ms t -> forall fuel acc r, (length ms < fuel)%nat ->
  visit_map fuel true acc (t ++ 125 :: r) = got_fields r (fold_fields acc ms).
Proof.
  assert (forall c x, c = 93 \/ c = 125 \/ c = 44 \/ c = 58 \/ c = 34 -> stops (c :: x)) as ST by (cbn; unfold numeric; lia).
  induction 1 as [k v w t w' A M B|k v w t w' l s A M B L IH]; intros fuel acc r Hf; cbn [length] in Hf.
  - destruct fuel as [|[|fuel]]; [lia..|]. rewrite <-!app_assoc. rewrite (member_read _ true acc k v w t) by (try done; by apply stops_spaces, ST; [|lia]).
    rewrite fold_fields_cons. destruct (field_step k v acc) as [acc'|]; [|done]. by rewrite close_read.
  - destruct fuel as [|[|fuel]]; [lia..|]. rewrite <-!app_assoc. rewrite (member_read _ true acc k v w t) by (try done; by apply stops_spaces, ST; [|lia]).
    rewrite fold_fields_cons. destruct (field_step k v acc) as [acc'|]; [|done]. cbn [mbind option_bind]. rewrite <-(IH (S fuel)) by lia.
    destruct (members_head _ _ L) as (x & u & X & ->). rewrite <-app_comm_cons. apply (comma_read fuel acc' w' _ (u ++ 125 :: r)); [done|].
    rewrite <-app_assoc, skip_spaces_app, <-app_comm_cons by done. rewrite skip_spaces_stop by (unfold space; lia). done.
Qed.
Lemma members_length ms t : members ms t -> (length ms <= length t)%nat.
Proof.
  assert (forall k v t, member k v t -> (0 < length t)%nat) as P by (intros k v t' []; cbn; lia).
  induction 1 as [k v w t w' A M B|k v w t w' l s A M B L IH]; rewrite !app_length; specialize (P _ _ _ M); cbn [length]; lia.
Qed.

(** ** Lists *)
Fixpoint fold_elements (ranges : list (Z * Z)) (l : list json) : option (list Z) :=
  match ranges, l with
  | [], [] => Some []
  | range :: ranges, v :: l => z ← int_of range v; zs ← fold_elements ranges l; Some (z :: zs)
  | _, _ => None
  end.
Definition got_list (r : bytes) (o : option (list Z)) : res (list Z) := match o with Some l => Got l r | None => Bad end.
Lemma element_read first range ranges v w t r : (first = true) -> spaces w -> value v t -> stops r ->
  visit_seq first (range :: ranges) (w ++ t ++ r) = match int_of range v with Some z => and_then (visit_seq false ranges r) (fun l => Got (z :: l)) | None => Bad end.
Proof.
  intros -> W H S. cbn [visit_seq]. rewrite skip_spaces_app by done. pose proof (read_int v t [] r range H ltac:(constructor) S) as R. cbn [app] in R.
  destruct (value_head _ _ H) as (c & u & -> & Sc). destruct (starts_not _ _ Sc) as (N1 & N2 & _).
  rewrite <-app_comm_cons in *. rewrite skip_spaces_stop by done. replace (c =? 93) with false by lia. rewrite R. by destruct (int_of range v).
Qed.
Lemma elements_read l t : elements l t -> forall ranges r, visit_seq true ranges (t ++ 93 :: r) = got_list r (fold_elements ranges l).
Proof.
  assert (forall c x, c = 93 \/ c = 125 \/ c = 44 \/ c = 58 \/ c = 34 -> stops (c :: x)) as ST by (cbn; unfold numeric; lia).
  assert (forall first l t r, elements l t -> visit_seq first [] (t ++ 93 :: r) = Bad) as E0.
  { intros first l' t' r H. cbn [visit_seq]. destruct (elements_head _ _ H) as (w & c & u & A & -> & B & C).
    rewrite <-app_assoc, skip_spaces_app, <-app_comm_cons, skip_spaces_stop by done. by replace (c =? 93) with false by lia. }
  assert (forall ranges w r, spaces w -> visit_seq false ranges (w ++ 93 :: r) = got_list r (fold_elements ranges [])) as EN.
  { intros ranges w r W. destruct ranges; cbn [visit_seq]; rewrite skip_spaces_app, skip_spaces_stop by (done || (unfold space; lia)); done. }
  induction 1 as [v w t w' A H B|v w t w' l s A H B L IH]; intros ranges r.
  - destruct ranges as [|range ranges]; [by rewrite (E0 true [v]) by (by apply elements_one)|].
    rewrite <-!app_assoc. rewrite (element_read true range ranges v w t) by (try done; by apply stops_spaces, ST; [|lia]). cbn [fold_elements].
    destruct (int_of range v) as [z|]; [|done]. cbn [mbind option_bind]. rewrite EN by done. by destruct (fold_elements ranges []).
  - destruct ranges as [|range ranges]; [by rewrite (E0 true (v :: l)) by (by apply elements_more)|].
    rewrite <-!app_assoc. rewrite (element_read true range ranges v w t) by (try done; by apply stops_spaces, ST; [|lia]). cbn [fold_elements].
    destruct (int_of range v) as [z|]; [|done]. cbn [mbind option_bind]. rewrite <-app_comm_cons.
    assert (visit_seq false ranges (w' ++ 44 :: s ++ 93 :: r) = got_list r (fold_elements ranges l)) as ->; [|by destruct (fold_elements ranges l)].
    destruct ranges as [|range' ranges].
    { cbn [visit_seq]. rewrite skip_spaces_app, skip_spaces_stop by (done || (unfold space; lia)). cbn. by inversion L. }
    rewrite <-IH. cbn [visit_seq]. rewrite skip_spaces_app, skip_spaces_stop by (done || (unfold space; lia)). change (44 =? 93) with false. change (44 =? 44) with true. cbn iota.
    destruct (elements_head _ _ L) as (x & c & u & X & -> & B1 & C).
    rewrite <-app_assoc, skip_spaces_app, <-app_comm_cons, skip_spaces_stop by done. by replace (c =? 93) with false by lia.
Qed.

(** ** Bodies *)
Definition fields_of (v : json) : option (list Z) :=
  match v with
  | JArray l => fold_elements (map snd field_names) l
  | JObject ms => acc ← fold_fields (replicate 6 None) ms; mapM (M := option) (fun x => x) acc
  | _ => None
  end.
Lemma struct_read v t w r : spaces w -> value v t -> stops r -> deserialize_struct (w ++ t ++ r) = got_list r (fields_of v).
Proof.
  intros W H S. destruct (value_head _ _ H) as (c & u & E & Sc). unfold deserialize_struct. rewrite skip_spaces_app by done.
  rewrite E, <-app_comm_cons, skip_spaces_stop by (by destruct (starts_not _ _ Sc)). rewrite app_comm_cons, <-E.
  destruct H as [| | |t H|x t H|x H|l t H|x H|l t H]; cbn [fields_of].
  - injection E as <- <-. change (110 =? 91) with false. change (110 =? 123) with false. cbn iota. change (str "null" ++ r) with (110 :: str "ull" ++ r). cbn [invalid_type]. change (110 =? 110) with true. cbn iota. by rewrite ident_ok.
  - injection E as <- <-. change (116 =? 91) with false. change (116 =? 123) with false. cbn iota. change (str "true" ++ r) with (116 :: str "rue" ++ r). cbn [invalid_type]. change (116 =? 110) with false. change (116 =? 116) with true. cbn iota. by rewrite ident_ok.
  - injection E as <- <-. change (102 =? 91) with false. change (102 =? 123) with false. cbn iota. change (str "false" ++ r) with (102 :: str "alse" ++ r). cbn [invalid_type]. change (102 =? 110) with false. change (102 =? 116) with false. change (102 =? 102) with true. cbn iota. by rewrite ident_ok.
  - cbn in Sc. replace (c =? 91) with false by lia. replace (c =? 123) with false by lia. rewrite E, <-app_comm_cons. cbn [invalid_type].
    replace (c =? 110) with false by lia. replace (c =? 116) with false by lia. replace (c =? 102) with false by lia.
    destruct H as (minus & int & frac & exp & -> & M & I & F & G).
    destruct M as [->| ->]; cbn [app] in E.
    + assert (c <> 45 /\ is_digit c = true) as [C1 C2].
      { unfold is_digit. destruct I as [->|(d & ds & -> & Hd & D)]; injection E as <- _; lia. }
      replace (c =? 45) with false by lia. rewrite C2. rewrite app_comm_cons, <-E, <-!app_assoc. by rewrite (parse_integer_ok true int frac exp r I F G S).
    + injection E as <- <-. change (45 =? 45) with true. cbn iota. rewrite <-!app_assoc. by rewrite (parse_integer_ok false int frac exp r I F G S).
  - injection E as <- <-. rewrite <-app_comm_cons, <-app_assoc. change ([34] ++ r) with (34 :: r). cbn -[parse_str app]. rewrite (parse_str_ok x t) by done. by destruct (key_text x).
  - injection E as <- <-. change (91 =? 91) with true. cbn iota. rewrite <-app_assoc. change ([93] ++ r) with (93 :: r). cbn [map field_names visit_seq].
    rewrite skip_spaces_app, skip_spaces_stop by (done || (unfold space; lia)). done.
  - injection E as <- <-. change (91 =? 91) with true. cbn iota. rewrite <-app_assoc. by apply elements_read.
  - injection E as <- <-. change (123 =? 91) with false. change (123 =? 123) with true. cbn iota. rewrite <-app_assoc. cbn [app]. by rewrite close_read.
  - injection E as <- <-. change (123 =? 91) with false. change (123 =? 123) with true. cbn iota. rewrite <-!app_assoc. cbn [app].
    rewrite (members_read l t H).
    + destruct (fold_fields _ l) as [acc|]; [|done]. cbn [got_fields and_then mbind option_bind]. by destruct (mapM _ acc).
    + pose proof (members_length _ _ H). rewrite app_length. lia.
Qed.
Definition body_result {P} (position_new : Z -> Z -> Z -> Z -> Z -> Z -> P) (v : json) : body P :=
  match fields_of v with Some [x; y; z; yaw; pitch; roll] => BodyPosition (position_new x y z yaw pitch roll) | _ => BodyInvalid end.
Lemma body_read {P} (position_new : Z -> Z -> Z -> Z -> Z -> Z -> P) v t : json_text v t -> body_of position_new t = body_result position_new v.
Proof.
  intros (w & s & w' & W & H & W' & ->). unfold body_of, body_result. rewrite (struct_read v s w w' W H).
  2: { rewrite <-(app_nil_r w'). by apply stops_spaces. }
  destruct (fields_of v) as [l|]; [|done]. cbn [got_list and_then]. rewrite skip_spaces_nil by done.
  by destruct l as [|? [|? [|? [|? [|? [|? [|]]]]]]].
Qed.
