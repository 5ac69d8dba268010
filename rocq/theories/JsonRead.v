(** The reader of positions, on JSON texts. *)
From Coq Require Import Strings.String Strings.Ascii.
From Verif Require Import Base Uci MacAddress Pica Http Json JsonSpec JsonUnique.

(** ** Spaces and digits *)
Lemma is_space_spec c : is_space c = true <-> space c.
Proof. unfold is_space, space. lia. Qed.
Lemma not_space c : ~ space c -> is_space c = false.
Proof. unfold is_space, space. lia. Qed.
Lemma skip_spaces_app w t : spaces w -> skip_spaces (w ++ t) = skip_spaces t.
Proof. induction 1 as [|c w H Hw IH]; [done|]. cbn. by rewrite (proj2 (is_space_spec c) H). Qed.
Lemma skip_spaces_stop c t : ~ space c -> skip_spaces (c :: t) = c :: t.
Proof. intros H. cbn. by rewrite not_space. Qed.
Lemma skip_spaces_nil w : spaces w -> skip_spaces w = [].
Proof. intros H. rewrite <-(app_nil_r w). by rewrite skip_spaces_app. Qed.
Lemma is_digit_spec c : is_digit c = true <-> 48 <= c <= 57.
Proof. unfold is_digit. lia. Qed.
Definition no_digit (t : bytes) : Prop := match t with [] => True | c :: _ => is_digit c = false end.
Lemma skip_digits_app ds x : digits ds -> no_digit x -> skip_digits (ds ++ x) = x.
Proof.
  induction 1 as [|c ds H Hd IH]; intros N; cbn.
  - destruct x as [|c x]; [done|]. cbn in *. by rewrite N.
  - rewrite (proj2 (is_digit_spec c)) by done. by apply IH.
Qed.
Lemma digits_value_app ds x v : digits ds -> no_digit x -> digits_value v (ds ++ x) = fold_left (fun v c => 10 * v + (c - 48)) ds v.
Proof.
  intros H. revert v. induction H as [|c ds H Hd IH]; intros v N; cbn [app digits_value fold_left].
  - destruct x as [|c x]; [done|]. cbn in *. by rewrite N.
  - rewrite (proj2 (is_digit_spec c)) by done. rewrite IH by done. by rewrite (N.mul_comm v).
Qed.
Lemma stops_no_digit r : stops r -> no_digit r.
Proof. destruct r as [|c r]; [done|]. cbn. unfold numeric, is_digit. lia. Qed.

(** ** Numbers *)
Definition fraction_ok (frac : bytes) : Prop := frac = [] \/ exists c ds, frac = 46 :: c :: ds /\ digits (c :: ds).
Definition exponent_ok (exp : bytes) : Prop := exp = [] \/ exists e sign c ds, exp = e :: sign ++ c :: ds /\ (e = 101 \/ e = 69) /\
               (sign = [] \/ sign = [43] \/ sign = [45]) /\ digits (c :: ds).
Definition int_ok (int : bytes) : Prop := int = [48] \/ exists c ds, int = c :: ds /\ 49 <= c <= 57 /\ digits ds.

Lemma digits_cons c ds : digits (c :: ds) -> is_digit c = true /\ digits ds.
Proof. intros H. inversion H; subst. split; [by apply is_digit_spec|done]. Qed.
Lemma exponent_no_digit exp r : exponent_ok exp -> stops r -> no_digit (exp ++ r).
Proof. intros [->|(e & sign & c & ds & -> & He & _)] S; [exact (stops_no_digit _ S)|]. cbn. unfold is_digit. lia. Qed.
Lemma fraction_no_digit frac exp r : fraction_ok frac -> exponent_ok exp -> stops r -> no_digit (frac ++ exp ++ r).
Proof. intros [->|(c & ds & -> & _)] E S; [exact (exponent_no_digit _ _ E S)|done]. Qed.
Lemma stops_no_exponent c r : stops (c :: r) -> is_exponent c = false /\ (c =? 46) = false.
Proof. cbn. unfold numeric, is_exponent. lia. Qed.

Lemma parse_exponent_ok e sign c ds r : (e = 101 \/ e = 69) -> (sign = [] \/ sign = [43] \/ sign = [45]) -> digits (c :: ds) -> stops r ->
  parse_exponent (sign ++ c :: ds ++ r) = Got None r.
Proof.
  intros He S [D1 D2]%digits_cons Sr. pose proof (skip_digits_app ds r D2 (stops_no_digit _ Sr)) as K.
  assert ((c =? 43) || (c =? 45) = false) as N by (unfold is_digit in D1; lia).
  unfold parse_exponent. destruct S as [->|[->| ->]]; cbn [app].
  - by rewrite N, D1, K.
  - cbn. by rewrite D1, K.
  - cbn. by rewrite D1, K.
Qed.
Lemma parse_integer_ok positive int frac exp r : int_ok int -> fraction_ok frac -> exponent_ok exp -> stops r ->
  parse_integer positive (int ++ frac ++ exp ++ r) =
  Got (match frac ++ exp with
       | [] => if positive then Some (Z.of_N (digits_to_N int)) else if digits_to_N int =? 0 then None else Some (- Z.of_N (digits_to_N int))%Z
       | _ => None
       end) r.
Proof.
  intros I F E S.
  assert (forall n, parse_number positive n (frac ++ exp ++ r) =
    Got (match frac ++ exp with
       | [] => if positive then Some (Z.of_N n) else if n =? 0 then None else Some (- Z.of_N n)%Z
       | _ => None
       end) r) as PN.
  { intros n. unfold parse_number. destruct F as [->|(c & ds & -> & D)].
    - cbn [app]. destruct E as [->|(e & sign & c & ds & -> & He & Sg & D)].
      + cbn [app]. destruct r as [|c r]; [done|]. by destruct (stops_no_exponent _ _ S) as [-> ->].
      + rewrite <-app_comm_cons. replace (e =? 46) with false by lia. replace (is_exponent e) with true by (unfold is_exponent; lia).
        rewrite <-app_assoc, <-app_comm_cons. by rewrite (parse_exponent_ok e).
    - cbn [app]. change (46 =? 46) with true. cbn iota. apply digits_cons in D as [D1 D2]. unfold parse_decimal. rewrite D1.
      rewrite (skip_digits_app ds) by (by try apply exponent_no_digit).
      destruct E as [->|(e & sign & c' & ds' & -> & He & Sg & D)].
      + cbn [app]. destruct r as [|x r]; [done|]. by destruct (stops_no_exponent _ _ S) as [-> _].
      + rewrite <-app_comm_cons. replace (is_exponent e) with true by (unfold is_exponent; lia).
        rewrite <-app_assoc, <-app_comm_cons. by rewrite (parse_exponent_ok e). }
  pose proof (fraction_no_digit _ _ _ F E S) as ND.
  destruct I as [->|(c & ds & -> & Hc & D)].
  - cbn [app]. unfold parse_integer. change (48 =? 48) with true. cbn iota. rewrite PN.
    destruct (frac ++ exp ++ r) as [|x y] eqn:X; [done|]. cbn in ND. by rewrite ND.
  - rewrite <-app_comm_cons. unfold parse_integer. replace (c =? 48) with false by lia. rewrite (proj2 (is_digit_spec c)) by lia.
    rewrite (skip_digits_app ds), (digits_value_app ds) by done. rewrite PN. unfold digits_to_N. cbn [fold_left].
    replace (10 * 0 + (c - 48)) with (c - 48) by lia. done.
Qed.

(** ** Strings *)
Lemma hex_val_ok h v : (h, v) ∈ hex_digits -> hex_val h = Some v.
Proof. intros H. apply elem_of_list_In in H. cbn in H. repeat (destruct H as [H|H]; [by injection H as <- <-|]). done. Qed.
Lemma simple_escape_ok e c : (e, c) ∈ escapes -> simple_escape e = Some c.
Proof. intros H. apply elem_of_list_In in H. cbn in H. repeat (destruct H as [H|H]; [by injection H as <- <-|]). done. Qed.
Lemma utf8_plain c b : utf8_of c b -> 32 <= c -> c <> 34 -> c <> 92 -> Forall (fun x => 32 <= x /\ x <> 34 /\ x <> 92) b.
Proof. intros H. destruct H; intros; repeat constructor; lia. Qed.
Lemma utf8_fun c b : utf8_of c b -> b = utf8 c.
Proof.
  intros H. unfold utf8. destruct H as [c H|a b Hb H|a b c Hb Hc H|a b c d Hb Hc Hd H].
  - by replace (c <? 128) with true by lia.
  - replace (64 * a + b <? 128) with false by lia. replace (64 * a + b <? 2048) with true by lia.
    replace ((64 * a + b) / 64) with a by (apply (N.div_unique _ _ _ b); lia). replace ((64 * a + b) mod 64) with b by (apply (N.mod_unique _ _ a); lia). done.
  - set (n := 4096 * a + 64 * b + c) in *. replace (n <? 128) with false by lia. replace (n <? 2048) with false by lia. replace (n <? 65536) with true by lia.
    replace (n / 4096) with a by (apply (N.div_unique _ _ _ (64 * b + c)); lia).
    replace (n / 64) with (64 * a + b) by (apply (N.div_unique _ _ _ c); lia). replace ((64 * a + b) mod 64) with b by (apply (N.mod_unique _ _ a); lia).
    replace (n mod 64) with c by (apply (N.mod_unique _ _ (64 * a + b)); lia). done.
  - set (n := 262144 * a + 4096 * b + 64 * c + d) in *. replace (n <? 128) with false by lia. replace (n <? 2048) with false by lia. replace (n <? 65536) with false by lia.
    replace (n / 262144) with a by (apply (N.div_unique _ _ _ (4096 * b + 64 * c + d)); lia).
    replace (n / 4096) with (64 * a + b) by (apply (N.div_unique _ _ _ (64 * c + d)); lia). replace ((64 * a + b) mod 64) with b by (apply (N.mod_unique _ _ a); lia).
    replace (n / 64) with (4096 * a + 64 * b + c) by (apply (N.div_unique _ _ _ d); lia).
    replace ((4096 * a + 64 * b + c) mod 64) with c by (apply (N.mod_unique _ _ (64 * a + b)); lia).
    replace (n mod 64) with d by (apply (N.mod_unique _ _ (4096 * a + 64 * b + c)); lia). done.
Qed.

(** UTF-16, decoded. *)
Fixpoint decode16 (u : list N) : option (list N) :=
  match u with
  | [] => Some []
  | a :: u =>
      if low_surrogate a then None
      else if high_surrogate a then
        match u with
        | b :: u => if low_surrogate b then cons (65536 + (a - 55296) * 1024 + (b - 56320)) <$> decode16 u else None
        | [] => None
        end
      else cons a <$> decode16 u
  end.
Definition key_text (u : list N) : option bytes := (fun s => concat (map utf8 s)) <$> decode16 u.

Lemma decode16_char c s u : scalar c -> utf16_of c s -> decode16 (s ++ u) = cons c <$> decode16 u.
Proof.
  intros Sc [[H ->]|(a & b & Ha & Hb & E & ->)]%utf16_inv; cbn [app decode16]; unfold scalar in Sc.
  - replace (low_surrogate c) with false by (unfold low_surrogate; lia). by replace (high_surrogate c) with false by (unfold high_surrogate; lia).
  - replace (low_surrogate (55296 + a)) with false by (unfold low_surrogate; lia). replace (high_surrogate (55296 + a)) with true by (unfold high_surrogate; lia).
    replace (low_surrogate (56320 + b)) with true by (unfold low_surrogate; lia). f_equal. f_equal. lia.
Qed.
Lemma decode16_unicode u : Forall (fun c => c < 65536) u -> (unicode u <-> is_Some (decode16 u)).
Proof.
  intros B. split.
  - induction 1 as [|c s u Sc U H IH]; [done|]. rewrite (decode16_char c s u Sc U). apply Forall_app in B as [_ B].
    destruct (IH B) as [x ->]. done.
  - remember (length u) as n eqn:En. revert u B En. induction (lt_wf n) as [n _ IH]. intros u B En H.
    destruct u as [|a u]; [constructor|]. cbn in H. inversion B as [|? ? Ba Bu]; subst.
    destruct (low_surrogate a) eqn:L; [by destruct H|]. destruct (high_surrogate a) eqn:K.
    + destruct u as [|b u]; [by destruct H|]. destruct (low_surrogate b) eqn:M; [|by destruct H]. inversion Bu; subst.
      unfold low_surrogate, high_surrogate in *.
      change (a :: b :: u) with ([a; b] ++ u). apply (unicode_char (65536 + 1024 * (a - 55296) + (b - 56320))).
      * right. lia.
      * replace a with (55296 + (a - 55296)) at 2 by lia. replace b with (56320 + (b - 56320)) at 2 by lia. constructor; lia.
      * apply (IH (length u)); [cbn; lia|done..|]. by destruct (decode16 u).
    + change (a :: u) with ([a] ++ u). apply (unicode_char a); [|by constructor|].
      * unfold low_surrogate, high_surrogate in *. unfold scalar. lia.
      * apply (IH (length u)); [cbn; lia|done..|]. by destruct (decode16 u).
Qed.
Lemma chars_small u t : chars u t -> Forall (fun c => c < 65536) u.
Proof.
  induction 1 as [|c s b u t Sc Ge N1 N2 U16 U8 H IH|e c u t He H IH|h1 h2 h3 h4 v1 v2 v3 v4 u t H1 H2 H3 H4 H IH].
  - constructor.
  - apply Forall_app. split; [|done]. apply utf16_inv in U16 as [[? ->]|(a & b' & ? & ? & ? & ->)]; repeat constructor; lia.
  - constructor; [|done]. destruct (escapes_spec _ _ He) as (_ & _ & ? & _). lia.
  - constructor; [|done]. destruct (hex_digits_spec _ _ H1) as (? & _), (hex_digits_spec _ _ H2) as (? & _), (hex_digits_spec _ _ H3) as (? & _), (hex_digits_spec _ _ H4) as (? & _). lia.
Qed.

Lemma prepend_got s x r : prepend s (Got x r) = Got (s ++ x) r.
Proof. done. Qed.
Lemma plain_chars b t : Forall (fun x => 32 <= x /\ x <> 34 /\ x <> 92) b -> parse_chars (b ++ t) = prepend b (parse_chars t).
Proof.
  induction 1 as [|c b (H1 & H2 & H3) Hb IH].
  - cbn [app]. by destruct (parse_chars t).
  - rewrite <-app_comm_cons. cbn [parse_chars]. replace (c =? 34) with false by lia. replace (c =? 92) with false by lia. replace (c <? 32) with false by lia.
    rewrite IH. by destruct (parse_chars t).
Qed.
Lemma parse_chars_ok u t r : chars u t ->
  parse_chars (t ++ 34 :: r) = match key_text u with Some s => Got s r | None => Bad end.
Proof.
  remember (length t) as n eqn:En. revert u t En. induction (lt_wf n) as [n _ IH]. intros u t En H.
  assert (forall s u t, (length t < n)%nat -> chars u t -> prepend (concat (map utf8 s)) (parse_chars (t ++ 34 :: r)) =
            match (fun s' => concat (map utf8 s')) <$> (app s <$> decode16 u) with Some s => Got s r | None => Bad end) as IH'.
  { intros s u' t' L H'. rewrite (IH _ L u' t' eq_refl H'). unfold key_text. destruct (decode16 u') as [x|]; [|done]. cbn. by rewrite map_app, concat_app. }
  unfold key_text. destruct H as [|c s b u t Sc Ge N1 N2 U16 U8 H|e c u t He H|h1 h2 h3 h4 v1 v2 v3 v4 u t H1 H2 H3 H4 H].
  - done.
  - rewrite <-app_assoc, plain_chars by (by eapply utf8_plain). rewrite (decode16_char c s u Sc U16).
    rewrite (utf8_fun c b U8). replace (utf8 c) with (concat (map utf8 [c])) by (cbn; apply app_nil_r).
    rewrite (IH' [c] u t); [done| |done]. destruct (utf8_head _ _ U8) as (x & y & -> & _). cbn in En. rewrite app_length in En. lia.
  - rewrite <-!app_comm_cons. cbn [parse_chars]. change (92 =? 34) with false. change (92 =? 92) with true. cbn iota.
    rewrite (simple_escape_ok _ _ He). destruct (escapes_spec _ _ He) as (_ & _ & Hc & _).
    replace [c] with (concat (map utf8 [c])) by (cbn; unfold utf8; replace (c <? 128) with true by lia; done).
    rewrite (IH' [c] u t); [|cbn in En; lia|done]. cbn [decode16].
    replace (low_surrogate c) with false by (unfold low_surrogate; lia). by replace (high_surrogate c) with false by (unfold high_surrogate; lia).
  - rewrite <-!app_comm_cons. cbn [parse_chars]. change (92 =? 34) with false. change (92 =? 92) with true. cbn iota.
    change (simple_escape 117) with (@None N). change (117 =? 117) with true. cbn iota. unfold hex4 at 1.
    rewrite (hex_val_ok _ _ H1), (hex_val_ok _ _ H2), (hex_val_ok _ _ H3), (hex_val_ok _ _ H4). cbn [mbind option_bind].
    set (a := 4096 * v1 + 256 * v2 + 16 * v3 + v4). cbn [decode16].
    destruct (low_surrogate a) eqn:L; [done|]. destruct (high_surrogate a) eqn:K.
    + clear IH. destruct H as [|c s b u t Sc Ge N1 N2 U16 U8 H|e c u t He H|g1 g2 g3 g4 w1 w2 w3 w4 u t G1 G2 G3 G4 H].
      * done.
      * destruct (utf8_head _ _ U8) as (x & y & -> & D). rewrite <-app_assoc, <-app_comm_cons. replace (x =? 92) with false by lia.
        apply utf16_inv in U16 as [[? ->]|(a' & b' & ? & ? & ? & ->)]; cbn [app].
        -- replace (low_surrogate c) with false by (unfold scalar, low_surrogate in *; lia). done.
        -- replace (low_surrogate (55296 + a')) with false by (unfold low_surrogate; lia). done.
      * rewrite <-!app_comm_cons. change (92 =? 92) with true. cbn iota. destruct (escapes_spec _ _ He) as (N1 & _ & Hc & _).
        replace (e =? 117) with false by lia. replace (low_surrogate c) with false by (unfold low_surrogate; lia). done.
      * rewrite <-!app_comm_cons. change (92 =? 92) with true. change (117 =? 117) with true. cbn iota. unfold hex4.
        rewrite (hex_val_ok _ _ G1), (hex_val_ok _ _ G2), (hex_val_ok _ _ G3), (hex_val_ok _ _ G4). cbn [mbind option_bind].
        set (b := 4096 * w1 + 256 * w2 + 16 * w3 + w4). destruct (low_surrogate b) eqn:M; [|done].
        set (c := 65536 + (a - 55296) * 1024 + (b - 56320)).
        replace (utf8 c) with (concat (map utf8 [c])) by (cbn; apply app_nil_r).
        rewrite (IH' [c] u t); [done|cbn in En; lia|done].
    + replace (utf8 a) with (concat (map utf8 [a])) by (cbn; apply app_nil_r). rewrite (IH' [a] u t); [done|cbn in En; lia|done].
Qed.

Lemma utf8_valid_char c s : scalar c -> utf8_valid (utf8 c ++ s) = utf8_valid s.
Proof.
  intros H. unfold scalar in H. unfold utf8.
  destruct (c <? 128) eqn:A; [cbn; by rewrite A|].
  destruct (c <? 2048) eqn:B.
  { cbn [app utf8_valid]. pose proof (N.mod_lt c 64 ltac:(done)). pose proof (N.div_mod c 64 ltac:(done)).
    set (q := c / 64) in *. set (m := c mod 64) in *. replace (192 + q <? 128) with false by lia. replace (within 194 223 (192 + q)) with true by (unfold within; lia).
    replace (within 128 191 (128 + m)) with true by (unfold within; lia). done. }
  assert (exists q p m, q = c / 4096 /\ p = c / 64 mod 64 /\ m = c mod 64 /\ c = 4096 * q + 64 * p + m /\ p < 64 /\ m < 64) as (q & p & m & E1 & E2 & E3 & E & Hp & Hm).
  { exists (c / 4096), (c / 64 mod 64), (c mod 64). pose proof (N.mod_lt c 64 ltac:(done)). pose proof (N.div_mod c 64 ltac:(done)).
    pose proof (N.mod_lt (c / 64) 64 ltac:(done)). pose proof (N.div_mod (c / 64) 64 ltac:(done)) as D. rewrite N.div_div in D by done. change (64 * 64) with 4096 in D.
    split_and!; try done. lia. }
  destruct (c <? 65536) eqn:C.
  { rewrite <-E1, <-E2, <-E3. cbn [app utf8_valid]. clear E1 E2 E3. replace (224 + q <? 128) with false by lia.
    replace (within 194 223 (224 + q)) with false by (unfold within; lia). replace (within 224 239 (224 + q)) with true by (unfold within; lia).
    replace (within 128 191 (128 + m)) with true by (unfold within; lia).
    destruct (224 + q =? 224) eqn:X; [replace (within 160 191 (128 + p)) with true by (unfold within; lia); done|].
    destruct (224 + q =? 237) eqn:Y; [replace (within 128 159 (128 + p)) with true by (unfold within; lia); done|].
    replace (within 128 191 (128 + p)) with true by (unfold within; lia). done. }
  assert (exists q' p', q' = c / 262144 /\ p' = c / 4096 mod 64 /\ q = 64 * q' + p' /\ p' < 64) as (q' & p' & F1 & F2 & F & Hp').
  { exists (c / 262144), (c / 4096 mod 64). rewrite <-E1. pose proof (N.mod_lt q 64 ltac:(done)). pose proof (N.div_mod q 64 ltac:(done)) as D.
    split_and!; try done. rewrite E1 in D at 2. rewrite N.div_div in D by done. change (4096 * 64) with 262144 in D. lia. }
  rewrite <-F1, <-F2, <-E2, <-E3. cbn [app utf8_valid]. clear E1 E2 E3 F1 F2. replace (240 + q' <? 128) with false by lia.
  replace (within 194 223 (240 + q')) with false by (unfold within; lia). replace (within 224 239 (240 + q')) with false by (unfold within; lia).
  replace (within 240 244 (240 + q')) with true by (unfold within; lia). replace (within 128 191 (128 + m)) with true by (unfold within; lia).
  replace (within 128 191 (128 + p)) with true by (unfold within; lia).
  destruct (240 + q' =? 240) eqn:X; [replace (within 144 191 (128 + p')) with true by (unfold within; lia); done|].
  destruct (240 + q' =? 244) eqn:Y; [replace (within 128 143 (128 + p')) with true by (unfold within; lia); done|].
  replace (within 128 191 (128 + p')) with true by (unfold within; lia). done.
Qed.
Lemma decode16_scalar u s : Forall (fun c => c < 65536) u -> decode16 u = Some s -> Forall scalar s.
Proof.
  remember (length u) as n eqn:En. revert u s En. induction (lt_wf n) as [n _ IH]. intros u s En B H.
  destruct u as [|a u]; [injection H as <-; constructor|]. cbn in H. inversion B as [|? ? Ba Bu]; subst.
  destruct (low_surrogate a) eqn:L; [done|]. destruct (high_surrogate a) eqn:K.
  - destruct u as [|b u]; [done|]. destruct (low_surrogate b) eqn:M; [|done]. inversion Bu; subst.
    destruct (decode16 u) as [x|] eqn:D; [|done]. injection H as <-. constructor; [|by apply (IH (length u)) with u; [cbn; lia|..]].
    unfold low_surrogate, high_surrogate, scalar in *. lia.
  - destruct (decode16 u) as [x|] eqn:D; [|done]. injection H as <-. constructor; [|by apply (IH (length u)) with u; [cbn; lia|..]].
    unfold low_surrogate, high_surrogate, scalar in *. lia.
Qed.
Lemma parse_str_ok u t r : chars u t -> parse_str (t ++ 34 :: r) = match key_text u with Some s => Got s r | None => Bad end.
Proof.
  intros H. unfold parse_str. rewrite (parse_chars_ok u t r H). unfold key_text. destruct (decode16 u) as [s|] eqn:E; [|done]. cbn.
  assert (utf8_valid (concat (map utf8 s)) = true) as ->; [|done].
  pose proof (decode16_scalar u s (chars_small _ _ H) E) as F. clear E. induction F as [|c s Hc Hs IH]; [done|]. cbn. by rewrite utf8_valid_char.
Qed.
