(** What the reader accepts is JSON. *)
From Coq Require Import Strings.String Strings.Ascii.
From Verif Require Import Base Uci MacAddress Pica Http Json JsonSpec JsonFacts JsonUnique JsonRead JsonRead2 JsonBody.

Lemma utf8_small c b : utf8_of c b -> c < 128 -> b = [c].
Proof. destruct 1; [done|lia..]. Qed.
Lemma utf8_tail c t : utf8_text (c :: t) -> c < 128 -> utf8_text t.
Proof.
  intros H L. inversion H as [|x s u Sc U T E]. destruct (utf8_head _ _ U) as (a & b & -> & [[A ->]|[A B]]).
  - inversion U; subst; try lia. cbn in E. by injection E as _ <-.
  - injection E as -> _. lia.
Qed.
Lemma utf8_rest a t : ascii_text a -> utf8_text (a ++ t) -> utf8_text t.
Proof. induction 1 as [|c a H A IH]; [done|]. intros U. apply IH. by eapply utf8_tail. Qed.
Lemma utf8_join a b : utf8_text a -> utf8_text b -> utf8_text (a ++ b).
Proof. induction 1 as [|c s t Sc U T IH]; [done|]. intros B. rewrite <-app_assoc. econstructor; [done..|by apply IH]. Qed.

Lemma is_space_spec c : is_space c = true <-> c = 32 \/ c = 9 \/ c = 10 \/ c = 13.
Proof. unfold is_space. lia. Qed.
Lemma skip_spaces_spec t : exists w, spaces w /\ t = w ++ skip_spaces t.
Proof.
  induction t as [|c t (w & W & E)]; [exists []; split; [constructor|done]|]. cbn. destruct (is_space c) eqn:S.
  - exists (c :: w). split; [constructor; [by apply is_space_spec|done]|]. cbn. by rewrite <-E.
  - exists []. split; [constructor|done].
Qed.
Lemma spaces_ascii w : spaces w -> ascii_text w.
Proof. intros W. eapply Forall_impl; [exact W|]. cbn. lia. Qed.
Lemma spaces_cons c w : is_space c = true -> spaces w -> spaces (c :: w).
Proof. intros S W. constructor; [by apply is_space_spec|done]. Qed.
Lemma digits_ascii w : digits w -> ascii_text w.
Proof. intros W. eapply Forall_impl; [exact W|]. cbn. lia. Qed.

(** The automaton, piece by piece. *)
Lemma go_after c t st : match sk_after c st with SkGo s stack => ignore_value s stack t | SkDone => Got tt t | SkDoneBefore => Got tt (c :: t) | SkBad => Bad end = after_value st (c :: t).
Proof. by destruct st as [|o st]. Qed.
Lemma go_end c t st : match sk_end st with SkGo s stack => ignore_value s stack t | SkDone => Got tt t | SkDoneBefore => Got tt (c :: t) | SkBad => Bad end = after_value st t.
Proof. by destruct st as [|o st]. Qed.

Lemma ident_sound rest st t r : rest <> [] -> ignore_value (SkIdent rest) st t = Got tt r -> exists t', t = rest ++ t' /\ after_value st t' = Got tt r.
Proof.
  revert t. induction rest as [|e rest IH]; [done|]. intros [|c t] _; [done|]. cbn [ignore_value skip_step]. destruct (c =? e) eqn:E; [|done].
  apply N.eqb_eq in E as ->. destruct rest as [|e' rest].
  - intros H. exists t. split; [done|]. rewrite <-H. destruct st; done.
  - intros H. destruct (IH t ltac:(done) H) as (t' & -> & A). by exists t'.
Qed.

Definition exponent (exp : bytes) : Prop :=
  exp = [] \/ exists e sign c ds, exp = e :: sign ++ c :: ds /\ (e = 101 \/ e = 69) /\ (sign = [] \/ sign = [43] \/ sign = [45]) /\ digits (c :: ds).
Definition fraction (frac : bytes) : Prop := frac = [] \/ exists c ds, frac = 46 :: c :: ds /\ digits (c :: ds).
Lemma digit_spec c : is_digit c = true <-> 48 <= c <= 57.
Proof. unfold is_digit. lia. Qed.
Lemma exponent_sound st t r : ignore_value SkExponent st t = Got tt r -> exists ds t', digits ds /\ t = ds ++ t' /\ after_value st t' = Got tt r.
Proof.
  induction t as [|c t IH]; cbn [ignore_value skip_step].
  - intros H. exists [], []. split; [constructor|]. split; [done|]. by destruct st.
  - destruct (is_digit c) eqn:D.
    + intros (ds & t' & A & -> & B)%IH. exists (c :: ds), t'. split; [constructor; [by apply digit_spec|done]|done].
    + rewrite go_after. intros H. exists [], (c :: t). split; [constructor|done].
Qed.
Lemma e_sound st t r : ignore_value SkE st t = Got tt r -> exists sign c ds t', (sign = [] \/ sign = [43] \/ sign = [45]) /\ digits (c :: ds) /\ t = sign ++ c :: ds ++ t' /\ after_value st t' = Got tt r.
Proof.
  destruct t as [|c t]; [done|]. cbn [ignore_value skip_step]. destruct ((c =? 43) || (c =? 45)) eqn:S.
  - destruct t as [|d t]; [done|]. cbn [ignore_value skip_step]. destruct (is_digit d) eqn:D; [|done].
    intros (ds & t' & A & -> & B)%exponent_sound. exists [c], d, ds, t'. split; [right; apply orb_true_iff in S as [S|S]; apply N.eqb_eq in S as ->; tauto|].
    split; [constructor; [by apply digit_spec|done]|done].
  - destruct (is_digit c) eqn:D; [|done]. intros (ds & t' & A & -> & B)%exponent_sound. exists [], c, ds, t'. split; [by left|].
    split; [constructor; [by apply digit_spec|done]|done].
Qed.
Lemma is_exponent_spec c : is_exponent c = true <-> c = 101 \/ c = 69.
Proof. unfold is_exponent. lia. Qed.
Lemma fraction_sound st t r : ignore_value SkFraction st t = Got tt r -> exists ds exp t', digits ds /\ exponent exp /\ t = ds ++ exp ++ t' /\ after_value st t' = Got tt r.
Proof.
  induction t as [|c t IH]; cbn [ignore_value skip_step].
  - intros H. exists [], [], []. split; [constructor|]. split; [by left|]. split; [done|]. by destruct st.
  - destruct (is_digit c) eqn:D.
    + intros (ds & exp & t' & A & E & -> & B)%IH. exists (c :: ds), exp, t'. split; [constructor; [by apply digit_spec|done]|done].
    + unfold sk_number. cbn [andb]. destruct (is_exponent c) eqn:E.
      * intros (sign & d & ds & t' & S & Ds & -> & B)%e_sound. exists [], (c :: sign ++ d :: ds), t'. split; [constructor|]. split.
        -- right. exists c, sign, d, ds. split_and!; try done. by apply is_exponent_spec.
        -- split; [|done]. cbn. by rewrite <-app_assoc.
      * rewrite go_after. intros H. exists [], [], (c :: t). split; [constructor|]. split; [by left|done].
Qed.
Lemma number_sound st c t r :
  match sk_number true c st with SkGo s stack => ignore_value s stack t | SkDone => Got tt t | SkDoneBefore => Got tt (c :: t) | SkBad => Bad end = Got tt r ->
  exists frac exp t', fraction frac /\ exponent exp /\ c :: t = frac ++ exp ++ t' /\ after_value st t' = Got tt r.
Proof.
  unfold sk_number. cbn [andb]. destruct (c =? 46) eqn:P.
  - apply N.eqb_eq in P as ->. destruct t as [|d t]; [done|]. cbn [ignore_value skip_step]. destruct (is_digit d) eqn:D; [|done].
    intros (ds & exp & t' & A & E & -> & B)%fraction_sound. exists (46 :: d :: ds), exp, t'. split.
    + right. exists d, ds. split; [done|]. constructor; [by apply digit_spec|done].
    + done.
  - destruct (is_exponent c) eqn:E.
    + intros (sign & d & ds & t' & S & Ds & -> & B)%e_sound. exists [], (c :: sign ++ d :: ds), t'. split; [by left|]. split.
      * right. exists c, sign, d, ds. split_and!; try done. by apply is_exponent_spec.
      * split; [|done]. cbn. by rewrite <-app_assoc.
    + rewrite go_after. intros H. exists [], [], (c :: t). split; [by left|]. split; [by left|done].
Qed.
Lemma zero_sound st t r : ignore_value SkZero st t = Got tt r -> exists frac exp t', fraction frac /\ exponent exp /\ t = frac ++ exp ++ t' /\ after_value st t' = Got tt r.
Proof.
  destruct t as [|c t]; cbn [ignore_value skip_step].
  - intros H. exists [], [], []. split; [by left|]. split; [by left|]. split; [done|]. by destruct st.
  - destruct (is_digit c) eqn:D; [done|]. apply number_sound.
Qed.
Lemma int_sound st t r : ignore_value SkInt st t = Got tt r -> exists ds frac exp t', digits ds /\ fraction frac /\ exponent exp /\ t = ds ++ frac ++ exp ++ t' /\ after_value st t' = Got tt r.
Proof.
  induction t as [|c t IH]; cbn [ignore_value skip_step].
  - intros H. exists [], [], [], []. split; [constructor|]. split; [by left|]. split; [by left|]. split; [done|]. by destruct st.
  - destruct (is_digit c) eqn:D.
    + intros (ds & frac & exp & t' & A & F & E & -> & B)%IH. exists (c :: ds), frac, exp, t'. split; [constructor; [by apply digit_spec|done]|done].
    + intros (frac & exp & t' & F & E & -> & B)%number_sound. exists [], frac, exp, t'. split; [constructor|done].
Qed.
(** A number which begins with [c], after its sign. *)
Lemma unsigned_sound st c t r : c = 48 /\ ignore_value SkZero st t = Got tt r \/ is_digit c = true /\ c <> 48 /\ ignore_value SkInt st t = Got tt r ->
  exists s t', c :: t = s ++ t' /\ number s /\ number (45 :: s) /\ after_value st t' = Got tt r.
Proof.
  intros H. assert (exists int frac exp t', (int = [48] \/ exists c ds, int = c :: ds /\ 49 <= c <= 57 /\ digits ds) /\ fraction frac /\ exponent exp /\ c :: t = int ++ frac ++ exp ++ t' /\ after_value st t' = Got tt r) as (int & frac & exp & t' & I & F & E & -> & A).
  { destruct H as [[-> H]|(D & N & H)].
    - apply zero_sound in H as (frac & exp & t' & F & E & -> & A). exists [48], frac, exp, t'. split; [by left|done].
    - apply int_sound in H as (ds & frac & exp & t' & Ds & F & E & -> & A). exists (c :: ds), frac, exp, t'. split; [|done]. right. exists c, ds. split; [done|]. split; [|done].
      apply digit_spec in D. lia. }
  exists (int ++ frac ++ exp), t'. split; [by rewrite <-!app_assoc|]. split; [|split; [|done]].
  - exists [], int, frac, exp. split; [done|]. split; [by left|done].
  - exists [45], int, frac, exp. split; [done|]. split; [by right|done].
Qed.
Lemma number_ascii s : number s -> ascii_text s.
Proof.
  intros (m & i & f & e & -> & M & I & F & E). repeat apply Forall_app_2.
  - destruct M as [->| ->]; [constructor|]. by apply ascii_dec.
  - destruct I as [->|(c & ds & -> & C & D)]; [by apply ascii_dec|]. constructor; [lia|by apply digits_ascii].
  - destruct F as [->|(c & ds & -> & D)]; [constructor|]. constructor; [lia|by apply digits_ascii].
  - destruct E as [->|(x & sign & c & ds & -> & X & S & D)]; [constructor|]. constructor; [lia|]. apply Forall_app_2; [|by apply digits_ascii].
    destruct S as [->|[->| ->]]; [constructor|by apply ascii_dec..].
Qed.

Lemma hex_val_inv h v : hex_val h = Some v -> (h, v) ∈ hex_digits.
Proof.
  intros H. assert (h < 128) as L. { revert H. unfold hex_val. repeat case_match; try done; lia. }
  assert (forallb (fun h => match hex_val h with Some v => bool_decide ((h, v) ∈ hex_digits) | None => true end) (map N.of_nat (seq 0 128)) = true) as A by by vm_compute.
  rewrite forallb_forall in A. specialize (A h). rewrite H in A. apply bool_decide_eq_true in A; [done|].
  apply in_map_iff. exists (N.to_nat h). split; [lia|]. apply in_seq. lia.
Qed.
Lemma simple_escape_inv e c : simple_escape e = Some c -> (e, c) ∈ escapes.
Proof.
  unfold simple_escape. intros H. repeat (case_match; [match goal with E : (_ =? _) = true |- _ => apply N.eqb_eq in E as -> end; injection H as <-; apply elem_of_list_In; cbn; tauto|]). done.
Qed.

(** A string. *)
Lemma string_plain key st s t : Forall (fun x => 32 <= x /\ x <> 34 /\ x <> 92) s -> ignore_value (SkString key) st (s ++ t) = ignore_value (SkString key) st t.
Proof.
  induction 1 as [|x s (A & B & C) F IH]; [done|]. cbn [app ignore_value skip_step].
  replace (x =? 34) with false by lia. replace (x =? 92) with false by lia. replace (x <? 32) with false by lia. done.
Qed.
Lemma utf16_total c : scalar c -> exists s, utf16_of c s.
Proof.
  intros H. destruct (decide (c < 65536)) as [L|L]; [exists [c]; by constructor|]. exists [55296 + (c - 65536) / 1024; 56320 + (c - 65536) mod 1024].
  unfold scalar in H. pose proof (N.div_mod (c - 65536) 1024 ltac:(done)). pose proof (N.mod_lt (c - 65536) 1024 ltac:(done)).
  pose proof (utf16_2 ((c - 65536) / 1024) ((c - 65536) mod 1024) ltac:(lia) ltac:(lia)) as U.
  by replace (65536 + 1024 * ((c - 65536) / 1024) + (c - 65536) mod 1024) with c in U by lia.
Qed.
Lemma string_sound key st t r : utf8_text t -> ignore_value (SkString key) st t = Got tt r ->
  exists u s t', chars u s /\ t = s ++ 34 :: t' /\ utf8_text t' /\ (if key then ignore_value SkColon st t' else after_value st t') = Got tt r.
Proof.
  remember (length t) as n eqn:En. revert t En. induction (lt_wf n) as [n _ IH]. intros t En U H. subst n.
  destruct U as [|c s t Sc U T]; [done|]. destruct (decide (c = 34)) as [->|N34]; [|destruct (decide (c = 92)) as [->|N92]; [|destruct (decide (c < 32)) as [L|L]]].
  - pose proof (utf8_small _ _ U ltac:(lia)) as ->. cbn in H. exists [], [], t. split; [constructor|]. split; [done|]. split; [done|]. destruct key; [done|]. rewrite <-H. symmetry. exact (go_end 34 t st).
  - pose proof (utf8_small _ _ U ltac:(lia)) as ->. destruct t as [|e t]; [done|]. cbn in H. destruct (simple_escape e) as [d|] eqn:S.
    + pose proof (simple_escape_inv _ _ S) as Ie. assert (utf8_text t) as T' by (eapply utf8_tail; [done|]; by destruct (escapes_spec _ _ Ie) as (_ & ? & _)).
      destruct (IH (length t) ltac:(cbn; lia) t eq_refl T' H) as (u & s & t' & C & -> & T'' & A). exists (d :: u), (92 :: e :: s), t'. split; [by constructor|done].
    + destruct (e =? 117) eqn:E; [|done]. apply N.eqb_eq in E as ->. assert (utf8_text t) as T' by by eapply utf8_tail.
      destruct t as [|h1 [|h2 [|h3 [|h4 t]]]]; try done. cbn in H.
      destruct (hex_val h1) as [v1|] eqn:H1; [|done]. destruct (hex_val h2) as [v2|] eqn:H2; [|done]. destruct (hex_val h3) as [v3|] eqn:H3; [|done]. destruct (hex_val h4) as [v4|] eqn:H4; [|done].
      cbn in H. apply hex_val_inv in H1, H2, H3, H4. assert (utf8_text t) as T''.
      { apply (utf8_rest [h1; h2; h3; h4]); [|done]. repeat constructor; eapply hex_digits_spec; done. }
      destruct (IH (length t) ltac:(cbn; lia) t eq_refl T'' H) as (u & s & t' & C & -> & T3 & A). eexists (_ :: u), (92 :: 117 :: h1 :: h2 :: h3 :: h4 :: s), t'.
      split; [by apply chars_unicode|done].
  - exfalso. pose proof (utf8_small _ _ U ltac:(lia)) as ->. cbn in H. replace (c =? 34) with false in H by lia. replace (c =? 92) with false in H by lia. by replace (c <? 32) with true in H by lia.
  - rewrite string_plain in H by (eapply utf8_plain; [done|lia..]).
    assert (length t < length (s ++ t))%nat as Ll. { rewrite app_length. destruct (utf8_head _ _ U) as (? & ? & -> & _). cbn. lia. }
    destruct (IH (length t) Ll t eq_refl T H) as (u & s' & t' & C & -> & T3 & A). destruct (utf16_total c Sc) as (cu & Cu).
    exists (cu ++ u), (s ++ s'), t'. split; [by eapply chars_plain; try done; lia|]. split; [by rewrite <-app_assoc|done].
Qed.

Lemma spaces_value st t r : ignore_value SkValue st t = Got tt r -> exists w, spaces w /\ t = w ++ skip_spaces t /\ ignore_value SkValue st (skip_spaces t) = Got tt r.
Proof.
  induction t as [|c t IH]; [done|]. cbn [ignore_value skip_step skip_spaces]. destruct (is_space c) eqn:S.
  - intros (w & W & E & H)%IH. exists (c :: w). split; [by apply spaces_cons|]. split; [cbn; by rewrite <-E|done].
  - intros H. exists []. split; [constructor|]. split; [done|]. cbn [ignore_value skip_step]. by rewrite S.
Qed.
Lemma skip_head t c u : skip_spaces t = c :: u -> is_space c = false.
Proof. induction t as [|d t IH]; [done|]. cbn. destruct (is_space d) eqn:S; [done|]. intros E. by injection E as <- <-. Qed.

Definition Vsound n := forall t st r, (length t < n)%nat -> utf8_text t -> ignore_value SkValue st t = Got tt r ->
  exists w v s t', spaces w /\ value v s /\ t = w ++ s ++ t' /\ utf8_text t' /\ after_value st t' = Got tt r.
Definition Ksound n := forall t st r, (length t < n)%nat -> utf8_text t -> ignore_value SkKey (true :: st) t = Got tt r ->
  exists w k v s t', spaces w /\ member k v s /\ t = w ++ s ++ t' /\ utf8_text t' /\ ignore_value SkAfter (true :: st) t' = Got tt r.
Definition Asound n := forall t st r, (length t < n)%nat -> utf8_text t -> ignore_value SkAfter (false :: st) t = Got tt r ->
  exists w t', spaces w /\ utf8_text t' /\ after_value st t' = Got tt r /\ (t = w ++ 93 :: t' \/ exists l e, elements l e /\ t = w ++ 44 :: e ++ 93 :: t').
Definition Osound n := forall t st r, (length t < n)%nat -> utf8_text t -> ignore_value SkAfter (true :: st) t = Got tt r ->
  exists w t', spaces w /\ utf8_text t' /\ after_value st t' = Got tt r /\ (t = w ++ 125 :: t' \/ exists l e, members l e /\ t = w ++ 44 :: e ++ 125 :: t').

Lemma spaces_state s st t r : (s = SkKey \/ s = SkColon \/ s = SkOpened /\ st <> [] \/ s = SkAfter /\ st <> []) -> ignore_value s st t = Got tt r ->
  exists w c u, spaces w /\ is_space c = false /\ t = w ++ c :: u /\ ignore_value s st (c :: u) = Got tt r.
Proof.
  intros Hs. induction t as [|c t IH]; [by destruct Hs as [->|[->|[[-> _]|[-> _]]]]|]. destruct (is_space c) eqn:S.
  - intros H. destruct IH as (w & d & u & W & D & -> & G).
    { revert H. cbn [ignore_value]. destruct Hs as [->|[->|[[-> N]|[-> N]]]]; cbn [skip_step]; [..|destruct st; [done|]|destruct st; [done|]; unfold sk_after]; by rewrite S. }
    exists (c :: w), d, u. split; [by apply spaces_cons|done].
  - intros H. exists [], c, t. split; [constructor|done].
Qed.

Lemma value_sound n : Vsound n /\ Ksound n /\ Asound n /\ Osound n.
Proof.
  induction n as [|n (IV & IK & IA & IO)]; [repeat split; intros t st r L; lia|].
  assert (Vsound (S n)) as NV.
  { intros t st r L U H. apply spaces_value in H as (w & W & E & H). destruct (skip_spaces t) as [|c u] eqn:SS; [done|]. pose proof (skip_head _ _ _ SS) as S. subst t.
    apply utf8_rest in U; [|by apply spaces_ascii]. rewrite app_length in L. cbn [length] in L.
    cut (exists v s t', value v s /\ c :: u = s ++ t' /\ utf8_text t' /\ after_value st t' = Got tt r).
    { intros (v & s & t' & V & -> & T & A). exists w, v, s, t'. done. }
    cbn [ignore_value skip_step] in H. rewrite S in H. unfold sk_value in H.
    destruct (c =? 110) eqn:C; [|clear C; destruct (c =? 116) eqn:C; [|clear C; destruct (c =? 102) eqn:C; [|clear C; destruct (c =? 45) eqn:C; [|clear C; destruct (c =? 48) eqn:C0; [|
      destruct (is_digit c) eqn:D; [|destruct (c =? 34) eqn:C; [|clear C; destruct (c =? 91) eqn:C; [|clear C; destruct (c =? 123) eqn:C; [|done]]]]]]]]];
      try (apply N.eqb_eq in C as ->); try (apply N.eqb_eq in C0 as ->).
    - apply ident_sound in H as (t' & -> & A); [|done]. exists JNull, (str "null"), t'. split; [constructor|]. split; [done|]. split; [|done]. apply (utf8_rest (str "null")); [by apply ascii_dec|done].
    - apply ident_sound in H as (t' & -> & A); [|done]. exists (JBool true), (str "true"), t'. split; [constructor|]. split; [done|]. split; [|done]. apply (utf8_rest (str "true")); [by apply ascii_dec|done].
    - apply ident_sound in H as (t' & -> & A); [|done]. exists (JBool false), (str "false"), t'. split; [constructor|]. split; [done|]. split; [|done]. apply (utf8_rest (str "false")); [by apply ascii_dec|done].
    - destruct u as [|d u]; [done|]. cbn [ignore_value skip_step] in H.
      assert (d = 48 /\ ignore_value SkZero st u = Got tt r \/ is_digit d = true /\ d <> 48 /\ ignore_value SkInt st u = Got tt r) as G.
      { destruct (d =? 48) eqn:Z; [left; split; [lia|done]|]. destruct (is_digit d) eqn:D; [|done]. right. split; [done|]. split; [lia|done]. }
      apply unsigned_sound in G as (s & t' & E & _ & N & A). exists (JNumber (45 :: s)), (45 :: s), t'. split; [by constructor|]. rewrite E. split; [done|]. split; [|done].
      apply (utf8_rest (45 :: s)); [by apply number_ascii|]. by rewrite E in U.
    - destruct (unsigned_sound st 48 u r) as (s & t' & E & N & _ & A); [by left|]. exists (JNumber s), s, t'. split; [by constructor|]. rewrite E in U |- *. split; [done|]. split; [|done].
      apply (utf8_rest s); [by apply number_ascii|done].
    - destruct (unsigned_sound st c u r) as (s & t' & E & N & _ & A); [right; split; [done|]; split; [lia|done]|]. exists (JNumber s), s, t'. split; [by constructor|]. rewrite E in U |- *. split; [done|]. split; [|done].
      apply (utf8_rest s); [by apply number_ascii|done].
    - apply string_sound in H as (k & s & t' & C & -> & T & A); [|by eapply utf8_tail]. exists (JString k), (34 :: s ++ [34]), t'. split; [by constructor|]. split; [cbn; by rewrite <-app_assoc|done].
    - apply utf8_tail in U; [|done]. apply spaces_state in H as (w1 & d & u1 & W1 & Dd & -> & H); [|by right; right; left].
      pose proof (utf8_rest _ _ (spaces_ascii _ W1) U) as U1. rewrite app_length in L. cbn [length] in L. cbn [ignore_value skip_step] in H. rewrite Dd in H.
      destruct (d =? 93) eqn:C.
      + apply N.eqb_eq in C as ->. rewrite go_end in H. exists (JArray []), (91 :: w1 ++ [93]), u1. split; [by constructor|]. split; [cbn; by rewrite <-app_assoc|]. split; [by eapply utf8_tail|done].
      + assert (ignore_value SkValue (false :: st) (d :: u1) = Got tt r) as H' by (cbn [ignore_value skip_step]; by rewrite Dd).
        apply IV in H' as (w2 & v & s & t' & W2 & V & E & T & A); [|cbn; lia|done]. rewrite E in U1 |- *.
        assert (length (d :: u1) = length (w2 ++ s ++ t')) as El by by rewrite E. rewrite !app_length in El. cbn [length] in El.
        apply IA in A as (w3 & t'' & W3 & T'' & A & [->|(l & e & El' & ->)]); [| |lia|done].
        * exists (JArray [v]), (91 :: (w1 ++ w2) ++ s ++ w3 ++ [93]), t''. split.
          -- replace ((w1 ++ w2) ++ s ++ w3 ++ [93]) with (((w1 ++ w2) ++ s ++ w3) ++ [93]) by (by rewrite <-!app_assoc). constructor. constructor; [|done..]. by apply Forall_app_2.
          -- split; [cbn; by rewrite <-!app_assoc|done].
        * exists (JArray (v :: l)), (91 :: (w1 ++ w2) ++ s ++ w3 ++ 44 :: e ++ [93]), t''. split.
          -- replace ((w1 ++ w2) ++ s ++ w3 ++ 44 :: e ++ [93]) with (((w1 ++ w2) ++ s ++ w3 ++ 44 :: e) ++ [93]) by (rewrite <-!app_assoc; done). constructor. constructor; [|done..]. by apply Forall_app_2.
          -- split; [cbn; rewrite <-!app_assoc; cbn; by rewrite <-!app_assoc|done].
    - apply utf8_tail in U; [|done]. apply spaces_state in H as (w1 & d & u1 & W1 & Dd & -> & H); [|by right; right; left].
      pose proof (utf8_rest _ _ (spaces_ascii _ W1) U) as U1. rewrite app_length in L. cbn [length] in L. cbn [ignore_value skip_step] in H. rewrite Dd in H.
      destruct (d =? 125) eqn:C.
      + apply N.eqb_eq in C as ->. rewrite go_end in H. exists (JObject []), (123 :: w1 ++ [125]), u1. split; [by constructor|]. split; [cbn; by rewrite <-app_assoc|]. split; [by eapply utf8_tail|done].
      + assert (ignore_value SkKey (true :: st) (d :: u1) = Got tt r) as H' by (cbn [ignore_value skip_step]; by rewrite Dd).
        apply IK in H' as (w2 & k & v & s & t' & W2 & V & E & T & A); [|cbn; lia|done]. rewrite E in U1 |- *.
        assert (length (d :: u1) = length (w2 ++ s ++ t')) as El by by rewrite E. rewrite !app_length in El. cbn [length] in El.
        apply IO in A as (w3 & t'' & W3 & T'' & A & [->|(l & e & El' & ->)]); [| |lia|done].
        * exists (JObject [(k, v)]), (123 :: (w1 ++ w2) ++ s ++ w3 ++ [125]), t''. split.
          -- replace ((w1 ++ w2) ++ s ++ w3 ++ [125]) with (((w1 ++ w2) ++ s ++ w3) ++ [125]) by (by rewrite <-!app_assoc). constructor. constructor; [|done..]. by apply Forall_app_2.
          -- split; [cbn; by rewrite <-!app_assoc|done].
        * exists (JObject ((k, v) :: l)), (123 :: (w1 ++ w2) ++ s ++ w3 ++ 44 :: e ++ [125]), t''. split.
          -- replace ((w1 ++ w2) ++ s ++ w3 ++ 44 :: e ++ [125]) with (((w1 ++ w2) ++ s ++ w3 ++ 44 :: e) ++ [125]) by (rewrite <-!app_assoc; done). constructor. constructor; [|done..]. by apply Forall_app_2.
          -- split; [cbn; rewrite <-!app_assoc; cbn; by rewrite <-!app_assoc|done]. }
  assert (Ksound (S n)) as NK.
  { intros t st r L U H. apply spaces_state in H as (w & c & u & W & S & -> & H); [|by left]. apply utf8_rest in U; [|by apply spaces_ascii]. rewrite app_length in L. cbn [length] in L.
    cbn [ignore_value skip_step] in H. rewrite S in H. unfold sk_key in H. destruct (c =? 34) eqn:C; [|done]. apply N.eqb_eq in C as ->. apply utf8_tail in U; [|done].
    apply string_sound in H as (k & s & t' & Ck & -> & T & A); [|done]. rewrite app_length in L. cbn [length] in L.
    apply spaces_state in A as (w1 & d & u1 & W1 & D & -> & A); [|by right; left]. apply utf8_rest in T; [|by apply spaces_ascii]. rewrite app_length in L. cbn [length] in L.
    cbn [ignore_value skip_step] in A. rewrite D in A. destruct (d =? 58) eqn:C; [|done]. apply N.eqb_eq in C as ->. apply utf8_tail in T; [|done].
    apply IV in A as (w2 & v & s2 & t2 & W2 & V & -> & T2 & A); [|lia|done]. cbn [after_value] in A.
    exists w, k, v, (34 :: s ++ 34 :: w1 ++ 58 :: w2 ++ s2), t2. split; [done|]. split; [by constructor|]. split; [|done].
    f_equal. cbn. f_equal. rewrite <-app_assoc. cbn. f_equal. f_equal. rewrite <-app_assoc. cbn. f_equal. f_equal. by rewrite <-app_assoc. }
  split; [done|]. split; [done|]. split.
  - intros t st r L U H. apply spaces_state in H as (w & c & u & W & S & -> & H); [|by right; right; right]. apply utf8_rest in U; [|by apply spaces_ascii]. rewrite app_length in L. cbn [length] in L.
    cbn [ignore_value skip_step sk_after] in H. rewrite S in H. destruct (c =? 44) eqn:C; [|clear C; destruct (c =? 93) eqn:C; [|done]]; apply N.eqb_eq in C as ->; apply utf8_tail in U; try done.
    + apply IV in H as (w1 & v & s & t' & W1 & V & -> & T & A); [|lia|done]. rewrite !app_length in L.
      apply IA in A as (w2 & t'' & W2 & T'' & A & [->|(l & e & El & ->)]); [| |lia|done]; exists w, t''; (split; [done|]; split; [done|]; split; [done|]; right).
      * exists [v], (w1 ++ s ++ w2). split; [by constructor|]. by rewrite <-!app_assoc.
      * exists (v :: l), (w1 ++ s ++ w2 ++ 44 :: e). split; [by constructor|]. rewrite <-!app_assoc. done.
    + rewrite go_end in H. exists w, u. split; [done|]. split; [done|]. split; [done|]. by left.
  - intros t st r L U H. apply spaces_state in H as (w & c & u & W & S & -> & H); [|by right; right; right]. apply utf8_rest in U; [|by apply spaces_ascii]. rewrite app_length in L. cbn [length] in L.
    cbn [ignore_value skip_step sk_after] in H. rewrite S in H. destruct (c =? 44) eqn:C; [|clear C; destruct (c =? 125) eqn:C; [|done]]; apply N.eqb_eq in C as ->; apply utf8_tail in U; try done.
    + apply IK in H as (w1 & k & v & s & t' & W1 & V & -> & T & A); [|lia|done]. rewrite !app_length in L.
      apply IO in A as (w2 & t'' & W2 & T'' & A & [->|(l & e & El & ->)]); [| |lia|done]; exists w, t''; (split; [done|]; split; [done|]; split; [done|]; right).
      * exists [(k, v)], (w1 ++ s ++ w2). split; [by constructor|]. by rewrite <-!app_assoc.
      * exists ((k, v) :: l), (w1 ++ s ++ w2 ++ 44 :: e). split; [by constructor|]. rewrite <-!app_assoc. done.
    + rewrite go_end in H. exists w, u. split; [done|]. split; [done|]. split; [done|]. by left.
Qed.
Lemma ignore_sound t r : utf8_text t -> ignore_value SkValue [] t = Got tt r -> exists w v s, spaces w /\ value v s /\ t = w ++ s ++ r /\ utf8_text r.
Proof.
  intros U H. destruct (value_sound (S (length t))) as (V & _). apply V in H as (w & v & s & t' & W & Hv & -> & T & A); [|lia|done].
  cbn in A. injection A as ->. by exists w, v, s.
Qed.
