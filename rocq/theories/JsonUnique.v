(** The grammar of JSON is unambiguous. *)
From Coq Require Import Strings.String Strings.Ascii.
From Verif Require Import Base Uci MacAddress Pica Http JsonSpec.

Scheme value_mut := Induction for value Sort Prop
  with elements_mut := Induction for elements Sort Prop
  with members_mut := Induction for members Sort Prop
  with member_mut := Induction for member Sort Prop.
Combined Scheme json_mut from value_mut, elements_mut, members_mut, member_mut.

Definition space (c : N) : Prop := c = 32 \/ c = 9 \/ c = 10 \/ c = 13.
Definition numeric (c : N) : Prop := 48 <= c <= 57 \/ c = 46 \/ c = 101 \/ c = 69 \/ c = 43 \/ c = 45.
(** What may follow a number. *)
Definition stops (r : bytes) : Prop := match r with [] => True | c :: _ => ~ numeric c end.

Lemma spaces_cancel w w' c c' x x' : spaces w -> spaces w' -> ~ space c -> ~ space c' -> w ++ c :: x = w' ++ c' :: x' -> w = w' /\ c = c' /\ x = x'.
Proof.
  intros H. revert w'. induction H as [|d w D Hw IH]; intros w' H' N N' E.
  - destruct w' as [|d' w']; cbn in E; [by injection E|]. inversion H'; subst. by injection E as -> _.
  - destruct w' as [|d' w']; cbn in E.
    + by injection E as <- _.
    + inversion H'; subst. injection E as -> E. destruct (IH w' ltac:(done) N N' E) as (-> & -> & ->). done.
Qed.
Lemma stops_spaces w r : spaces w -> stops r -> stops (w ++ r).
Proof. destruct 1 as [|d w D Hw]; [done|]. intros _. cbn. unfold numeric. intros A. destruct D as [->|[->|[->| ->]]]; lia. Qed.

Lemma number_numeric t : number t -> Forall numeric t /\ t <> [].
Proof.
  assert (forall ds, digits ds -> Forall numeric ds) as DN by (intros ds H; eapply Forall_impl; [apply H|]; cbn; by left).
  intros (minus & int & frac & exp & -> & M & I & F & E).
  assert (Forall numeric int /\ int <> []) as [I1 I2].
  { destruct I as [->|(c & ds & -> & Hc & D)]; split; try done; constructor; [left; lia|constructor|left; lia|by apply DN]. }
  split.
  - apply Forall_app; split; [destruct M as [->| ->]; repeat constructor; unfold numeric; lia|].
    apply Forall_app; split; [done|]. apply Forall_app; split.
    + destruct F as [->|(c & ds & -> & D)]; [constructor|]. constructor; [unfold numeric; lia|by apply DN].
    + destruct E as [->|(e & sign & c & ds & -> & He & S & D)]; [constructor|]. constructor; [unfold numeric; lia|].
      apply Forall_app; split; [destruct S as [->|[->| ->]]; repeat constructor; unfold numeric; lia|by apply DN].
  - destruct M as [->| ->]; [|done]. by destruct int.
Qed.
Lemma number_head t : number t -> exists c u, t = c :: u /\ (c = 45 \/ 48 <= c <= 57).
Proof.
  intros (minus & int & frac & exp & -> & M & I & _).
  destruct M as [->| ->]; [|by eexists _, _; split; [|left]]. destruct I as [->|(c & ds & -> & Hc & D)]; eexists _, _; (split; [done|right; lia]).
Qed.
Lemma maximal t t' r r' : Forall numeric t -> Forall numeric t' -> stops r -> stops r' -> t ++ r = t' ++ r' -> t = t' /\ r = r'.
Proof.
  intros H. revert t'. induction H as [|c t Hc Ht IH]; intros t' H' S S' E.
  - destruct t' as [|c' t']; [done|]. cbn in E. subst r. inversion H'; subst. by destruct S.
  - destruct t' as [|c' t']; cbn in E.
    + subst r'. by destruct S'.
    + inversion H'; subst. injection E as -> E. destruct (IH t' ltac:(done) S S' E) as [-> ->]. done.
Qed.

Lemma utf8_head c b : utf8_of c b -> exists x y, b = x :: y /\ (c < 128 /\ x = c \/ 128 <= c /\ 192 <= x).
Proof. destruct 1; eexists _, _; (split; [done|]); [left|right..]; lia. Qed.
Lemma utf8_cancel c c' b b' x x' : utf8_of c b -> utf8_of c' b' -> b ++ x = b' ++ x' -> c = c' /\ b = b' /\ x = x'.
Proof. intros [] [] E; cbn in E; injection E; intros; subst; first [by split_and!|exfalso; lia|idtac]; (split; [lia|split; [|done]]; repeat f_equal; lia). Qed.
Lemma utf16_inv c s : utf16_of c s -> c < 65536 /\ s = [c] \/ exists a b, a < 1024 /\ b < 1024 /\ c = 65536 + 1024 * a + b /\ s = [55296 + a; 56320 + b].
Proof. destruct 1 as [|a b]; [by left|right; by exists a, b]. Qed.
Lemma utf16_fun c s s' : utf16_of c s -> utf16_of c s' -> s = s'.
Proof.
  intros [[? ->]|(a & b & Ha & Hb & E & ->)]%utf16_inv [[? ->]|(a' & b' & Ha' & Hb' & E' & ->)]%utf16_inv; [done|lia|lia|].
  assert (a' = a) as -> by lia. assert (b' = b) as -> by lia. done.
Qed.

Lemma hex_digits_spec h v : (h, v) ∈ hex_digits -> v < 16 /\ h < 128 /\ h <> 34 /\ h <> 92 /\ forall v', (h, v') ∈ hex_digits -> v' = v.
Proof.
  intros H. apply elem_of_list_In in H. cbn in H.
  repeat (destruct H as [H|H]; [injection H as <- <-; split_and!; try lia; intros v' H'; apply elem_of_list_In in H'; cbn in H';
    repeat (destruct H' as [H'|H']; [by injection H' as ?; try lia; subst|]); done|]). done.
Qed.
Lemma escapes_spec e c : (e, c) ∈ escapes -> e <> 117 /\ e < 128 /\ c < 128 /\ forall c', (e, c') ∈ escapes -> c' = c.
Proof.
  intros H. apply elem_of_list_In in H. cbn in H.
  repeat (destruct H as [H|H]; [injection H as <- <-; split_and!; try lia; intros v' H'; apply elem_of_list_In in H'; cbn in H';
    repeat (destruct H' as [H'|H']; [by injection H' as ?; try lia; subst|]); done|]). done.
Qed.

Lemma chars_cancel u t : chars u t -> forall u' t' r r', chars u' t' -> t ++ 34 :: r = t' ++ 34 :: r' -> u = u' /\ t = t' /\ r = r'.
Proof.
  induction 1 as [|c s b u t Sc Ge N1 N2 U16 U8 H IH|e c u t He H IH|h1 h2 h3 h4 v1 v2 v3 v4 u t H1 H2 H3 H4 H IH]; intros u' t' r r' H' E.
  - destruct H' as [|c' s' b' u' t' Sc' Ge' N1' N2' U16' U8' H'|e' c' u' t' He' H'|]; cbn in E; try done; [by injection E as ->|].
    apply utf8_head in U8' as (x & y & -> & D). cbn in E. injection E as ? _. lia.
  - destruct H' as [|c' s' b' u' t' Sc' Ge' N1' N2' U16' U8' H'|e' c' u' t' He' H'|].
    + apply utf8_head in U8 as (x & y & -> & D). cbn in E. injection E as ? _. lia.
    + rewrite <-!app_assoc in E. destruct (utf8_cancel _ _ _ _ _ _ U8 U8' E) as (-> & -> & E').
      destruct (IH _ _ _ _ H' E') as (-> & -> & ->). by rewrite (utf16_fun _ _ _ U16 U16').
    + apply utf8_head in U8 as (x & y & -> & D). cbn in E. injection E as ? _. lia.
    + apply utf8_head in U8 as (x & y & -> & D). cbn in E. injection E as ? _. lia.
  - destruct H' as [|c' s' b' u' t' Sc' Ge' N1' N2' U16' U8' H'|e' c' u' t' He' H'|]; cbn in E; try done.
    + apply utf8_head in U8' as (x & y & -> & D). cbn in E. injection E as ? _. lia.
    + injection E as <- E. destruct (IH _ _ _ _ H' E) as (-> & -> & ->). by rewrite (proj2 (proj2 (proj2 (escapes_spec _ _ He))) _ He').
    + injection E as -> _. by destruct (escapes_spec _ _ He).
  - destruct H' as [|c' s' b' u' t' Sc' Ge' N1' N2' U16' U8' H'|e' c' u' t' He' H'|g1 g2 g3 g4 x1 x2 x3 x4 u' t' G1 G2 G3 G4 H']; cbn in E; try done.
    + apply utf8_head in U8' as (x & y & -> & D). cbn in E. injection E as ? _. lia.
    + injection E as <- _. by destruct (escapes_spec _ _ He').
    + injection E as <- <- <- <- E. destruct (IH _ _ _ _ H' E) as (-> & -> & ->).
      rewrite (proj2 (proj2 (proj2 (proj2 (hex_digits_spec _ _ H1)))) _ G1), (proj2 (proj2 (proj2 (proj2 (hex_digits_spec _ _ H2)))) _ G2),
        (proj2 (proj2 (proj2 (proj2 (hex_digits_spec _ _ H3)))) _ G3), (proj2 (proj2 (proj2 (proj2 (hex_digits_spec _ _ H4)))) _ G4). done.
Qed.

(** The first byte of a value tells its kind. *)
Definition starts (v : json) (c : N) : Prop :=
  match v with
  | JNull => c = 110
  | JBool true => c = 116
  | JBool false => c = 102
  | JNumber _ => c = 45 \/ 48 <= c <= 57
  | JString _ => c = 34
  | JArray _ => c = 91
  | JObject _ => c = 123
  end.
Lemma value_head v t : value v t -> exists c u, t = c :: u /\ starts v c.
Proof.
  intros V. destruct V as [| | |x H| | | | |]; [by eexists _, _; split; [reflexivity|cbn]..| | | | | |]; [|by eexists _, _; split; [reflexivity|cbn]..].
  destruct (number_head x H) as (c & u & -> & D). by exists c, u.
Qed.
Lemma starts_not v c : starts v c -> ~ space c /\ c <> 93 /\ c <> 125 /\ c <> 44 /\ c <> 58.
Proof. unfold space. destruct v as [|[]| | | |]; cbn; lia. Qed.
Lemma elements_head l t : elements l t -> exists w c u, spaces w /\ t = w ++ c :: u /\ ~ space c /\ c <> 93.
Proof. destruct 1 as [v w t w' A H B|v w t w' l s A H B C]; destruct (value_head _ _ H) as (c & u & -> & S); destruct (starts_not _ _ S) as (? & ? & _); by exists w, c; eexists. Qed.
Lemma members_head l t : members l t -> exists w u, spaces w /\ t = w ++ 34 :: u.
Proof. destruct 1 as [k v w t w' A H B|k v w t w' l s A H B C]; destruct H; exists w; by eexists. Qed.

Lemma json_cancel :
  (forall v t, value v t -> forall v' t' r r', value v' t' -> t ++ r = t' ++ r' -> stops r -> stops r' -> v = v' /\ t = t' /\ r = r') /\
  (forall l t, elements l t -> forall l' t' r r', elements l' t' -> t ++ 93 :: r = t' ++ 93 :: r' -> l = l' /\ t = t' /\ r = r') /\
  (forall l t, members l t -> forall l' t' r r', members l' t' -> t ++ 125 :: r = t' ++ 125 :: r' -> l = l' /\ t = t' /\ r = r') /\
  (forall k v t, member k v t -> forall k' v' t' r r', member k' v' t' -> t ++ r = t' ++ r' -> stops r -> stops r' -> k = k' /\ v = v' /\ t = t' /\ r = r').
Proof.
  assert (forall c, c = 93 \/ c = 125 \/ c = 44 \/ c = 58 \/ c = 34 -> ~ space c) as NS by (unfold space; lia).
  assert (forall c x, c = 93 \/ c = 125 \/ c = 44 \/ c = 58 \/ c = 34 -> stops (c :: x)) as ST by (cbn; unfold numeric; lia).
  (* A value of another kind has another first byte. *)
  assert (forall v t v' t' r r', value v t -> value v' t' -> t ++ r = t' ++ r' -> exists c, starts v c /\ starts v' c) as K.
  { intros v t v' t' r r' V V' E. destruct (value_head _ _ V) as (c & u & -> & S), (value_head _ _ V') as (c' & u' & -> & S').
    cbn in E. injection E as -> _. by exists c'. }
  apply json_mut.
  - intros v' t' r r' H' E S S'. destruct (K _ _ _ _ _ _ value_null H' E) as (c & K1 & K2). cbn in K1. subst c.
    destruct H'; cbn in K2; try lia. cbn in E. injection E as ->. done.
  - intros v' t' r r' H' E S S'. destruct (K _ _ _ _ _ _ value_true H' E) as (c & K1 & K2). cbn in K1. subst c.
    destruct H'; cbn in K2; try lia. cbn in E. injection E as ->. done.
  - intros v' t' r r' H' E S S'. destruct (K _ _ _ _ _ _ value_false H' E) as (c & K1 & K2). cbn in K1. subst c.
    destruct H'; cbn in K2; try lia. cbn in E. injection E as ->. done.
  - intros t H v' t' r r' H' E S S'. destruct (K _ _ _ _ _ _ (value_number t H) H' E) as (c & K1 & K2). cbn in K1.
    destruct H' as [| | |t' H'| | | | |]; cbn in K2; try lia.
    destruct (maximal t t' r r') as [-> ->]; try done; by apply number_numeric.
  - intros u t H v' t' r r' H' E S S'. destruct (K _ _ _ _ _ _ (value_string u t H) H' E) as (c & K1 & K2). cbn in K1.
    destruct H' as [| | |t' H'|u' t' H'| | | |]; cbn in K2; try lia.
    cbn in E. injection E as E. rewrite <-!app_assoc in E. cbn in E. by destruct (chars_cancel _ _ H _ _ _ _ H' E) as (-> & -> & ->).
  - intros w H v' t' r r' H' E S S'. destruct (K _ _ _ _ _ _ (value_array_empty w H) H' E) as (c & K1 & K2). cbn in K1.
    destruct H' as [| | |t' H'|u' t' H'|w' H'|l' t' H'| |]; cbn in K2; try lia.
    + cbn in E. injection E as E. rewrite <-!app_assoc in E. cbn in E.
      destruct (spaces_cancel _ _ _ _ _ _ H H' (NS 93 ltac:(lia)) (NS 93 ltac:(lia)) E) as (-> & _ & ->). done.
    + exfalso. destruct (elements_head _ _ H') as (w' & d & u & A & -> & B & C). cbn in E. injection E as E. rewrite <-!app_assoc in E. cbn in E.
      destruct (spaces_cancel _ _ _ _ _ _ H A (NS 93 ltac:(lia)) B E) as (_ & <- & _). done.
  - intros l t H IH v' t' r r' H' E S S'. destruct (K _ _ _ _ _ _ (value_array l t H) H' E) as (c & K1 & K2). cbn in K1.
    destruct H' as [| | |t' H'|u' t' H'|w' H'|l' t' H'| |]; cbn in K2; try lia.
    + exfalso. destruct (elements_head _ _ H) as (w & d & u & A & -> & B & C). cbn in E. injection E as E. rewrite <-!app_assoc in E. cbn in E.
      destruct (spaces_cancel _ _ _ _ _ _ A H' B (NS 93 ltac:(lia)) E) as (_ & -> & _). done.
    + cbn in E. injection E as E. rewrite <-!app_assoc in E. cbn in E. destruct (IH _ _ _ _ H' E) as (-> & -> & ->). done.
  - intros w H v' t' r r' H' E S S'. destruct (K _ _ _ _ _ _ (value_object_empty w H) H' E) as (c & K1 & K2). cbn in K1.
    destruct H' as [| | |t' H'|u' t' H'|w' H'|l' t' H'|w' H'|l' t' H']; cbn in K2; try lia.
    + cbn in E. injection E as E. rewrite <-!app_assoc in E. cbn in E.
      destruct (spaces_cancel _ _ _ _ _ _ H H' (NS 125 ltac:(lia)) (NS 125 ltac:(lia)) E) as (-> & _ & ->). done.
    + exfalso. destruct (members_head _ _ H') as (w' & u & A & ->). cbn in E. injection E as E. rewrite <-!app_assoc in E. cbn in E.
      destruct (spaces_cancel _ _ _ _ _ _ H A (NS 125 ltac:(lia)) (NS 34 ltac:(lia)) E) as (_ & C & _). done.
  - intros l t H IH v' t' r r' H' E S S'. destruct (K _ _ _ _ _ _ (value_object l t H) H' E) as (c & K1 & K2). cbn in K1.
    destruct H' as [| | |t' H'|u' t' H'|w' H'|l' t' H'|w' H'|l' t' H']; cbn in K2; try lia.
    + exfalso. destruct (members_head _ _ H) as (w & u & A & ->). cbn in E. injection E as E. rewrite <-!app_assoc in E. cbn in E.
      destruct (spaces_cancel _ _ _ _ _ _ A H' (NS 34 ltac:(lia)) (NS 125 ltac:(lia)) E) as (_ & C & _). done.
    + cbn in E. injection E as E. rewrite <-!app_assoc in E. cbn in E. destruct (IH _ _ _ _ H' E) as (-> & -> & ->). done.
  - intros v w t w2 Hw H IH Hw2 l' t' r r' H' E.
    destruct H' as [v' w' t' w2' Hw' H' Hw2'|v' w' t' w2' l' s' Hw' H' Hw2' L'].
    + rewrite <-!app_assoc in E. destruct (value_head _ _ H) as (c & u & -> & Sc), (value_head _ _ H') as (c' & u' & -> & Sc').
      destruct (spaces_cancel w w' c c' _ _ Hw Hw' (proj1 (starts_not _ _ Sc)) (proj1 (starts_not _ _ Sc')) E) as (-> & -> & E').
      destruct (IH v' (c' :: u') (w2 ++ 93 :: r) (w2' ++ 93 :: r') H') as (-> & -> & E2); [exact (f_equal (cons c') E')|by apply stops_spaces, ST; [|lia]..|].
      destruct (spaces_cancel _ _ _ _ _ _ Hw2 Hw2' (NS 93 ltac:(lia)) (NS 93 ltac:(lia)) E2) as (-> & _ & ->). done.
    + exfalso. rewrite <-!app_assoc in E. cbn in E. destruct (value_head _ _ H) as (c & u & -> & Sc), (value_head _ _ H') as (c' & u' & -> & Sc').
      destruct (spaces_cancel w w' c c' _ _ Hw Hw' (proj1 (starts_not _ _ Sc)) (proj1 (starts_not _ _ Sc')) E) as (-> & -> & E').
      destruct (IH v' (c' :: u') (w2 ++ 93 :: r) (w2' ++ 44 :: s' ++ 93 :: r') H') as (_ & _ & E2); [exact (f_equal (cons c') E')|by apply stops_spaces, ST; [|lia]..|].
      by destruct (spaces_cancel _ _ _ _ _ _ Hw2 Hw2' (NS 93 ltac:(lia)) (NS 44 ltac:(lia)) E2) as (_ & C & _).
  - intros v w t w2 l s Hw H IH Hw2 L IHl l' t' r r' H' E.
    destruct H' as [v' w' t' w2' Hw' H' Hw2'|v' w' t' w2' l' s' Hw' H' Hw2' L'].
    + exfalso. rewrite <-!app_assoc in E. cbn in E. destruct (value_head _ _ H) as (c & u & -> & Sc), (value_head _ _ H') as (c' & u' & -> & Sc').
      destruct (spaces_cancel w w' c c' _ _ Hw Hw' (proj1 (starts_not _ _ Sc)) (proj1 (starts_not _ _ Sc')) E) as (-> & -> & E').
      destruct (IH v' (c' :: u') (w2 ++ 44 :: s ++ 93 :: r) (w2' ++ 93 :: r') H') as (_ & _ & E2); [exact (f_equal (cons c') E')|by apply stops_spaces, ST; [|lia]..|].
      by destruct (spaces_cancel _ _ _ _ _ _ Hw2 Hw2' (NS 44 ltac:(lia)) (NS 93 ltac:(lia)) E2) as (_ & C & _).
    + rewrite <-!app_assoc in E. cbn in E. destruct (value_head _ _ H) as (c & u & -> & Sc), (value_head _ _ H') as (c' & u' & -> & Sc').
      destruct (spaces_cancel w w' c c' _ _ Hw Hw' (proj1 (starts_not _ _ Sc)) (proj1 (starts_not _ _ Sc')) E) as (-> & -> & E').
      destruct (IH v' (c' :: u') (w2 ++ 44 :: s ++ 93 :: r) (w2' ++ 44 :: s' ++ 93 :: r') H') as (-> & -> & E2); [exact (f_equal (cons c') E')|by apply stops_spaces, ST; [|lia]..|].
      destruct (spaces_cancel _ _ _ _ _ _ Hw2 Hw2' (NS 44 ltac:(lia)) (NS 44 ltac:(lia)) E2) as (-> & _ & E3).
      destruct (IHl _ _ _ _ L' E3) as (-> & -> & ->). done.
  - intros k v w t w2 Hw H IH Hw2 l' t' r r' H' E.
    destruct H' as [k' v' w' t' w2' Hw' H' Hw2'|k' v' w' t' w2' l' s' Hw' H' Hw2' L'].
    + rewrite <-!app_assoc in E. pose proof H as Hc. pose proof H' as Hc'. destruct Hc, Hc'.
      destruct (spaces_cancel w w' 34 34 _ _ Hw Hw' (NS 34 ltac:(lia)) (NS 34 ltac:(lia)) E) as (-> & _ & E').
      destruct (IH _ _ _ (w2 ++ 125 :: r) (w2' ++ 125 :: r') H') as (-> & -> & -> & E2); [exact (f_equal (cons 34) E')|by apply stops_spaces, ST; [|lia]..|].
      destruct (spaces_cancel _ _ _ _ _ _ Hw2 Hw2' (NS 125 ltac:(lia)) (NS 125 ltac:(lia)) E2) as (-> & _ & ->). done.
    + exfalso. rewrite <-!app_assoc in E. pose proof H as Hc. pose proof H' as Hc'. destruct Hc, Hc'.
      destruct (spaces_cancel w w' 34 34 _ _ Hw Hw' (NS 34 ltac:(lia)) (NS 34 ltac:(lia)) E) as (-> & _ & E').
      destruct (IH _ _ _ (w2 ++ 125 :: r) (w2' ++ 44 :: s' ++ 125 :: r') H') as (_ & _ & _ & E2); [exact (f_equal (cons 34) E')|by apply stops_spaces, ST; [|lia]..|].
      by destruct (spaces_cancel _ _ _ _ _ _ Hw2 Hw2' (NS 125 ltac:(lia)) (NS 44 ltac:(lia)) E2) as (_ & C & _).
  - intros k v w t w2 l s Hw H IH Hw2 L IHl l' t' r r' H' E.
    destruct H' as [k' v' w' t' w2' Hw' H' Hw2'|k' v' w' t' w2' l' s' Hw' H' Hw2' L'].
    + exfalso. rewrite <-!app_assoc in E. pose proof H as Hc. pose proof H' as Hc'. destruct Hc, Hc'.
      destruct (spaces_cancel w w' 34 34 _ _ Hw Hw' (NS 34 ltac:(lia)) (NS 34 ltac:(lia)) E) as (-> & _ & E').
      destruct (IH _ _ _ (w2 ++ 44 :: s ++ 125 :: r) (w2' ++ 125 :: r') H') as (_ & _ & _ & E2); [exact (f_equal (cons 34) E')|by apply stops_spaces, ST; [|lia]..|].
      by destruct (spaces_cancel _ _ _ _ _ _ Hw2 Hw2' (NS 44 ltac:(lia)) (NS 125 ltac:(lia)) E2) as (_ & C & _).
    + rewrite <-!app_assoc in E. pose proof H as Hc. pose proof H' as Hc'. destruct Hc, Hc'.
      destruct (spaces_cancel w w' 34 34 _ _ Hw Hw' (NS 34 ltac:(lia)) (NS 34 ltac:(lia)) E) as (-> & _ & E').
      destruct (IH _ _ _ (w2 ++ 44 :: s ++ 125 :: r) (w2' ++ 44 :: s' ++ 125 :: r') H') as (-> & -> & -> & E2); [exact (f_equal (cons 34) E')|by apply stops_spaces, ST; [|lia]..|].
      destruct (spaces_cancel _ _ _ _ _ _ Hw2 Hw2' (NS 44 ltac:(lia)) (NS 44 ltac:(lia)) E2) as (-> & _ & E3).
      destruct (IHl _ _ _ _ L' E3) as (-> & -> & ->). done.
  - intros k tk w w2 v t Hk Hw Hw2 H IH k' v' t' r r' H' E S S'.
    destruct H' as [k' tk' w' w2' v' t' Hk' Hw' Hw2' H']. cbn in E. injection E as E. rewrite <-!app_assoc in E. cbn in E.
    destruct (chars_cancel _ _ Hk _ _ _ _ Hk' E) as (-> & -> & E1). rewrite <-!app_assoc in E1. cbn in E1.
    destruct (spaces_cancel _ _ _ _ _ _ Hw Hw' (NS 58 ltac:(lia)) (NS 58 ltac:(lia)) E1) as (-> & _ & E2). rewrite <-!app_assoc in E2.
    destruct (value_head _ _ H) as (c & u & -> & Sc), (value_head _ _ H') as (c' & u' & -> & Sc').
    destruct (spaces_cancel w2 w2' c c' _ _ Hw2 Hw2' (proj1 (starts_not _ _ Sc)) (proj1 (starts_not _ _ Sc')) E2) as (-> & -> & E').
    destruct (IH v' (c' :: u') r r' H') as (-> & -> & ->); [exact (f_equal (cons c') E')|done..].
Qed.

Lemma json_unique v v' t : json_text v t -> json_text v' t -> v = v'.
Proof.
  intros (w & s & x & W & V & X & ->) (w' & s' & x' & W' & V' & X' & E).
  destruct (value_head _ _ V) as (c & u & -> & Sc), (value_head _ _ V') as (c' & u' & -> & Sc').
  destruct (spaces_cancel w w' c c' _ _ W W' (proj1 (starts_not _ _ Sc)) (proj1 (starts_not _ _ Sc')) E) as (-> & -> & E').
  assert (forall x, spaces x -> stops x) as SX by (intros y Y; rewrite <-(app_nil_r y); by apply stops_spaces).
  destruct (proj1 json_cancel _ _ V v' (c' :: u') x x' V') as (-> & _ & _); [exact (f_equal (cons c') E')|by apply SX..|done].
Qed.
