(** The events can be read back from what is told about them. *)
From Coq Require Import Strings.String Strings.Ascii.
From Verif Require Import Base Uci MacAddress MacFacts Pica Http Json JsonSpec JsonFacts JsonUnique.

Lemma integer_value_fun t z z' : integer_value t z -> integer_value t z' -> z = z'.
Proof.
  assert (forall ds ds', digits ds -> ds = 45 :: ds' -> False) as N.
  { intros ds ds' D ->. inversion D. lia. }
  intros (ds & D & _ & [[-> ->]|[-> ->]]) (ds' & D' & _ & [[E ->]|[E ->]]).
  - by subst.
  - by destruct (N _ _ D E).
  - exfalso. by apply (N ds' ds).
  - by injection E as ->.
Qed.
Lemma is_integer_fun z z' v : is_integer z v -> is_integer z' v -> z = z'.
Proof. intros (t & -> & A) (t' & E & B). injection E as <-. by eapply integer_value_fun. Qed.
Lemma is_category_fun c c' v : is_category c v -> is_category c' v -> c = c'.
Proof. unfold is_category, is_text. intros -> E. injection E as E. by destruct c, c'. Qed.
Lemma is_address_fun m m' v : wf_mac m -> wf_mac m' -> is_address m v -> is_address m' v -> m = m'.
Proof. unfold is_address, is_text. intros W W' -> E. injection E as E. by apply mac_to_string_inj. Qed.
Lemma is_object_both l l' v : is_object l v -> is_object l' v -> exists ms, Forall2 (fun m d => m.1 = str d.1 /\ d.2 m.2) ms l /\ Forall2 (fun m d => m.1 = str d.1 /\ d.2 m.2) ms l'.
Proof. intros (ms & -> & A) (ms' & E & B). injection E as <-. by exists ms. Qed.

Section Faithful.
Context {P : Type} (fields : P -> Z * Z * Z * Z * Z * Z).
Lemma told_alike got ev ev' : wf_event ev -> wf_event ev' -> tells fields got ev -> tells fields got ev' -> alike fields ev ev'.
Proof.
  intros W W' (T & v & J & S) (T' & v' & J' & S'). rewrite T in T'. pose proof (json_unique _ _ _ J J') as <-.
  destruct ev, ev'; cbn in T'; try discriminate T'; cbn [says_event] in S, S'; cbn [alike]; cbn in W, W'.
  all: try unfold place_members in S; try unfold place_members in S'.
  all: try destruct (fields position) as [[[[[x y] z] yaw] pitch] roll]; try destruct (fields position0) as [[[[[x' y'] z'] yaw'] pitch'] roll'].
  all: destruct (is_object_both _ _ _ S S') as (ms & A & B); cbn [app] in A, B.
  all: repeat (apply Forall2_cons_inv_r in A as ([? ?] & ? & [_ ?] & A & ->); apply Forall2_cons in B as [[_ ?] B]; cbn [fst snd] in *).
  all: repeat match goal with
    | H : is_integer ?a ?v, H' : is_integer ?b ?v |- _ => pose proof (is_integer_fun _ _ _ H H'); clear H'
    | H : is_category ?a ?v, H' : is_category ?b ?v |- _ => pose proof (is_category_fun _ _ _ H H'); clear H'
    | H : is_address ?a ?v, H' : is_address ?b ?v |- _ => let E := fresh in assert (a = b) as E by (eapply is_address_fun; [..|exact H|exact H']; tauto); clear H'
    end.
  all: try (split_and!; [done|done|congruence]).
  - congruence.
  - f_equal; try done. lia.
Qed.
End Faithful.
