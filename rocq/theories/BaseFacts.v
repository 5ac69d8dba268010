(** Lemmas on Base.v. *)
From Verif Require Import Base Uci Codec.

(** Lift a boolean check on all 256 bytes. *)
Definition all_bytes : list N := map N.of_nat (seq 0 256).
Lemma all_bytes_in b : b < 256 -> b ∈ all_bytes.
Proof.
  intros. apply elem_of_list_In, in_map_iff. exists (N.to_nat b).
  rewrite N2Nat.id, in_seq. lia.
Qed.
Lemma forall_bytes (P : N -> bool) :
  forallb P all_bytes = true -> forall b, b < 256 -> P b = true.
Proof.
  intros H b Hb. rewrite forallb_forall in H. apply H, elem_of_list_In, all_bytes_in, Hb.
Qed.

Lemma le_bytes_length k n : length (le_bytes k n) = k.
Proof. revert n; induction k; simpl; auto. Qed.
Lemma le_bytes_wf k n : wf_bytes (le_bytes k n).
Proof.
  revert n; induction k; intros n; simpl; constructor; [apply N.mod_lt; lia|apply IHk].
Qed.
Lemma le_nat_bytes k n : n < 256 ^ N.of_nat k -> le_nat (le_bytes k n) = n.
Proof.
  revert n; induction k as [|k IH]; intros n Hn.
  - simpl in *. lia.
  - cbn [le_bytes le_nat]. rewrite IH.
    + pose proof (N.div_mod n 256). lia.
    + replace (256 ^ N.of_nat (S k)) with (256 * 256 ^ N.of_nat k) in Hn.
      * apply N.div_lt_upper_bound; lia.
      * rewrite Nat2N.inj_succ, N.pow_succ_r'. lia.
Qed.
Lemma le_bytes_nat l : wf_bytes l -> le_bytes (length l) (le_nat l) = l.
Proof.
  induction 1 as [|b l Hb Hl IH]; [reflexivity|].
  cbn [length le_bytes le_nat]. unfold is_byte in Hb.
  replace ((b + 256 * le_nat l) mod 256) with b; [replace ((b + 256 * le_nat l) / 256) with (le_nat l); [by rewrite IH|]|].
  - apply (N.div_unique _ _ _ b); lia.
  - apply (N.mod_unique _ _ (le_nat l)); lia.
Qed.
Lemma le_nat_bound l : wf_bytes l -> le_nat l < 256 ^ N.of_nat (length l).
Proof.
  induction 1 as [|b l Hb Hl IH]; [simpl; lia|].
  cbn [length le_nat]. unfold is_byte in Hb.
  rewrite Nat2N.inj_succ, N.pow_succ_r'. lia.
Qed.
Lemma le_nat_inj l l' :
  wf_bytes l -> wf_bytes l' -> length l = length l' -> le_nat l = le_nat l' -> l = l'.
Proof.
  intros H H' Hl E. rewrite <- (le_bytes_nat l H), <- (le_bytes_nat l' H'). congruence.
Qed.

Lemma wf_bytes_app l l' : wf_bytes (l ++ l') <-> wf_bytes l /\ wf_bytes l'.
Proof. apply Forall_app. Qed.
Lemma wf_bytes_take k l : wf_bytes l -> wf_bytes (take k l).
Proof. apply Forall_take. Qed.
Lemma wf_bytes_drop k l : wf_bytes l -> wf_bytes (drop k l).
Proof. apply Forall_drop. Qed.
Lemma wf_bytes_cons b l : wf_bytes (b :: l) <-> b < 256 /\ wf_bytes l.
Proof. unfold wf_bytes. rewrite Forall_cons. reflexivity. Qed.

Lemma mt_of_code_code mt : mt_of_code (mt_code mt) = Some mt.
Proof. by destruct mt. Qed.
Lemma mt_of_code_inv n mt : mt_of_code n = Some mt -> n = mt_code mt.
Proof.
  unfold mt_of_code. repeat case_match; intros [= <-]; simpl; lia.
Qed.
Lemma mt_of_code_is n : mt_of_code n = Some MtData <-> n = 0.
Proof. unfold mt_of_code. repeat case_match; split; intros; try discriminate; try lia; auto. Qed.
