(** Proofs about MacAddress.v. *)
From Verif Require Import Base Uci Codec BaseFacts MacAddress MacSpec.

Lemma without_colons_fun s t : without_colons s t <-> remove_colons s = t.
Proof.
  split.
  - induction 1 as [|s t H IH|c s t Hc H IH]; [reflexivity|exact IH|].
    cbn [remove_colons List.filter]. unfold CH_COLON.
    destruct (N.eqb_spec c 58); [done|]. cbn [negb]. by f_equal.
  - intros <-. induction s as [|c s IH]; [constructor|].
    cbn [remove_colons List.filter]. unfold CH_COLON.
    destruct (N.eqb_spec c 58); cbn [negb]; [subst|]; by constructor.
Qed.

Lemma remove_pct3A_sub s : remove_pct3A (pct3A ++ s) = remove_pct3A s.
Proof. reflexivity. Qed.
Lemma remove_pct3A_char c s : ~ pct3A `prefix_of` (c :: s) ->
  remove_pct3A (c :: s) = c :: remove_pct3A s.
Proof.
  intros H. destruct s as [|a [|b s]]; try reflexivity.
  cbn [remove_pct3A]. destruct ((c =? CH_PERCENT) && (a =? CH_3) && (b =? CH_A)) eqn:E; [|reflexivity].
  destruct H. unfold CH_PERCENT, CH_3, CH_A in E.
  exists s. unfold pct3A. simpl. f_equal; [lia|]. f_equal; [lia|]. f_equal. lia.
Qed.
Lemma without_pct3A_fun s t : without_pct3A s t <-> remove_pct3A s = t.
Proof.
  split.
  - induction 1 as [|s t H IH|c s t Hc H IH]; [reflexivity|exact IH|].
    rewrite remove_pct3A_char by done. by f_equal.
  - intros <-. remember (length s) as n eqn:Hn. revert s Hn.
    induction (lt_wf n) as [n _ IH]. intros s ->.
    destruct s as [|c s]; [constructor|].
    destruct (decide (pct3A `prefix_of` (c :: s))) as [[r E]|N].
    + rewrite E, remove_pct3A_sub. constructor. eapply IH; [|reflexivity].
      rewrite E, app_length. simpl. lia.
    + rewrite remove_pct3A_char by done. constructor; [done|]. eapply IH; [|reflexivity]. simpl; lia.
Qed.

Definition digit_check1 (v : N) : bool :=
  if v <? 16 then
    (match upper_digits !! N.to_nat v with Some c => bool_decide (hex_val c = Some v) | None => false end)
    && (match lower_digits !! N.to_nat v with Some c => bool_decide (hex_val c = Some v) | None => false end)
  else true.
Definition digit_check2 (c : N) : bool :=
  match hex_val c with
  | Some v => bool_decide (upper_digits !! N.to_nat v = Some c) || bool_decide (lower_digits !! N.to_nat v = Some c)
  | None => true
  end.

Lemma digit_hex_val c v : digit c v <-> hex_val c = Some v.
Proof.
  unfold digit. split.
  - intros H.
    assert (N.to_nat v < 16)%nat as Hv.
    { destruct H as [H|H]; apply lookup_lt_Some in H; exact H. }
    assert (digit_check1 v = true) as E.
    { apply forall_bytes; [vm_compute; reflexivity|lia]. }
    unfold digit_check1 in E. destruct (N.ltb_spec v 16); [|lia].
    apply andb_true_iff in E as [E1 E2].
    destruct H as [H|H]; rewrite H in *; [by apply bool_decide_eq_true in E1|by apply bool_decide_eq_true in E2].
  - intros H.
    assert (c < 256) as Hc.
    { unfold hex_val in H. repeat (case_match; [lia|]). done. }
    assert (digit_check2 c = true) as E.
    { apply forall_bytes; [vm_compute; reflexivity|lia]. }
    unfold digit_check2 in E. rewrite H in E.
    apply orb_true_iff in E as [E|E]; apply bool_decide_eq_true in E; auto.
Qed.

Lemma denotes_hex_decode s l : denotes s l <-> hex_decode s = Some l.
Proof.
  split.
  - induction 1 as [|a b x y s l Ha Hb H IH]; [reflexivity|].
    cbn [hex_decode]. apply digit_hex_val in Ha, Hb. rewrite Ha, Hb, IH. do 2 f_equal. lia.
  - remember (length s) as n eqn:Hn. revert s l Hn.
    induction (lt_wf n) as [n _ IH]. intros s l -> H.
    destruct s as [|a [|b s]]; [apply (inj Some) in H; subst; constructor|done|].
    cbn [hex_decode] in H. destruct (hex_val a) as [x|] eqn:Ea; [|done].
    destruct (hex_val b) as [y|] eqn:Eb; [|done].
    destruct (hex_decode s) as [r|] eqn:Er; [|done]. apply (inj Some) in H; subst l.
    replace (x * 16 + y) with (16 * x + y) by lia.
    constructor; [by apply digit_hex_val..|]. eapply IH; [|reflexivity|done]. simpl; lia.
Qed.

Lemma digit_lt c v : digit c v -> v < 16.
Proof. unfold digit. intros [H|H]; apply lookup_lt_Some in H; simpl in H; lia. Qed.
Lemma denotes_wf s l : denotes s l -> wf_bytes l /\ length s = (2 * length l)%nat.
Proof.
  induction 1 as [|a b x y s l Ha Hb H [IH1 IH2]]; [by split; constructor|].
  apply digit_lt in Ha, Hb. split.
  - constructor; [unfold is_byte; lia|done].
  - simpl. lia.
Qed.

Lemma mac_of_string_spec s m : mac_of_string s = Some m <->
  exists t u, without_colons s t /\ without_pct3A t u /\
    exists l, denotes u l /\
      (length u = 4%nat /\ m = MShort l \/ length u = 16%nat /\ m = MExtended l).
Proof.
  unfold mac_of_string. cbv zeta. split.
  - intros H. exists (remove_colons s), (remove_pct3A (remove_colons s)).
    split; [by apply without_colons_fun|]. split; [by apply without_pct3A_fun|].
    set (u := remove_pct3A (remove_colons s)) in *.
    destruct (Nat.eqb_spec (length u) (2 * SHORT_MAC_ADDRESS_SIZE)) as [E|E].
    + destruct (hex_decode u) as [l|] eqn:El; [|done]. apply (inj Some) in H; subst m.
      exists l. split; [by apply denotes_hex_decode|]. left. done.
    + destruct (Nat.eqb_spec (length u) (2 * EXTENDED_MAC_ADDRESS_SIZE)) as [E'|E']; [|done].
      destruct (hex_decode u) as [l|] eqn:El; [|done]. apply (inj Some) in H; subst m.
      exists l. split; [by apply denotes_hex_decode|]. right. done.
  - intros (t & u & Ht & Hu & l & Hl & H).
    apply without_colons_fun in Ht; subst t. apply without_pct3A_fun in Hu; rewrite Hu.
    apply denotes_hex_decode in Hl. rewrite Hl.
    destruct H as [[E ->]|[E ->]]; rewrite E; reflexivity.
Qed.

Lemma mac_of_string_wf s m : mac_of_string s = Some m -> wf_mac m.
Proof.
  intros H. apply mac_of_string_spec in H as (t & u & _ & _ & l & Hl & H).
  apply denotes_wf in Hl as [W L].
  destruct H as [[E ->]|[E ->]]; unfold wf_mac, SHORT_MAC_ADDRESS_SIZE, EXTENDED_MAC_ADDRESS_SIZE;
    split; (done || lia).
Qed.

(** *** Round trip *)
Definition hex_pair (b : N) : bytes := [hex_digit (b / 16); hex_digit (b mod 16)].

Definition hex_pair_check (b : N) : bool :=
  bool_decide (hex_decode (hex_pair b) = Some [b])
  && negb (hex_digit (b / 16) =? 58) && negb (hex_digit (b mod 16) =? 58)
  && negb (hex_digit (b / 16) =? 37) && negb (hex_digit (b mod 16) =? 37).

Lemma hex_pair_ok b : b < 256 ->
  hex_decode (hex_pair b) = Some [b] /\ hex_digit (b / 16) <> 58 /\ hex_digit (b mod 16) <> 58
  /\ hex_digit (b / 16) <> 37 /\ hex_digit (b mod 16) <> 37.
Proof.
  intros H.
  assert (hex_pair_check b = true) as E by (apply forall_bytes; [vm_compute; reflexivity|done]).
  unfold hex_pair_check in E.
  repeat (apply andb_true_iff in E as [E ?]). apply bool_decide_eq_true in E.
  repeat match goal with H : negb (_ =? _) = true |- _ => apply negb_true_iff, N.eqb_neq in H end.
  split_and!; done.
Qed.

Lemma trim_end_colons_snoc s : trim_end_colons (s ++ [58]) = trim_end_colons s.
Proof.
  induction s as [|c s IH]; [reflexivity|]. cbn [app trim_end_colons]. by rewrite IH.
Qed.
Lemma trim_end_colons_id s c : c <> 58 -> trim_end_colons (s ++ [c]) = s ++ [c].
Proof.
  intros Hc. induction s as [|a s IH]; cbn [app trim_end_colons].
  - unfold CH_COLON. destruct (N.eqb_spec c 58); done.
  - rewrite IH. destruct (s ++ [c]) eqn:E; [by destruct s|done].
Qed.
Lemma remove_colons_app s t : remove_colons (s ++ t) = remove_colons s ++ remove_colons t.
Proof. unfold remove_colons. apply List.filter_app. Qed.
Lemma remove_colons_trim s : remove_colons (trim_end_colons s) = remove_colons s.
Proof.
  induction s as [|c s IH] using rev_ind; [reflexivity|].
  destruct (decide (c = 58)) as [->|Hc].
  - rewrite trim_end_colons_snoc, IH, remove_colons_app. cbn. by rewrite app_nil_r.
  - by rewrite trim_end_colons_id.
Qed.
Lemma remove_colons_fmt l : wf_bytes l ->
  remove_colons (concat (map fmt_byte l)) = concat (map hex_pair l).
Proof.
  induction 1 as [|b l Hb Hl IH]; [reflexivity|].
  cbn [map concat]. rewrite remove_colons_app, IH. f_equal.
  destruct (hex_pair_ok b Hb) as (_ & H1 & H2 & _).
  unfold fmt_byte, remove_colons, CH_COLON. cbn [List.filter].
  destruct (N.eqb_spec (hex_digit (b / 16)) 58); [done|].
  destruct (N.eqb_spec (hex_digit (b mod 16)) 58); [done|].
  reflexivity.
Qed.
Lemma remove_pct3A_none s : Forall (fun c => c <> 37) s -> remove_pct3A s = s.
Proof.
  induction 1 as [|c s Hc Hs IH]; [reflexivity|].
  rewrite remove_pct3A_char; [by rewrite IH|]. intros [r E]. injection E as E _. by subst.
Qed.
Lemma hex_pairs_no_pct l : wf_bytes l -> Forall (fun c => c <> 37) (concat (map hex_pair l)).
Proof.
  induction 1 as [|b l Hb Hl IH]; [constructor|].
  destruct (hex_pair_ok b Hb) as (_ & _ & _ & H1 & H2). cbn [map concat]. apply Forall_app.
  split; [|done]. repeat constructor; done.
Qed.
Lemma hex_decode_pairs l : wf_bytes l -> hex_decode (concat (map hex_pair l)) = Some l.
Proof.
  induction 1 as [|b l Hb Hl IH]; [reflexivity|].
  destruct (hex_pair_ok b Hb) as (H & _). cbn [map concat hex_pair app hex_decode] in *.
  rewrite IH. destruct (hex_val (hex_digit (b / 16))); [|done].
  destruct (hex_val (hex_digit (b mod 16))); [|done]. apply (inj Some) in H.
  injection H as H. by rewrite H.
Qed.
Lemma hex_pairs_length l : length (concat (map hex_pair l)) = (2 * length l)%nat.
Proof. induction l; simpl; lia. Qed.

Lemma mac_round_trip m : wf_mac m -> mac_of_string (mac_to_string m) = Some m.
Proof.
  intros W. unfold mac_of_string, mac_to_string. cbv zeta.
  rewrite remove_colons_trim.
  assert (wf_bytes (mac_to_vec m)) as Wb by (destruct m; apply W).
  rewrite remove_colons_fmt, remove_pct3A_none by (try apply hex_pairs_no_pct; done).
  rewrite hex_pairs_length, hex_decode_pairs by done.
  destruct m as [l|l]; destruct W as [L _]; cbn [mac_to_vec]; rewrite L; reflexivity.
Qed.

Lemma mac_to_string_inj m m' : wf_mac m -> wf_mac m' -> mac_to_string m = mac_to_string m' -> m = m'.
Proof.
  intros W W' E. apply mac_round_trip in W, W'. rewrite E in W. congruence.
Qed.

Lemma mac_to_vec_inj m m' : wf_mac m -> wf_mac m' -> mac_to_vec m = mac_to_vec m' -> m = m'.
Proof.
  destruct m as [l|l], m' as [l'|l']; intros [L _] [L' _] E; cbn [mac_to_vec] in E; subst; try done;
    rewrite L in L'; discriminate.
Qed.

Definition same_size (m m' : mac_address) : Prop :=
  match m, m' with MShort _, MShort _ | MExtended _, MExtended _ => True | _, _ => False end.

Lemma mac_to_u64_inj m m' : wf_mac m -> wf_mac m' -> same_size m m' ->
  mac_to_u64 m = mac_to_u64 m' -> m = m'.
Proof.
  destruct m as [l|l], m' as [l'|l']; intros [L W] [L' W'] S E; try done; cbn [mac_to_u64] in E;
    f_equal; apply le_nat_inj; congruence.
Qed.
Lemma mac_to_u64_value m : wf_mac m ->
  le_bytes (length (mac_to_vec m)) (mac_to_u64 m) = mac_to_vec m
  /\ mac_to_u64 m < 256 ^ N.of_nat (length (mac_to_vec m)).
Proof.
  intros W. assert (mac_to_u64 m = le_nat (mac_to_vec m)) as -> by (by destruct m).
  assert (wf_bytes (mac_to_vec m)) by (destruct m; apply W).
  split; [by apply le_bytes_nat|by apply le_nat_bound].
Qed.

(** ** The text of an address *)
Lemma hex_digit_upper n : n < 16 -> upper_digits !! N.to_nat n = Some (hex_digit n).
Proof.
  intros L. assert (forallb (fun k => bool_decide (upper_digits !! k = Some (hex_digit (N.of_nat k)))) (seq 0 16) = true) as A by (vm_compute; reflexivity).
  rewrite forallb_forall in A. specialize (A (N.to_nat n)). rewrite bool_decide_eq_true in A. rewrite N2Nat.id in A.
  apply A. apply in_seq. lia.
Qed.
Lemma hex_digit_no_colon n : n < 16 -> hex_digit n <> 58.
Proof. intros L. unfold hex_digit. destruct (N.ltb_spec n 10); lia. Qed.
Lemma trim_fmt b l : b < 256 -> wf_bytes l -> trim_end_colons (concat (map fmt_byte (b :: l)))
  = hex_pair b ++ match l with [] => [] | _ => 58 :: trim_end_colons (concat (map fmt_byte l)) end.
Proof.
  intros Hb W. unfold wf_bytes in W.
  assert (forall c r, c <> 58 -> trim_end_colons (c :: r) = c :: trim_end_colons r) as T.
  { intros c r H. cbn [trim_end_colons]. destruct (trim_end_colons r); [|done]. unfold CH_COLON. destruct (N.eqb_spec c 58); done. }
  assert (b / 16 < 16) as H1 by (apply N.div_lt_upper_bound; lia). assert (b mod 16 < 16) as H2 by (apply N.mod_lt; lia).
  cbn [map concat]. unfold fmt_byte at 1. cbn [app]. rewrite !T by (by apply hex_digit_no_colon). unfold hex_pair. cbn [app]. f_equal. f_equal.
  destruct l as [|c l]; [reflexivity|].
  apply Forall_cons in W as [Hc W]. unfold is_byte in Hc. assert (c / 16 < 16) as H3 by (apply N.div_lt_upper_bound; lia).
  assert (exists x r, trim_end_colons (concat (map fmt_byte (c :: l))) = x :: r) as (x & r & E).
  { cbn [map concat]. unfold fmt_byte at 1. cbn [app]. rewrite T by (by apply hex_digit_no_colon). eauto. }
  change (CH_COLON :: concat (map fmt_byte (c :: l))) with (58 :: concat (map fmt_byte (c :: l))). cbn [trim_end_colons]. by rewrite E.
Qed.
Lemma printed_bytes l : l <> [] -> wf_bytes l -> printed l (trim_end_colons (concat (map fmt_byte l))).
Proof.
  intros Ne W. induction l as [|b l IH]; [done|]. apply Forall_cons in W as [Hb W]. unfold is_byte in Hb.
  rewrite trim_fmt by done. rewrite (N.div_mod b 16) at 1 by lia.
  assert (b / 16 < 16) as H1 by (apply N.div_lt_upper_bound; lia). assert (b mod 16 < 16) as H2 by (apply N.mod_lt; lia).
  destruct l as [|c l].
  - apply printed_last; by apply hex_digit_upper.
  - unfold hex_pair. cbn [app]. apply printed_cons; [by apply hex_digit_upper..|]. by apply IH.
Qed.
Lemma mac_printed m : wf_mac m -> match m with MShort l | MExtended l => printed l (mac_to_string m) end.
Proof. intros W. destruct m as [l|l]; destruct W as [L W]; apply printed_bytes; try done; intros ->; discriminate L. Qed.
