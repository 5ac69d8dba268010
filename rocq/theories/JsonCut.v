(** The body which the page sends, and its beginnings. *)
From Coq Require Import Strings.String Strings.Ascii.
From Verif Require Import Base Uci MacAddress Pica Http Json JsonSpec JsonFacts JsonUnique JsonRead JsonRead2 JsonBody JsonSound JsonSound2.

Lemma prefix_split (c a b : bytes) : c `prefix_of` a ++ b -> (exists x, x <> [] /\ a = c ++ x) \/ exists c', c = a ++ c' /\ c' `prefix_of` b.
Proof.
  revert c. induction a as [|x a IH]; intros c H; [right; by exists c|]. destruct c as [|y c]; [left; by exists (x :: a)|].
  cbn in H. pose proof (prefix_cons_inv_1 _ _ _ _ H) as ->. apply prefix_cons_inv_2 in H. destruct (IH _ H) as [(z & Z & ->)|(c' & -> & C)]; [left; by exists z|right; by exists c'].
Qed.
Lemma prefix_cons_split (c b : bytes) x : c `prefix_of` x :: b -> c = [] \/ exists c', c = x :: c' /\ c' `prefix_of` b.
Proof. intros H. destruct c as [|y c]; [by left|]. right. pose proof (prefix_cons_inv_1 _ _ _ _ H) as ->. apply prefix_cons_inv_2 in H. by exists c. Qed.

Lemma fold_digits_le ds v : v <= fold_left (fun v c => 10 * v + (c - 48)) ds v.
Proof. revert v. induction ds as [|c ds IH]; intros v; cbn [fold_left]; [lia|]. specialize (IH (10 * v + (c - 48))). lia. Qed.
Lemma cut_decimal (positive : bool) n c : c <> [] -> (exists x, decimal n = c ++ x) -> (positive = false -> n <> 0) ->
  exists m, m <= n /\ parse_integer positive c = Got (Some (if positive then Z.of_N m else - Z.of_N m)%Z) [].
Proof.
  intros Nc (x & E) Nz. destruct (decimal_ok n) as (D & _ & V & H). rewrite E in D, V, H.
  assert (int_ok c) as I.
  { destruct c as [|a c]; [done|]. destruct H as [H|(a' & ds & H & A)].
    - injection H as -> H. apply app_eq_nil in H as [-> _]. by left.
    - injection H as <- _. right. exists a, c. split; [done|]. split; [done|]. apply Forall_app in D as [D _]. by inversion D. }
  assert (digits_to_N c <= n) as Le. { rewrite <-V. unfold digits_to_N. rewrite fold_left_app. apply fold_digits_le. }
  exists (digits_to_N c). split; [done|]. pose proof (parse_integer_ok positive c [] [] [] I ltac:(by left) ltac:(by left) ltac:(done)) as P.
  cbn [app] in P. rewrite !app_nil_r in P. rewrite P. destruct positive; [done|].
  assert (digits_to_N c <> 0); [|by replace (digits_to_N c =? 0) with false by lia].
  destruct I as [->|(a & ds & -> & A & _)].
  - exfalso. apply Nz; [done|]. destruct H as [H|(a & ds & H & A)]; [|injection H as <- _; lia]. rewrite <-V, H. done.
  - unfold digits_to_N. cbn [fold_left]. pose proof (fold_digits_le ds (10 * 0 + (a - 48))). lia.
Qed.
Lemma cut_integer lo hi z c : (lo <= 0 <= hi)%Z -> (lo <= z <= hi)%Z -> (exists x, integer z = c ++ x) ->
  deserialize_int (lo, hi) c = Eof \/ exists z', deserialize_int (lo, hi) c = Got z' [].
Proof.
  intros B0 B (x & E). unfold integer in E. destruct (z <? 0)%Z eqn:L.
  - destruct c as [|a c]; [by left|]. injection E as <- E. unfold deserialize_int. rewrite skip_spaces_stop by (unfold space; lia). change (45 =? 45) with true. cbn iota.
    destruct c as [|a c]; [by left|]. right. destruct (cut_decimal false (Z.abs_N z) (a :: c) ltac:(done) ltac:(by eexists) ltac:(lia)) as (m & M & ->).
    cbn [and_then fst snd]. replace ((lo <=? - Z.of_N m)%Z && (- Z.of_N m <=? hi)%Z) with true by lia. by eexists.
  - destruct c as [|a c]; [by left|]. right. destruct (cut_decimal true (Z.abs_N z) (a :: c) ltac:(done) ltac:(by eexists) ltac:(lia)) as (m & M & P).
    assert (48 <= a <= 57) as A. { destruct (decimal_ok (Z.abs_N z)) as (D & _). rewrite E in D. by inversion D. }
    unfold deserialize_int. rewrite skip_spaces_stop by (unfold space; lia). replace (a =? 45) with false by lia. replace (is_digit a) with true by (unfold is_digit; lia).
    rewrite P. cbn [and_then fst snd]. replace ((lo <=? Z.of_N m)%Z && (Z.of_N m <=? hi)%Z) with true by lia. by eexists.
Qed.

Definition plain (s : bytes) : Prop := Forall (fun x => 32 <= x /\ x <> 34 /\ x <> 92 /\ x < 128) s.
Lemma plain_eof s : plain s -> parse_chars s = Eof.
Proof.
  induction 1 as [|x s (A & B & C & D) F IH]; [done|]. cbn [parse_chars]. replace (x =? 34) with false by lia. replace (x =? 92) with false by lia. replace (x <? 32) with false by lia. by rewrite IH.
Qed.
Lemma plain_str s r : plain s -> parse_str (s ++ 34 :: r) = Got s r.
Proof.
  intros P. unfold parse_str. assert (parse_chars (s ++ 34 :: r) = Got s r) as ->.
  { induction P as [|x s (A & B & C & D) F IH]; [done|]. cbn [parse_chars app]. replace (x =? 34) with false by lia. replace (x =? 92) with false by lia. replace (x <? 32) with false by lia. by rewrite IH. }
  cbn. assert (utf8_valid s = true) as ->; [|done]. induction P as [|x s (A & B & C & D) F IH]; [done|]. cbn [utf8_valid]. by replace (x <? 128) with true by lia.
Qed.

(** One member, as the page writes it. *)
Definition written (m : bytes * Z) : bytes := 34 :: m.1 ++ 34 :: 58 :: integer m.2.
Lemma cut_members l acc c fuel : l <> [] -> NoDup l.*1 ->
  (forall name z, (name, z) ∈ l -> plain name /\ exists i lo hi, field_index field_names name = Some (i, (lo, hi)) /\ acc !! i = Some None /\ (lo <= 0 <= hi)%Z /\ (lo <= z <= hi)%Z) ->
  c `prefix_of` commas (map written l) ++ [125] -> c <> commas (map written l) ++ [125] -> (length c < fuel)%nat -> visit_map fuel true acc c = Eof.
Proof.
  revert acc c fuel. induction l as [|[name z] l IH]; [done|]. intros acc c fuel _ ND H Pc Nc Hf. destruct fuel as [|fuel]; [lia|]. 
  destruct (H name z ltac:(left)) as (Pn & i & lo & hi & FI & Ai & B0 & B).
  rewrite fmap_cons in ND. apply NoDup_cons in ND as [Nn ND].
  set (tail := match l with [] => [125] | _ => 44 :: commas (map written l) ++ [125] end).
  assert (commas (map written ((name, z) :: l)) ++ [125] = 34 :: name ++ 34 :: 58 :: integer z ++ tail) as E.
  { subst tail. destruct l as [|m l]; cbn [map commas]; unfold written at 1; cbn [fst snd app]; f_equal; rewrite <-!app_assoc; cbn; done || (f_equal; f_equal; f_equal; by rewrite <-app_assoc). }
  rewrite E in Pc, Nc. clear E. rewrite visit_map_eq.
  apply prefix_cons_split in Pc as [->|(c1 & -> & Pc)]; [done|]. cbn [length] in Hf. rewrite skip_spaces_stop by (unfold space; lia). change (34 =? 125) with false. cbn iota. unfold map_key. change (34 =? 34) with true. cbn iota.
  apply prefix_split in Pc as [(x & Nx & ->)|(c2 & -> & Pc)].
  { unfold parse_str. apply Forall_app in Pn as [Pn _]. by rewrite plain_eof. }
  apply prefix_cons_split in Pc as [->|(c3 & -> & Pc)]. { rewrite app_nil_r. unfold parse_str. by rewrite plain_eof. }
  rewrite plain_str by done. cbn [and_then]. rewrite FI, Ai.
  apply prefix_cons_split in Pc as [->|(c4 & -> & Pc)]; [done|]. rewrite skip_spaces_stop by (unfold space; lia). change (58 =? 58) with true. cbn iota.
  assert (forall a, visit_map fuel false a [] = Eof) as Nil by (intros a; destruct fuel; [lia|done]).
  apply prefix_split in Pc as [(x & Nx & Ex)|(c5 & -> & Pc)].
  { destruct (cut_integer lo hi z c4 B0 B) as [->|(z' & ->)]; [by exists x|done|]. cbn [and_then]. apply Nil. }
  destruct c5 as [|d c5].
  { destruct (cut_integer lo hi z (integer z) B0 B) as [R|(z' & R)]; [exists []; by rewrite app_nil_r|..]; rewrite app_nil_r, R; [done|]. cbn [and_then]. apply Nil. }
  assert (d = 44 /\ l <> [] /\ c5 `prefix_of` commas (map written l) ++ [125] /\ c5 <> commas (map written l) ++ [125]) as (-> & Nl & P5 & N5).
  { subst tail. destruct l as [|m l].
    - exfalso. apply Nc. pose proof (prefix_cons_inv_1 _ _ _ _ Pc) as ->. apply prefix_cons_inv_2 in Pc. apply prefix_nil_inv in Pc as ->. done.
    - pose proof (prefix_cons_inv_1 _ _ _ _ Pc) as ->. apply prefix_cons_inv_2 in Pc. split; [done|]. split; [done|]. split; [done|]. intros ->. by apply Nc. }
  destruct (integer_text z) as [IV NZ].
  assert (deserialize_int (lo, hi) (integer z ++ 44 :: c5) = Got z (44 :: c5)) as ->.
  { pose proof (read_int (JNumber (integer z)) (integer z) [] (44 :: c5) (lo, hi) ltac:(by constructor) ltac:(constructor) ltac:(cbn; unfold numeric; lia)) as R. cbn [app] in R. rewrite R.
    rewrite (proj2 (int_of_spec lo hi _ _ z (value_number _ NZ))); [done|]. exists (integer z). split_and!; try done; try lia.
    unfold integer. destruct (z <? 0)%Z eqn:L; intros E0.
    - injection E0 as E0. destruct (decimal_ok (Z.abs_N z)) as (_ & _ & V & _). rewrite E0 in V. cbn in V. lia.
    - destruct (decimal_ok (Z.abs_N z)) as (D & _). rewrite E0 in D. inversion D. lia. }
  cbn [and_then]. rewrite <-(IH (<[i := Some z]> acc) c5 fuel Nl ND) ; [|..|done|done|rewrite app_length in Hf; cbn [length] in Hf; rewrite app_length in Hf; cbn [length] in Hf; lia].
  - destruct fuel as [|fuel]; [lia|]. rewrite !visit_map_eq. rewrite skip_spaces_stop by (unfold space; lia). change (44 =? 125) with false. change (44 =? 44) with true. cbn iota.
    destruct c5 as [|e c5]; [done|]. assert (e = 34) as ->. { destruct l as [|[n0 z0] [|m l]]; [done|..]; cbn in P5; by apply prefix_cons_inv_1 in P5. }
    rewrite skip_spaces_stop by (unfold space; lia). done.
  - intros name' z' I. destruct (H name' z' ltac:(by right)) as (Pn' & j & lo' & hi' & FI' & Aj & B0' & B'). split; [done|]. exists j, lo', hi'. split_and!; try done; try lia.
    etrans; [apply list_lookup_insert_ne|done]. intros ->. apply Nn. apply field_index_spec in FI, FI'. rewrite FI in FI'. injection FI' as -> _ _. apply elem_of_list_fmap. by exists (name', z').
Qed.

Lemma stringify_written x y z yaw pitch roll : stringify x y z yaw pitch roll =
  123 :: commas (map written [(str "x", x); (str "y", y); (str "z", z); (str "yaw", yaw); (str "pitch", pitch); (str "roll", roll)]) ++ [125].
Proof. reflexivity. Qed.

Section Cut.
Context {P : Type} (position_new : Z -> Z -> Z -> Z -> Z -> Z -> P).
Definition in_ranges (x y z yaw pitch roll : Z) : Prop :=
  (-32768 <= x <= 32767 /\ -32768 <= y <= 32767 /\ -32768 <= z <= 32767 /\ -32768 <= yaw <= 32767 /\ -128 <= pitch <= 127 /\ -32768 <= roll <= 32767)%Z.
Lemma page_cut x y z yaw pitch roll c : in_ranges x y z yaw pitch roll -> c `prefix_of` stringify x y z yaw pitch roll -> c <> stringify x y z yaw pitch roll -> body_of position_new c = BodyEof.
Proof.
  intros R Pc Nc. rewrite stringify_written in Pc, Nc. unfold body_of, deserialize_struct. apply prefix_cons_split in Pc as [->|(c1 & -> & Pc)]; [done|].
  rewrite skip_spaces_stop by (unfold space; lia). change (123 =? 91) with false. change (123 =? 123) with true. cbn iota.
  rewrite cut_members with (l := [(str "x", x); (str "y", y); (str "z", z); (str "yaw", yaw); (str "pitch", pitch); (str "roll", roll)]); [done|done|..|done|by intros ->|lia].
  - apply (bool_decide_unpack (NoDup [str "x"; str "y"; str "z"; str "yaw"; str "pitch"; str "roll"])). by vm_compute.
  - unfold in_ranges in R. intros name v I. repeat (apply elem_of_cons in I as [I|I]; [injection I as -> ->; split; [by repeat constructor|]; eexists _, _, _; split; [reflexivity|]; split; [done|]; lia|]). by apply elem_of_nil in I.
Qed.
Lemma page_accepted x y z yaw pitch roll : in_ranges x y z yaw pitch roll -> body_of position_new (stringify x y z yaw pitch roll) = BodyPosition (position_new x y z yaw pitch roll).
Proof.
  intros R.
  assert (forall lo hi v, (lo <= v <= hi)%Z -> exists j, value j (integer v) /\ integer_in lo hi v j) as J.
  { intros lo hi v B. destruct (integer_text v) as [IV N]. exists (JNumber (integer v)). split; [by constructor|]. exists (integer v). split_and!; try done; try lia.
    unfold integer. destruct (v <? 0)%Z eqn:L; intros E0.
    - injection E0 as E0. destruct (decimal_ok (Z.abs_N v)) as (_ & _ & V & _). rewrite E0 in V. cbn in V. lia.
    - destruct (decimal_ok (Z.abs_N v)) as (D & _). rewrite E0 in D. inversion D. lia. }
  destruct R as (R1 & R2 & R3 & R4 & R5 & R6).
  destruct (object_value [("x", int16 x); ("y", int16 y); ("z", int16 z); ("yaw", int16 yaw); ("pitch", int8 pitch); ("roll", int16 roll)]%string
    [(str "x", integer x); (str "y", integer y); (str "z", integer z); (str "yaw", integer yaw); (str "pitch", integer pitch); (str "roll", integer roll)]) as (v & V & I); [done|..].
  { repeat (apply Forall2_cons_2; [split; [done|]; split; [by apply ascii_dec|]; by apply J|]). constructor. }
  apply (body_accepts position_new v).
  - exists [], (stringify x y z yaw pitch roll), []. split; [constructor|]. split; [exact V|]. split; [constructor|]. by rewrite app_nil_r.
  - destruct I as (ms & -> & F). repeat (apply Forall2_cons_inv_r in F as ([? ?] & ? & [E ?] & F & ->); cbn [fst snd] in E; subst). apply Forall2_nil_inv_r in F as ->.
    left. eexists. split; [done|]. split.
    + intros k u I. apply decode16_unicode; repeat (apply elem_of_cons in I as [I|I]; [injection I as -> _; by repeat constructor || by eexists|]); by apply elem_of_nil in I.
    + split_and!; (eexists; split; [vm_compute; reflexivity|done]).
Qed.
Lemma blank_body w : spaces w -> body_of position_new w = BodyEof.
Proof. intros W. unfold body_of, deserialize_struct. by rewrite skip_spaces_nil. Qed.
End Cut.
