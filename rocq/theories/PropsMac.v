(** C08-C10: MAC addresses. Strings are lists of character codes. *)
From Verif Require Import Base MacAddress MacSpec MacFacts.

(** C08. *)
Theorem C08_text_round_trip : forall m : mac_address,
  wf_mac m -> mac_of_string (mac_to_string m) = Some m.
Proof. exact mac_round_trip. Qed.
Print Assumptions C08_text_round_trip.

Theorem C08_text_injective : forall m m' : mac_address,
  wf_mac m -> wf_mac m' -> mac_to_string m = mac_to_string m' -> m = m'.
Proof. exact mac_to_string_inj. Qed.
Print Assumptions C08_text_injective.

(** The text is the bytes in order, in upper case. *)
Theorem C08_text : forall m : mac_address, wf_mac m ->
  match m with MShort l | MExtended l => printed l (mac_to_string m) end.
Proof. exact mac_printed. Qed.
Print Assumptions C08_text.

(** "A0:0F" *)
Example C08_example :
  mac_to_string (MShort [0xA0; 0x0F]) = [65; 48; 58; 48; 70]
  /\ wf_mac (MShort [0xA0; 0x0F])
  /\ mac_of_string [65; 48; 58; 48; 70] = Some (MShort [0xA0; 0x0F])
  /\ wf_mac (MExtended [1; 2; 3; 4; 5; 6; 7; 255])
  /\ N.of_nat (length (mac_to_string (MExtended [1; 2; 3; 4; 5; 6; 7; 255]))) = 23.
Proof. split_and!; try (vm_compute; reflexivity); repeat constructor. Qed.

(** C09. A string is an address exactly when, without ':' and "%3A", it is made of 4 or
    16 hexadecimal digits; the address is what the digits denote. *)
Theorem C09_parse_iff : forall (s : list N) (m : mac_address),
  mac_of_string s = Some m <->
  exists t u, without_colons s t /\ without_pct3A t u /\
    exists l, denotes u l /\
      (length u = 4%nat /\ m = MShort l \/ length u = 16%nat /\ m = MExtended l).
Proof. exact mac_of_string_spec. Qed.
Print Assumptions C09_parse_iff.

(** The specification of the removals is a function of the string. *)
Theorem C09_removals_deterministic : forall s : list N,
  (exists! t, without_colons s t) /\ (exists! t, without_pct3A s t).
Proof.
  intros s. split.
  - exists (remove_colons s). split; [by apply without_colons_fun|].
    intros t H. by apply without_colons_fun.
  - exists (remove_pct3A s). split; [by apply without_pct3A_fun|].
    intros t H. by apply without_pct3A_fun.
Qed.

(** Every parsed address has the size and bytes of its kind. *)
Theorem C09_parsed_well_formed : forall s m, mac_of_string s = Some m -> wf_mac m.
Proof. exact mac_of_string_wf. Qed.

(** "00%3aFF", in lower case, is not accepted; "00%3AfF" is; "00:0" is not. *)
Example C09_example :
  mac_of_string [48; 48; 37; 51; 97; 70; 70] = None
  /\ mac_of_string [48; 48; 37; 51; 65; 102; 70] = Some (MShort [0; 255])
  /\ mac_of_string [48; 48; 58; 48] = None.
Proof. vm_compute. auto. Qed.

(** C10. *)
Theorem C10_bytes_injective : forall m m' : mac_address,
  wf_mac m -> wf_mac m' -> mac_to_vec m = mac_to_vec m' -> m = m'.
Proof. exact mac_to_vec_inj. Qed.
Print Assumptions C10_bytes_injective.

Theorem C10_number_is_little_endian : forall m : mac_address, wf_mac m ->
  le_bytes (length (mac_to_vec m)) (mac_to_u64 m) = mac_to_vec m
  /\ mac_to_u64 m < 256 ^ N.of_nat (length (mac_to_vec m)).
Proof. exact mac_to_u64_value. Qed.
Print Assumptions C10_number_is_little_endian.

Theorem C10_number_injective_per_kind : forall m m' : mac_address,
  wf_mac m -> wf_mac m' ->
  match m, m' with MShort _, MShort _ | MExtended _, MExtended _ => True | _, _ => False end ->
  mac_to_u64 m = mac_to_u64 m' -> m = m'.
Proof. exact mac_to_u64_inj. Qed.
Print Assumptions C10_number_injective_per_kind.

(** The restriction to one kind is needed. *)
Theorem C10_number_across_kinds_refuted : exists m m' : mac_address,
  wf_mac m /\ wf_mac m' /\ mac_to_u64 m = mac_to_u64 m' /\ m <> m'.
Proof.
  exists (MShort [1; 2]), (MExtended [1; 2; 0; 0; 0; 0; 0; 0]).
  split_and!; try (repeat constructor); done.
Qed.

Example C10_example : mac_to_u64 (MShort [1; 2]) = 513.
Proof. reflexivity. Qed.
