(** Model of src/mac_address.rs. *)
From Verif Require Import Base.

(** mac_address.rs:34-39 [enum MacAddress]. The fixed size arrays are lists;
    [wf_mac] is the length guaranteed by the Rust types. *)
Inductive mac_address : Set :=
  | MShort (l : list N)
  | MExtended (l : list N).

(** mac_address.rs:21,24 SHORT_MAC_ADDRESS_SIZE, EXTENDED_MAC_ADDRESS_SIZE. *)
Definition SHORT_MAC_ADDRESS_SIZE : nat := 2.
Definition EXTENDED_MAC_ADDRESS_SIZE : nat := 8.

Definition wf_mac (m : mac_address) : Prop :=
  match m with
  | MShort l => length l = SHORT_MAC_ADDRESS_SIZE /\ wf_bytes l
  | MExtended l => length l = EXTENDED_MAC_ADDRESS_SIZE /\ wf_bytes l
  end.

(** mac_address.rs:33 derived [PartialEq, Eq, Hash]. *)
Global Instance mac_address_eq_dec : EqDecision mac_address.
Proof. solve_decision. Defined.
Global Instance mac_address_countable : Countable mac_address.
Proof.
  refine (inj_countable'
    (fun m => match m with MShort l => inl l | MExtended l => inr l end)
    (fun s => match s with inl l => MShort l | inr l => MExtended l end) _).
  intros []; reflexivity.
Defined.

(** mac_address.rs:46-53 [From<&MacAddress> for u64]. *)
Definition mac_to_u64 (m : mac_address) : N :=
  match m with
  | MShort l => le_nat l
  | MExtended l => le_nat l
  end.

(** mac_address.rs:61-68 [From<&MacAddress> for Vec<u8>]. *)
Definition mac_to_vec (m : mac_address) : bytes :=
  match m with
  | MShort l => l
  | MExtended l => l
  end.

(** Strings are lists of UTF-8 bytes. Removing an ASCII character or an ASCII
    substring, and taking the length ([String::len] is in bytes), are byte
    operations on UTF-8. *)
Definition CH_COLON : N := 58.     (* ':' *)
Definition CH_PERCENT : N := 37.   (* '%' *)
Definition CH_3 : N := 51.         (* '3' *)
Definition CH_A : N := 65.         (* 'A' *)

(** mac_address.rs:79 [.replace(':', "")]. *)
Definition remove_colons (s : bytes) : bytes :=
  List.filter (fun c => negb (c =? CH_COLON)) s.

(** mac_address.rs:79 [.replace("%3A", "")]: non overlapping occurrences, left to right. *)
Fixpoint remove_pct3A (s : bytes) : bytes :=
  match s with
  | [] => []
  | a :: t =>
      match t with
      | b :: c :: r =>
          if (a =? CH_PERCENT) && (b =? CH_3) && (c =? CH_A)
          then remove_pct3A r
          else a :: remove_pct3A t
      | _ => a :: remove_pct3A t
      end
  end.

(** hex 0.4.3 [val]: value of one hexadecimal digit, upper or lower case. *)
Definition hex_val (c : N) : option N :=
  if (48 <=? c) && (c <=? 57) then Some (c - 48)          (* '0'..='9' *)
  else if (65 <=? c) && (c <=? 70) then Some (c - 65 + 10) (* 'A'..='F' *)
  else if (97 <=? c) && (c <=? 102) then Some (c - 97 + 10) (* 'a'..='f' *)
  else None.

(** hex 0.4.3 [decode_to_slice]: fails on an odd length or an invalid digit. *)
Fixpoint hex_decode (s : bytes) : option bytes :=
  match s with
  | [] => Some []
  | [_] => None
  | a :: b :: r =>
      match hex_val a, hex_val b, hex_decode r with
      | Some x, Some y, Some l => Some (x * 16 + y :: l)
      | _, _, _ => None
      end
  end.

(** mac_address.rs:76-92 [TryFrom<String> for MacAddress]; also the [Deserialize]
    implementation (mac_address.rs:34 [try_from = "String"]) and [MacAddress::new]. *)
Definition mac_of_string (s : bytes) : option mac_address :=
  let s := remove_pct3A (remove_colons s) in
  if Nat.eqb (length s) (2 * SHORT_MAC_ADDRESS_SIZE) then
    match hex_decode s with Some l => Some (MShort l) | None => None end
  else if Nat.eqb (length s) (2 * EXTENDED_MAC_ADDRESS_SIZE) then
    match hex_decode s with Some l => Some (MExtended l) | None => None end
  else None.

(** [format!("{:02X}:", byte)] of mac_address.rs:97. *)
Definition hex_digit (n : N) : N := if n <? 10 then 48 + n else 55 + n.
Definition fmt_byte (b : N) : bytes := [hex_digit (b / 16); hex_digit (b mod 16); CH_COLON].

(** [trim_end_matches(':')] of mac_address.rs:102. *)
Fixpoint trim_end_colons (s : bytes) : bytes :=
  match s with
  | [] => []
  | c :: r =>
      match trim_end_colons r with
      | [] => if c =? CH_COLON then [] else [c]
      | r' => c :: r'
      end
  end.

(** mac_address.rs:94-109 [From<&MacAddress> for String]; also [Display]
    (mac_address.rs:117-121) and [Serialize]. *)
Definition mac_to_string (m : mac_address) : bytes :=
  trim_end_colons (concat (map fmt_byte (mac_to_vec m))).
