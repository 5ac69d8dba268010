(** Vocabulary of the MAC address properties, on strings as lists of character codes. *)
From Verif Require Import Base MacAddress.

(** "0123456789ABCDEF" and "0123456789abcdef" *)
Definition upper_digits : list N := [48;49;50;51;52;53;54;55;56;57;65;66;67;68;69;70].
Definition lower_digits : list N := [48;49;50;51;52;53;54;55;56;57;97;98;99;100;101;102].
(** [c] is a hexadecimal digit of value [v]. *)
Definition digit (c v : N) : Prop :=
  upper_digits !! N.to_nat v = Some c \/ lower_digits !! N.to_nat v = Some c.

(** A string of digits denotes bytes, two digits each, most significant first. *)
Inductive denotes : list N -> bytes -> Prop :=
  | denotes_nil : denotes [] []
  | denotes_cons a b x y s l : digit a x -> digit b y -> denotes s l ->
      denotes (a :: b :: s) (16 * x + y :: l).

(** [printed l s]: [s] is the bytes [l], two upper case digits each, separated by ':' (58). *)
Inductive printed : bytes -> list N -> Prop :=
  | printed_last x y a b : upper_digits !! N.to_nat x = Some a -> upper_digits !! N.to_nat y = Some b ->
      printed [16 * x + y] [a; b]
  | printed_cons x y a b l s : upper_digits !! N.to_nat x = Some a -> upper_digits !! N.to_nat y = Some b ->
      printed l s -> printed (16 * x + y :: l) (a :: b :: 58 :: s).

(** "%3A" *)
Definition pct3A : list N := [37; 51; 65].

(** [without_colons s t]: [t] is [s] with every ':' (58) removed. *)
Inductive without_colons : list N -> list N -> Prop :=
  | wc_nil : without_colons [] []
  | wc_colon s t : without_colons s t -> without_colons (58 :: s) t
  | wc_char c s t : c <> 58 -> without_colons s t -> without_colons (c :: s) (c :: t).

(** [without_pct3A s t]: [t] is [s] with every "%3A" removed, scanning from the left. *)
Inductive without_pct3A : list N -> list N -> Prop :=
  | wp_nil : without_pct3A [] []
  | wp_sub s t : without_pct3A s t -> without_pct3A (pct3A ++ s) t
  | wp_char c s t : ~ pct3A `prefix_of` (c :: s) -> without_pct3A s t ->
      without_pct3A (c :: s) (c :: t).
