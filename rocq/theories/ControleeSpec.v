(** Specification of the list of the controlees of a session, after any history: only the commands of the host and the answers
    which it received are used. An address is the list of its bytes. *)
From Verif Require Import Base Uci MacAddress AppConfig Codec Session Device Pica CodecSpec ContextSpec HistorySpec ReadSpec.

(** MAC_ADDRESS_MODE 0: short addresses; 2: extended addresses. *)
Definition address_size (mode : N) : nat := if mode =? 0 then 2 else 8.
(** The mode when the parameters [l1] of a command have been set: the last in [l1], or the one held before. *)
Definition mode_after (h id : N) (tr : list (op * list out)) (l1 : list (tlv_id * bytes)) (mode : N) : Prop :=
  (exists l l', l1 = l ++ (T_MAC_ADDRESS_MODE, [mode]) :: l' /\ T_MAC_ADDRESS_MODE ∉ l'.*1)
  \/ (T_MAC_ADDRESS_MODE ∉ l1.*1 /\ holds h id T_MAC_ADDRESS_MODE tr [mode]).
(** DST_MAC_ADDRESS is set to the addresses [dst], and this is accepted. *)
Definition list_set (h id : N) (tr : list (op * list out)) (x : op * list out) (dst : list bytes) : Prop :=
  exists l1 l2 mode, asks h (CmdSetAppConfig id (l1 ++ (T_DST_MAC_ADDRESS, concat dst) :: l2)) x.1 /\ T_DST_MAC_ADDRESS ∉ l2.*1
    /\ sent h x.2 = [SessionSetAppConfigRsp 0x00 []] /\ mode_after h id tr l1 mode /\ Forall (fun a => length a = address_size mode) dst.
(** The addresses which the answer to an update says to be updated. *)
Definition said_updated (l : list (bytes * N)) : list bytes := (filter (fun y => y.2 = 0x00) l).*1.
(** The list [dst] is updated, to [dst']: the answer is not ERROR_SESSION_NOT_EXIST, REJECTED or SYNTAX_ERROR. *)
Definition list_changed (h id : N) (x : op * list out) (dst dst' : list bytes) : Prop :=
  exists a payload status l, asks h (CmdMulticast id a payload) x.1
    /\ sent h x.2 = [SessionUpdateControllerMulticastListRsp status l] /\ status <> 0x11 /\ status <> 0x01 /\ status <> 0x03
    /\ dst' = match a with RemoveControlee => filter (fun b => b ∉ said_updated l) dst | _ => dst ++ said_updated l end.

(** [listed h id tr dst]: after the history [tr], the controlees of the session [id] of [h] are [dst]. *)
Inductive listed (h id : N) : list (op * list out) -> list bytes -> Prop :=
  | ListedNew tr x : created h id x -> listed h id (tr ++ [x]) []
  | ListedSet tr x dst : list_set h id tr x dst -> listed h id (tr ++ [x]) dst
  | ListedChanged tr x dst dst' : listed h id tr dst -> list_changed h id x dst dst' -> listed h id (tr ++ [x]) dst'
  | ListedStill tr x dst : listed h id tr dst -> ~ created h id x -> ~ deleted h id x -> (forall v, ~ accepted h id T_DST_MAC_ADDRESS v x) ->
      ~ list_updated h id x -> listed h id (tr ++ [x]) dst.
(** [counted h id tr n]: NUMBER_OF_CONTROLEES is [n], as last set, or as it became with the list. *)
Inductive counted (h id : N) : list (op * list out) -> N -> Prop :=
  | CountedNew tr x : created h id x -> counted h id (tr ++ [x]) 1
  | CountedSet tr x n : accepted h id T_NUMBER_OF_CONTROLEES [n] x -> counted h id (tr ++ [x]) n
  | CountedChanged tr x dst : listed h id (tr ++ [x]) dst -> list_updated h id x -> counted h id (tr ++ [x]) (N.of_nat (length dst) mod 256)
  | CountedStill tr x n : counted h id tr n -> ~ created h id x -> ~ deleted h id x -> (forall v, ~ accepted h id T_NUMBER_OF_CONTROLEES v x) ->
      ~ list_updated h id x -> counted h id (tr ++ [x]) n.
