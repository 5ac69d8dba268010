(** Specification of who is measured in a ranging round, after any history: only the commands of the hosts, the answers and the
    notifications which they received, and the commands about anchors are used. *)
From Verif Require Import Base Uci MacAddress AppConfig Codec Session Device Pica CodecSpec ContextSpec HistorySpec RangingSpec ReadSpec ControleeSpec.

(** The session [id] of [h] is active: this is the last that [h] was told of its state. *)
Definition told_active (h id : N) (tr : list (op * list out)) : Prop :=
  exists l reason, status_ntfs h id (concat tr.*2) = l ++ [(SsActive, reason)].
(** [a] is the address of a short anchor, which was created with the handle [k] and not destroyed since. *)
Inductive anchored (a : bytes) : list (op * list out) -> N -> Prop :=
  | AnchoredNew tr x k : x.1 = CreateAnchor (MShort a) -> OReply (ReplyOk k) ∈ x.2 -> anchored a (tr ++ [x]) k
  | AnchoredStill tr x k : anchored a tr k -> x.1 <> DestroyAnchor (MShort a) -> anchored a (tr ++ [x]) k.
(** The parameter is not the same for [h] and for [k]; it may have a value for one of them only (DEVICE_TYPE is not mandatory). *)
Definition differ (h k id : N) (i : tlv_id) (tr : list (op * list out)) : Prop :=
  (exists v, holds h id i tr v \/ holds k id i tr v) /\ forall v, ~ (holds h id i tr v /\ holds k id i tr v).
(** The host of [k] has the same session as the host of [h], active, with the address [a]; the two have different roles and
    different types, and each has the address of the other in its list of controlees. *)
Definition peer (h id : N) (tr : list (op * list out)) (k : N) (a : bytes) : Prop :=
  k <> h /\ told_active k id tr
  /\ differ h k id T_DEVICE_ROLE tr /\ differ h k id T_DEVICE_TYPE tr
  /\ exists own l l', holds h id T_DEVICE_MAC_ADDRESS tr own /\ holds k id T_DEVICE_MAC_ADDRESS tr a
     /\ listed h id tr l /\ listed k id tr l' /\ a ∈ l /\ own ∈ l'.
(** What is measured, as estimated from here and from there. *)
Definition estimated (e : env) (h k : N) (a : bytes) (x : measurement) : Prop :=
  exists local remote, env_estimate e h k = Some local /\ env_estimate e k h = Some remote /\ measures (MShort a) local remote x.
(** [found P l xs]: for each member of [l] for which there is one, in order, an [x] as in [P]. *)
Inductive found {A B} (P : A -> B -> Prop) (can : A -> Prop) : list A -> list B -> Prop :=
  | FoundNil : found P can [] []
  | FoundOne a l x xs : can a -> P a x -> found P can l xs -> found P can (a :: l) (x :: xs)
  | FoundNone a l xs : ~ can a -> found P can l xs -> found P can (a :: l) xs.
(** There is an estimate in both directions. *)
Definition seen (e : env) (h k : N) : Prop := env_estimate e h k <> None /\ env_estimate e k h <> None.
