(** Small specification of the updates of the multicast list of a controller. *)
From Verif Require Import Base Uci MacAddress AppConfig Codec Session CodecSpec Pica.

(** Statuses of one controlee in the response (uci_packets.pdl, MulticastUpdateStatus). *)
Definition UPDATED : N := 0x00.
Definition LIST_FULL : N := 0x01.
Definition NOT_FOUND : N := 0x07.
Definition ALREADY_PRESENT : N := 0x08.

(** Adding the addresses [l] in order to the list [dst]: their statuses, and the new list.
    The list has room below 8 entries. *)
Inductive added : list mac_address -> list bytes -> list N -> list mac_address -> Prop :=
  | AddNil dst : added dst [] [] dst
  | AddOk dst a l sts dst' : MShort a ∉ dst -> (length dst < 8)%nat ->
      added (dst ++ [MShort a]) l sts dst' -> added dst (a :: l) (UPDATED :: sts) dst'
  | AddPresent dst a l sts dst' : MShort a ∈ dst ->
      added dst l sts dst' -> added dst (a :: l) (ALREADY_PRESENT :: sts) dst'
  | AddFull dst a l sts dst' : MShort a ∉ dst -> (8 <= length dst)%nat ->
      added dst l sts dst' -> added dst (a :: l) (LIST_FULL :: sts) dst'.

(** Removing the addresses [l] in order from the list [dst]. *)
Inductive removed : list mac_address -> list bytes -> list N -> list mac_address -> Prop :=
  | RemoveNil dst : removed dst [] [] dst
  | RemoveOk dst a l sts dst' : MShort a ∈ dst ->
      removed (filter (fun x => x <> MShort a) dst) l sts dst' -> removed dst (a :: l) (UPDATED :: sts) dst'
  | RemoveNotFound dst a l sts dst' : MShort a ∉ dst ->
      removed dst l sts dst' -> removed dst (a :: l) (NOT_FOUND :: sts) dst'.

(** The addresses of [l] which were updated. *)
Definition updated (l : list bytes) (sts : list N) : list bytes :=
  (filter (fun p => p.2 = UPDATED) (zip l sts)).*1.

(** The key carried for each controlee. *)
Definition key_size (a : multicast_action) : nat :=
  match a with
  | AddControlee | RemoveControlee => 0
  | AddControleeWithShortSubSessionKey => 16
  | AddControleeWithExtendedSubSessionKey => 32
  end.
(** [payload] is a list of controlees for the action [a]: address, sub-session id, key. *)
Definition controlees (a : multicast_action) (cs : list (bytes * N * bytes)) (payload : bytes) : Prop :=
  short_list cs /\ Forall (wf_controlee (key_size a)) cs /\ payload = with_count controlee_bytes cs.
Definition addresses (cs : list (bytes * N * bytes)) : list bytes := map (fun c => c.1.1) cs.

(** The session can be updated: it is IDLE or ACTIVE, a CONTROLLER (1) in ONE_TO_MANY mode (1). *)
Definition updatable (s : session) : Prop :=
  (s_state s = SsIdle \/ s_state s = SsActive) /\ app_config_get (s_cfg s) T_DEVICE_TYPE = Some [1]
  /\ app_config_get (s_cfg s) T_MULTI_NODE_MODE = Some [1].
(** A key may be given only in mode PROVISIONED_FOR_RESPONDER_SUB_SESSION_KEY (4). *)
Definition key_allowed (a : multicast_action) (s : session) : Prop :=
  a = AddControlee \/ app_config_get (s_cfg s) T_STS_CONFIG = Some [4].

(** In-band stop requests scheduled by [h]: address, session, how many times. *)
Definition stop_request (h : N) (o : out) : list (mac_address * N * N) :=
  match o with OEff h' (SpawnStop a id n) => if h' =? h then [(a, id, n)] else [] | _ => [] end.
Definition stop_requests (h : N) (outs : list out) : list (mac_address * N * N) := concat (map (stop_request h) outs).
