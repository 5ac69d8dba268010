(** Specification of the answers to the commands about sessions, after any history: only the commands of the host, and the answers and
    notifications which it received, are used. *)
From Verif Require Import Base Uci MacAddress AppConfig Codec Session Device Pica CodecSpec ContextSpec HistorySpec ReadSpec.

(** The last state of the session that the host was told; DEINIT if it was told none. *)
Definition last_state (h id : N) (tr : list (op * list out)) : session_state :=
  match last (status_ntfs h id (concat tr.*2)) with Some (s, _) => s | None => SsDeinit end.
(** The host has [n] sessions. *)
Definition sessions (h : N) (tr : list (op * list out)) (n : nat) : Prop :=
  exists ids, NoDup ids /\ (forall id, id ∈ ids <-> exists_after h id tr) /\ length ids = n.
(** [answer h tr c m]: after [tr], the host of [h] is answered [m] to the command [c]. *)
Inductive answer (h : N) (tr : list (op * list out)) : command -> msg -> Prop :=
  | AInitFull id ty : sessions h tr 255 -> answer h tr (CmdSessionInit id ty) (SessionInitRsp 0x14 (* ERROR_MAX_SESSIONS_EXCEEDED *))
  | AInitNew id ty n : sessions h tr n -> (n < 255)%nat -> ~ exists_after h id tr -> answer h tr (CmdSessionInit id ty) (SessionInitRsp 0x00)
  | AInitOld id ty n : sessions h tr n -> (n < 255)%nat -> exists_after h id tr -> answer h tr (CmdSessionInit id ty) (SessionInitRsp 0x12 (* ERROR_SESSION_DUPLICATE *))
  | ADeinit id : exists_after h id tr -> answer h tr (CmdSessionDeinit id) (SessionDeinitRsp 0x00)
  | ADeinitNone id : ~ exists_after h id tr -> answer h tr (CmdSessionDeinit id) (SessionDeinitRsp 0x11 (* ERROR_SESSION_NOT_EXIST *))
  | ACount n : sessions h tr n -> answer h tr CmdGetCount (SessionGetCountRsp 0x00 (N.of_nat n))
  | AState id : exists_after h id tr -> answer h tr (CmdGetState id) (SessionGetStateRsp 0x00 (last_state h id tr))
  | AStateNone id : ~ exists_after h id tr -> answer h tr (CmdGetState id) (SessionGetStateRsp 0x11 SsInit)
  | AStart id : exists_after h id tr -> last_state h id tr = SsIdle -> answer h tr (CmdStart id) (SessionStartRsp 0x00)
  | AStartNot id : exists_after h id tr -> last_state h id tr <> SsIdle -> answer h tr (CmdStart id) (SessionStartRsp 0x15 (* ERROR_SESSION_NOT_CONFIGURED *))
  | AStartNone id : ~ exists_after h id tr -> answer h tr (CmdStart id) (SessionStartRsp 0x11)
  | AStop id : exists_after h id tr -> last_state h id tr = SsActive -> answer h tr (CmdStop id) (SessionStopRsp 0x00)
  | AStopNot id : exists_after h id tr -> last_state h id tr <> SsActive -> answer h tr (CmdStop id) (SessionStopRsp 0x13 (* ERROR_SESSION_ACTIVE *))
  | AStopNone id : ~ exists_after h id tr -> answer h tr (CmdStop id) (SessionStopRsp 0x11).
(** These commands. *)
Definition about_sessions (c : command) : Prop :=
  match c with CmdSessionInit _ _ | CmdSessionDeinit _ | CmdGetCount | CmdGetState _ | CmdStart _ | CmdStop _ => True | _ => False end.
(** The commands that name an existing session, and the status of their answers. *)
Definition names_session (c : command) (id : N) : Prop :=
  match c with
  | CmdSessionDeinit i | CmdSetAppConfig i _ | CmdGetAppConfig i _ | CmdGetState i | CmdMulticast i _ _ | CmdStart i | CmdStop i | CmdGetRangingCount i => i = id
  | _ => False
  end.
Definition answer_status (m : msg) : option N :=
  match m with
  | SessionDeinitRsp st | SessionSetAppConfigRsp st _ | SessionGetAppConfigRsp st _ | SessionGetStateRsp st _
  | SessionUpdateControllerMulticastListRsp st _ | SessionStartRsp st | SessionStopRsp st | SessionGetRangingCountRsp st _ => Some st
  | _ => None
  end.
