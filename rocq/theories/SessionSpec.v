(** Small specification of the sessions. *)
From Verif Require Import Base Uci AppConfig Codec Session Pica ContextSpec.

(** ** The state machine *)
(** Notifications [l] lead from state [s] to state [s']. *)
Inductive follows : session_state -> list (session_state * N) -> session_state -> Prop :=
  | FNil s : follows s [] s
  | FSnoc s l s1 s2 r : follows s l s1 -> s1 <> s2 -> transition s1 s2 r -> follows s (l ++ [(s2, r)]) s2.

(** The host of [h] was never told that a session id is already in use (ERROR_SESSION_DUPLICATE,
    0x12), nor that a session has no more controlees (ERROR_INVALID_NUM_OF_CONTROLEES, 0x33). *)
Definition clean (h : N) (outs : list out) : Prop :=
  forall m, In m (messages h outs) -> m <> SessionInitRsp 0x12 /\ forall id st, m <> SessionStatusNtf id st 0x33.

(** ** Parameters *)
(** Set the parameters in order: the configuration obtained, and the refused parameters with
    status INVALID_PARAM. *)
Inductive sets_all : app_config -> list (tlv_id * bytes) -> app_config -> list (tlv_id * N) -> Prop :=
  | SaNil c : sets_all c [] c []
  | SaOk c id v c1 l c2 r : app_config_set c id v = Ret (c1, true) -> sets_all c1 l c2 r ->
      sets_all c ((id, v) :: l) c2 r
  | SaRefused c id v l c2 r : app_config_set c id v = Ret (c, false) -> sets_all c l c2 r ->
      sets_all c ((id, v) :: l) c2 ((id, 0x04 (* INVALID_PARAM *)) :: r).

(** The parameters without which a session cannot become IDLE. *)
Definition mandatory : list tlv_id :=
  [T_DEVICE_ROLE; T_MULTI_NODE_MODE; T_RANGING_ROUND_USAGE; T_DEVICE_MAC_ADDRESS; T_SCHEDULE_MODE].
Definition configured (c : app_config) : Prop := forall id, In id mandatory -> app_config_get c id <> None.

(** The sessions [s] and [s'] differ at most by their state, timer and configuration. *)
Definition same_session (s s' : session) : Prop :=
  s_id s' = s_id s /\ s_type s' = s_type s /\ s_seq s' = s_seq s /\ s_data s' = s_data s.
