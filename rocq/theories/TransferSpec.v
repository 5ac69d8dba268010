(** Specification of the transfer of a file between two programs. *)
From Verif Require Import Base Uci AppConfig Codec Session Device Pica Sys CodecSpec ContextSpec SessionSpec RangingSpec SysSpec Script ScriptSpec.

(** Session [id] of [h] was ACTIVE at time [t]. *)
Definition active_at (h id : N) (ls : list label) (t : N) : Prop :=
  exists ls1 ls2 y1 sn, ls = ls1 ++ ls2 /\ sys_run ls1 sys_new = Some y1 /\ y_now y1 = t /\ session_at (y_pica y1) h id = Some sn /\ s_state sn = SsActive.
(** Once the session of [a] has been ACTIVE for the duration [i] of a ranging round, that of [b] has been ACTIVE, before the
    end of this round, unless a connection has ended. *)
Definition joins (a b id i : N) (ls : list label) : Prop :=
  forall ls1 ls2 y1 t, ls = ls1 ++ ls2 -> sys_run ls1 sys_new = Some y1 -> ~ gone a y1 -> ~ gone b y1 -> active_at a id ls1 t -> t + i <= y_now y1 ->
    exists t', t' < t + i /\ active_at b id ls1 t'.
(** The two devices can be measured. *)
Definition estimated (a b : N) (ls : list label) : Prop :=
  forall e, In (LTake e) ls -> env_estimate e a b <> None /\ env_estimate e b a <> None.
(** No device other than [a] and [b] has an ACTIVE session [id] which sends data. *)
Definition only_sender (a b id : N) (ls : list label) : Prop :=
  forall ls1 ls2 y1 k sn, ls = ls1 ++ ls2 -> sys_run ls1 sys_new = Some y1 -> k <> a -> k <> b ->
    session_at (y_pica y1) k id = Some sn -> ~ data_session 1 sn.

(** The parameters [l] are accepted for session [id], of type RANGING_AND_IN_BAND_DATA, which then has the configuration
    [cfg]; it can be started, notifies its host of the rounds, and these last more than 5 ms. *)
Definition accepted (id : N) (l : list (tlv_id * bytes)) (cfg : app_config) : Prop :=
  wf_cmd (CmdSessionInit id 1) /\ wf_cmd (CmdSetAppConfig id l) /\ (length (cmd_args (CmdSetAppConfig id l)) <= 255)%nat
  /\ sets_all default_app_config l cfg [] /\ configured cfg /\ session_info_ntf_config cfg <> 0 /\ 5 < ranging_duration cfg.
(** The program [prog] runs as the host of [h], on a fast machine, and no in-band stop command is processed for its session. *)
Definition runs_at (prog : list action) (h id : N) (cfg : app_config) (ls : list label) : Prop :=
  follows prog h ls /\ brisk prog h ls /\ not_stopped (device_mac_address cfg) id ls.
(** The configurations of the two sessions: the initiator, with the address [mac], and a responder. *)
Definition transfers (cfg cfg' : app_config) (mac : bytes) : Prop :=
  app_config_get cfg T_DEVICE_ROLE = Some [1] /\ app_config_get cfg' T_DEVICE_ROLE = Some [0]
  /\ app_config_get cfg T_DEVICE_MAC_ADDRESS = Some mac /\ ranging_duration cfg' = ranging_duration cfg.
