(** Specification of the LOW_POWER_MODE of a device, after any history. *)
From Verif Require Import Base Uci MacAddress AppConfig Codec Session Device Pica CodecSpec ContextSpec HistorySpec DeviceSpec ReadSpec.

(** The host resets its device. *)
Definition restarted (h : N) (x : op * list out) : Prop :=
  asks h (CmdDeviceReset 0) x.1 /\ sent h x.2 = [CoreDeviceResetRsp 0x00].
(** A command CORE_SET_CONFIG is answered, and [v] is the last value it gives to the parameter 1, LOW_POWER_MODE. The status of the answer
    does not matter: the mode is set even if the command is refused because of another parameter (C20). *)
Definition mode_set (h : N) (v : bytes) (x : op * list out) : Prop :=
  exists l1 l2 status refused, asks h (CmdSetConfig (l1 ++ (1, v) :: l2)) x.1 /\ 1 ∉ l2.*1 /\ sent h x.2 = [CoreSetConfigRsp status refused].
(** [mode h tr b]: after [tr], the low power mode of the device of [h] is [b]: on at first and after each reset. *)
Inductive mode (h : N) : list (op * list out) -> bool -> Prop :=
  | ModeFirst : mode h [] true
  | ModeReset tr x : restarted h x -> mode h (tr ++ [x]) true
  | ModeSet tr x v : mode_set h v x -> mode h (tr ++ [x]) (low_power_value v)
  | ModeKept tr x b : mode h tr b -> ~ restarted h x -> (forall v, ~ mode_set h v x) -> mode h (tr ++ [x]) b.
