(** Small specification of the device level commands. *)
From Verif Require Import Base Uci Codec.

(** ** Device configuration (CORE_SET_CONFIG, CORE_GET_CONFIG)
    Parameter 0 is DEVICE_STATE, read-only; parameter 1 is LOW_POWER_MODE; no other is known. *)
Definition refusal (id : N) : list (N * N) :=
  if id =? 0 then [(0, 0x09 (* READ_ONLY *))]
  else if id =? 1 then []
  else [(id, 0x04 (* INVALID_PARAM *))].
Definition refusals (l : list (N * bytes)) : list (N * N) := concat (map (fun p => refusal p.1) l).
(** The mode set by a value: off if its first byte is 0. *)
Definition low_power_value (v : bytes) : bool :=
  match v with 0 :: _ => false | _ => true end.
(** The value of a parameter, given the state of the device and its low power mode. *)
Definition config_value (st : device_state) (low_power : bool) (id : N) : option bytes :=
  if id =? 0 then Some [match st with DsReady => 1 | DsActive => 2 | DsError => 0xff end]
  else if id =? 1 then Some [if low_power then 1 else 0]
  else None.
