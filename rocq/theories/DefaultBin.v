(** Model of src/bin/main.rs: the default binary, without the web server. *)
From Verif Require Import Base Uci MacAddress AppConfig Session Device Pica Sys.

(** main.rs:60-74 [MockRangingEstimator::estimate]: [Some(Default::default())], whatever the devices; lib.rs:51 derives
    [Default]. *)
Definition mock_estimate (left right : N) : option ranging_measurement := Some (RangingMeasurement 0 0 0).
(** main.rs:76-87 [main]: the event loop, with this estimator, and the task that accepts connections (:27-45). Nothing
    sends the commands of the web server. *)
Definition default_label (l : label) : Prop :=
  match l with
  | LTake e => env_estimate e = mock_estimate
  | LCreateAnchor _ | LDestroyAnchor _ => False
  | _ => True
  end.
