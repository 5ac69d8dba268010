(** Specification of the ranging tasks in infinite executions. *)
From Verif Require Import Base Uci MacAddress Codec Session Device Pica Sys ContextSpec SysSpec LiveSpec.
Open Scope nat_scope.

(** The runtime does not forget a ranging task: one that is due will act, unless it is aborted. *)
Definition fair_ranging (f : nat -> label) (s : nat -> sys) : Prop :=
  forall n t, In t (y_timers (s n)) -> t_live t = true -> (t_deadline t <= y_now (s n))%N ->
    exists m, n <= m /\ ((exists i, f m = LTimer i /\ y_timers (s m) !! i = Some t) \/ ~ In t (y_timers (s m))).
(** The number of ranging rounds of the session [id] of [h] among the commands processed. *)
Definition rounds (h id : N) (l : list (env * op)) : nat :=
  length (List.filter (fun x => match x.2 with Ranging h' id' => N.eqb h' h && N.eqb id' id | _ => false end) l).
(** From [n] on, the session [id] of [h] is active. *)
Definition active_from (n : nat) (h id : N) (s : nat -> sys) : Prop :=
  forall k, n <= k -> state_at (y_pica (s k)) h id = SsActive.
