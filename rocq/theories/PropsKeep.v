(** C103: an active session is ranged for ever. *)
From Verif Require Import Base Uci MacAddress Codec Session Device Pica Sys ContextSpec SysSpec LiveSpec KeepSpec KeepFacts KeepDemo.
Open Scope nat_scope.

(** While a session stays active, a fair runtime performs another round for it after any moment. *)
Theorem C103_again : forall f s h id n0 n, infinite f s -> fair_loop f s -> fair_ranging f s -> fair_time s -> active_from n0 h id s ->
  exists m e r, n <= m /\ f m = LTake e /\ y_queue (s m) = Ranging h id :: r.
Proof. intros f s h id n0 n Inf Fl Fr Ft Ac. by eapply round_later. Qed.
Print Assumptions C103_again.
(** The number of its rounds exceeds any number. *)
Theorem C103_unbounded : forall f s h id n0 c, infinite f s -> fair_loop f s -> fair_ranging f s -> fair_time s -> active_from n0 h id s ->
  exists n, c <= rounds h id (processed (before f n) sys_new).
Proof.
  intros f s h id n0 c Inf Fl Fr Ft Ac. destruct (rounds_later f s Inf Fl Fr Ft h id n0 Ac 0 c) as (k & _ & H). exists k. lia.
Qed.
Print Assumptions C103_unbounded.
(** One host starts a session with a ranging interval of one millisecond; then the clock, the ranging task and the event loop act in turn. *)
Example C103_example : infinite keep_label keep_state /\ fair_loop keep_label keep_state /\ fair_ranging keep_label keep_state
  /\ fair_time keep_state /\ active_from keep_length 0 7 keep_state
  /\ exists n, 1000 <= rounds 0 7 (processed (before keep_label n) sys_new).
Proof.
  split; [exact keep_infinite|]. split; [exact keep_fair_loop|]. split; [exact keep_fair_ranging|]. split; [exact keep_fair_time|]. split; [exact keep_active_from|].
  eapply C103_unbounded; [exact keep_infinite|exact keep_fair_loop|exact keep_fair_ranging|exact keep_fair_time|exact keep_active_from].
Qed.
