(** Small specification of the infinite executions of the system, and of the assumptions on the scheduler. *)
From Verif Require Import Base Uci MacAddress Codec Session Device Pica Sys SysSpec.
Open Scope nat_scope.

(** [infinite f s]: the system performs the actions [f 0], [f 1], ... for ever, and goes through the states [s 0],
    [s 1], ... In particular the event loop never panics. *)
Definition infinite (f : nat -> label) (s : nat -> sys) : Prop :=
  s 0 = sys_new /\ forall n, wf_label (f n) /\ sys_step (f n) (s n) = Some (s (S n)).
(** The first [n] actions. *)
Definition before (f : nat -> label) (n : nat) : list label := map f (seq 0 n).

(** The runtime does not forget the event loop: while it has something to do, it will act. *)
Definition fair_loop (f : nat -> label) (s : nat -> sys) : Prop :=
  forall n, y_queue (s n) <> [] \/ y_todo (s n) <> [] -> exists m, n <= m /\ of_loop (f m) = true.
(** Nor a task whose sleep is over: a notification that is due will be sent. *)
Definition fair_notify (f : nat -> label) (s : nat -> sys) : Prop :=
  forall n d, In d (y_delayed (s n)) -> (n_deadline d <= y_now (s n))%N ->
    exists m i, n <= m /\ f m = LNotify i /\ y_delayed (s m) !! i = Some d.
(** The clock advances. *)
Definition fair_time (s : nat -> sys) : Prop := forall t, exists n, (t <= y_now (s n))%N.
(** Nor a connection task that is to report its end. *)
Definition fair_disconnect (f : nat -> label) (s : nat -> sys) : Prop :=
  forall n h, y_conns (s n) !! h = Some CnEnded -> exists m, n <= m /\ f m = LDisconnect h.

(** The connection of [h] never ends. *)
Definition stays (h : N) (s : nat -> sys) : Prop := forall n, ~ gone h (s n).

(** ** Executions that come to rest and in which from then on only time passes *)
Definition padded (ls : list label) (n : nat) : label := nth n ls LTick.
Definition padded_state (ls : list label) (n : nat) : sys :=
  match sys_run (before (padded ls) n) sys_new with Some y => y | None => sys_new end.
(** Nothing is left to do. *)
Definition at_rest (y : sys) : Prop :=
  y_crash y = None /\ y_queue y = [] /\ y_todo y = [] /\ y_delayed y = [] /\ forall h, y_conns y !! h <> Some CnEnded.
