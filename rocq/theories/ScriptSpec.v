(** Specification of a program using the Python library against the simulator. *)
From Verif Require Import Base Uci MacAddress AppConfig Codec Session Device Pica Sys Transport CodecSpec ContextSpec SysSpec PyHost PyReaderSpec Script.

(** The packets received by the host program: what the library reads from the bytes of the messages given to
    the writer of its connection. *)
Definition stream_of (ms : list msg) : option bytes := mapM wire ms ≫= write_stream.
Definition received (h : N) (y : sys) : list bytes :=
  match stream_of (delivered h y) with Some stream => py_read_stream stream | None => [] end.
(** The packets the connection task reads from the bytes written by the program. *)
Definition sent_by (prog : list action) (queue : list bytes) : list bytes :=
  (read_routine None (read_stream (concat (py_program prog queue).1))).1.
(** Where the program is. *)
Definition outcome_of (prog : list action) (h : N) (y : sys) : outcome := (py_program prog (received h y)).2.
(** The packets read from the connection of [h] are sent by the program: each has been sent, according to the messages
    received before, when it is read. *)
Definition follows (prog : list action) (h : N) (ls : list label) : Prop :=
  forall ls1 packet ls2 y1, ls = ls1 ++ LRead h packet :: ls2 -> sys_run ls1 sys_new = Some y1 ->
    (packets_read h ls1 ++ [packet]) `prefix_of` sent_by prog (received h y1).
(** Nothing is on its way: everything sent by the program has been read and processed, and everything caused received. *)
Definition all_arrived (prog : list action) (h : N) (ls : list label) (y : sys) : Prop :=
  packets_read h ls = sent_by prog (received h y) /\ packets h (y_queue y) = [] /\ messages h (y_todo y) = [] /\ waiting h y = [].
(** Everything that can be done about [h] without time passing has been done: the effects of the last command, its packets
    and ranging rounds, the notifications and ranging tasks whose deadline has come, the end of the aborted tasks. *)
Definition done_at (h : N) (y : sys) : Prop :=
  (forall x, ~ In (OEff h x) (y_todo y)) /\ packets h (y_queue y) = [] /\ (forall id, queued_rounds h id y = 0%nat)
  /\ (forall n, In n (y_delayed y) -> n_host n = h -> y_now y < n_deadline n)
  /\ (forall t, In t (y_timers y) -> t_host t = h -> t_live t = true /\ y_now y < t_deadline t).
(** A fast machine: time passes only when everything that can be done about [h] has been done, by the server and by the
    program, until the connection ends. *)
Definition brisk (prog : list action) (h : N) (ls : list label) : Prop :=
  forall ls1 ls2 y1, ls = ls1 ++ LTick :: ls2 -> sys_run ls1 sys_new = Some y1 -> ~ gone h y1 ->
    done_at h y1 /\ packets_read h ls1 = sent_by prog (received h y1).
(** No in-band stop command is processed for session [id] and the address [a]. *)
Definition not_stopped (a : option mac_address) (id : N) (ls : list label) : Prop :=
  forall e m, In (e, StopRanging m id) (processed ls sys_new) -> a <> Some m.
