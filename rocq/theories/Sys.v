(** Model of the concurrent system of src/lib.rs: the event loop, its command queue, and
    the tasks spawned by the handlers and by the connections. Every interleaving of the
    tasks is a list of labels; one label is one indivisible action of one task. *)
From Verif Require Import Base Uci MacAddress AppConfig Codec Session Device Pica.

(** device.rs:818-830: a ranging task, sleeping until [t_deadline]. [t_live] is false once
    [abort] has been called: a task which is being polled by another worker thread at that
    time completes the poll, and may thus still send one command. *)
Record timer : Set := Timer {
  t_host : N; t_session : N; t_interval : N; t_deadline : N; t_live : bool }.
(** The detached tasks sending a notification after a delay: device.rs:149-157, 764-778,
    session.rs:75-87. *)
Record delayed : Set := Delayed { n_host : N; n_deadline : N; n_msg : msg }.
(** device.rs:729-736: a task sending the remaining in-band stop commands. *)
Record stopper : Set := Stopper { k_mac : mac_address; k_session : N; k_left : N }.
(** lib.rs:371-389: a connection task: running; its two halves have ended, so that the
    receiving end of the host channel is dropped; the task is over. *)
Inductive conn : Set := CnRunning | CnEnded | CnDone.

(** - [y_now]: the clock, in milliseconds.
    - [y_queue]: content of the command channel (lib.rs:188), oldest first.
    - [y_todo]: the effects of the command being processed that remain to be performed.
      The state of the context is updated when the command is taken: only the event loop
      uses it. The effects are performed one by one, in program order, and other tasks run
      in between (the runtime has several threads: bin/main.rs:84 [#[tokio::main]]).
    - [y_strict]: the command being processed is a ranging round, which unwraps the result
      of its sends (lib.rs:487, 504).
    - [y_log]: the messages handed to the writers of the hosts, with the host, oldest first.
    - [y_crash]: the event loop has panicked. *)
Record sys : Type := Sys {
  y_pica : pica;
  y_now : N;
  y_queue : list op;
  y_todo : list out;
  y_strict : bool;
  y_timers : list timer;
  y_delayed : list delayed;
  y_stoppers : list stopper;
  y_conns : gmap N conn;
  y_log : list (N * msg);
  y_crash : option site }.

(** lib.rs:187-200 *)
Definition sys_new : sys := Sys pica_new 0 [] [] false [] [] [] ∅ [] None.

Definition y_set_pica v y := Sys v (y_now y) (y_queue y) (y_todo y) (y_strict y) (y_timers y) (y_delayed y) (y_stoppers y) (y_conns y) (y_log y) (y_crash y).
Definition y_set_now v y := Sys (y_pica y) v (y_queue y) (y_todo y) (y_strict y) (y_timers y) (y_delayed y) (y_stoppers y) (y_conns y) (y_log y) (y_crash y).
Definition y_set_queue v y := Sys (y_pica y) (y_now y) v (y_todo y) (y_strict y) (y_timers y) (y_delayed y) (y_stoppers y) (y_conns y) (y_log y) (y_crash y).
Definition y_set_todo v y := Sys (y_pica y) (y_now y) (y_queue y) v (y_strict y) (y_timers y) (y_delayed y) (y_stoppers y) (y_conns y) (y_log y) (y_crash y).
Definition y_set_strict v y := Sys (y_pica y) (y_now y) (y_queue y) (y_todo y) v (y_timers y) (y_delayed y) (y_stoppers y) (y_conns y) (y_log y) (y_crash y).
Definition y_set_timers v y := Sys (y_pica y) (y_now y) (y_queue y) (y_todo y) (y_strict y) v (y_delayed y) (y_stoppers y) (y_conns y) (y_log y) (y_crash y).
Definition y_set_delayed v y := Sys (y_pica y) (y_now y) (y_queue y) (y_todo y) (y_strict y) (y_timers y) v (y_stoppers y) (y_conns y) (y_log y) (y_crash y).
Definition y_set_stoppers v y := Sys (y_pica y) (y_now y) (y_queue y) (y_todo y) (y_strict y) (y_timers y) (y_delayed y) v (y_conns y) (y_log y) (y_crash y).
Definition y_set_conns v y := Sys (y_pica y) (y_now y) (y_queue y) (y_todo y) (y_strict y) (y_timers y) (y_delayed y) (y_stoppers y) v (y_log y) (y_crash y).
Definition y_set_log v y := Sys (y_pica y) (y_now y) (y_queue y) (y_todo y) (y_strict y) (y_timers y) (y_delayed y) (y_stoppers y) (y_conns y) v (y_crash y).
Definition y_set_crash v y := Sys (y_pica y) (y_now y) (y_queue y) (y_todo y) (y_strict y) (y_timers y) (y_delayed y) (y_stoppers y) (y_conns y) (y_log y) v.

(** lib.rs:188 [mpsc::channel(MAX_SESSION * MAX_DEVICE)]. *)
Definition QUEUE_CAPACITY : nat := MAX_SESSION * MAX_DEVICE.

(** [command_tx.send(o).await]: completes when there is room in the queue. *)
Definition enqueue (o : op) (y : sys) : option sys :=
  if Nat.ltb (length (y_queue y)) QUEUE_CAPACITY
  then Some (y_set_queue (y_queue y ++ [o]) y) else None.

(** [tx.send(packet)] for the host [h]: accepted until the connection task has ended. *)
Definition host_closed (h : N) (y : sys) : bool := bool_decide (h ∈ p_closed (y_pica y)).
Definition deliver (h : N) (m : msg) (y : sys) : sys :=
  if host_closed h y then y else y_set_log (y_log y ++ [(h, m)]) y.

(** The end of the connection task of [h]. *)
Definition close_host (h : N) (y : sys) : sys :=
  let p := y_pica y in
  y_set_pica (Pica (p_counter p) (p_devices p) (p_anchors p) ({[h]} ∪ p_closed p)) y.

(** [JoinHandle::abort]. *)
Definition abort (h id : N) (t : timer) : timer :=
  if (t_host t =? h) && (t_session t =? id)
  then Timer (t_host t) (t_session t) (t_interval t) (t_deadline t) false else t.

(** One effect of a handler. *)
Definition perform (o : out) (y : sys) : sys :=
  match o with
  | OEff h (Send m) =>
      (* ignored in Device::send_control (device.rs:208-215), unwrapped in Pica::ranging *)
      if host_closed h y && y_strict y then y_set_crash (Some RangingHostGone) y
      else deliver h m y
  | OEff h (After ms m) => y_set_delayed (y_delayed y ++ [Delayed h (y_now y + ms) m]) y
  | OEff h (SpawnRanging id interval) =>
      y_set_timers (y_timers y ++ [Timer h id interval (y_now y + interval) true]) y
  | OEff h (AbortRanging id) => y_set_timers (map (abort h id) (y_timers y)) y
  | OEff _ (SpawnStop m id n) => y_set_stoppers (y_stoppers y ++ [Stopper m id n]) y
  | OConnected h _ => y_set_conns (<[h := CnRunning]> (y_conns y)) y (* lib.rs:371 *)
  | ODisconnected _ _ | OReply _ => y (* broadcast and oneshot channels: never block *)
  end.

Definition is_round (o : op) : bool := match o with Ranging _ _ => true | _ => false end.

Inductive label : Type :=
  | LTake (e : env)              (* the event loop takes a command: lib.rs:549-558, 644-656 *)
  | LEffect                      (* the event loop performs the next effect *)
  | LTimer (i : nat)             (* a ranging task wakes and sends its command: device.rs:825-828 *)
  | LTimerEnd (i : nat)          (* an aborted ranging task is dropped *)
  | LNotify (i : nat)            (* a delayed notification is sent *)
  | LStopper (i : nat)           (* an in-band stop command is sent *)
  | LRead (h : N) (packet : bytes) (* a connection task sends a packet: lib.rs:276-280 *)
  | LEnd (h : N)                 (* the two halves of a connection have ended: lib.rs:380-383 *)
  | LDisconnect (h : N)          (* and the end is reported: lib.rs:385-388 *)
  | LPanic (h : N)               (* a connection task panics: lib.rs:375 [File::create(..).unwrap()] *)
  | LConnect                     (* a connection is accepted: bin/main.rs:40-43 *)
  | LCreateAnchor (m : mac_address) (* pica-http *)
  | LDestroyAnchor (m : mac_address)
  | LTick.                       (* time passes *)

(** One action; [None] when it is not possible. *)
Definition sys_step (l : label) (y : sys) : option sys :=
  match y_crash y with
  | Some _ => None
  | None =>
      match l with
      | LTake e =>
          match y_todo y, y_queue y with
          | [], o :: q =>
              Some (match step e (y_pica y) o with
                    | Ret (p, outs) =>
                        y_set_pica p (y_set_strict (is_round o) (y_set_todo outs (y_set_queue q y)))
                    | Crash s => y_set_crash (Some s) (y_set_queue q y)
                    end)
          | _, _ => None
          end
      | LEffect =>
          match y_todo y with
          | o :: todo => Some (perform o (y_set_todo todo y))
          | [] => None
          end
      | LTimer i =>
          match y_timers y !! i with
          | Some t =>
              if t_deadline t <=? y_now y then
                y ← enqueue (Ranging (t_host t) (t_session t)) y;
                Some (y_set_timers
                        (if t_live t
                         then <[i := Timer (t_host t) (t_session t) (t_interval t)
                                       (y_now y + t_interval t) true]> (y_timers y)
                         else delete i (y_timers y)) y)
              else None
          | None => None
          end
      | LTimerEnd i =>
          match y_timers y !! i with
          | Some t => if t_live t then None else Some (y_set_timers (delete i (y_timers y)) y)
          | None => None
          end
      | LNotify i =>
          match y_delayed y !! i with
          | Some n =>
              if n_deadline n <=? y_now y
              then Some (deliver (n_host n) (n_msg n) (y_set_delayed (delete i (y_delayed y)) y))
              else None
          | None => None
          end
      | LStopper i =>
          match y_stoppers y !! i with
          | Some k =>
              if 0 <? k_left k then
                y ← enqueue (StopRanging (k_mac k) (k_session k)) y;
                Some (y_set_stoppers (<[i := Stopper (k_mac k) (k_session k) (k_left k - 1)]> (y_stoppers y)) y)
              else None
          | None => None
          end
      | LRead h packet =>
          match y_conns y !! h with
          | Some CnRunning => enqueue (UciPacket h packet) y
          | _ => None
          end
      | LEnd h =>
          match y_conns y !! h with
          | Some CnRunning => Some (close_host h (y_set_conns (<[h := CnEnded]> (y_conns y)) y))
          | _ => None
          end
      | LDisconnect h =>
          match y_conns y !! h with
          | Some CnEnded =>
              y ← enqueue (Disconnect h) y;
              Some (y_set_conns (<[h := CnDone]> (y_conns y)) y)
          | _ => None
          end
      | LPanic h =>
          match y_conns y !! h with
          | Some CnRunning => Some (close_host h (y_set_conns (<[h := CnDone]> (y_conns y)) y))
          | _ => None
          end
      | LConnect => enqueue Connect y
      | LCreateAnchor m => enqueue (CreateAnchor m) y
      | LDestroyAnchor m => enqueue (DestroyAnchor m) y
      | LTick => Some (y_set_now (y_now y + 1) y)
      end
  end.

(** A schedule. *)
Fixpoint sys_run (ls : list label) (y : sys) : option sys :=
  match ls with
  | [] => Some y
  | l :: ls => y ← sys_step l y; sys_run ls y
  end.
