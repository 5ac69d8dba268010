(** Small specification of the executions of the whole system. *)
From Verif Require Import Base Uci MacAddress AppConfig Codec Session Device Pica Sys CodecSpec ContextSpec RangingSpec.

(** ** Executions *)
Definition wf_label (l : label) : Prop :=
  match l with
  | LTake e => wf_env e
  | LRead _ packet => wf_bytes packet
  | LCreateAnchor m | LDestroyAnchor m => wf_mac m
  | _ => True
  end.
(** [executed ls y]: the system, from its start, has performed the actions [ls] and is now in state [y]. *)
Definition executed (ls : list label) (y : sys) : Prop :=
  Forall wf_label ls /\ sys_run ls sys_new = Some y.
(** [continues y ls y']: the same, from [y]. *)
Definition continues (y : sys) (ls : list label) (y' : sys) : Prop :=
  Forall wf_label ls /\ sys_run ls y = Some y'.

(** The commands processed by the event loop (and the ends of connections), in order. *)
Definition quiet_env : env := Env (fun _ _ => None) (fun l => l) (fun l => reflexivity _).
Definition taken (l : label) (y : sys) : list (env * op) :=
  match l with
  | LTake e => match y_queue y with
               | o :: _ => if crashed (step e (y_pica y) o) then [] else [(e, o)]
               | [] => []
               end
  | LEnd h | LPanic h => [(quiet_env, HostGone h)]
  | _ => []
  end.
Fixpoint processed (ls : list label) (y : sys) : list (env * op) :=
  match ls with
  | [] => []
  | l :: ls => match sys_step l y with Some y' => taken l y ++ processed ls y' | None => [] end
  end.

(** ** Messages *)
(** Delivered to the host of [h], in order. *)
Definition delivered (h : N) (y : sys) : list msg :=
  concat (map (fun x => if x.1 =? h then [x.2] else []) (y_log y)).
(** Waiting for their delay to expire. *)
Definition waiting (h : N) (y : sys) : list msg :=
  concat (map (fun n => if n_host n =? h then [n_msg n] else []) (y_delayed y)).
(** The connection of [h] has ended. *)
Definition gone (h : N) (y : sys) : Prop := h ∈ p_closed (y_pica y).

(** The notifications sent by a separate task after a delay. All other messages are sent by the event loop, including
    the DEVICE_STATE_ERROR that answers the commands received before the first reset. *)
Definition by_task (m : msg) : bool :=
  match m with
  | CoreDeviceStatusNtf (DsReady | DsActive) | SessionStatusNtf _ _ _ | SessionUpdateControllerMulticastListNtf _ _ => true
  | _ => false
  end.
Definition by_loop (l : list msg) : list msg := List.filter (fun m => negb (by_task m)) l.

(** ** Packets *)
(** Read from the connection of [h]. *)
Definition read_of (h : N) (l : label) : list bytes :=
  match l with LRead h' packet => if h' =? h then [packet] else [] | _ => [] end.
Definition packets_read (h : N) (ls : list label) : list bytes := concat (map (read_of h) ls).
Definition packet_of (h : N) (o : op) : list bytes :=
  match o with UciPacket h' packet => if h' =? h then [packet] else [] | _ => [] end.
Definition packets (h : N) (l : list op) : list bytes := concat (map (packet_of h) l).

(** ** Ranging tasks *)
Definition is_timer (h id : N) (t : timer) : bool := (t_host t =? h) && (t_session t =? id).
(** Running, of session [id] of [h]. *)
Definition live_timers (h id : N) (y : sys) : nat :=
  length (List.filter (fun t => is_timer h id t && t_live t) (y_timers y)).
(** Aborted, but not yet dropped. *)
Definition dying_timers (h id : N) (y : sys) : nat :=
  length (List.filter (fun t => is_timer h id t && negb (t_live t)) (y_timers y)).
(** Rounds of session [id] of [h] waiting in the queue. *)
Definition is_ranging (h id : N) (o : op) : bool :=
  match o with Ranging h' id' => (h' =? h) && (id' =? id) | _ => false end.
Definition queued_rounds (h id : N) (y : sys) : nat := length (List.filter (is_ranging h id) (y_queue y)).

(** ** Stopped sessions *)
(** [no_start h id l]: no command of [l] starts session [id] of [h]. *)
Definition no_start (h id : N) (l : list (env * op)) : Prop :=
  forall e packet, In (e, UciPacket h packet) l -> ~ encodes (CmdStart id) packet.
(** [was_stopped h id l]: in the history [l], session [id] of [h] has been stopped, with a positive answer, and not
    started since. *)
Definition was_stopped (h id : N) (l : list (env * op)) : Prop :=
  exists l1 e packet l2 p1 outs1 p2 outs2, l = l1 ++ (e, UciPacket h packet) :: l2
    /\ wf_cmd (CmdStop id) /\ encodes (CmdStop id) packet /\ run pica_new l1 = Ret (p1, outs1)
    /\ step e p1 (UciPacket h packet) = Ret (p2, outs2) /\ In (SessionStopRsp 0x00) (sent h outs2)
    /\ no_start h id l2.
(** The session information notifications of session [id] delivered to the host of [h]: sequence numbers. *)
Definition infos_delivered (h id : N) (y : sys) : list N := concat (map (info_seq id) (delivered h y)).

(** ** Rounds fired by the running ranging task of a session *)
Definition fired (h id : N) (l : label) (y : sys) : nat :=
  match l with
  | LTimer i => match y_timers y !! i with
                | Some t => if is_timer h id t && t_live t then 1 else 0
                | None => 0
                end
  | _ => 0
  end.
Fixpoint fires (h id : N) (ls : list label) (y : sys) : nat :=
  match ls with
  | [] => 0
  | l :: ls => match sys_step l y with Some y' => fired h id l y + fires h id ls y' | None => 0 end
  end.

(** ** Kinds of schedules *)
(** Every state of the execution in which [l] is performed satisfies [P l]. *)
Fixpoint along (P : label -> sys -> Prop) (ls : list label) (y : sys) : Prop :=
  match ls with
  | [] => True
  | l :: ls => P l y /\ match sys_step l y with Some y' => along P ls y' | None => True end
  end.
(** Orderly: the ranging tasks act only between two commands, an aborted task does not act any more, and no command
    removes a session that has a round in the queue. *)
Definition orderly (l : label) (y : sys) : Prop :=
  match l with
  | LTimer i => y_todo y = [] /\ forall t, y_timers y !! i = Some t -> t_live t = true
  | LTake e => forall y' h id, sys_step l y = Some y' -> session_at (y_pica y) h id <> None ->
      session_at (y_pica y') h id = None -> queued_rounds h id y' = 0%nat
  | _ => True
  end.
(** Prompt: the delayed notifications of a command are delivered before the next command is taken. *)
Definition prompt (l : label) (y : sys) : Prop :=
  match l with LTake _ => y_delayed y = [] | _ => True end.
(** The label is an action of the event loop. *)
Definition of_loop (l : label) : bool := match l with LTake _ | LEffect => true | _ => false end.

(** ** Answers *)
(** A response (message type 2), or the status notification that answers a command received before the reset. *)
Definition is_response (m : msg) : bool :=
  match m with
  | CoreDeviceStatusNtf DsError => true
  | _ => match wire m with Some (b :: _) => b / 32 =? 2 | _ => false end
  end.
Definition responses (l : list msg) : list msg := List.filter is_response l.
(** A command (message type 1, or a reserved message type, which is treated alike). *)
Definition command_packet (packet : bytes) : bool := (hd 0 packet / 32 =? 1) || (4 <=? hd 0 packet / 32).
Definition commands (l : list bytes) : list bytes := List.filter command_packet l.
(** [m] answers [packet]. *)
Definition answered (packet : bytes) (m : msg) : Prop := answers packet m \/ m = CoreDeviceStatusNtf DsError.

(** ** Notifications of state changes *)
(** Received by the host of [h] for its session [id], in order. *)
Definition statuses (id : N) (l : list msg) : list (session_state * N) := concat (map (status_of id) l).
(** The device states received, but the answers to commands received before the reset. *)
Definition device_statuses (l : list msg) : list device_state :=
  concat (map (fun m => match m with CoreDeviceStatusNtf DsReady => [DsReady] | CoreDeviceStatusNtf DsActive => [DsActive] | _ => [] end) l).
(** First in, first out: of the delayed notifications to the same host, one with an earlier deadline, or created
    earlier with the same deadline, is sent first. *)
Definition fifo (l : label) (y : sys) : Prop :=
  match l with
  | LNotify i => forall j n n', (j < i)%nat -> y_delayed y !! i = Some n -> y_delayed y !! j = Some n' ->
      n_host n' = n_host n -> n_deadline n < n_deadline n'
  | _ => True
  end.
(** No time passes, and no other command is taken. *)
Definition instant (l : label) : Prop := match l with LTick | LTake _ => False | _ => True end.
(** No connection task panics. *)
Definition no_panic (l : label) : Prop := match l with LPanic _ => False | _ => True end.
