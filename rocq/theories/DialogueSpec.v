(** Specification of the dialogue of a host with its device, in lockstep. *)
From Verif Require Import Base Uci MacAddress AppConfig Codec Session Device Pica Sys CodecSpec ContextSpec HistorySpec SysSpec.

(** The messages a command causes to the host of [h] after a delay, with the delay, in the order in which they are created. *)
Definition delay_to (h : N) (o : out) : list (N * msg) :=
  match o with OEff h' (After ms m) => if h' =? h then [(ms, m)] else [] | _ => [] end.
Definition delays (h : N) (outs : list out) : list (N * msg) := concat (map (delay_to h) outs).
(** In the order of the delays; in the order of creation for equal delays. *)
Fixpoint insert_by (x : N * msg) (l : list (N * msg)) : list (N * msg) :=
  match l with
  | [] => [x]
  | z :: l => if x.1 <=? z.1 then x :: z :: l else z :: insert_by x l
  end.
Fixpoint by_delay (l : list (N * msg)) : list (N * msg) :=
  match l with [] => [] | x :: l => insert_by x (by_delay l) end.
(** What a command must give to the host of [h]: the messages sent at once, then the delayed ones. *)
Definition due (h : N) (outs : list out) : list msg := sent h outs ++ map snd (by_delay (delays h outs)).

(** The device status notification due when the context goes from [p] to [p']. *)
Definition device_change (p p' : pica) (h : N) : list msg :=
  match device_state_at p h, device_state_at p' h with
  | Some st, Some st' => if bool_decide (st' = st) then [] else [CoreDeviceStatusNtf st']
  | _, _ => []
  end.
(** What the context outputs for each of the commands [l], from the state [p]. *)
Fixpoint outputs (p : pica) (l : list (env * op)) : list (list out) :=
  match l with
  | [] => []
  | (e, o) :: l => match step e p o with Ret (p', outs) => outs :: outputs p' l | Crash _ => [] end
  end.

(** ** Kinds of schedules *)
(** No time passes between the creations of two delayed notifications to the host of [h] by the same command. *)
Definition calm (h : N) (l : label) (y : sys) : Prop :=
  match l with LTick => scheduled h (y_todo y) = [] \/ waiting h y = [] | _ => True end.
(** No notification to the host of [h] is sent before the answer of the command being processed. *)
Definition orderly (h : N) (l : label) (y : sys) : Prop :=
  match l with LNotify i => forall n, y_delayed y !! i = Some n -> n_host n = h -> sent h (y_todo y) = [] | _ => True end.
(** Of the delayed notifications to the host of [h], the one with the earliest deadline, or created first, is sent first. *)
Definition timely (h : N) (l : label) (y : sys) : Prop :=
  match l with
  | LNotify i => forall j n n', i <> j -> y_delayed y !! i = Some n -> y_delayed y !! j = Some n' -> n_host n = h -> n_host n' = h ->
      n_deadline n < n_deadline n' \/ n_deadline n = n_deadline n' /\ (i < j)%nat
  | _ => True
  end.
(** A command with messages for the host of [h] is processed only when no notification to it is waiting. *)
Definition unhurried (h : N) (l : label) (y : sys) : Prop :=
  match l with
  | LTake e => forall o q p outs, y_queue y = o :: q -> step e (y_pica y) o = Ret (p, outs) ->
      messages h outs = [] \/ waiting h y = []
  | _ => True
  end.
(** In lockstep: the host of [h] sends a packet only when its previous packet has been processed and it has received
    all the notifications it caused. *)
Definition lockstep (h : N) (l : label) (y : sys) : Prop :=
  match l with
  | LRead h' _ => h' = h -> packets h (y_queue y) = [] /\ scheduled h (y_todo y) = [] /\ waiting h y = []
  | _ => True
  end.
(** In turn: what is caused to the host of [h] by other commands than its packets (ranging rounds, in-band stops) comes
    when no notification to it is waiting and, if it comes after a delay, when no packet of [h] is in the queue. *)
Definition in_turn (h : N) (l : label) (y : sys) : Prop :=
  match l with
  | LTake e => forall o q p outs, y_queue y = o :: q -> step e (y_pica y) o = Ret (p, outs) ->
      o <> Connect -> packet_of h o = [] ->
      messages h outs = [] \/ waiting h y = [] /\ (scheduled h outs = [] \/ packets h q = [])
  | _ => True
  end.
(** Everything sent or to be sent to the host of [h] has been received by it. *)
Definition at_rest (h : N) (y : sys) : Prop := messages h (y_todo y) = [] /\ waiting h y = [].

(** ** The set-up of a session, as in tests/helper.py *)
(** The server runs, everything the host of [h] has sent has been processed, and everything it caused received. *)
Definition settled (h : N) (y : sys) : Prop := y_crash y = None /\ packets h (y_queue y) = [] /\ at_rest h y.
(** What a host sees from its connection to the configuration of its session [id]. *)
Definition set_up (id : N) : list msg := [
  (* connection *) CoreDeviceStatusNtf DsReady;
  (* reset *) CoreDeviceResetRsp 0x00; CoreDeviceStatusNtf DsReady;
  (* session init *) SessionInitRsp 0x00; SessionStatusNtf id SsInit 0x00;
  (* configuration *) SessionSetAppConfigRsp 0x00 []; SessionStatusNtf id SsIdle 0x00 ].
(** What starting it adds. *)
Definition started_up (id : N) : list msg := [SessionStartRsp 0x00; SessionStatusNtf id SsActive 0x00; CoreDeviceStatusNtf DsActive].
