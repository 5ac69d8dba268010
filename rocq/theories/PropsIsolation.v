(** C98: what a host observes is determined by what concerns it. *)
From Verif Require Import Base Uci MacAddress AppConfig Codec Session Device Pica.
From Verif Require Import CodecSpec ContextSpec HistorySpec IsolationSpec IsolationFacts Demo PropsContext.

(** Two histories in which the same things concern a host, whatever the other hosts and anchors do, leave
    its device in the same state, and this host has been told the same things. *)
Theorem C98_isolated : forall h p1 tr1 p2 tr2,
  executes p1 tr1 -> executes p2 tr2 -> view h tr1 = view h tr2 ->
  p_devices p1 !! h = p_devices p2 !! h /\ Forall2 same_told (told h tr1) (told h tr2).
Proof.
  intros h p1 tr1 p2 tr2 X1 X2 V. apply (executes_locals h) in X1, X2. rewrite V, <- X2 in X1. injection X1 as E T.
  split; [done|]. rewrite T. apply Forall2_same_length_lookup. split; [done|]. intros i x y Hx Hy. rewrite Hx in Hy. by injection Hy as <-.
Qed.
Print Assumptions C98_isolated.
(** Its next packet has the same outcome: the same panic, or the same messages. *)
Theorem C98_next : forall h p1 tr1 p2 tr2 e1 e2 packet,
  executes p1 tr1 -> executes p2 tr2 -> view h tr1 = view h tr2 ->
  match step e1 p1 (UciPacket h packet), step e2 p2 (UciPacket h packet) with
  | Ret (_, outs1), Ret (_, outs2) => sent h outs1 = sent h outs2 /\ scheduled h outs1 ≡ₚ scheduled h outs2
  | Crash r1, Crash r2 => r1 = r2
  | _, _ => False
  end.
Proof.
  intros h p1 tr1 p2 tr2 e1 e2 b X1 X2 V. destruct (C98_isolated _ _ _ _ _ X1 X2 V) as [E _]. cbn [step]. unfold uci_packet. rewrite E.
  destruct (p_devices p2 !! h) as [d|]; [|done]. by destruct (receive_packet d b) as [[d1 ef]|].
Qed.
Print Assumptions C98_next.
(** What else it receives is data sent by other devices, and changes nothing to its device. *)
Theorem C98_data : forall h p tr e o p' outs,
  executes p tr -> step e p o = Ret (p', outs) -> view_of h (o, outs) = [] ->
  p_devices p' !! h = p_devices p !! h /\ Forall is_data (messages h outs).
Proof.
  intros h p tr e o p' outs X S V. pose proof (local_step _ h _ _ _ _ _ (executes_pinv _ _ X) S) as L. by rewrite V in L.
Qed.
Print Assumptions C98_data.
(** Hence the order in which the commands of different hosts are processed does not matter. *)
Theorem C98_schedule : forall p1 tr1 p2 tr2,
  executes p1 tr1 -> executes p2 tr2 -> (forall h, view h tr1 = view h tr2) ->
  p_devices p1 = p_devices p2 /\ forall h, Forall2 same_told (told h tr1) (told h tr2).
Proof.
  intros p1 tr1 p2 tr2 X1 X2 V. split; [|intros h; by apply (C98_isolated h p1 tr1 p2 tr2)].
  apply map_eq. intros h. by apply (C98_isolated h p1 tr1 p2 tr2).
Qed.
Print Assumptions C98_schedule.
(** A host which measures alone, and the same host in a crowd: another host, a session, an anchor. *)
Definition alone : list op := active ++ [Ranging 0 7; cmd 0 (CmdStop 7)].
Definition crowd : list op :=
  [Connect; Connect; CreateAnchor (MShort [2; 0]); cmd 0 (CmdDeviceReset 0); cmd 1 (CmdDeviceReset 0); cmd 0 (CmdSessionInit 7 0);
   cmd 1 (CmdSessionInit 7 0); cmd 1 (CmdSetAppConfig 7 (controlee_config [2; 0] [1; 0])); cmd 0 (CmdSetAppConfig 7 (controller_config [1; 0] [2; 0]));
   cmd 0 (CmdStart 7); cmd 1 (CmdStart 7); Ranging 0 7; Ranging 1 7; StopRanging (MShort [2; 0]) 7; cmd 0 (CmdStop 7); Disconnect 1].
Example C98_example : executes (state_after alone) (trace pica_new alone) /\ executes (state_after crowd) (trace pica_new crowd)
  /\ view 0 (trace pica_new alone) = view 0 (trace pica_new crowd) /\ length (told 0 (trace pica_new crowd)) = 7%nat
  /\ length (view 1 (trace pica_new crowd)) = 8%nat.
Proof.
  split; [apply history_executes; by vm_compute|]. split; [apply history_executes; by vm_compute|].
  split; [vm_compute; reflexivity|]. split; vm_compute; reflexivity.
Qed.
(** The same commands of two hosts, in two orders. *)
Definition first_order : list op := [Connect; Connect; cmd 0 (CmdDeviceReset 0); cmd 0 (CmdSessionInit 7 0); cmd 1 (CmdDeviceReset 0); cmd 1 (CmdSessionInit 7 0)].
Definition second_order : list op := [Connect; Connect; cmd 1 (CmdDeviceReset 0); cmd 0 (CmdDeviceReset 0); cmd 1 (CmdSessionInit 7 0); cmd 0 (CmdSessionInit 7 0)].
Example C98_schedule_example : executes (state_after first_order) (trace pica_new first_order) /\ executes (state_after second_order) (trace pica_new second_order)
  /\ (forall h, view h (trace pica_new first_order) = view h (trace pica_new second_order))
  /\ trace pica_new first_order <> trace pica_new second_order.
Proof.
  split; [apply history_executes; by vm_compute|]. split; [apply history_executes; by vm_compute|]. split; [|by vm_compute].
  intros h. destruct (N.eq_dec 0 h) as [<-|N0]; [by vm_compute|]. destruct (N.eq_dec 1 h) as [<-|N1]; [by vm_compute|].
  apply N.eqb_neq in N0, N1. vm_compute trace. unfold view, view_of. cbn [map concat fst snd existsb]. rewrite ?N0, ?N1. reflexivity.
Qed.
