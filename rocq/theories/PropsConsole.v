(** The interactive console. [means k c] (ConsoleSpec.v): the command [k] of the console stands for the UCI command [c]. *)
From Coq Require Import Strings.String.
From Verif Require Import Base Uci MacAddress MacSpec MacFacts Codec CodecSpec Transport TransportSpec Session Device Pica ContextSpec Demo InvFacts GateFacts MulticastSpec RangingSpec.
From Verif Require Import PyHost PyHostSpec PyHostFacts Http HttpSpec PropsHttp Json JsonSpec PropsJson Console ConsoleSpec ConsoleFacts.

(** ** C90. *)
(** Except for six commands, a command of the console sends exactly one packet, which the device decodes as this command. *)
Theorem C90_sent_partial : forall k c, means k c -> misnamed k = false ->
  exists p, console k = Some [p] /\ read_routine None (read_stream p) = ([p], EndOfStream) /\ decoded_as c p.
Proof.
  intros k c H M. destruct (console_means k c H M) as [S ->]. destruct (send_ok c S) as (p & -> & C & D & _). exists p. split; [done|]. split; [|done].
  apply calls_read in C. cbn in C. by rewrite app_nil_r in C.
Qed.
(** The six commands end the console, whatever their arguments are: nothing typed after them is sent. *)
Theorem C90_misnamed_refuted : forall before k after, misnamed k = true -> console_session (before ++ k :: after) = ((console_session before).1, true).
Proof.
  intros before k after M. induction before as [|b before IH]; cbn [app console_session]; [by rewrite (console_misnamed k M)|].
  destruct (console b) as [ps|]; [|done]. rewrite IH. by destruct (console_session before).
Qed.
(** Exactly when a command ends the console. *)
Theorem C90_ends : forall k, console k = None <-> misnamed k = true \/ bad_argument k.
Proof. exact console_fails. Qed.
(** Whatever is typed, the device reads exactly the packets which were sent. *)
Theorem C90_read : forall ks, Forall wf_console ks ->
  read_routine None (read_stream (concat (console_session ks).1)) = ((console_session ks).1, EndOfStream).
Proof. intros ks W. destruct (session_harmless ks W) as (hs & C & _). by eapply calls_read. Qed.
(** A number which does not fit is not refused: the command is sent for another session. *)
Theorem C90_truncated_refuted : forall id, word32 id ->
  exists p, console (KStart (4294967296 + Z.of_N id)) = Some [p] /\ decoded_as (CmdStart id) p.
Proof.
  intros id W. rewrite (console_one_id (KStart (4294967296 + Z.of_N id)) (4294967296 + Z.of_N id) CmdStart eq_refl). replace (4294967296 + Z.of_N id)%Z with (Z.of_N (4294967296 + id)) by lia.
  rewrite unsigned_ok. cbn [mbind option_bind]. rewrite <- (one_id_mod _ _ _ (4294967296 + id) (eq_refl : one_id (KStart 0) = Some (0%Z, CmdStart))).
  assert ((4294967296 + id) mod 4294967296 = id) as ->. { rewrite <- (N.mul_1_l 4294967296) at 1. rewrite N.add_comm, N.mod_add by done. by apply N.mod_small. }
  destruct (send_ok (CmdStart id)) as (p & -> & _ & D & _); [by apply (one_id_sendable (KStart 0) 0 CmdStart)|]. by exists p.
Qed.
(** The console alone cannot use a device: whatever is typed, and whatever the other devices and the web interface do, a
    device which received nothing but packets of the console serves no command, and each further packet of the console is
    rejected and changes nothing. *)
Theorem C90_useless_refuted : forall ks l p outs h, Forall wf_console ks -> reaches l p outs -> connected p h ->
  (forall e packet, (e, UciPacket h packet) ∈ l -> packet ∈ (console_session ks).1) ->
  ~ serving p h /\ forall e packet, packet ∈ (console_session ks).1 ->
    exists m, step e p (UciPacket h packet) = Ret (p, [OEff h (Send m)]) /\ rejection m.
Proof.
  intros ks l p outs h W R C H. destruct (session_harmless ks W) as (hs & _ & F). rewrite Forall_forall in F.
  assert (~ serving p h) as Ns by (eapply never_serving; [exact R|exact C|]; intros e packet I; by eapply F, H).
  split; [done|]. intros e packet I. apply harmless_step; [by eexists _, _|done|done|by apply F].
Qed.
Definition typed : list console_command :=
  [KSessionInit 7; KMulticast 7 (Some true) 259 5; KMulticast 7 None 0 0; KDataTransfer [1; 2] (Some [9; 9]) 7; KStart 7; KDeviceReset; KStart 8].
Example C90_example : Forall wf_console typed
  /\ console_session typed = ([[0x21; 0; 0; 5; 7; 0; 0; 0; 1]; [0x21; 7; 0; 12; 7; 0; 0; 0; 0; 1; 3; 1; 5; 0; 0; 0];
       [0x01; 0; 18; 0; 7; 0; 0; 0; 2; 1; 0; 0; 0; 0; 0; 0; 0; 0; 2; 0; 9; 9]; [0x22; 0; 0; 4; 7; 0; 0; 0]], true)
  /\ means (KSessionInit 7) (CmdSessionInit 7 1) /\ means KDeviceReset (CmdDeviceReset 0)
  /\ reaches (history [Connect; UciPacket 0 [0x21; 0; 0; 5; 7; 0; 0; 0; 1]]) (state_after [Connect; UciPacket 0 [0x21; 0; 0; 5; 7; 0; 0; 0; 1]])
       (outs_after [Connect; UciPacket 0 [0x21; 0; 0; 5; 7; 0; 0; 0; 1]])
  /\ connected (state_after [Connect; UciPacket 0 [0x21; 0; 0; 5; 7; 0; 0; 0; 1]]) 0.
Proof.
  split. { repeat (constructor; [first [exact I|split; [by repeat constructor|intros b E; injection E as <-; by repeat constructor]]|]). constructor. }
  split; [by vm_compute|]. split; [by apply (MSessionInit 7)|]. split; [constructor|]. split; [by apply history_reaches|]. by eexists.
Qed.
Print Assumptions C90_sent_partial.
Print Assumptions C90_misnamed_refuted.
Print Assumptions C90_ends.
Print Assumptions C90_read.
Print Assumptions C90_truncated_refuted.
Print Assumptions C90_useless_refuted.

(** ** C91. *)
Definition request_of {P} (default_position : P) position_new (k : web_command) : route P :=
  http_request default_position (console_request k).1 (body_of position_new (console_request k).2).
Lemma no_slash m : wf_mac m -> 47 ∉ mac_to_string m.
Proof.
  intros W. pose proof (mac_printed m W) as H.
  assert (forall l s, printed l s -> 47 ∉ s) as A.
  { assert (forall i c, upper_digits !! i = Some c -> c <> 47) as U.
    { intros i c H1 ->. apply elem_of_list_lookup_2 in H1. revert H1. apply (bool_decide_unpack (47 ∉ upper_digits)). by vm_compute. }
    induction 1; intros I; repeat (apply elem_of_cons in I as [I|I]); try (by apply elem_of_nil in I); try (subst; eapply (U _ 47); [eassumption|reflexivity]); done. }
  destruct m; by eapply A.
Qed.
Lemma console_names m command : wf_mac m -> names (47 :: command ++ 47 :: mac_to_string m) command (mac_to_string m).
Proof. intros W. exists 1%nat. split; [done|]. by apply no_slash. Qed.
(** A command of the console with a position asks for exactly this position if it fits, and is refused otherwise. *)
Theorem C91_place : forall (P : Type) (default_position : P) position_new m x y z yaw pitch roll k result, wf_mac m ->
  k = WInitUciDevice (mac_to_string m) x y z yaw pitch roll /\ result = RoSetPosition
  \/ k = WSetPosition (mac_to_string m) x y z yaw pitch roll /\ result = RoSetPosition
  \/ k = WCreateAnchor (mac_to_string m) x y z yaw pitch roll /\ result = RoCreateAnchor ->
  (fits x y z yaw pitch roll -> request_of default_position position_new k = result m (position_new x y z yaw pitch roll))
  /\ (~ fits x y z yaw pitch roll -> request_of default_position position_new k = RoNotAcceptable).
Proof.
  intros P dp pn m x y z yaw pitch roll k result W H.
  assert (exists path, console_request k = (path, dumps x y z yaw pitch roll) /\ placing P path (mac_to_string m) result) as (path & E & Pl).
  { destruct H as [[-> ->]|[[-> ->]|[-> ->]]]; eexists; (split; [reflexivity|]).
    - left. split; [|done]. left. exact (console_names m (str "init-uci-device") W).
    - left. split; [|done]. right. exact (console_names m (str "set-position") W).
    - right. split; [|done]. exact (console_names m (str "create-anchor") W). }
  unfold request_of. rewrite E. cbn [fst snd]. destruct (C79_json P dp pn path _ result m _ _ Pl (mac_round_trip m W) (dumps_text x y z yaw pitch roll)) as [A B].
  split.
  - intros F. apply A. by apply dumps_position.
  - intros F. apply B. intros x' y' z' yaw' pitch' roll' I. by apply dumps_position in I as [_ I].
Qed.
Theorem C91_destroy : forall (P : Type) (default_position : P) position_new m, wf_mac m ->
  request_of default_position position_new (WDestroyAnchor (mac_to_string m)) = RoDestroyAnchor m.
Proof.
  intros P dp pn m W. unfold request_of. cbn [console_request fst snd].
  rewrite (C50_destroy_route P dp _ _ (mac_to_string m)) by exact (console_names m (str "destroy-anchor") W). by rewrite mac_round_trip.
Qed.
Theorem C91_state : forall (P : Type) (default_position : P) position_new, request_of default_position position_new WGetState = RoGetState.
Proof. done. Qed.
Example C91_example : wf_mac (MShort [1; 0xab]) /\ fits 1 (-2) 3 (-180) 90 0
  /\ console_request (WSetPosition (mac_to_string (MShort [1; 0xab])) 1 (-2) 3 (-180) 90 0)
     = (str "/set-position/01:AB", str "{""x"": 1, ""y"": -2, ""z"": 3, ""yaw"": -180, ""pitch"": 90, ""roll"": 0}")
  /\ ~ fits 40000 0 0 0 0 0.
Proof. split; [split; [done|by repeat constructor]|]. split; [unfold fits; lia|]. split; [by vm_compute|]. unfold fits. lia. Qed.
Print Assumptions C91_place.
Print Assumptions C91_destroy.
Print Assumptions C91_state.
