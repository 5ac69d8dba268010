(** C46, C57: what a packet of a host can do to the environment. *)
From Verif Require Import Base Uci MacAddress AppConfig Codec Session Device Pica BaseFacts
  CodecSpec CodecFacts ContextSpec InvFacts StepFacts CommandFacts Demo DeviceSpec DeviceFacts CrashSpec CrashFacts.

(** ** C46. *)
(** The packets that stop the simulator are exactly those of the list [fatal_packet]. *)
Theorem C46_exact_partial : forall e p h packet, reachable p -> connected p h -> wf_bytes packet ->
  crashed (step e p (UciPacket h packet)) = true <-> fatal_packet p h packet.
Proof.
  intros e p h packet R (d & L) W. cbn [step]. unfold uci_packet. rewrite L.
  rewrite <- (packet_crash p h d packet L (reachable_dinv _ _ _ R L) W).
  destruct (receive_packet d packet) as [[? ?]|]; done.
Qed.
Print Assumptions C46_exact_partial.
(** The packets left in the queue by a host that is no longer there are harmless. *)
Theorem C46_not_connected_partial : forall e p h packet, ~ connected p h -> step e p (UciPacket h packet) = Ret (p, []).
Proof.
  intros e p h packet N. cbn [step]. unfold uci_packet. destruct (p_devices p !! h) as [d|] eqn:L; [|done].
  destruct N. by exists d.
Qed.
Print Assumptions C46_not_connected_partial.
(** Consequence: a host which sends only well formed commands, after a reset, and only while
    no session of its device is active, with FiRa ranging sessions, without address mode 1 and
    with at most 31 peers, cannot stop the simulator. *)
Theorem C46_well_behaved_partial : forall e p h c packet, reachable p -> serving p h -> wf_bytes packet ->
  wf_cmd c -> encodes c packet ->
  device_state_at p h = Some DsReady ->
  (forall id s, session_at p h id = Some s -> (s_type s = 0 \/ s_type s = 1) /\ s_task s = false
     /\ (length (dst_mac_address (s_cfg s)) <= 31)%nat) ->
  (forall id l s, c = CmdSetAppConfig id l -> session_at p h id = Some s ->
     mac_address_mode (s_cfg s) <> 1 /\ ~ In (T_MAC_ADDRESS_MODE, [1]) l) ->
  exists p' outs, step e p (UciPacket h packet) = Ret (p', outs).
Proof.
  intros e p h c packet R S W Wc Ec Ds Ok Mo.
  assert (connected p h) as Cn by (destruct S as (d & L & _); by exists d).
  destruct (step e p (UciPacket h packet)) as [[p' outs]|] eqn:St; [by eauto|]. exfalso.
  assert (fatal_packet p h packet) as F by (apply (C46_exact_partial e); [done..|by rewrite St]).
  assert (is_command packet) as Ic by by exists c.
  destruct Ec as (b & o & r1 & r2 & Ep & Hm & Hg & Ho). subst packet.
  assert (encodes c (b :: o :: r1 :: r2 :: cmd_args c)) as Ec by by exists b, o, r1, r2.
  inversion F as [|? [[? Hx]|?]|? ? ? ? ?|? ? ? ? Hx Nc|? ? ? ? Hx Hl|? ? ? ? ? Ns' ? G0 ? Na'|c' ? ? Wc' E' Fc]; subst; try lia; try done.
  - cbn in Hl. lia.
  - rewrite <- (encodes_inj c c' _ W Wc Wc' Ec E') in Fc. clear c' E' Wc'.
    destruct Fc as [E|l E|id l t E T0 T1|id l t E Sx A|id ids t E Av I Lg|id t E Sx T].
    + congruence.
    + congruence.
    + destruct (Ok _ _ E) as (T & _). tauto.
    + destruct (Mo _ _ _ eq_refl E) as [M1 M2]. destruct A as (l1 & i & v & l2 & -> & M & _).
      assert (~ In (T_MAC_ADDRESS_MODE, [1]) l1) as M3 by (intros I; apply M2, in_or_app; by left).
      clear -M M1 M3. revert M M1. generalize (mac_address_mode (s_cfg t)). induction l1 as [|[i v] l IH]; intros m M M1; [done|].
      assert (~ In (T_MAC_ADDRESS_MODE, [1]) l) as M4 by (intros I; apply M3; by right). specialize (IH M4).
      destruct i; try (by apply (IH m)). cbn [mode_after] in M. destruct v as [|x [|? ?]]; try (by apply (IH m)).
      apply (IH _ M). destruct (x <? 3); [|done]. intros ->. apply M3. by left.
    + destruct (Ok _ _ E) as (_ & _ & L).
      assert (length (concat (map mac_to_vec (dst_mac_address (s_cfg t)))) <= 8 * length (dst_mac_address (s_cfg t)))%nat; [|lia].
      assert (Forall wf_mac (dst_mac_address (s_cfg t))) as Fm.
      { unfold session_at in E. destruct (p_devices p !! h) as [d|] eqn:Ld; [|discriminate].
        exact (co_dst _ (so_cfg _ _ (di_session _ _ (reachable_dinv _ _ _ R Ld) _ _ E))). }
      clear -Fm. induction Fm as [|[a|a] l [Hl _] F IH]; cbn [map concat length mac_to_vec]; [cbn; lia| |]; rewrite app_length; unfold SHORT_MAC_ADDRESS_SIZE, EXTENDED_MAC_ADDRESS_SIZE in Hl; lia.
    + destruct (Ok _ _ E) as (_ & T' & _). congruence.
Qed.
Print Assumptions C46_well_behaved_partial.

(** Two hosts; the first one sends the empty packet, or a GET_DEVICE_INFO while it ranges. *)
Definition two_hosts : list op := active ++ [Connect].
Theorem C46_refuted : exists p h h' packet packet', reachable p /\ connected p h /\ connected p h' /\ h <> h'
  /\ wf_bytes packet /\ (forall e, crashed (step e p (UciPacket h packet)) = true)
  /\ (wf_bytes packet' /\ encodes CmdGetDeviceInfo packet') /\ (forall e, crashed (step e p (UciPacket h packet')) = true).
Proof.
  exists (state_after two_hosts), 0, 1, [], (cmd_packet CmdGetDeviceInfo).
  split; [apply history_reachable; vm_compute; reflexivity|].
  split; [eexists; vm_compute; reflexivity|]. split; [eexists; vm_compute; reflexivity|]. split; [done|].
  split; [constructor|]. split; [intros e; vm_compute; reflexivity|].
  split; [split; [apply wf_bytesb; vm_compute; reflexivity|apply cmd_packet_encodes]|].
  intros e. vm_compute. reflexivity.
Qed.
Print Assumptions C46_refuted.

(** Every entry of the list is met in some reachable state. *)
Definition stops (l : list op) (packet : bytes) : bool :=
  ok_history l && crashed (step plain_env (state_after l) (UciPacket 0 packet)).
Definition types_session : list op := ready ++ [cmd 0 (CmdSessionInit 7 0xA0)].
(** A controller with 12 peers gets 116 more: the maximum is only tested for equality. *)
Definition many (k n : nat) : list bytes := map (fun i => le_bytes 2 (N.of_nat i)) (seq k n).
Definition add_many (k n : nat) : op :=
  cmd 0 (CmdMulticast 7 AddControlee (with_count controlee_bytes (map (fun a => (a, 0, [])) (many k n)))).
Definition many_config : list (tlv_id * bytes) :=
  [ (T_DEVICE_TYPE, [1]); (T_DEVICE_ROLE, [1]); (T_MULTI_NODE_MODE, [1]); (T_RANGING_ROUND_USAGE, [2]);
    (T_SCHEDULE_MODE, [1]); (T_DEVICE_MAC_ADDRESS, [1; 0]); (T_NUMBER_OF_CONTROLEES, [12]);
    (T_DST_MAC_ADDRESS, concat (many 10 12)) ].
Definition crowded : list op := inited ++ [ cmd 0 (CmdSetAppConfig 7 many_config);
  add_many 22 40; add_many 62 40; add_many 102 36 ].
(** The last peer is removed while ranging: the session is idle and its timer runs. *)
Definition emptied : list op := inited ++ [
  cmd 0 (CmdSetAppConfig 7 (controller_config [1; 0] [2; 0])); cmd 0 (CmdStart 7);
  cmd 0 (CmdMulticast 7 RemoveControlee (with_count controlee_bytes [([2; 0], 0, [])])) ].
Example C46_causes :
  stops [Connect] [] = true /\ stops [Connect] [0x24] = true /\ stops [Connect] [0x80] = true
  /\ stops [Connect] [0x01; 0; 0; 0; 1; 2; 3] = true
  /\ stops ready [0x20; 0x3f; 0; 0] = true (* unknown opcode *)
  /\ stops ready [0x22; 0x00; 0; 2; 7; 0] = true (* truncated SESSION_START *)
  /\ stops ready [0x23; 0x00] = true /\ stops [Connect] [0x20; 0; 0; 2; 0; 0] = true
  /\ stops active (cmd_packet CmdGetDeviceInfo) = true /\ stops active (cmd_packet (CmdSetConfig [])) = true
  /\ stops types_session (cmd_packet (CmdSetAppConfig 7 [])) = true
  /\ stops inited (cmd_packet (CmdSetAppConfig 7 [(T_MAC_ADDRESS_MODE, [1]); (T_DEVICE_MAC_ADDRESS, [1; 0])])) = true
  /\ stops crowded (cmd_packet (CmdGetAppConfig 7 [T_DST_MAC_ADDRESS])) = true
  /\ stops emptied (cmd_packet (CmdStart 7)) = true.
Proof. repeat (split; [vm_compute; reflexivity|]). vm_compute; reflexivity. Qed.
(** And the hypotheses of [C46_well_behaved_partial] are met. *)
Example C46_example : reachable (state_after idle) /\ serving (state_after idle) 0
  /\ device_state_at (state_after idle) 0 = Some DsReady /\ state_at (state_after idle) 0 7 = SsIdle
  /\ crashed (step plain_env (state_after idle) (cmd 0 (CmdStart 7))) = false.
Proof.
  split; [apply history_reachable; vm_compute; reflexivity|]. split; [apply servingb_sound; vm_compute; reflexivity|].
  repeat (split; [vm_compute; reflexivity|]). vm_compute; reflexivity.
Qed.

(** ** C57. *)
(** Full statement:
      reachable p -> serving p h -> wf_bytes packet -> hd 0 packet / 32 = 1 ->
      In (hd 0 packet mod 16) [0; 1; 2; 0xc] -> ~ is_command packet ->
      exists m, step e p (UciPacket h packet) = Ret (p, [OEff h (Send m)]) /\ m is a response
        with an error status.
    No such packet is answered: the simulator always stops. *)
Theorem C57_refuted : forall e p h packet, reachable p -> serving p h -> wf_bytes packet ->
  hd 0 packet / 32 = 1 -> In (hd 0 packet mod 16) [0; 1; 2; 0xc] -> ~ is_command packet ->
  crashed (step e p (UciPacket h packet)) = true.
Proof.
  intros e p h packet R S W M G N.
  apply C46_exact_partial; [done| |done|]. { destruct S as (d & L & _). by exists d. }
  destruct packet as [|b rest]; [constructor|]. by apply FatalMalformed.
Qed.
Print Assumptions C57_refuted.
(** What holds: before the reset such a packet is answered with DEVICE_STATUS_NTF(ERROR),
    unless it has the header of a reset; it changes nothing. *)
Theorem C57_before_reset_partial : forall e p h packet, reachable p -> connected p h -> ~ serving p h -> wf_bytes packet ->
  hd 0 packet / 32 = 1 -> In (hd 0 packet mod 16) [0; 1; 2; 0xc] ->
  ~ (exists b o r1 r2 args, packet = b :: o :: r1 :: r2 :: args /\ b mod 16 = 0 /\ o mod 64 = 0) ->
  step e p (UciPacket h packet) = Ret (p, [OEff h (Send (CoreDeviceStatusNtf DsError))]).
Proof.
  intros e p h packet R (d & L) Ns W M G N. cbn [step]. unfold uci_packet. rewrite L.
  assert (d_is_reset d = false) as Nr.
  { destruct (d_is_reset d) eqn:E; [|done]. destruct Ns. by exists d. }
  destruct packet as [|b rest]; [discriminate M|]. cbn [hd] in *. pose proof W as W0. apply wf_bytes_cons in W0 as [Hb _].
  assert (reset_like (b :: rest) = false) as Rl.
  { apply not_true_is_false. rewrite reset_like_spec by done. intros (G0 & o & r1 & r2 & args & -> & Ho). apply N. by exists b, o, r1, r2, args. }
  destruct (gid_cases (b mod 16)) as [(_ & V & _)|[(_ & _ & Gi)|(_ & _ & Gi)]]; [apply N.mod_lt; lia| |cbn in G, Gi; lia|cbn in G, Gi; lia].
  unfold receive_packet. rewrite hdr_mt_cases, M by done. cbn [mt_of_code N.eqb Pos.eqb].
  unfold reset_like in Rl. destruct (decode_control_packet (b :: rest)) as [cp|] eqn:D.
  - unfold receive_command. rewrite Nr, Rl. cbn. by rewrite p_set_device_same.
  - cbn [decode_control_packet] in D. rewrite hdr_mt_div, hdr_low_mod, M, V in D by done. discriminate.
Qed.
Print Assumptions C57_before_reset_partial.
Example C57_example : servingb (state_after ready) 0 = true /\ stops ready [0x20; 0x3f; 0; 0] = true
  /\ outs_of [Connect] (UciPacket 0 [0x20; 0x3f; 0; 0]) = [OEff 0 (Send (CoreDeviceStatusNtf DsError))].
Proof. repeat (split; [vm_compute; reflexivity|]). vm_compute; reflexivity. Qed.
Example C57_not_a_command : ~ is_command [0x20; 0x3f; 0; 0].
Proof. intros (c & _ & h & o & r1 & r2 & E & _ & _ & O). injection E as <- <- <- <- E. destruct c; discriminate. Qed.
