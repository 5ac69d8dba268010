(** C16-C22, C30: commands at the level of the device. *)
From Coq Require Import ZifyBool ZifyN ZifyNat.
From Verif Require Import Base Uci MacAddress AppConfig Codec Session Device Pica BaseFacts AppConfigFacts
  CodecSpec CodecFacts ContextSpec DeviceSpec InvFacts StepFacts CommandFacts Demo GateFacts DeviceFacts.

(** ** C16. Until a connected device has received a reset, every other command is answered by
    CORE_DEVICE_STATUS_NTF(ERROR) and nothing else happens. *)
Theorem C16_gate : forall l p outs h c packet e,
  reaches l p outs -> connected p h -> ~ has_been_reset l h ->
  wf_bytes packet -> wf_cmd c -> encodes c packet -> c <> CmdDeviceReset 0 ->
  step e p (UciPacket h packet) = Ret (p, [OEff h (Send (CoreDeviceStatusNtf DsError))]).
Proof.
  intros l p outs h c packet e R C N W Wc E Ne. pose proof C as (d & L).
  eapply gate_step; try done. destruct (d_is_reset d) eqn:Hr; [|done].
  destruct N. apply (serving_iff _ _ _ _ R C). by exists d.
Qed.
Print Assumptions C16_gate.
(** After a reset the device serves the commands ([serving] is the hypothesis of the
    properties below). *)
Theorem C16_reset_opens : forall l p outs h,
  reaches l p outs -> connected p h -> (serving p h <-> has_been_reset l h).
Proof. intros l p outs h R C. by eapply serving_iff. Qed.
Print Assumptions C16_reset_opens.
(** And the reset itself is always served. *)
Theorem C16_reset_served : forall p h packet e,
  connected p h -> wf_bytes packet -> encodes (CmdDeviceReset 0) packet ->
  exists p' outs, step e p (UciPacket h packet) = Ret (p', outs) /\ serving p' h.
Proof.
  intros p h packet e (d & L) W E. rewrite (step_command e p h d (CmdDeviceReset 0)) by (done || by right).
  cbn [handle_command]. rewrite core_reset_eq. cbn [obind wire msg_payload].
  eexists _, _. split; [reflexivity|]. eexists. split; [apply lookup_insert|]. done.
Qed.
Print Assumptions C16_reset_served.
Example C16_example : reaches (history [Connect]) (state_after [Connect]) (outs_after [Connect])
  /\ connected (state_after [Connect]) 0 /\ ~ has_been_reset (history [Connect]) 0
  /\ has_been_reset (history ready) 0.
Proof.
  split; [by apply history_reaches|]. split; [by eexists|]. split.
  - intros (l1 & e & pk & l2 & p1 & o1 & E & _). destruct l1 as [|? [|]]; discriminate E.
  - exists (history [Connect]), plain_env, (cmd_packet (CmdDeviceReset 0)), [].
    eexists _, _. split; [reflexivity|]. split; [apply cmd_packet_encodes|]. split; [reflexivity|by eexists].
Qed.

(** ** C17. A command packet (message type 1, or a reserved message type, which the code
    treats alike) that is processed gives exactly one immediate message, to its host only: a
    response with its group and opcode, or the status notification before the reset. *)
Theorem C17_one_answer : forall p e h packet p' outs,
  reachable p -> connected p h -> wf_bytes packet -> step e p (UciPacket h packet) = Ret (p', outs) ->
  (hd 0 packet / 32 = 1 \/ 4 <= hd 0 packet / 32) ->
  exists m, sent h outs = [m] /\ (forall h', h' <> h -> messages h' outs = [])
    /\ (answers packet m \/ m = CoreDeviceStatusNtf DsError /\ ~ serving p h).
Proof.
  intros p e h packet p' outs R (d & L) W S T. cbn [step] in S. unfold uci_packet in S. rewrite L in S.
  destruct (receive_packet d packet) as [[d' e']|] eqn:P; [|discriminate]. cbn [obind] in S. apply Ret_inj in S. injection S as <- <-.
  assert (Oth : forall h', h' <> h -> messages h' (map (OEff h) e') = []).
  { intros h' N. by apply messages_other. }
  pose proof (receive_received _ _ _ _ W P) as Q. rewrite sent_effs, effs_at_same.
  destruct Q as [Hh|Hh Hd|pp dd m b Hh Hd Hs Hw|h1 o1 rest -> Hc|Hh Hv Hr Hl|c dd e2 m b Wc Ec Hr Hc Hw|h1 b1 b2 rest -> Hh Hr Hv Hg].
  - lia.
  - lia.
  - lia.
  - eexists. split; [reflexivity|]. split; [done|]. left. by apply unknown_cmd_answers.
  - eexists. split; [reflexivity|]. split; [done|]. right. split; [done|]. intros (d2 & L2 & T2). rewrite L in L2. congruence.
  - exists m. rewrite eff_sent_app, (eff_sent_none e2). 2:{ eapply handle_no_send; [|done|done]. by eapply reachable_dinv. }
    split; [done|]. split; [done|]. left. by eapply answer_answers.
  - eexists. split; [reflexivity|]. split; [done|]. left. apply unknown_group_answers.
Qed.
Print Assumptions C17_one_answer.
(** Responses and notifications are ignored; a data packet gives at most one message,
    a notification. *)
Theorem C17_no_answer : forall p e h packet p' outs,
  reachable p -> wf_bytes packet -> step e p (UciPacket h packet) = Ret (p', outs) ->
  (hd 0 packet / 32 = 2 \/ hd 0 packet / 32 = 3 -> p' = p /\ outs = [])
  /\ (hd 0 packet / 32 = 0 -> outs = [] \/ exists token seq status tx credit,
        outs = [OEff h (Send (SessionDataTransferStatusNtf token seq status tx))]
        \/ outs = [OEff h (Send (SessionDataCreditNtf token credit))]).
Proof.
  intros p e h packet p' outs R W S. cbn [step] in S. unfold uci_packet in S.
  destruct (p_devices p !! h) as [d|] eqn:L; [|apply Ret_inj in S; injection S as <- <-; split; [done|by left]].
  destruct (receive_packet d packet) as [[d' e']|] eqn:P; [|discriminate]. cbn [obind] in S. apply Ret_inj in S. injection S as <- <-.
  assert (forall c, encodes c packet -> hd 0 packet / 32 = 1) as En by by intros c (h1 & o1 & r1 & r2 & -> & Hm & _).
  pose proof (receive_received _ _ _ _ W P) as Q.
  destruct Q as [Hh|Hh Hd|pp dd m b Hh Hd Hs Hw|h1 o1 rest -> Hc|Hh Hv Hr Hl|c dd e2 m b Wc Ec Hr Hc Hw|h1 b1 b2 rest -> Hh Hr Hv Hg].
  - split; [|lia]. by rewrite p_set_device_same.
  - split; [lia|]. by left.
  - split; [lia|]. intros _. right.
    destruct pp as [handle dst seq data|handle st src seq data]; cbn [device_data_message_snd] in Hs.
    + destruct (d_sessions d !! handle) as [s|]; [|injection Hs as <- <-; eexists _, _, _, _, 0; by left].
      unfold session_data_message_snd in Hs. destruct (negb _); [injection Hs as <- <-; eexists _, _, _, _, 0; by left|].
      destruct (negb _); [discriminate|]. injection Hs as <- <-. eexists _, 0, 0, 0, _. by right.
    + injection Hs as <- <-. eexists _, _, _, _, 0. by left.
  - cbn [hd]. lia.
  - lia.
  - apply En in Ec. lia.
  - cbn [hd]. lia.
Qed.
Print Assumptions C17_no_answer.
Example C17_example : sent 0 (outs_of idle (cmd 0 (CmdStart 7))) = [SessionStartRsp 0]
  /\ answers (cmd_packet (CmdStart 7)) (SessionStartRsp 0)
  /\ sent 0 (outs_of ready (UciPacket 0 [0x43; 0x11; 0x22; 0])) = [].
Proof. split; [by vm_compute|]. split; [|by vm_compute]. by eexists _, 1, 2, 0. Qed.

(** ** C18. *)
(** Unassigned groups, whether the device has been reset or not. *)
Theorem C18_unassigned_group : forall e p h packet h0 o rest,
  connected p h -> wf_bytes packet -> packet = h0 :: o :: rest -> h0 / 32 = 1 ->
  In (h0 mod 16) [4; 5; 6; 7; 8] ->
  exists m, step e p (UciPacket h packet) = Ret (p, [OEff h (Send m)])
    /\ wire m = Some [64 + h0 mod 16; o mod 64; 0; 1; 0x07 (* UNKNOWN_GID *)].
Proof.
  intros e p h packet h0 o rest (d & L) W -> Hm Hg. cbn [step]. unfold uci_packet. rewrite L.
  unfold receive_packet. pose proof W as W0. apply wf_bytes_cons in W0 as [Hh Wr]. apply wf_bytes_cons in Wr as [Ho _].
  rewrite hdr_mt_cases by done. rewrite Hm. cbn [mt_of_code N.eqb Pos.eqb].
  change (N.land h0 15) with (hdr_low h0). cbn [decode_control_packet]. rewrite hdr_low_mod, land_3f by done.
  replace (valid_gid (h0 mod 16)) with false.
  2:{ repeat (destruct Hg as [<-|Hg]; [reflexivity|]). destruct Hg. }
  cbn [negb obind]. rewrite p_set_device_same by done. eexists. split; [reflexivity|].
  cbn. do 2 f_equal. repeat (destruct Hg as [<-|Hg]; [reflexivity|]). destruct Hg.
Qed.
Print Assumptions C18_unassigned_group.
(** Assigned groups without any command (RANGING..., TEST, other vendors). *)
Theorem C18_empty_group : forall e p h packet h0 o r rest,
  serving p h -> wf_bytes packet -> packet = h0 :: o :: r :: rest -> h0 / 32 = 1 ->
  In (h0 mod 16) [3; 9; 0xa; 0xb; 0xd; 0xe; 0xf] ->
  exists m, step e p (UciPacket h packet) = Ret (p, [OEff h (Send m)])
    /\ wire m = Some [64 + h0 mod 16; o; r; 1; 0x07].
Proof.
  intros e p h packet h0 o r rest (d & L & Hr) W -> Hm Hg. cbn [step]. unfold uci_packet. rewrite L.
  unfold receive_packet. pose proof W as W0. apply wf_bytes_cons in W0 as [Hh Wr].
  rewrite hdr_mt_cases by done. rewrite Hm. cbn [mt_of_code N.eqb Pos.eqb].
  cbn [decode_control_packet]. rewrite hdr_low_mod, hdr_mt_div, Hm by done.
  replace (valid_gid (h0 mod 16)) with true.
  2:{ repeat (destruct Hg as [<-|Hg]; [reflexivity|]). destruct Hg. }
  cbn [negb]. unfold receive_command. rewrite Hr. cbn [negb andb mt_of_code N.eqb Pos.eqb mbind option_bind cp_mt cp_gid cp_payload].
  assert (specialize_command (h0 mod 16) (o :: r :: rest) = SpNone) as ->.
  { unfold specialize_command. repeat (destruct Hg as [<-|Hg]; [reflexivity|]). destruct Hg. }
  cbn [obind send_control]. unfold send_control.
  assert (wire (UnknownGroupRsp (h0 mod 16) o r) = Some [64 + h0 mod 16; o; r; 1; 0x07]) as Wm.
  { cbn. do 2 f_equal. repeat (destruct Hg as [<-|Hg]; [reflexivity|]). destruct Hg. }
  rewrite Wm. cbn [obind app map]. rewrite p_set_device_same by done. by eexists.
Qed.
Print Assumptions C18_empty_group.
(** Responses and notifications. *)
Theorem C18_ignored : forall e p h packet,
  wf_bytes packet -> hd 0 packet / 32 = 2 \/ hd 0 packet / 32 = 3 ->
  step e p (UciPacket h packet) = Ret (p, []).
Proof.
  intros e p h packet W T. cbn [step]. unfold uci_packet. destruct (p_devices p !! h) as [d|] eqn:L; [|done].
  destruct packet as [|h0 rest]; [destruct T; discriminate|]. cbn [hd] in T.
  pose proof W as W0. apply wf_bytes_cons in W0 as [Hh Wr]. unfold receive_packet. rewrite hdr_mt_cases by done.
  destruct T as [-> | ->]; cbn [mt_of_code N.eqb Pos.eqb obind map]; by rewrite p_set_device_same.
Qed.
Print Assumptions C18_ignored.
Example C18_example :
  outs_of ready (UciPacket 0 [0x24; 0xc9; 0; 0]) = [OEff 0 (Send (UnknownCmdRsp 4 9 0x07))]
  /\ outs_of ready (UciPacket 0 [0x2d; 0x09; 0; 0]) = [OEff 0 (Send (UnknownGroupRsp 0xd 9 0))].
Proof. split; by vm_compute. Qed.

(** ** C19. Reset, from any reachable state. *)
Theorem C19_reset : forall p h d e packet,
  reachable p -> p_devices p !! h = Some d -> wf_bytes packet -> encodes (CmdDeviceReset 0) packet ->
  exists p' outs d', step e p (UciPacket h packet) = Ret (p', outs)
    /\ p_devices p' !! h = Some d'
    (* the device is as new, except that it now accepts commands *)
    /\ d_sessions d' = ∅ /\ d_low_power d' = true /\ d_country d' = [0; 0] /\ d_state d' = DsReady
    /\ d_active d' = 0 /\ d_is_reset d' = true /\ d_handle d' = d_handle d /\ d_mac d' = d_mac d
    (* the rest of the context is untouched *)
    /\ (forall h', h' <> h -> p_devices p' !! h' = p_devices p !! h') /\ p_anchors p' = p_anchors p
    /\ (forall h', h' <> h -> messages h' outs = [])
    (* messages *)
    /\ sent h outs = [CoreDeviceResetRsp 0x00]
    /\ device_ntfs h outs = [DsReady]
    /\ (forall id, status_ntfs h id outs = if bool_decide (state_at p h id = SsDeinit) then [] else [(SsDeinit, 0x00)]).
Proof.
  intros p h d e packet R L W E.
  rewrite (step_command e p h d (CmdDeviceReset 0)) by (done || by right).
  cbn [handle_command]. rewrite core_reset_eq. cbn [obind wire msg_payload mbind option_bind].
  eexists _, _, _. split; [reflexivity|]. split; [apply lookup_insert|]. split_and!; try done.
  - intros h' N. cbn. by rewrite lookup_insert_ne.
  - intros h' N. by apply messages_other.
  - rewrite sent_effs, effs_at_same, !eff_sent_app, (eff_sent_none (device_drop d)); [done|]. apply no_send_device_drop.
  - rewrite device_ntfs_effs, effs_at_same, !eff_dev_app.
    destruct (device_drop_effs d 0) as (_ & _ & _ & ->); [|done].
    intros id s Ls. apply (so_id _ _ (di_session _ _ (reachable_dinv _ _ _ R L) _ _ Ls)).
  - intros id. rewrite status_ntfs_effs, effs_at_same, !eff_status_app.
    destruct (device_drop_effs d id) as (-> & _).
    { intros id' s Ls. apply (so_id _ _ (di_session _ _ (reachable_dinv _ _ _ R L) _ _ Ls)). }
    unfold eff_status. cbn. rewrite !app_nil_r. unfold state_at, session_at, dstate. by rewrite L.
Qed.
Print Assumptions C19_reset.
(** All its ranging timers have been cancelled: none is left running. *)
Theorem C19_timers : forall l p outs e h packet p' outs' id,
  reaches l p outs -> connected p h -> wf_bytes packet -> encodes (CmdDeviceReset 0) packet ->
  step e p (UciPacket h packet) = Ret (p', outs') ->
  timers_started h id (outs ++ outs') = timers_stopped h id (outs ++ outs').
Proof.
  intros l p outs e h packet p' outs' id R (d & L) W E S.
  destruct (C19_reset p h d e packet) as (p1 & o1 & d' & S' & L' & Es & _); [by eexists _, _|done..|].
  rewrite S in S'. injection S' as <- <-. rewrite (reaches_timers (l ++ [(plain_env, UciPacket h packet)]) p').
  - rewrite L'. cbn [otask]. unfold dtask. rewrite Es, lookup_empty. lia.
  - by apply (reaches_snoc l p outs).
Qed.
Print Assumptions C19_timers.
Example C19_example : reachable (state_after active) /\ state_at (state_after active) 0 7 = SsActive
  /\ state_at (state_after (active ++ [cmd 0 (CmdDeviceReset 0)])) 0 7 = SsDeinit
  /\ timers_stopped 0 7 (outs_of active (cmd 0 (CmdDeviceReset 0))) = 1%nat.
Proof. split; [by apply history_reachable|]. by vm_compute. Qed.

(** ** C20. *)
Theorem C20_set_config : forall p h l p' outs d,
  commanded p h (CmdSetConfig l) p' outs -> p_devices p !! h = Some d ->
  outs = [OEff h (Send (CoreSetConfigRsp (match refusals l with [] => 0x00 | _ => 0x04 end) (refusals l)))]
  /\ p' = p_set_device h (d_set_low_power
       (match last (filter (fun q => q.1 = 1) l) with Some (_, v) => low_power_value v | None => d_low_power d end) d) p.
Proof.
  intros p h l p' outs d C L. destruct (commanded_inv _ _ _ _ _ C) as (d0 & d' & e & m & R).
  pose proof (cr_dev R) as L'. rewrite L in L'. injection L' as <-.
  pose proof (cr_handle R) as H. cbn [handle_command] in H. unfold core_set_config in H.
  destruct (negb _); [discriminate|]. rewrite set_config_loop_spec in H. cbn [obind app] in H. apply Ret_inj in H. injection H as <- <- <-.
  split; [|apply R]. rewrite (cr_outs R). cbn [app map]. by destruct (refusals l).
Qed.
Print Assumptions C20_set_config.
Theorem C20_get_config : forall p h ids p' outs d,
  commanded p h (CmdGetConfig ids) p' outs -> p_devices p !! h = Some d ->
  p' = p /\
  ((exists vs, Forall2 (fun id v => config_value (d_cfg_state d) (d_low_power d) id = Some v) ids vs
     /\ outs = [OEff h (Send (CoreGetConfigRsp 0x00 (zip ids vs)))])
   \/ (exists id, id ∈ ids /\ id <> 0 /\ id <> 1)
     /\ outs = [OEff h (Send (CoreGetConfigRsp 0x04 (map (fun id => (id, [])) (filter (fun id => id <> 0 /\ id <> 1) ids))))]).
Proof.
  intros p h ids p' outs d C L. destruct (commanded_inv _ _ _ _ _ C) as (d0 & d' & e & m & R).
  pose proof (cr_dev R) as L'. rewrite L in L'. injection L' as <-.
  pose proof (cr_handle R) as H. cbn [handle_command] in H. apply Ret_inj in H. injection H as <- <- Hm.
  split; [by apply (cr_same R)|]. rewrite (cr_outs R). cbn [app map].
  unfold core_get_config in Hm. rewrite get_config_loop_spec in Hm. cbn [app] in Hm.
  assert (forall id, config_value (d_cfg_state d) (d_low_power d) id = None <-> id <> 0 /\ id <> 1) as Cn.
  { intros id. unfold config_value. destruct (N.eqb_spec id 0); [split; [discriminate|lia]|].
    destruct (N.eqb_spec id 1); [split; [discriminate|lia]|]. split; [lia|done]. }
  destruct (all_available (config_value (d_cfg_state d) (d_low_power d)) ids) as [(vs & F & E1 & E2)|((id & I & N) & E1 & E2)].
  - left. exists vs. split; [done|]. rewrite E1, E2 in Hm. by rewrite <- Hm.
  - right. split; [exists id; split; [done|by apply Cn]|]. rewrite E1 in Hm.
    rewrite (list_filter_iff _ (fun id => id <> 0 /\ id <> 1) ids Cn) in Hm, E2.
    destruct (filter _ ids) as [|x l] eqn:Ef in Hm, E2; [done|]. rewrite Ef. cbn [map] in Hm |- *. by rewrite <- Hm.
Qed.
Print Assumptions C20_get_config.
(** What was last set is read back, whatever happens to the sessions in between: the next
    command of the host which reads the parameter. *)
Theorem C20_low_power_read_back : forall p h l1 v l2 p' outs p'' outs',
  commanded p h (CmdSetConfig (l1 ++ (1, v) :: l2)) p' outs -> Forall (fun q => q.1 <> 1) l2 ->
  commanded p' h (CmdGetConfig [1]) p'' outs' ->
  outs' = [OEff h (Send (CoreGetConfigRsp 0x00 [(1, [if low_power_value v then 1 else 0])]))].
Proof.
  intros p h l1 v l2 p' outs p'' outs' C F C'.
  pose proof C as (_ & (d & L & _) & _). apply (C20_set_config _ _ _ _ _ _ C) in L as [_ E].
  rewrite filter_app, filter_cons_True in E by done. replace (filter (fun q => q.1 = 1) l2) with (@nil (N * bytes)) in E.
  2:{ clear -F. induction F as [|x l N F IH]; [done|]. by rewrite filter_cons_False. }
  rewrite last_snoc in E.
  assert (exists d', p_devices p' !! h = Some d' /\ d_low_power d' = low_power_value v) as (d' & L' & E').
  { rewrite E. eexists. split; [apply lookup_insert|done]. }
  apply (C20_get_config _ _ _ _ _ _ C') in L' as [_ [(vs & F' & ->)|((id & I & N) & _)]].
  - inversion F' as [|? ? ? ? G F2]; subst. inversion F2; subst. cbn in G. injection G as <-. by rewrite E'.
  - apply elem_of_list_singleton in I. lia.
Qed.
Print Assumptions C20_low_power_read_back.
(** The read of DEVICE_STATE does not give the state of the device: it always gives ERROR. *)
Theorem C20_device_state_refuted : exists p h p' outs,
  commanded p h (CmdGetConfig [0]) p' outs /\ device_state_at p h = Some DsReady
  /\ outs = [OEff h (Send (CoreGetConfigRsp 0x00 [(0, [0xff])]))].
Proof.
  exists (state_after ready), 0, (state_after (ready ++ [cmd 0 (CmdGetConfig [0])])), (outs_of ready (cmd 0 (CmdGetConfig [0]))).
  split; [apply history_commanded; [by repeat constructor|by vm_compute..]|]. split; by vm_compute.
Qed.
Print Assumptions C20_device_state_refuted.
Theorem C20_device_state_always_error : forall p h d, reachable p -> p_devices p !! h = Some d -> d_cfg_state d = DsError.
Proof. intros p h d R L. exact (di_cfg _ _ (reachable_dinv _ _ _ R L)). Qed.
Print Assumptions C20_device_state_always_error.
Example C20_example : let l := [(1, [0]); (0, [1]); (5, [])] in
  commanded (state_after ready) 0 (CmdSetConfig l) (state_after (ready ++ [cmd 0 (CmdSetConfig l)])) (outs_of ready (cmd 0 (CmdSetConfig l)))
  /\ refusals l = [(0, 9); (5, 4)]
  /\ outs_of (ready ++ [cmd 0 (CmdSetConfig l)]) (cmd 0 (CmdGetConfig [1])) = [OEff 0 (Send (CoreGetConfigRsp 0 [(1, [0])]))].
Proof. split; [apply history_commanded; [by repeat constructor|by vm_compute..]|]. split; by vm_compute. Qed.

(** ** C21. *)
Theorem C21_limit : forall p h d, reachable p -> p_devices p !! h = Some d -> (size (d_sessions d) <= 255)%nat.
Proof. intros p h d R L. exact (di_size _ _ (reachable_dinv _ _ _ R L)). Qed.
Print Assumptions C21_limit.
Theorem C21_refused : forall p h d id ty p' outs,
  commanded p h (CmdSessionInit id ty) p' outs -> p_devices p !! h = Some d -> size (d_sessions d) = 255%nat ->
  p' = p /\ outs = [OEff h (Send (SessionInitRsp 0x14 (* ERROR_MAX_SESSIONS_EXCEEDED *)))].
Proof.
  intros p h d id ty p' outs C L Sz. destruct (commanded_inv _ _ _ _ _ C) as (d0 & d' & e & m & R).
  pose proof (cr_dev R) as L'. rewrite L in L'. injection L' as <-.
  pose proof (cr_handle R) as H. cbn [handle_command] in H. unfold session_init, MAX_SESSION in H.
  rewrite Sz in H. change (Nat.leb 255 255) with true in H. cbn match in H. apply Ret_inj in H. injection H as <- <- <-.
  split; [by apply (cr_same R)|apply R].
Qed.
Print Assumptions C21_refused.
(** Below the limit a new session is accepted, in state INIT. *)
Theorem C21_accepted : forall p h d id ty p' outs,
  commanded p h (CmdSessionInit id ty) p' outs -> p_devices p !! h = Some d -> (size (d_sessions d) < 255)%nat ->
  session_at p h id = None ->
  sent h outs = [SessionInitRsp 0x00] /\ same_but_session h id p p' /\ device_state_at p' h = device_state_at p h
  /\ session_at p' h id = Some (s_set_state SsInit (session_new id ty))
  /\ status_ntfs h id outs = [(SsInit, 0x00)].
Proof.
  intros p h d id ty p' outs C L Sz N. destruct (commanded_inv _ _ _ _ _ C) as (d0 & d' & e & m & R).
  pose proof (cr_dev R) as L'. rewrite L in L'. injection L' as <-.
  pose proof (cr_frame id R eq_refl) as Fr.
  rewrite (cr_session R) in N.
  rewrite (cr_sent R), (cr_status R), (cr_session' R),
    (cr_devstate R), (cr_devstate' R).
  pose proof (cr_handle R) as H. cbn [handle_command] in H. unfold session_init, MAX_SESSION in H.
  destruct (Nat.leb_spec 255 (size (d_sessions d))) as [Hl|_]; [lia|].
  rewrite N in H. unfold session_init_state in H. rewrite session_set_state_eq in H. apply Ret_inj in H. injection H as <- <- <-.
  split_and!; try done; [apply lookup_insert|]. unfold eff_status. cbn. by rewrite N.eqb_refl.
Qed.
Print Assumptions C21_accepted.
Theorem C21_count : forall p h d p' outs,
  commanded p h CmdGetCount p' outs -> p_devices p !! h = Some d ->
  p' = p /\ outs = [OEff h (Send (SessionGetCountRsp 0x00 (N.of_nat (size (d_sessions d)))))].
Proof.
  intros p h d p' outs C L. pose proof C as (Rc & _).
  pose proof (di_size _ _ (reachable_dinv _ _ _ Rc L)) as Sz.
  destruct (commanded_inv _ _ _ _ _ C) as (d0 & d' & e & m & R).
  pose proof (cr_dev R) as L'. rewrite L in L'. injection L' as <-.
  pose proof (cr_handle R) as H. cbn [handle_command] in H. apply Ret_inj in H. injection H as <- <- <-.
  split; [by apply (cr_same R)|]. rewrite (cr_outs R). cbn [app map].
  unfold session_get_count. rewrite N.mod_small by lia. done.
Qed.
Print Assumptions C21_count.
Definition full : list op := ready ++ map (fun i => cmd 0 (CmdSessionInit (N.of_nat i) 0)) (seq 0 255).
Example C21_example :
  commanded (state_after full) 0 (CmdSessionInit 1000 0) (state_after (full ++ [cmd 0 (CmdSessionInit 1000 0)]))
    (outs_of full (cmd 0 (CmdSessionInit 1000 0)))
  /\ (size ∘ d_sessions <$> p_devices (state_after full) !! 0) = Some 255%nat
  /\ outs_of full (cmd 0 CmdGetCount) = [OEff 0 (Send (SessionGetCountRsp 0 255))].
Proof. split; [apply history_commanded; [split; [done|cbn; tauto]|by vm_compute..]|]. by vm_compute. Qed.

(** ** C22. A duplicate SESSION_INIT is answered ERROR_SESSION_DUPLICATE, but the existing
    session is destroyed: replaced by one in state DEINIT, its ranging stopped, while the
    device remains ACTIVE. *)
Theorem C22_refuted : exists p h id p' outs,
  commanded p h (CmdSessionInit id 0) p' outs
  /\ sent h outs = [SessionInitRsp 0x12 (* ERROR_SESSION_DUPLICATE *)]
  /\ state_at p h id = SsActive /\ state_at p' h id = SsDeinit /\ session_at p' h id <> session_at p h id
  /\ timers_stopped h id outs = 1%nat /\ device_state_at p' h = Some DsActive.
Proof.
  exists (state_after active), 0, 7, (state_after (active ++ [cmd 0 (CmdSessionInit 7 0)])), (outs_of active (cmd 0 (CmdSessionInit 7 0))).
  split; [apply history_commanded; [split; [done|cbn; tauto]|by vm_compute..]|].
  split_and!; by vm_compute.
Qed.
Print Assumptions C22_refuted.
(** What holds: the answer is right, and nothing but the named session is disturbed. *)
Theorem C22_partial : forall p h d id ty p' outs,
  commanded p h (CmdSessionInit id ty) p' outs -> p_devices p !! h = Some d -> (size (d_sessions d) < 255)%nat ->
  session_at p h id <> None ->
  sent h outs = [SessionInitRsp 0x12] /\ same_but_session h id p p' /\ device_state_at p' h = device_state_at p h
  /\ session_at p' h id = Some (session_new id ty)
  /\ (forall id', id' <> id -> status_ntfs h id' outs = [] /\ timers_stopped h id' outs = 0%nat).
Proof.
  intros p h d id ty p' outs C L Sz N. destruct (commanded_inv _ _ _ _ _ C) as (d0 & d' & e & m & R).
  pose proof (cr_dev R) as L'. rewrite L in L'. injection L' as <-.
  pose proof (cr_frame id R eq_refl) as Fr.
  rewrite (cr_session R) in N. destruct (d_sessions d !! id) as [old|] eqn:Lo; [|done].
  pose proof (so_id _ _ (di_session _ _ (cr_dinv R) _ _ Lo)) as Hid.
  assert (forall id', status_ntfs h id' outs = eff_status id' e) as St by apply (cr_status R).
  assert (forall id', timers_stopped h id' outs = eff_stops id' e) as Ti by apply (cr_stops R).
  rewrite (cr_sent R), (cr_session' R),
    (cr_devstate R), (cr_devstate' R).
  pose proof (cr_handle R) as H. cbn [handle_command] in H. unfold session_init, MAX_SESSION in H.
  destruct (Nat.leb_spec 255 (size (d_sessions d))) as [Hl|_]; [lia|].
  rewrite Lo in H. apply Ret_inj in H. injection H as <- <- <-.
  split; [done|]. split; [done|]. split; [done|]. split; [apply lookup_insert|]. intros id' Ne. rewrite St, Ti, drop_status, drop_stops, Hid.
  apply N.eqb_neq in Ne. rewrite N.eqb_sym in Ne. rewrite Ne. done.
Qed.
Print Assumptions C22_partial.

(** ** C30. *)
Definition is_query (c : command) : Prop :=
  match c with
  | CmdGetDeviceInfo | CmdGetCapsInfo | CmdGetConfig _ | CmdGetCount | CmdGetState _
  | CmdGetAppConfig _ _ | CmdGetRangingCount _ | CmdGetPowerStats => True
  | _ => False
  end.
Theorem C30_read_only : forall p h c p' outs,
  commanded p h c p' outs -> is_query c -> p' = p /\ exists m, outs = [OEff h (Send m)].
Proof.
  intros p h c p' outs C Q. destruct (commanded_inv _ _ _ _ _ C) as (d & d' & e & m & R).
  pose proof (cr_handle R) as H.
  assert (d' = d /\ e = []) as [-> ->].
  { destruct c; try destruct Q; cbn [handle_command] in H; try (by injection H as <- <- _).
    unfold core_get_device_info in H. destruct (bool_decide _); [|discriminate]. by injection H as <- <- _. }
  split; [by apply (cr_same R)|]. exists m. apply R.
Qed.
Print Assumptions C30_read_only.
(** What the queries of a session answer. [app_config_get] is the value of a parameter
    (C12, C13). *)
Theorem C30_get_app_config : forall p h id ids p' outs,
  commanded p h (CmdGetAppConfig id ids) p' outs ->
  match session_at p h id with
  | None => outs = [OEff h (Send (SessionGetAppConfigRsp 0x11 (* ERROR_SESSION_NOT_EXIST *) []))]
  | Some s =>
      (exists vs, Forall2 (fun i v => app_config_get (s_cfg s) i = Some v) ids vs
         /\ outs = [OEff h (Send (SessionGetAppConfigRsp 0x00 (zip ids vs)))])
      \/ (exists i, i ∈ ids /\ app_config_get (s_cfg s) i = None)
         /\ outs = [OEff h (Send (SessionGetAppConfigRsp 0x02 (* FAILED *) []))]
  end.
Proof.
  intros p h id ids p' outs C. destruct (commanded_inv _ _ _ _ _ C) as (d & d' & e & m & R).
  rewrite (cr_session R), (cr_outs R).
  pose proof (cr_handle R) as H. cbn [handle_command] in H. apply Ret_inj in H. injection H as <- <- Hm.
  cbn [app map]. unfold session_get_app_config in Hm. destruct (d_sessions d !! id) as [s|]; [|by rewrite <- Hm].
  rewrite get_tlvs_spec in Hm. cbn [app] in Hm.
  destruct (all_available (app_config_get (s_cfg s)) ids) as [(vs & F & E1 & E2)|(I & E1 & E2)].
  - left. exists vs. split; [done|]. rewrite E1, E2 in Hm. by rewrite <- Hm.
  - right. split; [done|]. rewrite E1 in Hm. destruct (filter _ ids) as [|x l]; [done|]. cbn [map] in Hm. by rewrite <- Hm.
Qed.
Print Assumptions C30_get_app_config.
Theorem C30_get_state : forall p h id p' outs,
  commanded p h (CmdGetState id) p' outs ->
  match session_at p h id with
  | None => outs = [OEff h (Send (SessionGetStateRsp 0x11 SsInit))]
  | Some _ => outs = [OEff h (Send (SessionGetStateRsp 0x00 (state_at p h id)))]
  end.
Proof.
  intros p h id p' outs C. destruct (commanded_inv _ _ _ _ _ C) as (d & d' & e & m & R). unfold state_at.
  rewrite (cr_session R), (cr_outs R).
  pose proof (cr_handle R) as H. cbn [handle_command] in H. apply Ret_inj in H. injection H as <- <- Hm.
  unfold session_get_state in Hm. destruct (d_sessions d !! id); by rewrite <- Hm.
Qed.
Print Assumptions C30_get_state.
Example C30_example : exists p', 
  commanded (state_after idle) 0 (CmdGetAppConfig 7 [T_NUMBER_OF_CONTROLEES; T_DST_MAC_ADDRESS]) p'
    [OEff 0 (Send (SessionGetAppConfigRsp 0x00 [(T_NUMBER_OF_CONTROLEES, [1]); (T_DST_MAC_ADDRESS, [2; 0])]))]
  /\ outs_of idle (cmd 0 (CmdGetAppConfig 7 [T_NUMBER_OF_CONTROLEES; T_OTHER 0xe8])) = [OEff 0 (Send (SessionGetAppConfigRsp 0x02 []))].
Proof.
  eexists. split.
  - apply (history_commanded idle 0 (CmdGetAppConfig 7 [T_NUMBER_OF_CONTROLEES; T_DST_MAC_ADDRESS]));
      [split_and!; [done|unfold short_list; cbn; lia|by repeat constructor]|by vm_compute..].
  - by vm_compute.
Qed.
