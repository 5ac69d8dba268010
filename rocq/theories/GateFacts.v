(** The gate before the first reset. *)
From Coq Require Import ZifyBool ZifyN ZifyNat.
From Verif Require Import Base Uci MacAddress AppConfig Codec Session Device Pica BaseFacts AppConfigFacts
  CodecSpec CodecFacts ContextSpec InvFacts StepFacts CommandFacts.

Lemma step_counter e p o p' outs : step e p o = Ret (p', outs) -> p_counter p <= p_counter p'.
Proof.
  destruct o; cbn [step]; intros H.
  - apply Ret_inj in H. unfold add_device, device_init in H. rewrite device_set_state_eq in H. injection H as <- _. cbn. lia.
  - apply Ret_inj in H. unfold disconnect in H. destruct (p_devices p !! h); injection H as <- _; cbn; lia.
  - apply ranging_inv in H as (d & s & ms1 & ms2 & peers & o1 & o2 & s' & _ & _ & _ & _ & _ & _ & -> & _). cbn. lia.
  - apply Ret_inj in H. unfold stop_controlee_ranging in H. injection H as <- _. cbn. lia.
  - unfold uci_packet in H. destruct (p_devices p !! h); [|injection H as <- _; lia].
    destruct (receive_packet _ _) as [[d' e']|]; [|discriminate]. injection H as <- _. cbn. lia.
  - unfold create_anchor in H. destruct (get_category p m); [injection H as <- _; lia|].
    destruct (p_anchors p !! m); [discriminate|]. injection H as <- _. cbn. lia.
  - apply Ret_inj in H. unfold destroy_anchor in H. destruct (p_anchors p !! m); injection H as <- _; cbn; lia.
  - apply Ret_inj in H. injection H as <- _. cbn. lia.
Qed.
Lemma run_counter l p p' outs : run p l = Ret (p', outs) -> p_counter p <= p_counter p'.
Proof.
  revert p outs. induction l as [|[e o] l IH]; intros p outs H; cbn [run] in H; [injection H as <- _; lia|].
  destruct (step e p o) as [[p1 o1]|] eqn:S; [|discriminate]. cbn [obind] in H.
  destruct (run p1 l) as [[p2 o2]|] eqn:R; [|discriminate]. injection H as <- _.
  apply step_counter in S. apply IH in R. lia.
Qed.

Lemma encodes_reset_dec packet : wf_bytes packet -> encodes (CmdDeviceReset 0) packet \/ ~ encodes (CmdDeviceReset 0) packet.
Proof.
  intros W. set (c := CmdDeviceReset 0). assert (wf_cmd c) as Wc by done. destruct (decode_control_packet packet) as [cp|] eqn:D.
  2:{ right. intros E. destruct (proj2 (decode_command_iff c packet W) (conj Wc E)) as (cp & D' & _). congruence. }
  destruct (decide (cp_mt cp = MtCommand)) as [M|M].
  2:{ right. intros E. destruct (proj2 (decode_command_iff c packet W) (conj Wc E)) as (cp' & D' & M' & _). congruence. }
  destruct (specialize_command (cp_gid cp) (cp_payload cp)) as [c'| | |] eqn:S.
  2-4: right; intros E; destruct (proj2 (decode_command_iff c packet W) (conj Wc E)) as (cp' & D' & M' & S'); congruence.
  destruct (proj1 (decode_command_iff c' packet W)) as [Wc' E']; [by exists cp|].
  destruct (is_reset c') eqn:R.
  - destruct c'; try discriminate R. cbn in Wc'. subst. by left.
  - right. intros E. assert (c = c') as <- by (eapply encodes_inj; eauto). discriminate R.
Qed.

(** The devices present after a step, and whether they have been reset. *)
Lemma step_reset cl e p o p' outs h d' : pinv cl p -> wf_op o -> step e p o = Ret (p', outs) -> p_devices p' !! h = Some d' ->
  (o = Connect /\ h = p_counter p /\ p_devices p !! h = None /\ d_is_reset d' = false)
  \/ exists d, p_devices p !! h = Some d /\
     ((exists packet, o = UciPacket h packet /\ encodes (CmdDeviceReset 0) packet) /\ d_is_reset d' = true
      \/ ~ (exists packet, o = UciPacket h packet /\ encodes (CmdDeviceReset 0) packet) /\ d_is_reset d' = d_is_reset d).
Proof.
  intros I W H L. pose proof I as [D _ _].
  assert (forall o', (match o' with UciPacket _ _ => False | _ => True end) ->
    ~ exists packet, o' = UciPacket h packet /\ encodes (CmdDeviceReset 0) packet) as NP.
  { intros o' N (pk & -> & _). done. }
  assert (forall d, p_devices p !! h = Some d -> (match o with UciPacket _ _ => False | _ => True end) -> d_is_reset d' = d_is_reset d ->
    exists d, p_devices p !! h = Some d /\
     ((exists packet, o = UciPacket h packet /\ encodes (CmdDeviceReset 0) packet) /\ d_is_reset d' = true
      \/ ~ (exists packet, o = UciPacket h packet /\ encodes (CmdDeviceReset 0) packet) /\ d_is_reset d' = d_is_reset d)) as G.
  { intros d L' M E. exists d. split; [done|]. right. split; [by apply NP|done]. }
  destruct o; cbn [step] in H.
  - apply Ret_inj in H. unfold add_device, device_init in H. rewrite device_set_state_eq in H. injection H as <- _. cbn in L.
    destruct (N.eq_dec (p_counter p) h) as [<-|Hne].
    + rewrite lookup_insert in L. injection L as <-. left. split_and!; try done.
      destruct (p_devices p !! p_counter p) eqn:E; [destruct (D _ _ E) as (_ & _ & _ & ?); lia|done].
    + rewrite lookup_insert_ne in L by done. right. by eapply G.
  - apply Ret_inj in H. unfold disconnect in H. right. destruct (p_devices p !! h0); injection H as <- _.
    + cbn in L. apply lookup_delete_Some in L as [_ L]. by eapply G.
    + by eapply G.
  - apply ranging_inv in H as (d & s & ms1 & ms2 & peers & o1 & o2 & s' & L' & _ & _ & _ & _ & _ & -> & _).
    cbn in L. right. destruct (N.eq_dec h0 h) as [->|Hne].
    + rewrite lookup_insert in L. injection L as <-. by eapply G.
    + rewrite lookup_insert_ne in L by done. by eapply G.
  - apply Ret_inj in H. unfold stop_controlee_ranging in H. injection H as <- _. cbn in L. right.
    rewrite lookup_fmap in L. apply fmap_Some in L as (d & L & ->). eapply G; [done|done|].
    unfold stop_controlee. destruct (d_sessions d !! id); [|done]. destruct (negb _); [done|].
    destruct (bool_decide _); [|done]. rewrite stop_ranging_task_eq, session_set_state_eq, device_set_state_eq.
    by destruct (_ =? 0).
  - unfold uci_packet in H. right. destruct (p_devices p !! h0) as [d0|] eqn:L0.
    2:{ injection H as <- _. destruct (N.eq_dec h0 h) as [->|Hne]; [congruence|]. exists d'. split; [done|].
        right. split; [|done]. intros (pk & E & _). injection E. congruence. }
    destruct (receive_packet d0 packet) as [[d1 e1]|] eqn:R; [|discriminate]. cbn [obind] in H. injection H as <- _.
    cbn in L. destruct (N.eq_dec h0 h) as [->|Hne].
    2:{ rewrite lookup_insert_ne in L by done. exists d'. split; [done|].
        right. split; [|done]. intros (pk & E & _). injection E. congruence. }
    rewrite lookup_insert in L. injection L as <-. exists d0. split; [done|].
    destruct (encodes_reset_dec packet W) as [Enc|Enc].
    + left. split; [by exists packet|]. rewrite (receive_command_eq d0 (CmdDeviceReset 0)) in R by (done || by right).
      cbn [handle_command] in R. rewrite core_reset_eq in R. cbn [obind] in R. destruct (wire _); [|discriminate].
      apply Ret_inj in R. by injection R as <- _.
    + right. split; [intros (pk & E & Enc'); by injection E as <-|]. apply receive_received in R; [|done].
      destruct R as [Hh|Hh Hd|pp dd m b Hh Hd Hs Hw|h1 o1 rest E Hc|Hh Hv Hr Hl|c dd e2 m b Wc Ec Hr Hc Hw|h1 b1 b2 rest E Hh Hr Hv Hg]; try done.
      * destruct pp; cbn [device_data_message_snd] in Hs; [|by injection Hs as <- _].
        destruct (d_sessions d0 !! _); [|by injection Hs as <- _].
        destruct (session_data_message_snd _ _ _ _) as [[s' m']|]; [|discriminate]. by injection Hs as <- _.
      * rewrite (handle_is_reset _ _ _ _ _ Hc). destruct c; try done. cbn in Wc. by subst.
  - right. unfold create_anchor in H. destruct (get_category p m); [injection H as <- _; by eapply G|].
    destruct (p_anchors p !! m); [discriminate|]. injection H as <- _. by eapply G.
  - right. apply Ret_inj in H. unfold destroy_anchor in H. destruct (p_anchors p !! m); injection H as <- _; by eapply G.
  - right. apply Ret_inj in H. injection H as <- _. by eapply G.
Qed.

Lemma connected_counter p h : reachable p -> connected p h -> h < p_counter p.
Proof. intros R (d & L). apply reachable_pinv in R. by destruct (pi_device _ _ R _ _ L) as (_ & _ & _ & ?). Qed.
Lemma reaches_prefix l1 l2 p outs : reaches (l1 ++ l2) p outs ->
  exists p1 o1 o2, reaches l1 p1 o1 /\ run p1 l2 = Ret (p, o2) /\ outs = o1 ++ o2.
Proof.
  intros [W R]. apply Forall_app in W as [W _]. rewrite run_app in R.
  destruct (run pica_new l1) as [[p1 o1]|] eqn:E; [|discriminate]. cbn [obind] in R.
  destruct (run p1 l2) as [[p2 o2]|] eqn:E2; [|discriminate]. injection R as <- <-.
  by exists p1, o1, o2.
Qed.
Lemma serving_iff l p outs h : reaches l p outs -> connected p h -> (serving p h <-> has_been_reset l h).
Proof.
  intros R. revert l p outs R h. apply (reaches_ind (fun l p outs => forall h, connected p h -> (serving p h <-> has_been_reset l h))).
  - intros h (d & L). discriminate L.
  - intros l p outs e o p' outs' R IH We Wo S h (d' & L').
    pose proof (reaches_pinv _ _ _ R) as I.
    assert (forall x, has_been_reset (l ++ [x]) h <-> has_been_reset l h \/
      (exists e packet, x = (e, UciPacket h packet) /\ encodes (CmdDeviceReset 0) packet) /\ connected p h) as Hs.
    { intros x. split.
      - intros (l1 & e1 & pk & l2 & p1 & o1 & E & Enc & R1 & C).
        destruct (decide (l2 = [])) as [->|Ne].
        + apply app_inj_tail in E as [<- ->]. right. split; [by exists e1, pk|].
          destruct R as [_ R]. rewrite R in R1. injection R1 as <- <-. done.
        + apply exists_last in Ne as (l3 & y & ->). rewrite app_comm_cons, app_assoc in E.
          apply app_inj_tail in E as [-> ->]. left. by exists l1, e1, pk, l3, p1, o1.
      - intros [(l1 & e1 & pk & l2 & p1 & o1 & -> & Enc & R1 & C)|((e1 & pk & -> & Enc) & C)].
        + exists l1, e1, pk, (l2 ++ [x]), p1, o1. by rewrite <- app_assoc.
        + exists l, e1, pk, [], p, outs. destruct R as [_ R]. done. }
    rewrite Hs. unfold serving. rewrite L'.
    destruct (step_reset _ _ _ _ _ _ _ _ I Wo S L') as [(-> & -> & N & F)|(d & L & [((pk & -> & Enc) & F)|(NR & F)])].
    + split; [intros (d2 & E & T); injection E as <-; congruence|].
      intros [(l1 & e1 & pk & l2 & p1 & o1 & -> & Enc & R1 & C)|((e1 & pk & E & _) & _)]; [|discriminate E].
      exfalso. apply reaches_prefix in R as (p2 & o2 & o3 & R2 & R3 & _).
      pose proof R2 as [_ R4]. rewrite R1 in R4. injection R4 as <- <-.
      apply (connected_counter _ _ (ex_intro _ _ (ex_intro _ _ R2))) in C. apply run_counter in R3. lia.
    + split; [intros _; right; split; [by exists e, pk|by exists d]|]. intros _. by exists d'.
    + rewrite <- IH by by exists d. unfold serving. rewrite L. split.
      * intros (d2 & E & T). injection E as <-. left. exists d. by rewrite <- F.
      * intros [(d2 & E & T)|((e1 & pk & E & Enc) & _)].
        -- injection E as <-. exists d'. by rewrite F.
        -- injection E as _ ->. destruct NR. by exists pk.
Qed.

Lemma gate_step e p h d c packet : p_devices p !! h = Some d -> d_is_reset d = false -> wf_bytes packet ->
  wf_cmd c -> encodes c packet -> c <> CmdDeviceReset 0 ->
  step e p (UciPacket h packet) = Ret (p, [OEff h (Send (CoreDeviceStatusNtf DsError))]).
Proof.
  intros L Hr W Wc E N. cbn [step]. unfold uci_packet. rewrite L.
  destruct (proj2 (decode_command_iff c packet W) (conj Wc E)) as (cp & D & M & S).
  assert (receive_packet d packet = Ret (d, [Send (CoreDeviceStatusNtf DsError)])) as ->.
  2:{ cbn [obind]. by rewrite p_set_device_same. }
  assert (reset_like packet = false) as RL.
  { destruct (reset_like packet) eqn:RL; [|done]. destruct N. by eapply reset_like_command. }
  unfold reset_like in RL. rewrite D in RL.
  pose proof E as (h1 & o & r1 & r2 & -> & Hm & _). unfold receive_packet.
  pose proof W as W0. apply wf_bytes_cons in W0 as [Hh Wr]. rewrite hdr_mt_cases by done. rewrite Hm. cbn [mt_of_code N.eqb Pos.eqb].
  rewrite D. unfold receive_command. rewrite Hr, RL. done.
Qed.
