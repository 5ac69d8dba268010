(** Proofs of C98: the device of a host is a function of what concerns this host. *)
From Verif Require Import Base Uci MacAddress AppConfig Codec Session Device Pica.
From Verif Require Import BaseFacts CodecSpec ContextSpec HistorySpec IsolationSpec RangingSpec InvFacts StepFacts CommandFacts RangingFacts SetupFacts Demo PropsSession PropsContext PropsMulticast.

Definition eff_later (e : list eff) : list msg := concat (map (fun x => match x with After _ m => [m] | _ => [] end) e).
Lemma scheduled_later h outs : scheduled h outs = eff_later (effs_at h outs).
Proof.
  unfold scheduled, eff_later, effs_at. induction outs as [|o outs IH]; [done|]. cbn [map concat].
  rewrite map_app, concat_app, IH. f_equal. destruct o as [h' x| | |]; try done. unfold scheduled_to, effs_of.
  destruct (h' =? h); destruct x; cbn; done.
Qed.
Definition eff_messages (e : list eff) : list msg := concat (map (fun x => match x with Send m | After _ m => [m] | _ => [] end) e).
Lemma messages_effs h outs : messages h outs = eff_messages (effs_at h outs).
Proof.
  unfold messages, eff_messages, effs_at. induction outs as [|o outs IH]; [done|]. cbn [map concat].
  rewrite map_app, concat_app, IH. f_equal. destruct o as [h' x| | |]; try done. unfold messages_to, sent_to, scheduled_to, effs_of.
  destruct (h' =? h); destruct x; cbn; done.
Qed.
Definition tells_effs (e : list eff) : list msg * list msg := (map blank (eff_sent e), eff_later e).
Lemma told_effs h outs : (map blank (sent h outs), scheduled h outs) = tells_effs (effs_at h outs).
Proof. unfold tells_effs. by rewrite sent_effs, scheduled_later. Qed.

(** What a command does to the device it concerns. *)
Definition local (h : N) (od : option device) (o : op) : option device * (list msg * list msg) :=
  match o, od with
  | Connect, _ => let '(d, e) := device_init (device_new h (mac_of_handle h)) in (Some d, tells_effs e)
  | Disconnect _, Some d => (None, tells_effs (device_drop d))
  | Ranging _ id, Some d =>
      match d_sessions d !! id with
      | Some s =>
          let on := is_session_info_ntf_enabled s in
          (Some (d_set_sessions (<[id := clear_data (if on then s_set_seq (s_seq s + 1) s else s)]> (d_sessions d)) d),
           (if on then [SessionInfoNtf (s_seq s) id 0 0 [] []] else [], []))
      | None => (None, ([], []))
      end
  | StopRanging m id, Some d => (Some (stop_controlee m id d).1, tells_effs (stop_controlee m id d).2)
  | UciPacket _ b, Some d => match receive_packet d b with Ret (d', e) => (Some d', tells_effs e) | Crash _ => (None, ([], [])) end
  | _, _ => (None, ([], []))
  end.
Lemma stop_cases c m id d : dinv c d ->
  (eff_messages (stop_controlee m id d).2 = [] /\ stop_controlee m id d = (d, [])) \/ eff_messages (stop_controlee m id d).2 <> [].
Proof.
  intros I. destruct (d_sessions d !! id) as [s|] eqn:L.
  2:{ left. by rewrite (stop_controlee_none m id d) by (intros s; rewrite L; discriminate). }
  destruct (decide (s_state s = SsActive /\ device_mac_address (s_cfg s) = Some m)) as [[A M]|N].
  - right. destruct (stop_controlee_eq _ _ _ _ _ I L A M) as (st & e3 & -> & _). done.
  - left. rewrite (stop_controlee_none m id d); [done|]. intros s' L'. rewrite L in L'. by injection L' as <-.
Qed.
Lemma send_data_effs h x peers : h ∉ peers -> effs_at h (map (fun k => OEff k (Send x)) peers) = [].
Proof.
  intros Ni. apply effs_at_none. intros y Hy. apply in_map_iff in Hy as (k & E & Hk). injection E as -> _. apply Ni. by apply elem_of_list_In.
Qed.
Lemma local_step cl h e p o p' outs : pinv cl p -> step e p o = Ret (p', outs) ->
  match view_of h (o, outs) with
  | [] => p_devices p' !! h = p_devices p !! h /\ Forall is_data (messages h outs)
  | l => l = [o] /\ (p_devices p' !! h, (map blank (sent h outs), scheduled h outs)) = local h (p_devices p !! h) o
  end.
Proof.
  intros Pi H. pose proof (pi_device _ _ Pi) as D.
  assert (match o with Ranging _ _ | StopRanging _ _ | UciPacket _ _ => False | _ => True end -> subject p o <> Some h ->
     p_devices p' !! h = p_devices p !! h /\ Forall is_data (messages h outs)) as Env.
  { intros K Ns. destruct (C38_environment _ _ _ _ _ _ H K Ns) as [-> No]. split; [done|]. rewrite messages_effs, effs_at_none by done. constructor. }
  rewrite told_effs. unfold view_of. cbn [fst snd].
  destruct o as [|k|k id|m id|k b|m|m|k].
  - cbn [step] in H. pose proof H as H0. apply Ret_inj in H. unfold add_device in H. destruct (device_init _) as [d ef] eqn:Di. injection H as <- <-.
    assert (existsb (fun o => match o with OConnected h' _ => h' =? h | _ => false end) (map (OEff (p_counter p)) ef ++ [OConnected (p_counter p) (d_mac d)]) = (p_counter p =? h)) as ->.
    { rewrite existsb_app. cbn. rewrite orb_false_r. replace (existsb _ (map _ ef)) with false; [done|]. clear. induction ef; done. }
    destruct (N.eqb_spec (p_counter p) h) as [E|Ne]; [|apply Env; [done|cbn; congruence]].
    split; [done|]. rewrite <- E. cbn [p_devices]. rewrite lookup_insert. unfold local. rewrite Di. f_equal. f_equal.
    rewrite effs_at_app, effs_at_same. cbn. by rewrite app_nil_r.
  - destruct (N.eqb_spec k h) as [->|Ne]; [|apply Env; [done|cbn; congruence]].
    split; [done|]. cbn [step] in H. apply Ret_inj in H. unfold disconnect in H. destruct (p_devices p !! h) as [d|] eqn:L; injection H as <- <-.
    + cbn [p_devices p_set_devices]. rewrite lookup_delete. unfold local. f_equal. f_equal.
      change (ODisconnected h (d_mac d) :: map (OEff h) (device_drop d)) with ([ODisconnected h (d_mac d)] ++ map (OEff h) (device_drop d)).
      rewrite effs_at_app, effs_at_same. done.
    + by rewrite L.
  - cbn [step] in H. apply ranging_inv in H as (d & s & ms1 & ms2 & peers & o1 & o2 & s' & L & Ls & _ & Pl & Sd & Si & -> & ->).
    apply send_data_outs in Sd as (m & _ & -> & _).
    destruct (N.eqb_spec k h) as [->|Ne].
    + split; [done|]. cbn [p_devices p_set_device p_set_devices]. rewrite lookup_insert. unfold local. rewrite L, Ls.
      assert (h ∉ peers) as Np.
      { apply (peer_loop_spec _ _ _ _ _ _ _ _ _ _ Pi L Ls) in Pl as (ks & _ & _ & _ & _ & _ & Cp).
        - intros Hp. apply Cp in Hp as [_ Rc]. clear -Rc. by destruct Rc as (? & _).
        - rewrite (env_order_perm e). apply NoDup_fst_map_to_list.
        - intros j. rewrite (env_order_perm e). intros Hj. apply elem_of_list_fmap in Hj as ([j' dj] & -> & Hj). apply elem_of_map_to_list in Hj. by exists dj. }
      rewrite effs_at_app, (send_data_effs _ _ peers) by done.
      apply send_info_session in Si as [(-> & -> & ->)|(-> & _ & -> & _ & -> & _)]; [done|].
      f_equal. cbn. rewrite N.eqb_refl. done.
    + cbn [p_devices p_set_device p_set_devices]. split; [by apply lookup_insert_ne|].
      rewrite messages_app. apply Forall_app. split.
      * apply Forall_forall. intros x Hx. unfold messages in Hx. rewrite map_map in Hx. apply elem_of_list_In, in_concat in Hx as (l & Hl & Hx).
        apply in_map_iff in Hl as (j & <- & _). unfold messages_to in Hx. cbn in Hx. rewrite app_nil_r in Hx. destruct (j =? h); [|done]. destruct Hx as [<-|[]]. by eexists _, _, _, _, _.
      * apply send_info_session in Si as [(_ & _ & ->)|(_ & _ & _ & _ & -> & _)]; [constructor|].
        apply N.eqb_neq in Ne. unfold messages, messages_to. cbn. rewrite Ne. constructor.
  - cbn [step] in H. apply Ret_inj in H. assert (p' = (stop_controlee_ranging e p m id).1 /\ outs = (stop_controlee_ranging e p m id).2) as [-> ->] by by rewrite H.
    rewrite messages_effs, stop_effs. cbn [stop_controlee_ranging fst p_devices p_set_devices]. rewrite lookup_fmap.
    destruct (p_devices p !! h) as [d|] eqn:L; cbn [fmap option_fmap option_map].
    + destruct (D _ _ L) as (I & _). destruct (stop_cases _ m id d I) as [[-> ->]|Ne]; [split; [done|constructor]|].
      destruct (eff_messages _); done.
    + split; [done|constructor].
  - destruct (N.eqb_spec k h) as [->|Ne].
    + split; [done|]. cbn [step] in H. unfold uci_packet in H. destruct (p_devices p !! h) as [d|] eqn:L; unfold local.
      * destruct (receive_packet d b) as [[d1 e1]|]; [|discriminate]. cbn [obind] in H. apply Ret_inj in H. injection H as <- <-.
        cbn [p_devices p_set_device p_set_devices]. by rewrite lookup_insert, effs_at_same.
      * apply Ret_inj in H. injection H as <- <-. by rewrite L.
    + destruct (C38_packet _ _ _ _ _ _ H) as (O & _ & _ & _ & Ou). split; [apply O; congruence|].
      rewrite messages_effs, effs_at_none; [constructor|]. intros x Hx. apply Ou in Hx as [y E]. congruence.
  - by apply Env.
  - by apply Env.
  - by apply Env.
Qed.

Fixpoint locals (h : N) (od : option device) (l : list op) : option device * list (list msg * list msg) :=
  match l with
  | [] => (od, [])
  | o :: l => let '(od, t) := local h od o in let '(od, ts) := locals h od l in (od, t :: ts)
  end.
Lemma locals_snoc h l : forall od o, locals h od (l ++ [o]) =
  let '(od1, ts) := locals h od l in let '(od2, t) := local h od1 o in (od2, ts ++ [t]).
Proof.
  induction l as [|x l IH]; intros od o; cbn [locals app]; [by destruct (local h od o)|].
  destruct (local h od x) as [od1 t]. rewrite IH. destruct (locals h od1 l) as [od2 ts]. by destruct (local h od2 o).
Qed.
Lemma executes_locals h p tr : executes p tr -> (p_devices p !! h, told h tr) = locals h None (view h tr).
Proof.
  induction 1 as [|p tr e o p' outs X IH We Wo S]; [done|].
  pose proof (local_step _ h _ _ _ _ _ (executes_pinv _ _ X) S) as L.
  unfold view, told in *. rewrite !map_app, !concat_app. cbn [map concat]. rewrite !app_nil_r. unfold told_of at 2.
  destruct (view_of h (o, outs)) as [|x l] eqn:V.
  - rewrite !app_nil_r. destruct L as [-> _]. done.
  - destruct L as [-> L]. rewrite locals_snoc, <- IH, <- L. done.
Qed.
