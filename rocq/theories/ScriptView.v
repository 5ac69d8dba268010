(** What one host sees of an execution, and how a program runs. *)
From Coq Require Import ZifyBool ZifyN ZifyNat Sorted.
From Verif Require Import Base Uci MacAddress AppConfig Codec Session Device Pica Sys Transport BaseFacts CodecSpec ContextSpec HistorySpec SessionSpec InvFacts StepFacts.
From Verif Require Import CodecFacts CommandFacts SessionFacts RangingSpec EffectFacts SysSpec SysFacts ScheduleFacts DeliveryFacts PropsContext PropsMulticast PropsSession DialogueSpec DialogueFacts SetupFacts.
From Verif Require Import TransportSpec TransportFacts PyHost PyHostSpec PyHostFacts PyReader PyReaderSpec PyReaderFacts Script ScriptSpec ScriptFacts.
Notation Send := Session.Send (only parsing).

(** ** What concerns one host *)
Record view : Type := View {
  v_now : N; v_dev : option device; v_eff : list eff; v_wait : list (N * msg); v_timers : list timer; v_rounds : list N;
  v_packets : list bytes; v_got : list msg; v_data : list msg }.
Definition matters (x : eff) : bool :=
  match x with Send m | After _ m => negb (data_message_received m) | SpawnStop _ _ _ => false | _ => true end.
Definition clean (e : list eff) : list eff := List.filter matters e.
Definition round_of (h : N) (o : op) : list N := match o with Ranging h' id => if h' =? h then [id] else [] | _ => [] end.
Definition rounds (h : N) (l : list op) : list N := concat (map (round_of h) l).
Definition of_host (h : N) (t : timer) : bool := t_host t =? h.
Definition control_wait (x : N * msg) : bool := negb (data_message_received x.2).
Definition view_of (h : N) (y : sys) : view :=
  View (y_now y) (p_devices (y_pica y) !! h) (clean (effs_at h (y_todo y))) (List.filter control_wait (dw h (y_delayed y)))
    (List.filter (of_host h) (y_timers y)) (rounds h (y_queue y)) (packets h (y_queue y)) (control_messages (delivered h y))
    (data_messages (delivered h y)).

Inductive act : Type := ATick | ARead (p : bytes) | AOther.
Definition act_of (h : N) (l : label) : act :=
  match l with LTick => ATick | LRead h' p => if h' =? h then ARead p else AOther | _ => AOther end.
Section View.
  Context (h : N).
  Inductive vstep : view -> act -> view -> Prop :=
    | VSame v : vstep v AOther v
    | VTick n D E W T R P G X : vstep (View n D E W T R P G X) ATick (View (n + 1) D E W T R P G X)
    | VRead n D E W T R P G X p : vstep (View n D E W T R P G X) (ARead p) (View n D E W T R (P ++ [p]) G X)
    | VConnect n W T R P G X d : d_sessions d = ∅ -> d_state d = DsReady -> d_active d = 0 ->
        vstep (View n None [] W T R P G X) AOther (View n (Some d) [After 5 (CoreDeviceStatusNtf DsReady)] W T R P G X)
    | VPacket n d W T R p P G X d' e : receive_packet d p = Ret (d', e) ->
        vstep (View n (Some d) [] W T R (p :: P) G X) AOther (View n (Some d') (clean e) W T R P G X)
    | VRound n d W T id R P G X s s' ms E : d_sessions d !! id = Some s ->
        (is_session_info_ntf_enabled s = false /\ s' = s /\ E = []
         \/ is_session_info_ntf_enabled s = true /\ s' = s_set_seq (s_seq s + 1) s /\ E = [Send (SessionInfoNtf (s_seq s) id 0 0 ms [])]) ->
        vstep (View n (Some d) [] W T (id :: R) P G X) AOther (View n (Some (d_set_sessions (<[id := clear_data s']> (d_sessions d)) d)) E W T R P G X)
    | VSend n D m E W T R P G X : vstep (View n D (Send m :: E) W T R P G X) AOther (View n D E W T R P (G ++ [m]) X)
    | VAfter n D ms m E W T R P G X : vstep (View n D (After ms m :: E) W T R P G X) AOther (View n D E (W ++ [(n + ms, m)]) T R P G X)
    | VSpawn n D id iv E W T R P G X : vstep (View n D (SpawnRanging id iv :: E) W T R P G X) AOther (View n D E W (T ++ [Timer h id iv (n + iv) true]) R P G X)
    | VAbort n D id E W T R P G X : vstep (View n D (AbortRanging id :: E) W T R P G X) AOther (View n D E W (map (abort h id) T) R P G X)
    | VTimer n D E W T1 t T2 R P G X : t_deadline t <= n -> t_live t = true ->
        vstep (View n D E W (T1 ++ t :: T2) R P G X) AOther (View n D E W (T1 ++ Timer (t_host t) (t_session t) (t_interval t) (n + t_interval t) true :: T2) (R ++ [t_session t]) P G X)
    | VLate n D E W T1 t T2 R P G X : t_deadline t <= n -> t_live t = false ->
        vstep (View n D E W (T1 ++ t :: T2) R P G X) AOther (View n D E W (T1 ++ T2) (R ++ [t_session t]) P G X)
    | VTimerEnd n D E W T1 t T2 R P G X : t_live t = false ->
        vstep (View n D E W (T1 ++ t :: T2) R P G X) AOther (View n D E W (T1 ++ T2) R P G X)
    | VNotify n D E W1 x W2 T R P G X : x.1 <= n ->
        vstep (View n D E (W1 ++ x :: W2) T R P G X) AOther (View n D E (W1 ++ W2) T R P (G ++ [x.2]) X)
    | VData n D E W T R P G X m : vstep (View n D E W T R P G X) AOther (View n D E W T R P G (X ++ [m])).

  Lemma clean_app e e' : clean (e ++ e') = clean e ++ clean e'.
  Proof. apply List.filter_app. Qed.
  Lemma rounds_app q q' : rounds h (q ++ q') = rounds h q ++ rounds h q'.
  Proof. unfold rounds. by rewrite map_app, concat_app. Qed.
  Lemma rounds_snoc q o : rounds h (q ++ [o]) = rounds h q ++ round_of h o.
  Proof. rewrite rounds_app. unfold rounds at 2. cbn. by rewrite app_nil_r. Qed.
  Lemma pks_snoc q o : packets h (q ++ [o]) = packets h q ++ packet_of h o.
  Proof. by rewrite packets_app, packets_cons, app_nil_r. Qed.
  Lemma control_app l l' : control_messages (l ++ l') = control_messages l ++ control_messages l'.
  Proof. apply List.filter_app. Qed.
  Lemma data_app l l' : data_messages (l ++ l') = data_messages l ++ data_messages l'.
  Proof. apply List.filter_app. Qed.
  Lemma control_data m : data_message_received m = false -> control_messages [m] = [m] /\ data_messages [m] = [].
  Proof. intros D. cbn. by rewrite D. Qed.
  Lemma data_control m : data_message_received m = true -> control_messages [m] = [] /\ data_messages [m] = [m].
  Proof. intros D. cbn. by rewrite D. Qed.
  Lemma abort_other k id t : k <> h -> List.filter (of_host h) (map (abort k id) t) = List.filter (of_host h) t.
  Proof.
    intros N. induction t as [|x t IH]; [done|]. cbn [map List.filter]. rewrite IH. unfold abort, of_host.
    destruct (N.eqb_spec (t_host x) k) as [E|]; cbn [andb]; [|done]. assert ((t_host x =? h) = false) as Ek by (rewrite E; by apply N.eqb_neq). destruct (t_session x =? id); cbn [t_host]; by rewrite Ek.
  Qed.
  Lemma abort_same id t : List.filter (of_host h) (map (abort h id) t) = map (abort h id) (List.filter (of_host h) t).
  Proof.
    induction t as [|x t IH]; [done|]. cbn [map List.filter]. rewrite IH.
    assert (of_host h (abort h id x) = of_host h x) as -> by (unfold abort, of_host; by destruct (_ && _)). by destruct (of_host h x).
  Qed.

  (** What the other commands do to the device. *)
  Lemma clean_data closed s id peers o : send_data closed s id peers = Ret o -> clean (effs_at h o) = [].
  Proof.
    intros Sd. apply send_data_outs in Sd as (m & _ & -> & _). unfold effs_at. induction peers as [|k peers IH]; [done|]. cbn [map concat]. rewrite clean_app, IH, app_nil_r.
    unfold effs_of. by destruct (k =? h).
  Qed.
  Lemma frame_other e p o p' outs d : reachable p -> step e p o = Ret (p', outs) -> p_devices p !! h = Some d ->
    packet_of h o = [] -> round_of h o = [] -> o <> Disconnect h -> (forall a id, o = StopRanging a id -> stop_controlee a id d = (d, [])) ->
    p_devices p' !! h = Some d /\ clean (effs_at h outs) = [].
  Proof.
    intros Re S L Np Nr Nd Ns. pose proof (reachable_pinv _ Re) as Pi. destruct (pi_device _ _ Pi _ _ L) as (_ & _ & _ & Lt).
    assert (match o with Ranging _ _ | StopRanging _ _ | UciPacket _ _ => False | _ => True end -> subject p o <> Some h -> p_devices p' !! h = Some d /\ clean (effs_at h outs) = []) as Env.
    { intros O N. destruct (C38_environment _ _ _ _ _ _ S O N) as [E1 E2]. rewrite E1. split; [done|]. by rewrite effs_at_none. }
    destruct o as [|k|k id|m id|k packet|m|m|k]; try (by apply Env).
    - apply Env; [done|]. cbn. intros E. injection E as E. lia.
    - apply Env; [done|]. cbn. intros E. injection E as E. congruence.
    - assert (h <> k) as Ne by (intros <-; cbn in Nr; by rewrite N.eqb_refl in Nr).
      cbn [step] in S. apply ranging_inv in S as (dk & s & ms1 & ms2 & peers & o1 & o2 & s' & Lk & Ls & _ & Lp & Sd & Si & -> & ->). cbn. rewrite lookup_insert_ne by done. split; [done|].
      rewrite effs_at_app, clean_app, (clean_data _ _ _ _ _ Sd).
      apply send_info_session in Si as [(_ & _ & ->)|(_ & _ & _ & _ & -> & _)]; [done|]. unfold effs_at. cbn. apply not_eq_sym, N.eqb_neq in Ne. by rewrite Ne.
    - cbn [step] in S. apply Ret_inj in S. specialize (Ns _ _ eq_refl). rename Ns into E.
      pose proof (stop_effs e p m id h) as Es. rewrite S in Es. cbn [snd] in Es. rewrite Es, L, E. split; [|done].
      unfold stop_controlee_ranging in S. injection S as <- _. cbn. rewrite lookup_fmap, L. cbn [fmap option_fmap option_map]. by rewrite E.
    - assert (h <> k) as Ne. { intros <-. cbn in Np. by rewrite N.eqb_refl in Np. }
      destruct (C38_packet _ _ _ _ _ _ S) as (E1 & _ & _ & _ & E2). rewrite E1 by done. split; [done|]. rewrite effs_at_none; [done|]. intros x I. destruct (E2 _ I) as [? [=]]. congruence.
  Qed.
  Lemma round_view e p id p' outs : step e p (Ranging h id) = Ret (p', outs) -> exists d s s' ms,
    p_devices p !! h = Some d /\ d_sessions d !! id = Some s /\ p_devices p' !! h = Some (d_set_sessions (<[id := clear_data s']> (d_sessions d)) d)
    /\ (is_session_info_ntf_enabled s = false /\ s' = s /\ clean (effs_at h outs) = []
         \/ is_session_info_ntf_enabled s = true /\ s' = s_set_seq (s_seq s + 1) s /\ clean (effs_at h outs) = [Send (SessionInfoNtf (s_seq s) id 0 0 ms [])]).
  Proof.
    cbn [step]. intros S. apply ranging_inv in S as (d & s & ms1 & ms2 & peers & o1 & o2 & s' & L & Ls & _ & _ & Sd & Si & -> & ->).
    exists d, s, s', (ms1 ++ ms2). split_and!; [done|done|apply lookup_insert|]. rewrite effs_at_app, clean_app, (clean_data _ _ _ _ _ Sd).
    apply send_info_session in Si as [(? & -> & ->)|(? & _ & -> & _ & -> & _)]; [by left|right]. split_and!; [done|done|]. unfold effs_at, effs_of. cbn. by rewrite N.eqb_refl.
  Qed.

  Lemma view_eq y y' : y_now y' = y_now y -> p_devices (y_pica y') !! h = p_devices (y_pica y) !! h -> clean (effs_at h (y_todo y')) = clean (effs_at h (y_todo y)) ->
    List.filter control_wait (dw h (y_delayed y')) = List.filter control_wait (dw h (y_delayed y)) -> List.filter (of_host h) (y_timers y') = List.filter (of_host h) (y_timers y) ->
    rounds h (y_queue y') = rounds h (y_queue y) -> packets h (y_queue y') = packets h (y_queue y) -> delivered h y' = delivered h y ->
    view_of h y' = view_of h y.
  Proof. intros. unfold view_of. congruence. Qed.

  Lemma view_step y l y' : reachable (y_pica y) -> cinv y -> moved y l y' -> y_crash y' = None -> ~ gone h y' ->
    (forall e a id q d, l = LTake e -> y_queue y = StopRanging a id :: q -> p_devices (y_pica y) !! h = Some d -> stop_controlee a id d = (d, [])) ->
    vstep (view_of h y) (act_of h l) (view_of h y').
  Proof.
    intros Re Ci M Cr G Ns. pose proof (reachable_pinv _ Re) as Pi.
    assert (forall y'', view_of h y'' = view_of h y -> vstep (view_of h y) AOther (view_of h y'')) as Same by (intros ? ->; constructor).
    destruct M; cbn [act_of] in *.
    - (* take *) rename H into T, H0 into Q, H1 into S. unfold view_of at 1. rewrite T, Q. cbn [effs_at map concat clean List.filter].
      change (rounds h (o :: q)) with (round_of h o ++ rounds h q). rewrite packets_cons.
      destruct (packet_of h o) as [|pk []] eqn:Po; [| |destruct o; cbn in Po; try discriminate; by destruct (_ =? h)].
      + destruct (round_of h o) as [|id []] eqn:Ro; [| |destruct o; cbn in Ro; try discriminate; by destruct (_ =? h)].
        * cbn [app]. destruct (p_devices (y_pica y) !! h) as [d|] eqn:L.
          -- destruct (frame_other _ _ _ _ _ _ Re S L Po Ro) as [E1 E2].
             { intros ->. apply G. apply (step_closed _ _ _ _ _ S). apply (ci_gone _ Ci). right. apply (ci_disc _ Ci). rewrite Q. left. }
             { intros a id ->. by eapply Ns. }
             replace (view_of h (y_set_pica _ _)) with (View (y_now y) (Some d) [] (List.filter control_wait (dw h (y_delayed y))) (List.filter (of_host h) (y_timers y)) (rounds h q) (packets h q) (control_messages (delivered h y)) (data_messages (delivered h y))); [constructor|].
             unfold view_of. cbn [y_now y_pica y_todo y_delayed y_timers y_queue y_set_pica y_set_strict y_set_todo y_set_queue]. by rewrite E1, E2.
          -- assert ((o = Connect /\ h = p_counter (y_pica y)) \/ (o = Connect -> h <> p_counter (y_pica y))) as [[-> Eh]|Nc] by (destruct (N.eq_dec h (p_counter (y_pica y))); destruct o; auto; right; by intros).
             ++ cbn [step] in S. apply Ret_inj in S. unfold add_device, device_init in S. rewrite device_set_state_eq in S. injection S as <- <-.
                unfold view_of. cbn [y_now y_pica y_todo y_delayed y_timers y_queue y_set_pica y_set_strict y_set_todo y_set_queue p_devices map app]. rewrite <- Eh. rewrite lookup_insert.
                replace (clean _) with [After 5 (CoreDeviceStatusNtf DsReady)] by (unfold effs_at, effs_of; cbn; by rewrite N.eqb_refl). by apply VConnect.
             ++ destruct (frame_none _ _ _ _ _ h Re S L Po) as [E1 E2]; [done|].
                replace (view_of h (y_set_pica _ _)) with (View (y_now y) None [] (List.filter control_wait (dw h (y_delayed y))) (List.filter (of_host h) (y_timers y)) (rounds h q) (packets h q) (control_messages (delivered h y)) (data_messages (delivered h y))); [constructor|].
                unfold view_of. cbn [y_now y_pica y_todo y_delayed y_timers y_queue y_set_pica y_set_strict y_set_todo y_set_queue]. by rewrite E1, E2.
        * assert (o = Ranging h id) as ->. { destruct o; cbn in Ro; try discriminate. destruct (N.eqb_spec h0 h) as [->|]; [|discriminate]. by injection Ro as ->. }
          destruct (round_view _ _ _ _ _ S) as (d & s & s' & ms & L & Ls & E1 & E2). rewrite L. cbn [app].
          unfold view_of. cbn [y_now y_pica y_todo y_delayed y_timers y_queue y_set_pica y_set_strict y_set_todo y_set_queue]. rewrite E1. by eapply VRound.
      + assert (o = UciPacket h pk) as ->. { destruct o; cbn in Po; try discriminate. destruct (N.eqb_spec h0 h) as [->|]; [|discriminate]. by injection Po as ->. }
        cbn [round_of app]. cbn [step] in S. unfold uci_packet in S.
        destruct (ci_packet _ Ci h pk) as [[d L] _]; [rewrite Q; left|]. rewrite L in S |- *. destruct (receive_packet d pk) as [[d' ef]|] eqn:Rp; [|discriminate]. cbn [obind] in S.
        apply Ret_inj in S. injection S as <- <-. unfold view_of. cbn [y_now y_pica y_todo y_delayed y_timers y_queue y_set_pica y_set_strict y_set_todo y_set_queue].
        rewrite effs_at_same. unfold p_set_device. cbn [p_devices p_set_devices]. rewrite lookup_insert. by apply VPacket.
    - done.
    - (* effect *) rename H into T. destruct (perform_fields o (y_set_todo todo y)) as (Ep & En & Eq & Et & Es). cbn [y_pica y_now y_queue y_todo y_set_todo] in *.
      assert (clean (effs_at h (y_todo y)) = clean (effs_of h o) ++ clean (effs_at h todo)) as Ee by (rewrite T, <- clean_app; done).
      assert (forall y'', y_pica y'' = y_pica y -> y_now y'' = y_now y -> y_queue y'' = y_queue y -> y_todo y'' = todo -> clean (effs_of h o) = [] ->
        List.filter control_wait (dw h (y_delayed y'')) = List.filter control_wait (dw h (y_delayed y)) -> List.filter (of_host h) (y_timers y'') = List.filter (of_host h) (y_timers y) ->
        delivered h y'' = delivered h y -> vstep (view_of h y) AOther (view_of h y'')) as Same'.
      { intros y'' F1 F2 F3 F4 F5 F6 F7 F8. apply Same, view_eq; try congruence. rewrite Ee, F5, F4. done. }
      destruct o as [k x|k a|k a|r]; [|by apply Same'..].
      destruct (N.eqb_spec k h) as [->|Nk].
      + assert (effs_of h (OEff h x) = [x]) as Ex by (cbn; by rewrite N.eqb_refl). rewrite Ex in Ee.
        destruct x as [m|ms m|id iv|id|a id n].
        * cbn [perform] in *. assert (host_closed h (y_set_todo todo y) = false) as Hc.
          { unfold host_closed. apply bool_decide_eq_false. intros X. apply G. unfold gone. by rewrite Ep. }
          rewrite Hc in *. cbn [andb] in *. unfold deliver in *. rewrite Hc in *.
          destruct (data_message_received m) eqn:Dm.
          -- unfold view_of. rewrite Ee. cbn [y_now y_pica y_todo y_delayed y_timers y_queue y_set_log y_set_todo]. rewrite delivered_app. cbn [map concat fst snd]. rewrite N.eqb_refl, control_app, data_app. cbn [app clean List.filter matters]. rewrite Dm. cbn [negb app].
             destruct (data_control _ Dm) as [-> ->]. rewrite app_nil_r. apply VData.
          -- unfold view_of. rewrite Ee. cbn [y_now y_pica y_todo y_delayed y_timers y_queue y_set_log y_set_todo]. rewrite delivered_app. cbn [map concat fst snd]. rewrite N.eqb_refl, control_app, data_app. cbn [app clean List.filter matters]. rewrite Dm. cbn [negb app].
             destruct (control_data _ Dm) as [-> ->]. rewrite app_nil_r. apply VSend.
        * cbn [perform] in *. destruct (data_message_received m) eqn:Dm.
          -- apply Same'; try done; [rewrite Ex; cbn; by rewrite Dm|]. cbn [y_delayed y_set_delayed y_set_todo]. rewrite dw_app, List.filter_app. unfold dw at 2, dw_of. cbn [map concat n_host app]. rewrite N.eqb_refl. cbn. unfold control_wait at 2. cbn. rewrite Dm. cbn. by rewrite app_nil_r.
          -- unfold view_of. rewrite Ee. cbn [y_now y_pica y_todo y_delayed y_timers y_queue y_set_delayed y_set_todo]. rewrite dw_app, List.filter_app. unfold dw at 3, dw_of. cbn [map concat n_host app]. rewrite N.eqb_refl. cbn [app clean List.filter matters]. rewrite Dm. cbn [negb app].
             unfold control_wait at 3. cbn [snd n_msg n_deadline]. rewrite Dm. cbn [negb]. apply VAfter.
        * cbn [perform] in *. unfold view_of. rewrite Ee. cbn [y_now y_pica y_todo y_delayed y_timers y_queue y_set_timers y_set_todo app clean List.filter matters].
          rewrite List.filter_app. cbn [List.filter of_host t_host]. unfold of_host at 3. cbn [t_host]. rewrite N.eqb_refl. apply VSpawn.
        * cbn [perform] in *. unfold view_of. rewrite Ee. cbn [y_now y_pica y_todo y_delayed y_timers y_queue y_set_timers y_set_todo app clean List.filter matters]. rewrite abort_same. apply VAbort.
        * cbn [perform] in *. apply Same'; try done. by rewrite Ex.
      + assert ((k =? h) = false) as Ek by (by apply N.eqb_neq). assert (effs_of h (OEff k x) = []) as Ex by (cbn; by rewrite Ek).
        destruct x as [m|ms m|id iv|id|a id n]; cbn [perform] in *.
        * destruct (_ && _); [by apply Same'; rewrite ?Ex|]. destruct (deliver_fields k m (y_set_todo todo y)) as (F1 & F2 & F3 & F4 & F5 & F6 & _).
          apply Same'; try done; [by rewrite Ex|by rewrite F6|by rewrite F5|]. rewrite delivered_deliver, Ek, andb_false_r, app_nil_r. done.
        * apply Same'; try done; [by rewrite Ex|]. cbn [y_delayed y_set_delayed y_set_todo]. rewrite dw_app. unfold dw at 2, dw_of. cbn. by rewrite Ek, app_nil_r.
        * apply Same'; try done; [by rewrite Ex|]. cbn [y_timers y_set_timers y_set_todo]. rewrite List.filter_app. cbn. unfold of_host at 2. cbn. by rewrite Ek, app_nil_r.
        * apply Same'; try done; [by rewrite Ex|]. cbn [y_timers y_set_timers y_set_todo]. by rewrite abort_other.
        * apply Same'; try done; by rewrite Ex.
    - (* timer *) unfold view_of. cbn [y_now y_pica y_todo y_delayed y_timers y_queue y_set_timers y_set_queue]. rewrite rounds_snoc, pks_snoc. cbn [packet_of round_of]. rewrite app_nil_r.
      pose proof (take_drop_middle _ _ _ H) as E. rewrite (insert_take_drop _ _ _ (lookup_lt_Some _ _ _ H)). rewrite <- E at 1. rewrite !List.filter_app. cbn [List.filter]. change (of_host h (Timer (t_host t) (t_session t) (t_interval t) (y_now y + t_interval t) true)) with (of_host h t). change (t_host t =? h) with (of_host h t).
      change (delivered h (y_set_timers _ _)) with (delivered h y). destruct (of_host h t); [|rewrite app_nil_r; constructor]. apply VTimer; done.
    - (* late *) unfold view_of. cbn [y_now y_pica y_todo y_delayed y_timers y_queue y_set_timers y_set_queue]. rewrite rounds_snoc, pks_snoc. cbn [packet_of round_of]. rewrite app_nil_r.
      destruct (delete_split _ _ _ H) as [E1 E2]. rewrite E2. rewrite E1 at 1. rewrite !List.filter_app. cbn [List.filter]. change (t_host t =? h) with (of_host h t).
      change (delivered h (y_set_timers _ _)) with (delivered h y). destruct (of_host h t); [|rewrite app_nil_r; constructor]. by apply VLate.
    - (* dropped *) unfold view_of. cbn [y_now y_pica y_todo y_delayed y_timers y_queue y_set_timers].
      destruct (delete_split _ _ _ H) as [E1 E2]. rewrite E2. rewrite E1 at 1. rewrite !List.filter_app. cbn [List.filter]. change (t_host t =? h) with (of_host h t).
      change (delivered h (y_set_timers _ _)) with (delivered h y). destruct (of_host h t); [|constructor]. by apply VTimerEnd.
    - (* notify *) destruct (deliver_fields (n_host n) (n_msg n) (y_set_delayed (delete i (y_delayed y)) y)) as (Ep & En & Eq & Et & Etm & Ed & _).
      unfold view_of. rewrite Ep, En, Eq, Et, Etm, Ed, delivered_deliver. cbn [y_now y_pica y_todo y_delayed y_timers y_queue y_set_delayed]. change (delivered h (y_set_delayed _ _)) with (delivered h y).
      destruct (delete_split _ _ _ H) as [E1 E2].
      assert (dw h (y_delayed y) = dw h (take i (y_delayed y)) ++ dw_of h n ++ dw h (drop (S i) (y_delayed y))) as D1 by (rewrite E1 at 1; by rewrite dw_app).
      assert (dw h (delete i (y_delayed y)) = dw h (take i (y_delayed y)) ++ dw h (drop (S i) (y_delayed y))) as D2 by (by rewrite E2, dw_app).
      rewrite D1, D2, !List.filter_app. unfold dw_of. destruct (N.eqb_spec (n_host n) h) as [Eh|Nh]; [|rewrite andb_false_r, app_nil_r; constructor].
      assert (host_closed (n_host n) (y_set_delayed (delete i (y_delayed y)) y) = false) as ->.
      { unfold host_closed. apply bool_decide_eq_false. intros X. apply G. unfold gone. rewrite Ep. by rewrite <- Eh. }
      cbn [negb andb]. rewrite control_app, data_app. cbn [List.filter app]. unfold control_wait at 2. cbn [snd]. destruct (data_message_received (n_msg n)) eqn:Dm; cbn [negb app].
      + destruct (data_control _ Dm) as [-> ->]. rewrite app_nil_r. apply VData.
      + destruct (control_data _ Dm) as [-> ->]. rewrite app_nil_r. by apply (VNotify _ _ _ _ (n_deadline n, n_msg n)).
    - (* stopper *) apply Same, view_eq; try done; cbn [y_queue y_set_stoppers y_set_queue]; rewrite ?rounds_snoc, ?pks_snoc; apply app_nil_r.
    - (* read *) unfold view_of. cbn [y_now y_pica y_todo y_delayed y_timers y_queue y_set_queue]. rewrite rounds_snoc, pks_snoc. cbn [round_of packet_of]. rewrite app_nil_r.
      change (delivered h (y_set_queue _ _)) with (delivered h y). destruct (h0 =? h); [constructor|]. rewrite app_nil_r. constructor.
    - apply Same, view_eq; done.
    - apply Same, view_eq; try done; cbn [y_queue y_set_conns y_set_queue]; rewrite ?rounds_snoc, ?pks_snoc; apply app_nil_r.
    - apply Same, view_eq; done.
    - apply Same, view_eq; try done; cbn [y_queue y_set_conns y_set_queue]; rewrite ?rounds_snoc, ?pks_snoc; apply app_nil_r.
    - apply Same, view_eq; try done; cbn [y_queue y_set_conns y_set_queue]; rewrite ?rounds_snoc, ?pks_snoc; apply app_nil_r.
    - apply Same, view_eq; try done; cbn [y_queue y_set_conns y_set_queue]; rewrite ?rounds_snoc, ?pks_snoc; apply app_nil_r.
    - unfold view_of. cbn [y_now y_pica y_todo y_delayed y_timers y_queue y_set_now]. constructor.
  Qed.
End View.

(** ** What a host receives is well-formed when its packets have a known type *)
Lemma messages_other h k outs : (forall o, In o outs -> exists x, o = OEff k x) -> h <> k -> messages h outs = [].
Proof.
  intros A N. unfold messages. induction outs as [|o outs IH]; [done|]. cbn [map concat]. rewrite IH by (intros; apply A; by right). rewrite app_nil_r.
  destruct (A o ltac:(by left)) as [y ->]. apply not_eq_sym, N.eqb_neq in N. destruct y; cbn; by rewrite ?N.
Qed.
Lemma reaches_wf_host l p outs h : reaches l p outs -> (forall e packet, In (e, UciPacket h packet) l -> hd 0 packet / 32 < 4) -> Forall wf_msg (messages h outs).
Proof.
  revert l p outs. refine (reaches_ind _ _ _); [constructor|].
  intros l p outs e o p' outs' R IH We Wo St K. rewrite messages_app. apply Forall_app. split.
  - apply IH. intros. eapply K. apply in_or_app. by left.
  - pose proof (step_messages _ _ _ _ _ _ h (reachable_pinv _ (ex_intro _ l (ex_intro _ outs R))) We Wo St) as F.
    rewrite Forall_forall in F |- *. intros m Hm. destruct (F _ Hm) as [?|(h' & a & b & rest & st & -> & Ha & _)]; [done|]. exfalso.
    destruct (decide (h = h')) as [<-|N].
    + specialize (K e (a :: b :: rest)). cbn in K. assert (a / 32 < 4); [|lia]. apply K, in_or_app. right. by left.
    + destruct (C38_packet _ _ _ _ _ _ St) as (_ & _ & _ & _ & E2). rewrite (messages_other h h' _ E2 N) in Hm. by apply elem_of_nil in Hm.
Qed.
Lemma packets_read_in h p ls : In (LRead h p) ls -> In p (packets_read h ls).
Proof. intros I. unfold packets_read. apply in_concat. exists [p]. split; [|by left]. apply in_map_iff. exists (LRead h p). split; [|done]. cbn. by rewrite N.eqb_refl. Qed.
Lemma delivered_wf_host ls y h : executed ls y -> Forall (fun p => hd 0 p / 32 < 4) (packets_read h ls) -> Forall wf_msg (delivered h y).
Proof.
  intros Ex K. destruct (executed_sinv _ _ Ex) as (outs & I). destruct (si_msgs _ _ _ I h) as (lost & P & _).
  assert (Forall wf_msg (messages h outs)) as F.
  { eapply reaches_wf_host; [apply (si_reach _ _ _ I)|]. intros e packet Hi. apply (processed_read _ _ _ _ _ Ex) in Hi.
    rewrite Forall_forall in K. by apply K, elem_of_list_In, packets_read_in. }
  rewrite <- P in F. by apply Forall_app in F as [F _].
Qed.
Definition data_seen (m : msg) (packet : bytes) : Prop := py_parse_data packet = Some (PyMsg m).
Lemma received_seen ms : Forall wf_msg ms -> Forall (fun m => plain m = true) (control_messages ms) ->
  exists s, stream_of ms = Some s /\ Forall2 seen_as (control_messages ms) (control_packets (py_read_stream s)) /\ Forall2 data_seen (data_messages ms) (data_packets (py_read_stream s)).
Proof.
  intros W P. destruct (reader_sees ms W) as (bs & s & M & S & H). exists s. split; [unfold stream_of; by rewrite M|].
  destruct (H [s] false ltac:(cbn; by rewrite app_nil_r)) as (q & Q & Qd & R).
  assert (wf_bytes s) as Ws.
  { eapply write_stream_wf; [|exact S]. apply mapM_Some in M. clear -M W. induction M; inversion W; subst; constructor; eauto. by destruct (wire_wf _ _ H2 H). }
  destruct (reader_queues s Ws) as (t & _ & R'). specialize (R' [s] ltac:(cbn; by rewrite app_nil_r) (Datatypes.S (length [s] + length s)%nat) ltac:(lia)).
  rewrite (R (Datatypes.S (length [s] + length s)%nat)) in R' by lia. injection R' as -> _. cbn [control_queue data_queue] in Q, Qd.
  assert (forall f, Forall wf_msg (List.filter f ms)) as Wc. { intros f. apply Forall_forall. intros m Hm. apply elem_of_list_In, filter_In in Hm as [Hm _]. rewrite Forall_forall in W. by apply W, elem_of_list_In. }
  split.
  - specialize (Wc (fun m => negb (data_message_received m))). fold (control_messages ms) in Wc.
    clear -Wc P Q. unfold queued_as in Q. induction Q as [|m p ms' ps C Q IH]; [constructor|].
    inversion Wc; subst. inversion P; subst. constructor; [|by apply IH]. destruct C as (b & Wb & R). apply shows_plain; [done|]. eapply py_wire_shows; try done. by destruct m.
  - specialize (Wc data_message_received). fold (data_messages ms) in Wc.
    assert (Forall (fun m => data_message_received m = true) (data_messages ms)) as Fm by (apply Forall_forall; intros m Hm; by apply elem_of_list_In, filter_In in Hm as [_ Hm]).
    assert (Forall (fun p => is_data p = true) (data_packets (py_read_stream s))) as Fp by (apply Forall_forall; intros m Hm; by apply elem_of_list_In, filter_In in Hm as [_ Hm]).
    clear -Wc Qd Fm Fp. unfold queued_as in Qd. induction Qd as [|m p ms' ps C Q IH]; [constructor|].
    inversion Wc; subst. inversion Fm; subst. inversion Fp; subst. constructor; [|by apply IH]. destruct C as (b & Wb & R). unfold data_seen.
    assert (py_shows m p) as S by (eapply py_wire_shows; try done; by destruct m). destruct m; try discriminate. cbn [py_shows] in S. unfold py_parse in S.
    unfold is_data, pkt_mt in *. match goal with X : (hd 0 p / 32 =? 0) = true |- _ => apply N.eqb_eq in X; rename X into Z end.
    assert (N.shiftr (py_at 0 p) 5 = 0) as E. { rewrite N.shiftr_div_pow2. unfold py_at. change (2 ^ 5) with 32. by destruct p. }
    rewrite E in S. exact S.
Qed.

(** ** How a program runs *)
Definition answered (a : action) (m : msg) : Prop :=
  match a with Expect m' => m' = m | ExpectInfo => exists a b c d e f, m = SessionInfoNtf a b c d e f | _ => False end.
Fixpoint waits (prog : list action) : list action :=
  match prog with [] => [] | (Expect _ | ExpectInfo) as a :: prog => a :: waits prog | _ :: prog => waits prog end.
Fixpoint data_waits (prog : list action) : list msg :=
  match prog with [] => [] | ExpectData m :: prog => m :: data_waits prog | _ :: prog => data_waits prog end.
Definition py_out (a : action) : option bytes :=
  match a with
  | Script.Send c => py_send_command c
  | SendData pbf handle dst seq data => py_send_data_message pbf handle dst seq data
  | _ => None
  end.
(** What is sent once [m] control messages and [k] data messages are received. *)
Fixpoint sends (prog : list action) (m k : nat) : list action :=
  match prog with
  | [] => []
  | (Expect _ | ExpectInfo) :: prog => match m with 0%nat => [] | S m => sends prog m k end
  | ExpectData _ :: prog => match k with 0%nat => [] | S k => sends prog m k end
  | a :: prog => a :: sends prog m k
  end.
Fixpoint all_sends (prog : list action) : list action :=
  match prog with [] => [] | (Script.Send _ | SendData _ _ _ _ _) as a :: prog => a :: all_sends prog | _ :: prog => all_sends prog end.
Definition agree (l : list action) (g : list msg) : Prop := forall j a m, l !! j = Some a -> g !! j = Some m -> answered a m.
Definition agree_data (l : list msg) (g : list msg) : Prop := forall j m m', l !! j = Some m -> g !! j = Some m' -> m = m'.
Lemma program_runs prog g q gd qd fs : Forall2 seen_as g q -> Forall2 data_seen gd qd -> agree (waits prog) g -> agree_data (data_waits prog) gd -> mapM py_out (all_sends prog) = Some fs ->
  exists fs', mapM py_out (sends prog (length g) (length gd)) = Some fs'
    /\ py_run prog q qd = (fs', if (length (waits prog) <=? length g)%nat && (length (data_waits prog) <=? length gd)%nat then Finished else Blocked).
Proof.
  revert g q gd qd fs. induction prog as [|a prog IH]; intros g q gd qd fs F Fd A Ad M; [by exists []|].
  assert (forall f (E : py_out a = Some f), all_sends (a :: prog) = a :: all_sends prog -> waits (a :: prog) = waits prog -> data_waits (a :: prog) = data_waits prog ->
    exists fs0, mapM py_out (sends prog (length g) (length gd)) = Some fs0
      /\ py_run prog q qd = (fs0, if (length (waits prog) <=? length g)%nat && (length (data_waits prog) <=? length gd)%nat then Finished else Blocked)) as X.
  { intros f E E1 E2 E3. rewrite E1 in M. rewrite E2 in A. rewrite E3 in Ad. cbn [mapM] in M. rewrite E in M. cbn in M. apply bind_Some in M as (bs & Hbs & M). by eapply IH. }
  destruct a as [c|pbf handle dst seq data|m| |m]; cbn [waits data_waits sends all_sends py_run py_out] in *.
  - cbn [mapM] in M. apply bind_Some in M as (b & Hb & M). cbn [py_out] in Hb. destruct (X b Hb) as (fs0 & E1 & E2); try done. rewrite Hb, E2. exists (b :: fs0). cbn [mapM py_out]. rewrite Hb. cbn. by rewrite E1.
  - cbn [mapM] in M. apply bind_Some in M as (b & Hb & M). cbn [py_out] in Hb. destruct (X b Hb) as (fs0 & E1 & E2); try done. rewrite Hb, E2. exists (b :: fs0). cbn [mapM py_out]. rewrite Hb. cbn. by rewrite E1.
  - inversion F as [|m' p g' q' Sm F' E1 E2]; subst; [by exists []|]. cbn [length]. pose proof (A 0%nat _ _ eq_refl eq_refl) as E. cbn in E. subst m'.
    unfold py_expected. rewrite bool_decide_true by done. apply (IH g' q' gd qd fs F' Fd); try done. intros j a' m' Hl Hg. by apply (A (S j)).
  - inversion F as [|m' p g' q' Sm F' E1 E2]; subst; [by exists []|]. cbn [length]. destruct (A 0%nat _ _ eq_refl eq_refl) as (a1 & a2 & a3 & a4 & a5 & a6 & ->).
    unfold py_expected_info. rewrite Sm. apply (IH g' q' gd qd fs F' Fd); try done. intros j a' m' Hl Hg. by apply (A (S j)).
  - inversion Fd as [|m' p g' q' Sm F' E1 E2]; subst; [exists []; by rewrite andb_false_r|]. cbn [length]. pose proof (Ad 0%nat _ _ eq_refl eq_refl) as ->.
    unfold py_expected_data. rewrite bool_decide_true by done. apply (IH g q g' q' fs F F'); try done. intros j a' m'' Hl Hg. by apply (Ad (S j)).
Qed.
Lemma agree_app l1 l2 g1 g2 : agree l1 g1 -> agree l2 g2 -> length l1 = length g1 -> agree (l1 ++ l2) (g1 ++ g2).
Proof.
  intros A1 A2 L j a m Hl Hg. destruct (decide (j < length l1)%nat).
  - rewrite lookup_app_l in Hl by lia. rewrite lookup_app_l in Hg by lia. by eapply A1.
  - rewrite lookup_app_r in Hl by lia. rewrite lookup_app_r in Hg by lia. rewrite L in Hl. by eapply A2.
Qed.
Lemma agree_prefix l g g' : g `prefix_of` g' -> agree l g' -> agree l g.
Proof. intros P A j a m Hl Hg. eapply A; [done|]. by eapply prefix_lookup. Qed.
Lemma waits_app p p' : waits (p ++ p') = waits p ++ waits p'.
Proof. induction p as [|[] p IH]; cbn; congruence. Qed.
Lemma data_waits_app p p' : data_waits (p ++ p') = data_waits p ++ data_waits p'.
Proof. induction p as [|[] p IH]; cbn; congruence. Qed.
Lemma all_sends_app p p' : all_sends (p ++ p') = all_sends p ++ all_sends p'.
Proof. induction p as [|[] p IH]; cbn; congruence. Qed.
Lemma waits_infos k : waits (repeat ExpectInfo k) = repeat ExpectInfo k /\ data_waits (repeat ExpectInfo k) = [] /\ all_sends (repeat ExpectInfo k) = [].
Proof. induction k as [|k (IH1 & IH2 & IH3)]; [done|]. cbn. by rewrite IH1, IH2, IH3. Qed.
Lemma waits_data l : waits (map ExpectData l) = [] /\ data_waits (map ExpectData l) = l /\ all_sends (map ExpectData l) = [].
Proof. induction l as [|m l (IH1 & IH2 & IH3)]; [done|]. cbn. by rewrite IH1, IH2, IH3. Qed.
Lemma sends_infos k p m d : sends (repeat ExpectInfo k ++ p) m d = if (m <? k)%nat then [] else sends p (m - k)%nat d.
Proof.
  revert m. induction k as [|k IH]; intros m; [by rewrite Nat.sub_0_r|]. destruct m as [|m]; [done|]. cbn [repeat app sends]. rewrite IH. done.
Qed.
Lemma sends_data l p m d : sends (map ExpectData l ++ p) m d = if (d <? length l)%nat then [] else sends p m (d - length l)%nat.
Proof.
  revert d. induction l as [|e l IH]; intros d; [by rewrite Nat.sub_0_r|]. destruct d as [|d]; [done|]. cbn [map app sends length]. rewrite IH. done.
Qed.
