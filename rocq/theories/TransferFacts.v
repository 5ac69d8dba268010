(** The two programs of tests/data_transfer.py, running against the simulator. *)
From Coq Require Import ZifyBool ZifyN ZifyNat Sorted.
From Verif Require Import Base Uci MacAddress AppConfig Codec Session Device Pica Sys Transport BaseFacts CodecSpec ContextSpec HistorySpec SessionSpec InvFacts StepFacts.
From Verif Require Import CodecFacts CommandFacts SessionFacts RangingSpec RangingFacts EffectFacts SysSpec SysFacts ScheduleFacts DeliveryFacts PropsContext PropsRanging PropsSession GateFacts DialogueSpec DialogueFacts SetupFacts.
From Verif Require Import TransportSpec TransportFacts PyHost PyHostSpec PyHostFacts PyReader PyReaderSpec PyReaderFacts Script ScriptSpec ScriptFacts ScriptView ScriptRunFacts TransferSpec.
Notation Send := Session.Send (only parsing).

(** ** Prefixes *)
Lemma prefix_snoc {A} (ls ls1 ls2 : list A) x : ls ++ [x] = ls1 ++ ls2 -> (exists ls2', ls = ls1 ++ ls2' /\ ls2 = ls2' ++ [x]) \/ ls1 = ls ++ [x] /\ ls2 = [].
Proof.
  intros E. destruct ls2 as [|z ls2 _] using rev_ind.
  - right. by rewrite app_nil_r in E.
  - left. rewrite app_assoc in E. apply app_inj_tail in E as [-> ->]. by exists ls2.
Qed.
Lemma active_more h id ls ls' t : active_at h id ls t -> active_at h id (ls ++ ls') t.
Proof. intros (l1 & l2 & y1 & sn & -> & R). exists l1, (l2 ++ ls'), y1, sn. by rewrite app_assoc. Qed.
Lemma active_snoc h id ls lb y' t : sys_run (ls ++ [lb]) sys_new = Some y' -> active_at h id (ls ++ [lb]) t ->
  active_at h id ls t \/ y_now y' = t /\ exists sn, session_at (y_pica y') h id = Some sn /\ s_state sn = SsActive.
Proof.
  intros Ry (l1 & l2 & y1 & sn & E & R & T & S & A). apply prefix_snoc in E as [(l2' & -> & ->)|[-> ->]].
  - left. by exists l1, l2', y1, sn.
  - right. rewrite Ry in R. injection R as <-. split; [done|]. by exists sn.
Qed.
Lemma active_now h id ls y sn : sys_run ls sys_new = Some y -> session_at (y_pica y) h id = Some sn -> s_state sn = SsActive -> active_at h id ls (y_now y).
Proof. intros R S A. exists ls, [], y, sn. by rewrite app_nil_r. Qed.
Lemma joins_before a b id i ls lb : joins a b id i (ls ++ [lb]) -> joins a b id i ls.
Proof. intros J l1 l2 y1 t -> R. eapply (J l1 (l2 ++ [lb])); [by rewrite app_assoc|done]. Qed.
Lemma estimated_before a b ls lb : estimated a b (ls ++ [lb]) -> estimated a b ls.
Proof. intros J e I. apply J. apply in_or_app. by left. Qed.
Lemma only_before a b id ls lb : only_sender a b id (ls ++ [lb]) -> only_sender a b id ls.
Proof. intros J l1 l2 y1 k sn -> R. eapply (J l1 (l2 ++ [lb])); [by rewrite app_assoc|done]. Qed.

(** ** One of the hosts *)
Record setup : Type := Setup {
  su_host : N; su_opts : list (tlv_id * bytes); su_cfg : app_config; su_n : nat; su_parts : list part; su_wait : list msg;
  su_r : bytes; su_i : bytes; su_c : bytes; su_s : bytes; su_t : bytes; su_x : bytes }.
Section Host.
  Context (id : N) (S : setup).
  Notation h := (su_host S).
  Notation cfg := (su_cfg S).
  Notation n := (su_n S).
  Notation ps := (su_parts S).
  Notation wait := (su_wait S).
  Record setup_ok : Prop := {
    ok_er : encodes (CmdDeviceReset 0) (su_r S); ok_ei : encodes (CmdSessionInit id 1) (su_i S); ok_ec : encodes (CmdSetAppConfig id (su_opts S)) (su_c S);
    ok_es : encodes (CmdStart id) (su_s S); ok_et : encodes (CmdStop id) (su_t S); ok_ex : encodes (CmdSessionDeinit id) (su_x S);
    ok_br : wf_bytes (su_r S); ok_bi : wf_bytes (su_i S); ok_bc : wf_bytes (su_c S); ok_bs : wf_bytes (su_s S); ok_bt : wf_bytes (su_t S); ok_bx : wf_bytes (su_x S);
    ok_wi : wf_cmd (CmdSessionInit id 1); ok_wc : wf_cmd (CmdSetAppConfig id (su_opts S));
    ok_sa : sets_all default_app_config (su_opts S) cfg []; ok_cf : configured cfg; ok_nt : session_info_ntf_config cfg <> 0; ok_du : 5 < ranging_duration cfg;
    ok_ps : Forall (part_ok id) ps;
    ok_fr : py_send_command (CmdDeviceReset 0) = Some (su_r S); ok_fi : py_send_command (CmdSessionInit id 1) = Some (su_i S);
    ok_fc : py_send_command (CmdSetAppConfig id (su_opts S)) = Some (su_c S); ok_fs : py_send_command (CmdStart id) = Some (su_s S);
    ok_ft : py_send_command (CmdStop id) = Some (su_t S); ok_fx : py_send_command (CmdSessionDeinit id) = Some (su_x S);
    ok_lc : (length (cmd_args (CmdSetAppConfig id (su_opts S))) <= 255)%nat }.
  Context (Ok : setup_ok).
  Definition s_prog : list action := session_program id 1 (su_opts S) (steps_of id ps) wait n.
  Definition s_obeys (ls : list label) : Prop := obeys h id 1 (su_opts S) cfg n ps wait ls.
  Definition s_at (o : option pos) (ls : list label) (y : sys) : Prop :=
    vpos h id 1 cfg n ps wait (su_r S) (su_i S) (su_c S) (su_s S) (su_t S) (su_x S) o (packets_read h ls) (view_of h y).
  Definition s_run (ls : list label) (y : sys) : Prop := run_ok h id n ps (su_r S) (su_i S) (su_c S) (su_s S) (su_t S) (su_x S) ls y.
  Definition s_tick (y : sys) : Prop := tick_ok h n ps wait y.
  Definition h_data (y : sys) : list msg := data_messages (delivered h y).
  Notation K o := (q_k (default nowhere o)).
  Notation T0 o := (q_start (default nowhere o)).
  Notation infos o := (q_infos (default nowhere o)).

  Lemma host_step ls y lb y' : executed ls y -> executed (ls ++ [lb]) y' -> y_crash y = None -> moved y lb y' -> sys_step lb y = Some y' -> s_obeys (ls ++ [lb]) ->
    s_run ls y -> agree_data wait (h_data y) -> (lb = LTick -> ~ gone h y -> s_tick y) -> (~ gone h y -> exists o, s_at o ls y) ->
    s_run (ls ++ [lb]) y'
    /\ (~ gone h y' -> y_crash y' = None -> forall o, s_at o ls y -> exists o', s_at o' (ls ++ [lb]) y' /\ evolves o o' (view_of h y) (view_of h y')).
  Proof using Ok.
    intros Xe Xe' Cr M Sy Ob Rk Dg Tk Vi. destruct Ok.
    destruct (run_step h id 1 (su_opts S) cfg n ps wait (su_r S) (su_i S) (su_c S) (su_s S) (su_t S) (su_x S)) with (ls := ls) (y := y) (lb := lb) (y' := y') as [Px' Vi']; try done; try (by right).
    split; [|exact Vi']. split; [done|]. destruct (stuck_or_not h y') as [G|[G Cr']].
    - rewrite (delivered_stuck _ _ _ _ M G Cr). by destruct Rk.
    - assert (~ gone h y) as G0 by (intros ?; apply G; by eapply gone_mono). destruct (Vi G0) as [o V]. destruct (Vi' G Cr' o V) as (o' & V' & _). change (good id n ps (v_got (view_of h y'))). eapply (vpos_good h id 1 (su_opts S)); try done; by right.
  Qed.
  Lemma host_start : s_run [] sys_new /\ s_at None [] sys_new.
  Proof using.
    split; [|by split]. split; [apply prefix_nil|]. exists 0%nat, 0%nat, []. split_and!; try done; try (cbn; lia); [apply prefix_nil|split_and!; lia].
  Qed.
  Lemma host_outcome ls y : executed ls y -> s_run ls y -> (~ gone h y -> y_crash y = None -> exists o, s_at o ls y) -> agree_data wait (h_data y) ->
    outcome_of s_prog h y <> Raised
    /\ (outcome_of s_prog h y = Finished -> infos_delivered h id y = map N.of_nat (seq 0 n) /\ wait `prefix_of` h_data y /\ (~ gone h y -> y_crash y = None -> session_at (y_pica y) h id = None))
    /\ (~ gone h y -> y_crash y = None -> connected (y_pica y) h -> all_arrived s_prog h ls y -> queued_rounds h id y = 0%nat -> outcome_of s_prog h y = Finished \/ live_timers h id y = 1%nat).
  Proof using Ok.
    intros Xe Rk Vi Dg. destruct Ok. eapply (run_outcome h id 1 (su_opts S) cfg n ps wait (su_r S) (su_i S) (su_c S) (su_s S) (su_t S) (su_x S)); try done; first [by right | by split].
  Qed.

  (** *** What the position says *)
  Notation live_at := (live h id 1 cfg n ps wait (su_r S) (su_i S) (su_c S) (su_s S) (su_t S) (su_x S)).
  Lemma at_live o ls y : s_at o ls y -> (1 <= K o)%nat \/ p_devices (y_pica y) !! h <> None ->
    exists q, o = Some q /\ live_at (packets_read h ls) (q_k q) (q_j q) (q_infos q) (q_start q) (view_of h y).
  Proof using.
    destruct o as [q|]; intros V H; [by exists q|]. destruct H as [H|H]; [cbn in H; lia|]. pose proof (un_dev _ _ V) as Z. cbn in Z. done.
  Qed.
  Lemma at_session o ls y a sn : s_at o ls y -> session_at (y_pica y) h a = Some sn -> a = id /\ (s_state sn = SsActive -> K o = 4%nat).
  Proof using Ok.
    intros V E. destruct Ok. unfold session_at in E. destruct (p_devices (y_pica y) !! h) as [d|] eqn:Ld; [|discriminate]. cbn in E.
    destruct (at_live _ _ _ V) as (q & -> & L); [by right; rewrite Ld|]. destruct (lv_dev _ _ _ _ _ _ _ _ _ _ _ _ _ _ _ _ _ _ _ L) as (d' & Ed & St). cbn in Ed. rewrite Ld in Ed. injection Ed as <-.
    destruct (stage_session id 1 (su_opts S) cfg ps (su_i S) (su_c S) (su_s S) (su_t S) (su_x S)) with (k := q_k q) (j := q_j q) (infos := q_infos q) (d := d) (a := a) (sn := sn) as (Ea & A & _); done.
  Qed.
  Lemma at_active o ls y : s_at o ls y -> K o = 4%nat -> exists sn, session_at (y_pica y) h id = Some sn /\ s_state sn = SsActive /\ s_type sn = 1 /\ s_cfg sn = cfg /\ s_data sn = held ps (infos o).
  Proof using.
    intros V E. destruct (at_live _ _ _ V) as (q & -> & L); [left; lia|]. destruct (lv_dev _ _ _ _ _ _ _ _ _ _ _ _ _ _ _ _ _ _ _ L) as (d & Ed & St). cbn in Ed, E.
    rewrite E in St. destruct St as (_ & _ & _ & sn & Z & [? ? ? ? ? ? ?]). exists sn. unfold session_at. rewrite Ed. cbn. rewrite Z. split; [by rewrite lookup_singleton|]. done.
  Qed.
  Lemma at_begun o ls y : s_at o ls y -> (4 <= K o)%nat -> T0 o <= y_now y.
  Proof using.
    intros V E. destruct (at_live _ _ _ V) as (q & -> & L); [left; lia|]. cbn in *. pose proof (lv_timers _ _ _ _ _ _ _ _ _ _ _ _ _ _ _ _ _ _ _ L) as Ti. cbn [view_of v_now] in Ti. destruct Ti; lia.
  Qed.
  Lemma at_round o ls y a Q : s_at o ls y -> y_queue y = Ranging h a :: Q -> a = id /\ K o = 4%nat /\ y_now y = T0 o + ranging_duration cfg * N.of_nat (Datatypes.S (length (infos o))).
  Proof using.
    intros V E. destruct o as [q|].
    2:{ pose proof (un_rounds _ _ V) as Z. cbn in Z. rewrite E in Z. unfold rounds in Z. cbn in Z. rewrite N.eqb_refl in Z. done. }
    cbn in *. pose proof (lv_timers _ _ _ _ _ _ _ _ _ _ _ _ _ _ _ _ _ _ _ V) as Ti. cbn [view_of v_now v_rounds] in Ti.
    assert (rounds h (y_queue y) = a :: rounds h Q) as R. { rewrite E. unfold rounds. cbn. by rewrite N.eqb_refl. }
    rewrite R in Ti. inversion Ti; subst. done.
  Qed.
  Lemma at_rest o ls y : s_at o ls y -> done_at h y -> (4 <= K o)%nat -> K o = 4%nat /\ y_now y < T0 o + ranging_duration cfg * N.of_nat (Datatypes.S (length (infos o)))
      /\ List.filter (of_host h) (y_timers y) = [Timer h id (ranging_duration cfg) (T0 o + ranging_duration cfg * N.of_nat (Datatypes.S (length (infos o)))) true]
    \/ (5 <= K o)%nat /\ length (infos o) = n.
  Proof using.
    intros V D E. destruct (at_live _ _ _ V) as (q & -> & L); [left; lia|]. cbn in *. pose proof (lv_timers _ _ _ _ _ _ _ _ _ _ _ _ _ _ _ _ _ _ _ L) as Ti.
    destruct (done_view _ _ D) as (Ev & _ & Rv & _ & Tv). rewrite Ev, Rv in Ti. cbn [view_of v_now v_timers] in Ti, Tv. 
    remember (@nil eff) as E0 eqn:HE. remember (@nil N) as R0 eqn:HR. remember (List.filter (of_host h) (y_timers y)) as T1 eqn:HT. 
    destruct Ti as [? ? ? ?|e ? ? ? ? ? Ne|E1 W dl Hk ? ? Hd ? ?|dl ? ? ? ?|e W dl Hk ? ? ?|E1 W T Hk ? ? ?]; try done; try lia.
    - left. split; [done|]. inversion Tv as [|? ? [_ Td] _]; subst. cbn in Td. done.
    - right. split; [done|]. apply (lv_all _ _ _ _ _ _ _ _ _ _ _ _ _ _ _ _ _ _ _ L). lia.
  Qed.
  Lemma at_waiting o ls y : s_at o ls y -> (length (h_data y) < length wait)%nat -> (K o <= 4)%nat.
  Proof using.
    intros V E. destruct (le_lt_dec 5 (K o)) as [H|]; [|lia]. exfalso. destruct (at_live _ _ _ V) as (q & -> & L); [left; lia|]. cbn in H.
    pose proof (lv_count _ _ _ _ _ _ _ _ _ _ _ _ _ _ _ _ _ _ _ L) as C. rewrite (lv_read _ _ _ _ _ _ _ _ _ _ _ _ _ _ _ _ _ _ _ L) in C. rewrite app_length, take_length in C.
    assert (length (frames ps (su_r S) (su_i S) (su_c S) (su_s S) (su_t S) (su_x S)) = (6 + length ps)%nat) as Fl by (unfold frames; rewrite !app_length, map_length; cbn; lia). rewrite Fl in C.
    pose proof (lv_k _ _ _ _ _ _ _ _ _ _ _ _ _ _ _ _ _ _ _ L) as (H1 & H2 & H3 & H4). change (v_data (view_of h y)) with (h_data y) in C. unfold sent_count in C. specialize (H4 ltac:(lia)).
    repeat match type of C with context [Nat.ltb ?a ?b] => destruct (Nat.ltb_spec a b) end; cbn [orb] in C; lia.
  Qed.
  Lemma at_got o ls y : s_at o ls y -> (K o <= 4)%nat -> (10 + length ps + n <= length (control_messages (delivered h y)))%nat -> K o = 4%nat /\ length (infos o) = n.
  Proof using.
    intros V H E. destruct o as [q|].
    2:{ pose proof (un_got _ _ V) as Z. cbn in Z. rewrite Z in E. cbn in E. lia. }
    cbn in *. pose proof (f_equal length (lv_msgs _ _ _ _ _ _ _ _ _ _ _ _ _ _ _ _ _ _ _ V)) as Z. rewrite app_length in Z. cbn [view_of v_got] in Z.
    assert (forall k j infos, length (due_at id k j infos) = match k with 0 => 1 | 1 => 3 | 2 => 5 | 3 => 7 + j | 4 => 10 + j + length infos | 5 => 13 + j + length infos | _ => 15 + j + length infos end)%nat as Dl.
    { intros k j l. destruct k as [|[|[|[|[|[|k]]]]]]; cbn [due_at]; rewrite ?app_length, ?repeat_length; cbn; lia. }
    rewrite Dl in Z.
    pose proof (lv_k _ _ _ _ _ _ _ _ _ _ _ _ _ _ _ _ _ _ _ V) as (H1 & H2 & H3 & H4). pose proof (lv_n _ _ _ _ _ _ _ _ _ _ _ _ _ _ _ _ _ _ _ V) as Ln.
    destruct (q_k q) as [|[|[|[|[|k]]]]]; lia.
  Qed.
  (** *** When the session was started *)
  Definition s_hist (o : option pos) (ls : list label) : Prop :=
    ((K o <= 3)%nat -> forall t, ~ active_at h id ls t) /\ ((4 <= K o)%nat -> active_at h id ls (T0 o) /\ forall t, active_at h id ls t -> T0 o <= t).
  Lemma hist_start : s_hist None [].
  Proof using.
    split; [|cbn; lia]. intros _ t (l1 & l2 & y1 & sn & E & R & T & S' & A). destruct l1; [|done]. cbn in R. injection R as <-. done.
  Qed.
  Lemma hist_step o o' ls y lb y' : sys_run (ls ++ [lb]) sys_new = Some y' -> s_at o' (ls ++ [lb]) y' -> evolves o o' (view_of h y) (view_of h y') -> s_hist o ls -> s_hist o' (ls ++ [lb]).
  Proof using Ok.
    intros R V' Ev [H3 H4]. assert (forall sn, session_at (y_pica y') h id = Some sn -> s_state sn = SsActive -> K o' = 4%nat) as Ac. { intros sn S' A. by destruct (at_session _ _ _ _ _ V' S') as [_ X]; apply X. }
    destruct (le_lt_dec 4 (K o)) as [L|L].
    - destruct (ev_keep _ _ _ _ Ev L) as [Lk Et]. destruct (H4 L) as [A1 A2]. split; [lia|]. intros _. rewrite Et. split; [by apply active_more|].
      intros t A. apply (active_snoc _ _ _ _ _ _ R) in A as [A|(<- & _)]; [by apply A2|]. rewrite <- Et. eapply at_begun; [done|lia].
    - specialize (H3 ltac:(lia)). split.
      + intros L' t A. apply (active_snoc _ _ _ _ _ _ R) in A as [A|(<- & sn & S' & A)]; [by eapply H3|]. specialize (Ac _ S' A). lia.
      + intros L'. destruct (ev_start _ _ _ _ Ev ltac:(lia) L') as [K4 Et]. cbn [view_of v_now] in Et. rewrite Et. destruct (at_active _ _ _ V' K4) as (sn & S' & A & _). split; [by eapply active_now|].
        intros t A'. apply (active_snoc _ _ _ _ _ _ R) in A' as [A'|(<- & _)]; [by destruct (H3 t)|done].
  Qed.
End Host.

(** ** The data messages sent *)
Lemma data_app L L' : data_messages (L ++ L') = data_messages L ++ data_messages L'.
Proof. apply List.filter_app. Qed.
Lemma data_loop L : data_messages (by_loop L) = data_messages L.
Proof. induction L as [|m L IH]; [done|]. unfold by_loop, data_messages in *. cbn [List.filter]. destruct m as [|[]| | | | | | | | | | | | | | | | | | | | | | | |]; cbn; by rewrite IH. Qed.
Lemma data_sent y l outs k : sinv y l outs ->
  exists lost, data_messages (delivered k y) ++ lost ++ data_messages (sent k (y_todo y)) = data_messages (sent k outs) /\ (~ gone k y -> lost = []).
Proof.
  intros I. destruct (si_order _ _ _ I k) as (lost & E & N). exists (data_messages lost). split; [|intros G; by rewrite (N G)].
  rewrite <- (data_loop (delivered k y)), <- (data_loop (sent k (y_todo y))), <- (data_loop (sent k outs)), <- E, !data_app. done.
Qed.
Lemma data_next ls y lb y' outs : executed ls y -> wf_label lb -> moved y lb y' -> sys_step lb y = Some y' -> sinv y (processed ls sys_new) outs ->
  exists outs', sinv y' (processed (ls ++ [lb]) sys_new) (outs ++ outs')
    /\ (outs' = [] \/ exists e o, taken lb y = [(e, o)] /\ wf_op o /\ step e (y_pica y) o = Ret (y_pica y', outs')).
Proof.
  intros Xe Wl M Sy I. destruct (sinv_step _ _ _ _ _ I Wl M) as (outs' & I'). exists outs'. rewrite (processed_snoc _ _ _ _ _ (proj2 Xe) Sy). split; [done|].
  pose proof (si_reach _ _ _ I) as [_ R]. pose proof (si_reach _ _ _ I') as R'.
  assert (taken lb y = [] \/ exists x, taken lb y = [x]) as [T|[[e o] T]].
  { destruct lb; cbn; try (by left); try (by right; eexists). destruct (y_queue y); [by left|]. destruct (crashed _); [by left|by right; eexists]. }
  - left. rewrite T, app_nil_r in R'. destruct R' as [_ R']. rewrite R in R'. injection R' as _ E. by apply (app_inv_head outs); rewrite app_nil_r.
  - right. exists e, o. split; [done|]. rewrite T in R'. pose proof R' as [W _]. apply Forall_app in W as [_ W]. apply Forall_cons in W as [[_ W] _]. split; [done|].
    apply reaches_prefix in R' as (p1 & o1 & o2 & [_ R1] & R2 & E). rewrite R in R1. injection R1 as <- <-. apply app_inv_head in E as ->.
    cbn [run] in R2. destruct (step e (y_pica y) o) as [[p2 o3]|] eqn:St; [|discriminate]. cbn in R2. injection R2 as <- <-. by rewrite app_nil_r.
Qed.
Lemma sent_messages k m outs : In m (sent k outs) -> In m (messages k outs).
Proof.
  unfold sent, messages. induction outs as [|o outs IH]; [done|]. cbn [map concat]. intros I. apply in_app_or in I as [I|I]; apply in_or_app; [left|right; by apply IH].
  destruct o as [k' x| | |]; try done. unfold messages_to. destruct x; try done. by rewrite app_nil_r || exact I.
Qed.
Lemma sent_data k outs : data_messages (sent k outs) = [] \/ exists id st src seq data, In (id, st, src, seq, data) (data_received k outs).
Proof.
  destruct (data_messages (sent k outs)) as [|m L] eqn:E; [by left|]. right. assert (In m (data_messages (sent k outs))) as I by (rewrite E; by left).
  apply filter_In in I as [I D]. destruct m; try done. eexists _, _, _, _, _. unfold data_received. apply in_concat. eexists. split; [apply in_map; by apply sent_messages|]. by left.
Qed.
Lemma sent_peers k peers m : NoDup peers -> sent k (map (fun k => OEff k (Send m)) peers) = if bool_decide (k ∈ peers) then [m] else [].
Proof.
  induction 1 as [|x l Nx Nd IH]; [done|]. change (map _ (x :: l)) with ([OEff x (Send m)] ++ map (fun k => OEff k (Send m)) l).
  rewrite sent_app, IH. unfold sent. cbn. destruct (N.eqb_spec x k) as [->|N1]; cbn.
  - rewrite bool_decide_false by done. rewrite bool_decide_true by (apply elem_of_list_here). done.
  - case_bool_decide as B; case_bool_decide as B'; try done; exfalso; [apply B'; by apply elem_of_list_further|apply elem_of_cons in B' as [->|]; done].
Qed.
(** The round sends the data. *)
Lemma round_sends e p a b id s m p' outs : reachable p -> step e p (Ranging a id) = Ret (p', outs) -> b <> a ->
  session_at p a id = Some s -> data_session 1 s -> device_mac_address (s_cfg s) = Some m ->
  (exists ps, session_at p b id = Some ps /\ data_session 0 ps) -> env_estimate e a b <> None -> env_estimate e b a <> None ->
  data_messages (sent b outs) = [DataMessageRcv id 0 (mac_to_u64 m) 1 (s_data s)].
Proof.
  intros R H Ne S Ds Em Sp E1 E2. destruct (round_spec _ _ _ _ _ _ _ (reachable_pinv _ R) H) as (s0 & s' & ms' & ks & peers & S0 & S' & N1 & N2 & F & C & P & m0 & ms1 & Em0 & A & O).
  rewrite S in S0. injection S0 as <-. assert (b ∈ peers) as B. { apply P. split_and!; try done. intros (_ & [X|X]); done. }
  assert (m0 = m) as ->. { rewrite Em0 in Em; [by injection Em|]. intros ->. by apply elem_of_nil in B. }
  destruct O as [(_ & _ & ->)|(_ & _ & ->)]; rewrite ?sent_app, sent_peers, bool_decide_true by done; [|done].
  unfold sent. cbn. destruct (a =? b); done.
Qed.
Lemma rounds_taken a x y lb y' : moved y lb y' -> y_crash y' = None -> y_crash y = None -> rounds a (y_queue y) = x :: rounds a (y_queue y') ->
  exists e Q, lb = LTake e /\ y_queue y = Ranging a x :: Q.
Proof.
  intros M Cr Cr0 E. assert (forall Q, rounds a (y_queue y) <> x :: rounds a (y_queue y ++ Q)) as N.
  { intros Q E'. apply (f_equal length) in E'. unfold rounds in E'. rewrite map_app, concat_app in E'. cbn in E'. rewrite app_length in E'. lia. }
  pose proof (N []) as N0. rewrite app_nil_r in N0.
  destruct M; try (by exfalso; apply (N _ E)); try (by exfalso; apply N0); cbn in *; try congruence.
  - rewrite H0 in E. destruct o as [| |k z| | | | |]; unfold rounds in E; cbn in E; try (apply (f_equal length) in E; cbn in E; lia).
    destruct (N.eqb_spec k a) as [->|]; [|apply (f_equal length) in E; cbn in E; lia]. cbn in E. injection E as ->. by exists e, q.
  - destruct (perform_fields o (y_set_todo todo y)) as (_ & _ & F & _). rewrite F in E. by destruct N0.
  - destruct (deliver_fields (n_host n) (n_msg n) (y_set_delayed (delete i (y_delayed y)) y)) as (_ & _ & F & _). rewrite F in E. by destruct N0.
Qed.

(** ** Both hosts *)
Section Both.
  Context (id : N) (A B : setup) (OkA : setup_ok id A) (OkB : setup_ok id B) (m : mac_address).
  Notation a := (su_host A).
  Notation b := (su_host B).
  Notation i := (ranging_duration (su_cfg A)).
  Notation K o := (q_k (default nowhere o)).
  Notation T0 o := (q_start (default nowhere o)).
  Notation infos o := (q_infos (default nowhere o)).
  Context (Ne : a <> b) (Ra : app_config_get (su_cfg A) T_DEVICE_ROLE = Some [1]) (Rb : app_config_get (su_cfg B) T_DEVICE_ROLE = Some [0]).
  Context (Ma : device_mac_address (su_cfg A) = Some m) (Di : ranging_duration (su_cfg B) = i) (Na : (1 <= su_n A)%nat) (Nb : (1 <= su_n B)%nat).
  Notation file := (DataMessageRcv id 0 (mac_to_u64 m) 1 (file_of (su_parts A))).
  Context (Wa : su_wait A = []) (Wb : su_wait B = [file]).
  Record joint_obeys (ls : list label) : Prop := {
    jo_a : s_obeys id A ls; jo_b : s_obeys id B ls; jo_ab : joins a b id i ls; jo_ba : joins b a id i ls; jo_est : estimated a b ls; jo_only : only_sender a b id ls }.
  Lemma joint_before ls lb y y' : executed ls y -> sys_step lb y = Some y' -> joint_obeys (ls ++ [lb]) -> joint_obeys ls.
  Proof using All.
    intros Xe Sy [? ? ? ? ? ?]. split; [by eapply obeys_before|by eapply obeys_before|by eapply joins_before|by eapply joins_before|by eapply estimated_before|by eapply only_before].
  Qed.
  (** The data messages sent to [b] are none, and no round of [a] was processed, or the first one is the file. *)
  Definition sent_so_far (oa : option pos) (outs : list out) : Prop :=
    data_messages (sent b outs) = [] /\ infos oa = [] \/ head (data_messages (sent b outs)) = Some file.
  Record both_at (ls : list label) (y : sys) (oa ob : option pos) (outs : list out) : Prop := {
    ba_a : s_at id A oa ls y; ba_b : s_at id B ob ls y; ba_ha : s_hist id A oa ls; ba_hb : s_hist id B ob ls;
    ba_s : sinv y (processed ls sys_new) outs; ba_d : sent_so_far oa outs }.
  Record joint (ls : list label) (y : sys) : Prop := {
    jt_a : s_run id A ls y; jt_b : s_run id B ls y; jt_d : agree_data (su_wait B) (h_data B y);
    jt_at : y_crash y = None -> exists oa, s_at id A oa ls y;
    jt_both : y_crash y = None -> ~ gone b y -> exists oa ob outs, both_at ls y oa ob outs }.
  Lemma agree_file D : D = [] \/ head D = Some file -> agree_data (su_wait B) D.
  Proof using All.
    rewrite Wb. intros [->|H] j x x' Lx Ly; [done|]. destruct j; [|done]. cbn in Lx. injection Lx as <-. destruct D; [done|]. cbn in *. congruence.
  Qed.
  Lemma data_prefix y l outs oa : sinv y l outs -> sent_so_far oa outs -> agree_data (su_wait B) (h_data B y).
  Proof using All.
    intros I D. destruct (data_sent _ _ _ b I) as (lost & E & _). apply agree_file. unfold h_data. destruct (data_messages (delivered b y)) as [|z L]; [by left|right].
    destruct D as [[D _]|D]; rewrite <- E in D; [done|exact D].
  Qed.
  (** The first round of [a] sends the file. *)
  Lemma first_round ls y oa ob outs e Q p' outs' : executed ls y -> joint_obeys ls -> ~ gone a y -> ~ gone b y -> both_at ls y oa ob outs -> infos oa = [] -> data_messages (sent b outs) = [] ->
    y_queue y = Ranging a id :: Q -> step e (y_pica y) (Ranging a id) = Ret (p', outs') -> env_estimate e a b <> None -> env_estimate e b a <> None ->
    data_messages (sent b outs') = [file].
  Proof using All.
    intros Xe Jo Ga Gb [Va Vb Ha Hb Si _] Nf Nd Eq St E1 E2. destruct (at_round _ _ _ _ _ _ _ Va Eq) as (_ & Ka & Tm). rewrite Nf in Tm. cbn [length] in Tm.
    destruct (proj2 Ha ltac:(lia)) as [Aa _]. destruct (jo_ab _ Jo ls [] y (T0 oa)) as (t' & _ & Ab); try done; [by rewrite app_nil_r|by apply Xe|lia|].
    assert (4 <= K ob)%nat as Kb. { destruct (le_lt_dec 4 (K ob)) as [|L]; [done|]. exfalso. eapply (proj1 Hb); [lia|exact Ab]. }
    assert (K ob = 4)%nat as Kb4. { assert (K ob <= 4)%nat; [|lia]. eapply at_waiting; [exact Vb|]. rewrite Wb. destruct (data_sent _ _ _ b Si) as (lost & E & _). rewrite Nd in E. apply app_nil in E as [E _]. unfold h_data. rewrite E. cbn. lia. }
    destruct (at_active _ _ _ _ _ Va Ka) as (sa & Sa & Aa' & Ta & Ca & Da). destruct (at_active _ _ _ _ _ Vb Kb4) as (sb & Sb & Ab' & Tb & Cb & _).
    rewrite Nf in Da. cbn [held] in Da. rewrite <- Da. eapply round_sends; try done.
    - pose proof (si_reach _ _ _ Si) as Re. by eexists _, _.
    - split_and!; try done. by rewrite Ca.
    - by rewrite Ca.
    - exists sb. split; [done|]. split_and!; try done. by rewrite Cb.
  Qed.
  (** Other steps send nothing to [b]. *)
  Lemma other_step ls y ob e o p' outs' : executed ls y -> joint_obeys ls -> s_at id B ob ls y -> wf_op o -> step e (y_pica y) o = Ret (p', outs') -> o <> Ranging a id -> data_messages (sent b outs') = [].
  Proof using All.
    intros Xe Jo Vb Wo St No. destruct (sent_data b outs') as [|(id' & st & src & sq & data & I)]; [done|]. exfalso. destruct (executed_sinv _ _ Xe) as (outs & Si). pose proof (si_reach _ _ _ Si) as Re.
    destruct (C44_partial _ _ _ _ _ _ _ _ _ _ _ (ex_intro _ _ (ex_intro _ _ Re)) Wo St I) as (k & s & ps & Nk & -> & Sk & Dk & Sb & _).
    destruct (at_session _ _ OkB _ _ _ _ _ Vb Sb) as [-> _]. destruct (decide (k = a)) as [->|Na']; [done|].
    eapply (jo_only _ Jo ls [] y k s); try done; [by rewrite app_nil_r|by apply Xe].
  Qed.
  Lemma tick_b ls y oa ob outs : executed ls y -> joint_obeys (ls ++ [LTick]) -> ~ gone a y -> ~ gone b y -> both_at ls y oa ob outs -> s_tick B y.
  Proof using All.
    intros Xe Jo Ga Gb [Va Vb Ha Hb Si D] Ld Lg. destruct (jo_a _ Jo) as (_ & Bra & _). destruct (jo_b _ Jo) as (_ & Brb & _).
    destruct (Bra ls [] y eq_refl (proj2 Xe) Ga) as [Da _]. destruct (Brb ls [] y eq_refl (proj2 Xe) Gb) as [Db _].
    destruct (at_got _ _ _ _ _ Vb (at_waiting _ _ _ _ _ Vb Ld) Lg) as [Kb Lb]. destruct (at_rest _ _ _ _ _ Vb Db ltac:(lia)) as [(_ & Nw & Et)|[? _]]; [|lia]. rewrite Et. constructor; [|constructor]. cbn [t_deadline].
    rewrite Lb, Di in *. destruct (N.lt_ge_cases (y_now y + 1) (T0 ob + i * N.of_nat (S (su_n B)))) as [|Ge]; [done|]. exfalso.
    pose proof (ok_du _ _ OkA) as Du. assert (T0 ob + i <= y_now y) as Lt by nia.
    destruct (proj2 Hb ltac:(lia)) as [Ab _]. destruct (jo_ba _ Jo ls [LTick] y (T0 ob)) as (t' & Lt' & Aa); try done; [by apply Xe|].
    assert (4 <= K oa)%nat as Ka. { destruct (le_lt_dec 4 (K oa)) as [|L]; [done|]. exfalso. eapply (proj1 Ha); [lia|exact Aa]. }
    pose proof (proj2 (proj2 Ha Ka) _ Aa) as Lt''.
    assert (infos oa <> []) as Nf. { intros Z. destruct (at_rest _ _ _ _ _ Va Da Ka) as [(_ & Nw' & _)|[_ Z']]; rewrite Z in *; cbn [length] in *; [|lia]. nia. }
    destruct D as [[_ ?]|D]; [done|]. destruct (data_sent _ _ _ b Si) as (lost & E & Nl). rewrite (Nl Gb) in E. cbn [app] in E.
    assert (sent b (y_todo y) = []) as Z. { destruct Db as [Z _]. clear -Z. unfold sent. induction (y_todo y) as [|o L IH]; [done|]. cbn [map concat]. rewrite IH by (intros x I; apply (Z x); by right).
      destruct o as [k x| | |]; try done. destruct x; try done. cbn. destruct (N.eqb_spec k b) as [->|]; [|done]. exfalso. eapply Z. by left. }
    rewrite Z, app_nil_r in E. unfold h_data in Ld. rewrite Wb, E in Ld. destruct (data_messages (sent b outs)); [done|cbn in Ld; lia].
  Qed.
  Lemma both_step ls y lb y' oa ob outs oa' ob' : executed ls y -> executed (ls ++ [lb]) y' -> wf_label lb -> y_crash y = None -> moved y lb y' -> sys_step lb y = Some y' -> joint_obeys (ls ++ [lb]) ->
    ~ gone a y -> ~ gone b y -> y_crash y' = None -> both_at ls y oa ob outs ->
    s_at id A oa' (ls ++ [lb]) y' -> evolves oa oa' (view_of a y) (view_of a y') -> s_at id B ob' (ls ++ [lb]) y' -> evolves ob ob' (view_of b y) (view_of b y') ->
    exists outs', both_at (ls ++ [lb]) y' oa' ob' outs'.
  Proof using All.
    intros Xe Xe' Wl Cr M Sy Jo Ga Gb Cr' Bo Va' Ea Vb' Eb. pose proof Bo as [Va Vb Ha Hb Si D]. pose proof (joint_before _ _ _ _ Xe Sy Jo) as Jo0.
    destruct (data_next _ _ _ _ _ Xe Wl M Sy Si) as (outs' & Si' & Ot). exists (outs ++ outs'). split; try done.
    { eapply hist_step; [done|by apply Xe'|done|done|done]. } { eapply hist_step; [done|by apply Xe'|done|done|done]. }
    unfold sent_so_far. rewrite sent_app, data_app. destruct D as [[Nd Nf]|D]; [|right; by destruct (data_messages (sent b outs))]. rewrite Nd. cbn [app].
    assert ((exists e Q, lb = LTake e /\ y_queue y = Ranging a id :: Q) \/ forall e Q, ~ (lb = LTake e /\ y_queue y = Ranging a id :: Q)) as [(e & Q & -> & Eq)|No].
    { destruct (y_queue y) as [|o Q]; [by right; intros ? ? [_ ?]|].
      assert (o = Ranging a id \/ o <> Ranging a id) as [->|N].
      { destruct o; try (by right). destruct (decide ((h, id0) = (a, id))) as [E|E]; [injection E as -> ->; by left|right; congruence]. }
      2:{ right. intros ? ? [_ [= -> ->]]. done. }
      assert ((exists e, lb = LTake e) \/ forall e, lb <> LTake e) as [[e ->]|N] by (destruct lb; try (by right); left; by eexists); [by left; exists e, Q|]. right. intros e ? [-> _]. by eapply N. }
    - right. inversion M as [e0 o q p outs0 Td Qu St|e0 o q s0 Td Qu St| | | | | | | | | | | | | |]; subst; [|done]. rewrite Eq in Qu. injection Qu as <- <-.
      destruct Ot as [->|(e1 & o1 & Tk & _ & St1)].
      { exfalso. pose proof (si_reach _ _ _ Si') as [_ R']. pose proof (si_reach _ _ _ Si) as R. rewrite (processed_snoc _ _ _ _ _ (proj2 Xe) Sy) in R'. cbn [taken] in R'. rewrite Eq, St in R'. cbn [crashed] in R'.
        rewrite run_app in R'. destruct R as [_ R]. rewrite R in R'. cbn [obind run] in R'. rewrite St in R'. cbn in R'. injection R' as E. rewrite !app_nil_r in E. assert (outs0 = []) as -> by (by apply (app_inv_head outs); rewrite app_nil_r).
        destruct (jo_est _ Jo e) as [E1 E2]; [apply in_or_app; right; by left|]. by pose proof (first_round _ _ _ _ _ _ _ _ _ Xe Jo0 Ga Gb Bo Nf Nd Eq St E1 E2). }
      cbn [taken] in Tk. rewrite Eq, St in Tk. cbn [crashed] in Tk. injection Tk as <- <-.
      destruct (jo_est _ Jo e) as [E1 E2]; [apply in_or_app; right; by left|]. by rewrite (first_round _ _ _ _ _ _ _ _ _ Xe Jo0 Ga Gb Bo Nf Nd Eq St1 E1 E2).
    - left. split.
      + destruct Ot as [->|(e1 & o1 & Tk & Wo & St1)]; [done|]. eapply (other_step ls y); [exact Xe|exact Jo0|exact Vb|exact Wo|exact St1|]. intros ->.
        destruct lb; cbn in Tk; try discriminate. destruct (y_queue y) as [|o Q] eqn:Eq; [done|]. destruct (crashed _); [done|]. injection Tk as _ ->. by eapply No.
      + destruct (ev_infos _ _ _ _ Ea) as [->|[x Er]]; [done|]. exfalso. cbn [view_of v_rounds] in Er. destruct (rounds_taken _ _ _ _ _ M Cr' Cr Er) as (e & Q & -> & Eq).
        destruct (at_round _ _ _ _ _ _ _ Va Eq) as (-> & _). by eapply No.
  Qed.
  Lemma joint_run ls y : executed ls y -> joint_obeys ls -> ~ gone a y -> joint ls y.
  Proof using All.
    revert ls y. refine (executed_ind _ _ _).
    - intros _ _. destruct (host_start id A) as [Ra0 Va0]. destruct (host_start id B) as [Rb0 Vb0]. split; try done.
      + by exists None.
      + intros _ _. exists None, None, []. split; try done; try apply hist_start; [apply sinv_new|by left].
    - intros ls y lb y' Xe IH Wl Cr M Sy Jo Ga'. assert (~ gone a y) as Ga by (intros ?; apply Ga'; by eapply gone_mono).
      pose proof (joint_before _ _ _ _ Xe Sy Jo) as Jo0. destruct (IH Jo0 Ga) as [Ja Jb Jd Jat Jboth]. pose proof (executed_snoc _ _ _ _ Xe Wl Sy) as Xe'.
      destruct (host_step id A OkA ls y lb y') as [Ja' Va']; try done; [by apply Jo|by rewrite Wa|intros _ _; unfold s_tick, tick_ok; rewrite Wa; cbn; lia|by intros _; apply Jat|].
      destruct (host_step id B OkB ls y lb y') as [Jb' Vb']; try done; [by apply Jo| | |].
      { intros -> Gb. destruct (Jboth Cr Gb) as (oa & ob & outs & Bo). by eapply tick_b. }
      { intros Gb. destruct (Jboth Cr Gb) as (oa & ob & outs & [? ? ? ? ? ?]). by exists ob. }
      assert (y_crash y' = None -> exists oa, s_at id A oa (ls ++ [lb]) y') as Jat'. { intros Cr'. destruct (Jat Cr) as [oa Va]. destruct (Va' Ga' Cr' oa Va) as (oa' & ? & _). by exists oa'. }
      assert (y_crash y' = None -> ~ gone b y' -> exists oa ob outs, both_at (ls ++ [lb]) y' oa ob outs) as Jboth'.
      { intros Cr' Gb'. assert (~ gone b y) as Gb by (intros ?; apply Gb'; by eapply gone_mono). destruct (Jboth Cr Gb) as (oa & ob & outs & Bo). pose proof Bo as [Va Vb _ _ _ _].
        destruct (Va' Ga' Cr' _ Va) as (oa' & Va1 & Ea). destruct (Vb' Gb' Cr' _ Vb) as (ob' & Vb1 & Eb). destruct (both_step ls y lb y' oa ob outs oa' ob') as [outs' Bo']; try done. by exists oa', ob', outs'. }
      split; try done. destruct (stuck_or_not b y') as [G|[G Cr']].
      + unfold h_data. rewrite (delivered_stuck _ _ _ _ M G Cr). done.
      + destruct (Jboth' Cr' G) as (oa & ob & outs & [_ _ _ _ Si D]). by eapply data_prefix.
  Qed.
  Lemma joint_outcome ls y : executed ls y -> joint_obeys ls -> ~ gone a y ->
    outcome_of (s_prog id B) b y <> Raised
    /\ (outcome_of (s_prog id B) b y = Finished -> infos_delivered b id y = map N.of_nat (seq 0 (su_n B)) /\ head (h_data B y) = Some file /\ (~ gone b y -> y_crash y = None -> session_at (y_pica y) b id = None))
    /\ (~ gone b y -> y_crash y = None -> connected (y_pica y) b -> all_arrived (s_prog id B) b ls y -> queued_rounds b id y = 0%nat -> outcome_of (s_prog id B) b y = Finished \/ live_timers b id y = 1%nat).
  Proof using All.
    intros Xe Jo Ga. destruct (joint_run _ _ Xe Jo Ga) as [Ja Jb Jd Jat Jboth]. destruct (host_outcome id B OkB ls y) as (O1 & O2 & O3); try done.
    - intros Gb Cr. destruct (Jboth Cr Gb) as (oa & ob & outs & [? ? ? ? ? ?]). by exists ob.
    - split_and!; try done. intros F. destruct (O2 F) as (I1 & [z P] & I3). split_and!; try done. rewrite P, Wb. done.
  Qed.
End Both.

(** ** The programs *)
Lemma setup_exists h id l cfg n ps wait : accepted id l cfg -> Forall (part_ok id) ps ->
  exists S, setup_ok id S /\ su_host S = h /\ su_opts S = l /\ su_cfg S = cfg /\ su_n S = n /\ su_parts S = ps /\ su_wait S = wait.
Proof.
  intros (Wi & Wc & Lc & Sa & Cf & Nt & Du) Ps. destruct (frames_exist _ _ _ Wi Wc Lc) as (r & i & c & s & t & x & (E1 & E2 & E3 & E4 & E5 & E6) & (B1 & B2 & B3 & B4 & B5 & B6) & F1 & F2 & F3 & F4 & F5 & F6).
  by exists (Setup h l cfg n ps wait r i c s t x).
Qed.
Lemma sender_outcome h id l cfg dst file n ls y : accepted id l cfg -> word64 dst -> wf_bytes file -> executed ls y -> runs_at (sender_program id 1 l dst file n) h id cfg ls ->
  outcome_of (sender_program id 1 l dst file n) h y <> Raised
  /\ (outcome_of (sender_program id 1 l dst file n) h y = Finished ->
       infos_delivered h id y = map N.of_nat (seq 0 n) /\ (~ gone h y -> y_crash y = None -> session_at (y_pica y) h id = None))
  /\ (~ gone h y -> y_crash y = None -> connected (y_pica y) h -> all_arrived (sender_program id 1 l dst file n) h ls y -> queued_rounds h id y = 0%nat ->
       outcome_of (sender_program id 1 l dst file n) h y = Finished \/ live_timers h id y = 1%nat).
Proof. intros (Wi & Wc & Lc & Sa & Cf & Nt & Du) Wd Wf Xe (Fo & Br & Ns). by eapply sender_runs. Qed.
Lemma receiver_runs a b id la lb ca cb mac dst file na nb ls y :
  accepted id la ca -> accepted id lb cb -> transfers ca cb mac -> word64 dst -> wf_bytes file -> a <> b -> (1 <= na)%nat -> (1 <= nb)%nat ->
  executed ls y -> runs_at (sender_program id 1 la dst file na) a id ca ls -> runs_at (receiver_program id 1 lb (le_nat mac) file nb) b id cb ls ->
  joins a b id (ranging_duration ca) ls -> joins b a id (ranging_duration ca) ls -> estimated a b ls -> only_sender a b id ls -> ~ gone a y ->
  let prog := receiver_program id 1 lb (le_nat mac) file nb in
  outcome_of prog b y <> Raised
  /\ (outcome_of prog b y = Finished -> infos_delivered b id y = map N.of_nat (seq 0 nb) /\ head (data_messages (delivered b y)) = Some (DataMessageRcv id 0x00 (le_nat mac) 0x01 file)
       /\ (~ gone b y -> y_crash y = None -> session_at (y_pica y) b id = None))
  /\ (~ gone b y -> y_crash y = None -> connected (y_pica y) b -> all_arrived prog b ls y -> queued_rounds b id y = 0%nat -> outcome_of prog b y = Finished \/ live_timers b id y = 1%nat).
Proof.
  intros Aa Ab (Ra & Rb & Rm & Du) Wd Wf Ne Na Nb Xe Oa Ob Jab Jba Es On Ga prog.
  destruct (transfer_parts id dst file (proj1 (proj1 Aa)) Wd Wf) as (ps & Ep & Po & Ef).
  assert (exists m, device_mac_address ca = Some m /\ mac_to_u64 m = le_nat mac) as (m & Em & Eu).
  { cbn [app_config_get] in Rm. destruct (device_mac_address ca) as [m|]; [|done]. exists m. split; [done|]. injection Rm as <-. by destruct m. }
  destruct (setup_exists a id la ca na ps [] Aa Po) as (A & OkA & <- & <- & <- & <- & <- & Wa).
  destruct (setup_exists b id lb cb nb [] [DataMessageRcv id 0 (mac_to_u64 m) 1 (file_of (su_parts A))] Ab (Forall_nil_2 _)) as (B & OkB & <- & <- & <- & <- & Pb & Wb).
  assert (s_prog id A = sender_program id 1 (su_opts A) dst file (su_n A)) as Ea. { unfold s_prog, sender_program. by rewrite Wa, Ep. }
  assert (s_prog id B = prog) as Eb. { unfold s_prog, prog, receiver_program. by rewrite Wb, Pb, Ef, Eu. }
  destruct (joint_outcome id A B OkA OkB m Ne Ra Rb Em Du Na Nb Wa Wb ls y Xe) as (O1 & O2 & O3).
  - split; try done; unfold s_obeys, obeys.
    + change (session_program id 1 (su_opts A) (steps_of id (su_parts A)) (su_wait A) (su_n A)) with (s_prog id A). rewrite Ea. exact Oa.
    + change (session_program id 1 (su_opts B) (steps_of id (su_parts B)) (su_wait B) (su_n B)) with (s_prog id B). rewrite Eb. exact Ob.
  - done.
  - rewrite Eb in *. rewrite Ef, Eu in O2. done.
Qed.
