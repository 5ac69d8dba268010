(** Proofs about the programs using the Python library. *)
From Verif Require Import Base Uci MacAddress AppConfig Codec Session Device Pica Sys Transport BaseFacts CodecSpec ContextSpec HistorySpec SessionSpec InvFacts StepFacts.
From Verif Require Import CodecFacts CommandFacts SessionFacts RangingSpec EffectFacts SysSpec SysFacts ScheduleFacts DeliveryFacts PropsContext PropsMulticast PropsSession DialogueSpec DialogueFacts SetupFacts.
From Verif Require Import TransportSpec TransportFacts PyHost PyHostSpec PyHostFacts PyReader PyReaderSpec PyReaderFacts Script ScriptSpec.

(** ** What the program receives *)
(** Shown by the library as an object of its class. *)
Definition plain (m : msg) : bool :=
  match m with
  | UnknownCmdRsp _ _ _ | UnknownGroupRsp _ _ _ | SessionUpdateControllerMulticastListRsp _ _ | DataMessageRcv _ _ _ _ _ => false
  | _ => true
  end.
Definition seen_as (m : msg) (packet : bytes) : Prop := py_parse_control packet = Some (PyMsg m).
Lemma parse_data_msg packet m : py_parse_data packet = Some (PyMsg m) -> exists a b c d e, m = DataMessageRcv a b c d e.
Proof.
  unfold py_parse_data. destruct (py_need 4 packet); [|discriminate]. cbn [mbind option_bind].
  destruct (py_enum _ _) as [dpf|]; [|discriminate]. cbn [mbind option_bind]. destruct (mt_of_code _) as [mt|]; [|discriminate]. cbn [mbind option_bind].
  set (snd := if (dpf =? 1) && _ then _ else None). assert (snd = None \/ exists a b c d, snd = Some (PyDataMessageSnd a b c d)) as [->|(a & b & c & d & ->)].
  { subst snd. destruct (_ && _); [|by left]. destruct (py_need 16 _); [|by left]. cbn [mbind option_bind]. destruct (py_slice _ _) as [[data []]|]; [|by left..]. right. by eexists _, _, _, _. }
  2:{ by intros [= [=]]. }
  destruct ((dpf =? 2) && _); [|by intros [= [=]]]. destruct (py_need 17 _); [|by intros [= [=]]]. cbn [mbind option_bind]. destruct (py_slice _ _) as [[data []]|]; [|by intros [= [=]]..].
  intros [= <-]. by eexists _, _, _, _, _.
Qed.
Lemma shows_plain m packet : plain m = true -> py_shows m packet -> seen_as m packet.
Proof.
  intros P S. assert (py_parse packet = Some (PyMsg m)) as E by (by destruct m). unfold py_parse in E. destruct (_ =? 0); [|exact E].
  apply parse_data_msg in E as (? & ? & ? & ? & ? & ->). done.
Qed.
Lemma plain_received ms : Forall wf_msg ms -> Forall (fun m => plain m = true) ms ->
  exists s, stream_of ms = Some s /\ Forall2 seen_as ms (control_packets (py_read_stream s)).
Proof.
  intros W P. destruct (reader_sees ms W) as (bs & s & M & S & H). exists s. split; [unfold stream_of; by rewrite M|].
  destruct (H [s] false ltac:(cbn; by rewrite app_nil_r)) as (q & Q & _ & R).
  assert (wf_bytes s) as Ws.
  { eapply write_stream_wf; [|exact S]. apply mapM_Some in M. clear -M W. induction M; inversion W; subst; constructor; eauto. by destruct (wire_wf _ _ H2 H). }
  destruct (reader_queues s Ws) as (t & _ & R'). specialize (R' [s] ltac:(cbn; by rewrite app_nil_r) (Datatypes.S (length [s] + length s)%nat) ltac:(lia)).
  rewrite (R (Datatypes.S (length [s] + length s)%nat)) in R' by lia. injection R' as -> _. cbn [control_queue] in Q.
  assert (control_messages ms = ms) as E. { clear -P. unfold control_messages. induction P as [|m ms Pm P IH]; [done|]. cbn. rewrite IH. by destruct m. }
  rewrite E in Q. clear -W P Q. unfold queued_as in Q. induction Q as [|m p ms ps C Q IH]; [constructor|].
  inversion W; subst. inversion P; subst. constructor; [|by apply IH]. destruct C as (b & Wb & R). apply shows_plain; [done|]. eapply py_wire_shows; try done. by destruct m.
Qed.

(** ** What it sends *)
Definition sendable (c : command) : Prop := wf_cmd c /\ (length (cmd_args c) <= 255)%nat.
Lemma send_frame c : sendable c -> exists f, py_send_command c = Some f /\ encodes c f /\ wf_bytes f.
Proof.
  intros S. pose proof S as [W L]. assert (exists f, py_send_command c = Some f) as [f E].
  { unfold py_send_command. rewrite py_serialize_eq by done. unfold py_send_control. rewrite (proj2 (Nat.leb_le _ _) L). cbn. by eexists. }
  exists f. split; [done|].
  assert (mapM py_send [HControl (py_serialize c)] = Some [f]) as M by (cbn; fold (py_send_command c); by rewrite E).
  assert (Forall host_send_ok [HControl (py_serialize c)]) as O by (constructor; [by apply py_command_ok|constructor]).
  destruct (py_send_frames _ _ O M) as (_ & Wf & R & _). inversion R; subst. inversion Wf; subst. split; [by apply received_encodes|done].
Qed.
Lemma server_reads cs fs : Forall sendable cs -> mapM py_send_command cs = Some fs -> (read_routine None (read_stream (concat fs))).1 = fs.
Proof.
  intros F M. assert (mapM py_send (map (fun c => HControl (py_serialize c)) cs) = Some fs) as M'.
  { clear F. revert fs M. induction cs as [|c cs IH]; intros frames M; [done|]. cbn [map mapM] in *.
    apply bind_Some in M as (b & Hb & M). apply bind_Some in M as (bs & Hbs & M). cbn [py_send]. fold (py_send_command c). rewrite Hb. cbn [mbind option_bind].
    rewrite (IH _ Hbs). exact M. }
  rewrite (py_send_delivered _ _ ltac:(apply Forall_map; eapply Forall_impl; [exact F|]; intros c [W _]; by apply py_command_ok) M'). done.
Qed.
Lemma server_reads_take cs fs k : Forall sendable cs -> mapM py_send_command cs = Some fs -> (read_routine None (read_stream (concat (take k fs)))).1 = take k fs.
Proof.
  intros F M. apply (server_reads (take k cs)); [by apply Forall_take|]. apply mapM_Some. apply mapM_Some in M. by apply Forall2_take.
Qed.

(** ** A connection that has ended gets nothing more *)
Lemma delivered_stuck h y l y' : moved y l y' -> gone h y' \/ y_crash y' <> None -> y_crash y = None -> delivered h y' = delivered h y.
Proof.
  intros M G Cr. destruct M; try done.
  - destruct o as [k [m|d m|id iv|id|a id n]|k a|k a|r]; try done. cbn [perform] in *. destruct (_ && _) eqn:Hs; [done|].
    rewrite delivered_deliver. change (delivered h (y_set_todo todo y)) with (delivered h y). unfold deliver in G.
    destruct (host_closed k (y_set_todo todo y)) eqn:Hc; cbn [negb andb]; [by rewrite app_nil_r|].
    destruct (N.eqb_spec k h) as [->|]; [|by rewrite app_nil_r]. exfalso. unfold host_closed in Hc. apply bool_decide_eq_false in Hc.
    destruct G as [G|G]; [by apply Hc|]. by apply G.
  - rewrite delivered_deliver. change (delivered h (y_set_delayed _ y)) with (delivered h y). unfold deliver in G.
    destruct (host_closed (n_host n) (y_set_delayed (delete i (y_delayed y)) y)) eqn:Hc; cbn [negb andb]; [by rewrite app_nil_r|].
    destruct (N.eqb_spec (n_host n) h) as [E|]; [|by rewrite app_nil_r]. exfalso. unfold host_closed in Hc. apply bool_decide_eq_false in Hc.
    destruct G as [G|G]; [apply Hc; by rewrite E|]. by apply G.
Qed.

(** ** The set-up of a session *)
Definition on_the_way (h : N) (y : sys) : nat := (length (scheduled h (y_todo y)) + length (waiting h y))%nat.
Lemma scheduled_task h outs st : Forall (out_fine st) outs -> Forall (fun m => by_task m = true) (scheduled h outs).
Proof.
  intros F. unfold scheduled. induction F as [|o outs Fo F IH]; [constructor|]. cbn [map concat]. apply Forall_app. split; [|done].
  destruct o as [k [m|d m|id iv|id|a id n]|k a|k a|r]; try constructor. cbn. destruct (k =? h); [|constructor]. destruct Fo as (_ & Dm & _). by repeat constructor.
Qed.
Definition tasks (l : list msg) : nat := length (List.filter by_task l).
Global Instance tasks_perm : Proper (Permutation ==> eq) tasks.
Proof. intros l l' P. unfold tasks. induction P; cbn; repeat destruct (by_task _); cbn; congruence. Qed.
Lemma tasks_all l : Forall (fun m => by_task m = true) l -> tasks l = length l.
Proof. unfold tasks. induction 1 as [|m l H _ IH]; [done|]. cbn. rewrite H. cbn. by rewrite IH. Qed.
Lemma tasks_app l l' : tasks (l ++ l') = (tasks l + tasks l')%nat.
Proof. unfold tasks. by rewrite List.filter_app, app_length. Qed.
Lemma due_tasks h outs st : Forall (out_fine st) outs -> (length (scheduled h outs) <= tasks (due h outs))%nat.
Proof.
  intros F. assert (due h outs ≡ₚ sent h outs ++ scheduled h outs) as ->. { unfold due. apply Permutation_app_head. by rewrite by_delay_perm, delays_snd. }
  rewrite tasks_app, (tasks_all (scheduled h outs)) by (by eapply scheduled_task). lia.
Qed.

Section SetUp.
  Context (h id ty : N) (l : list (tlv_id * bytes)) (cfg : app_config) (r i c : bytes).
  Context (Er : encodes (CmdDeviceReset 0) r) (Ei : encodes (CmdSessionInit id ty) i) (Ec : encodes (CmdSetAppConfig id l) c).
  Context (Fr : py_send_command (CmdDeviceReset 0) = Some r) (Fi : py_send_command (CmdSessionInit id ty) = Some i)
    (Fc : py_send_command (CmdSetAppConfig id l) = Some c).
  Context (Wi : sendable (CmdSessionInit id ty)) (Wc : sendable (CmdSetAppConfig id l)).
  Context (Sa : sets_all default_app_config l cfg []) (Cf : configured cfg).
  Notation prog := (set_up_program id ty l).

  (** The number of packets sent once [n] messages are received. *)
  Definition sent_at (n : nat) : nat := match n with 0 => 0 | 1 | 2 => 1 | 3 | 4 => 2 | _ => 3 end%nat.
  Lemma set_up_wf : Forall wf_msg (set_up id) /\ Forall (fun m => plain m = true) (set_up id).
  Proof. destruct Wi as [[? _] _]. split; repeat constructor; done. Qed.
  Lemma program_at n q dq : (n <= 7)%nat -> Forall2 seen_as (take n (set_up id)) q ->
    py_run prog q dq = (take (sent_at n) [r; i; c], if Nat.eqb n 7 then Finished else Blocked).
  Proof.
    intros L F. assert (forall m b, seen_as m b -> py_expected m b = true) as X by (intros m b H; unfold py_expected; by rewrite bool_decide_true).
    unfold set_up_program, init_program, set_up in *. cbn [app].
    do 8 (destruct n as [|n]; [cbn [take] in F;
      repeat match goal with H : Forall2 _ (_ :: _) _ |- _ => inversion H; subst; clear H | H : Forall2 _ [] _ |- _ => inversion H; subst; clear H end;
      cbn [py_run]; repeat match goal with H : seen_as _ _ |- _ => rewrite (X _ _ H); clear H end; rewrite ?Fr, ?Fi, ?Fc; reflexivity|]). lia.
  Qed.
  Lemma received_at y n : (n <= 7)%nat -> delivered h y = take n (set_up id) ->
    py_program prog (received h y) = (take (sent_at n) [r; i; c], if Nat.eqb n 7 then Finished else Blocked)
    /\ sent_by prog (received h y) = take (sent_at n) [r; i; c].
  Proof.
    intros L D. destruct set_up_wf as [W P]. destruct (plain_received (take n (set_up id))) as (s & S & F); [by apply Forall_take..|].
    assert (received h y = py_read_stream s) as -> by (unfold received; by rewrite D, S).
    unfold sent_by, py_program. rewrite (program_at n) by done. split; [done|]. cbn [fst].
    apply (server_reads_take [CmdDeviceReset 0; CmdSessionInit id ty; CmdSetAppConfig id l]).
    - constructor; [split; [done|cbn; lia]|]. constructor; [exact Wi|]. constructor; [exact Wc|constructor].
    - cbn [mapM]. by rewrite Fr, Fi, Fc.
  Qed.

  (** What is due: *)
  Lemma stage_due d ps ms : stage id ty cfg d ps ms -> (length ps <= 3)%nat -> ms = take (2 * length ps + 1) (set_up id).
  Proof. intros [_ H] L. destruct (length ps) as [|[|[|[|n]]]]; [by destruct H|by destruct H as (_ & _ & ?)|by destruct H as (_ & _ & ?)|by destruct H as (_ & -> & _)|lia]. Qed.
  Lemma prefix_take {A} (a : list A) b : a `prefix_of` b -> a = take (length a) b.
  Proof. intros [k ->]. by rewrite take_app. Qed.
  Record kept (ls : list label) : Prop := {
    rc_calm : along (calm h) ls sys_new;
    rc_timely : along (timely h) ls sys_new;
    rc_lockstep : along (lockstep h) ls sys_new;
    rc_in_turn : along (in_turn h) ls sys_new;
    rc_packets : packets_read h ls `prefix_of` [r; i; c] }.
  Definition reached (ls : list label) (y : sys) : Prop := kept ls /\ (on_the_way h y <= 1)%nat.
  (** What is due and received, for a live connection. *)
  Lemma reached_due ls y : executed ls y -> along (orderly h) ls sys_new -> kept ls -> ~ gone h y -> y_crash y = None ->
    exists rest, rest ≡ₚ messages h (y_todo y) ++ waiting h y
      /\ match p_devices (y_pica y) !! h with
         | None => delivered h y ++ rest = [] /\ packets h (processed ls sys_new).*2 = []
         | Some d => stage id ty cfg d (packets h (processed ls sys_new).*2) (delivered h y ++ rest)
             /\ delivered h y ++ rest = take (2 * length (packets h (processed ls sys_new).*2) + 1) (set_up id)
         end.
  Proof.
    intros Ex A R G Cr. destruct (executed_sinv _ _ Ex) as (outs & I). pose proof (si_reach _ _ _ I) as Re.
    destruct (dialogue _ _ _ Ex (rc_calm _ R) A (rc_timely _ R) (lockstep_unhurried _ _ _ Ex (rc_lockstep _ R) (rc_in_turn _ R)) G) as (rest & E & P).
    exists rest. split; [done|]. pose proof (executed_proper _ _ _ Ex G) as Pr.
    pose proof (packets_in_order _ _ h Ex Cr) as Po.
    assert (packets h (processed ls sys_new).*2 `prefix_of` [r; i; c]) as Px.
    { etransitivity; [|apply (rc_packets _ R)]. rewrite <- Po. by apply prefix_app_r. }
    pose proof (setup_stage h id ty l cfg r i c Er Ei Ec (proj1 Wi) (proj1 Wc) Sa Cf _ _ _ Re Pr Px) as St.
    destruct (p_devices (y_pica y) !! h) as [d|]; rewrite <- E in St; [|by destruct St]. split; [done|]. apply (stage_due d); [done|].
    apply prefix_length in Px. done.
  Qed.
  Lemma reached_delivered ls y : executed ls y -> along (orderly h) ls sys_new -> kept ls -> ~ gone h y -> y_crash y = None ->
    exists n, (n <= 7)%nat /\ delivered h y = take n (set_up id).
  Proof.
    intros Ex A R G Cr. destruct (reached_due _ _ Ex A R G Cr) as (rest & _ & H).
    assert (exists k, delivered h y ++ rest = take k (set_up id)) as [k E]. { destruct (p_devices _ !! h); [destruct H as [_ H]; by eexists|]. exists 0%nat. by destruct H. }
    exists (length (delivered h y)). assert (delivered h y `prefix_of` set_up id) as Px.
    { transitivity (take k (set_up id)); [rewrite <- E; by apply prefix_app_r|]. exists (drop k (set_up id)). by rewrite take_drop. }
    split; [apply prefix_length in Px; exact Px|]. by apply prefix_take.
  Qed.

  Lemma effs_messages outs : effs_at h outs = [] -> messages h outs = [].
  Proof.
    unfold messages, effs_at. induction outs as [|o outs IH]; [done|]. cbn [map concat]. intros E. apply app_nil in E as [E1 E2]. rewrite (IH E2), app_nil_r.
    destruct o as [k x| | |]; try done. unfold effs_of in E1. unfold messages_to. destruct x; cbn in *; try done; by destruct (k =? h).
  Qed.
  Lemma two_waiting y j j' n n' : j <> j' -> y_delayed y !! j = Some n -> y_delayed y !! j' = Some n' -> n_host n = h -> n_host n' = h ->
    (2 <= length (waiting h y))%nat.
  Proof.
    intros Ne L L' E E'. unfold waiting. pose proof (waiting_delete h y j n L) as P. rewrite E, N.eqb_refl in P.
    assert (exists k, delete j (y_delayed y) !! k = Some n') as [k Lk].
    { destruct (decide (j' < j)%nat); [exists j'; by rewrite lookup_delete_lt|]. exists (pred j'). rewrite lookup_delete_ge by lia. by replace (S (pred j')) with j' by lia. }
    pose proof (waiting_delete h (y_set_delayed (delete j (y_delayed y)) y) k n' Lk) as P'. rewrite E', N.eqb_refl in P'.
    apply Permutation_length in P, P'. unfold waiting in P, P'. rewrite app_length in P, P'. cbn [length] in P, P'. lia.
  Qed.
  Lemma reached_step ls y lb y' : executed ls y -> executed (ls ++ [lb]) y' -> moved y lb y' -> sys_step lb y = Some y' -> y_crash y = None -> along (orderly h) ls sys_new -> orderly h lb y -> reached ls y ->
    ~ gone h y' -> y_crash y' = None -> follows prog h (ls ++ [lb]) -> reached (ls ++ [lb]) y'.
  Proof.
    intros Ex Ex' M Sy Cr A Ca [R One] G' Cr' Fo. assert (~ gone h y) as G by (intros ?; apply G'; by eapply gone_mono).
    destruct (reached_due _ _ Ex A R G Cr) as (rest & Pr & Du). destruct (reached_delivered _ _ Ex A R G Cr) as (n & Ln & Dn).
    pose proof (packets_in_order _ _ h Ex Cr) as Po. pose proof (packets_in_order _ _ h Ex' Cr') as Po'.
    (* the packets *)
    assert (packets_read h (ls ++ [lb]) `prefix_of` [r; i; c] /\ lockstep h lb y) as [Px' Lo].
    { unfold packets_read. rewrite map_app, concat_app. fold (packets_read h ls). cbn [map concat]. rewrite app_nil_r.
      destruct (read_of h lb) as [|packet []] eqn:Rd; [rewrite app_nil_r; split; [apply R|]| |destruct lb; cbn in Rd; try discriminate; by destruct (_ =? h)].
      { destruct lb; try done. cbn in Rd. intros ->. by rewrite N.eqb_refl in Rd. }
      assert (lb = LRead h packet) as ->. { destruct lb; cbn in Rd; try discriminate. destruct (N.eqb_spec h0 h) as [->|]; [|discriminate]. by injection Rd as ->. }
      pose proof (Fo ls packet [] y eq_refl (proj2 Ex)) as Px. rewrite (proj2 (received_at _ _ Ln Dn)) in Px.
      split. { etransitivity; [exact Px|]. exists (drop (sent_at n) [r; i; c]). by rewrite take_drop. }
      pose proof (prefix_length _ _ Px) as Lx. rewrite app_length, take_length in Lx. cbn [length] in Lx.
      apply (f_equal length) in Po. rewrite app_length in Po.
      assert (length (delivered h y) = n) as Ld by (rewrite Dn, take_length; cbn; lia).
      assert (length (packets h (y_queue y)) = 0%nat /\ rest = []) as [Z ->].
      { destruct (p_devices (y_pica y) !! h) as [d|].
        - destruct Du as [_ Du]. apply (f_equal length) in Du. rewrite app_length, take_length in Du. cbn [length set_up] in Du.
          assert (length rest = 0%nat -> rest = []) as Zr by (by destruct rest).
          destruct n as [|[|[|[|[|[|[|[|n]]]]]]]]; cbn [sent_at] in Lx; (split; [lia|apply Zr; lia]).
        - destruct Du as [Du _]. apply (f_equal length) in Du. rewrite app_length in Du. cbn in Du. assert (n = 0%nat) as -> by lia. cbn in Lx. lia. }
      apply Permutation_nil in Pr. apply app_nil in Pr as [M1 M2]. intros _. split_and!; [by destruct (packets h (y_queue y))|by apply sent_nil in M1 as (_ & _ & ?)|done]. }
    (* other commands *)
    assert (packets h (processed (ls ++ [lb]) sys_new).*2 `prefix_of` [r; i; c]) as Pp'.
    { etransitivity; [|exact Px']. rewrite <- Po'. by apply prefix_app_r. }
    destruct (executed_sinv _ _ Ex) as (outs0 & I0). pose proof (si_reach _ _ _ I0) as Re0. assert (reachable (y_pica y)) as Rp by (by eexists _, _).
    assert (forall e o q p outs, lb = LTake e -> y_queue y = o :: q -> step e (y_pica y) o = Ret (p, outs) -> o <> Connect -> packet_of h o = [] -> messages h outs = []) as Oth.
    { intros e o q p outs -> Q St Nc Pk. apply effs_messages. destruct (p_devices (y_pica y) !! h) as [d|] eqn:L.
      - assert (In (e, o) (processed (ls ++ [LTake e]) sys_new)) as In'.
        { rewrite (processed_snoc _ _ _ _ _ (proj2 Ex) Sy). apply in_or_app. right. cbn [taken]. rewrite Q, St. by left. }
        destruct Du as [Du _]. eapply (frame_idle _ _ _ _ _ _ _ Rp St L); [by eapply stage_idle|done| |].
        + intros id' ->. destruct (executed_proper _ _ _ Ex' G') as (_ & Nr & _). eapply (Nr _ [] (eq_sym (app_nil_r _))); [|exact In'].
          intros id''. eapply (prefix_no_start h id ty l r i c); done.
        + intros ->. destruct (executed_proper _ _ _ Ex' G') as (_ & _ & Nd). by eapply Nd.
      - by eapply (frame_none _ _ _ _ _ h Rp St L). }
    assert (in_turn h lb y) as Tu. { destruct lb; try done. intros o q p outs Q St Nc Pk. left. by eapply Oth. }
    assert (timely h lb y) as Ti.
    { destruct lb; try done. intros j n1 n2 Ne L1 L2 H1 H2. exfalso. pose proof (two_waiting _ _ _ _ _ Ne L1 L2 H1 H2). unfold on_the_way in *. lia. }
    assert (calm h lb y) as Cl. { destruct lb; try done. cbn. unfold on_the_way in One. destruct (scheduled h (y_todo y)); [by left|]. destruct (waiting h y); [by right|]. cbn in One. lia. }
    assert (along (lockstep h) (ls ++ [lb]) sys_new) as A3 by (apply (along_snoc _ _ _ _ _ (proj2 Ex)); split; [apply R|done]).
    assert (along (in_turn h) (ls ++ [lb]) sys_new) as A4 by (apply (along_snoc _ _ _ _ _ (proj2 Ex)); split; [apply R|done]).
    assert (kept (ls ++ [lb])) as K' by (constructor; [apply (along_snoc _ _ _ _ _ (proj2 Ex)); split; [apply R|done]|apply (along_snoc _ _ _ _ _ (proj2 Ex)); split; [apply R|done]|done|done|done]).
    split; [exact K'|].
    (* what is on the way *)
    pose proof (lockstep_unhurried _ _ _ Ex' A3 A4) as Un. apply (along_snoc _ _ _ _ _ (proj2 Ex)) in Un as [_ Un].
    assert (along (orderly h) (ls ++ [lb]) sys_new) as A' by (apply (along_snoc _ _ _ _ _ (proj2 Ex)); by split).
    destruct (reached_due _ _ Ex' A' K' G' Cr') as (rest' & Pr' & Du').
    unfold on_the_way in *. destruct M; try exact One.
    - (* take *) cbn [y_todo y_set_pica y_set_strict y_set_todo y_set_queue] in *. change (waiting h (y_set_pica _ _)) with (waiting h y) in *.
      change (delivered h (y_set_pica _ _)) with (delivered h y) in Du'.
      destruct (executed_sinv _ _ Ex') as (outs1 & I1). destruct (si_fine _ _ _ I1) as [st F1]. cbn [y_todo y_set_pica y_set_strict y_set_todo y_set_queue] in F1.
      assert (messages h outs = [] \/ messages h outs <> []) as [Mn|Mn] by (destruct (messages h outs); [by left|by right]); [apply sent_nil in Mn as (_ & _ & ->); cbn [length]; lia|].
      destruct (Un _ _ _ _ H0 H1) as [Mn'|Wn]; [done|]. rewrite Wn in *. cbn [length] in *.
      rewrite app_nil_r in Pr'. rewrite H in Pr. cbn in Pr. apply Permutation_sym, Permutation_nil in Pr as ->. rewrite app_nil_r in Du.
      assert (length (scheduled h outs) <= tasks rest')%nat as Le. { rewrite Pr', messages_perm, tasks_app, (tasks_all (scheduled h outs)) by (by eapply scheduled_task). lia. }
      enough (tasks rest' <= 1)%nat by lia. clear Le.
      rewrite (processed_snoc _ _ _ _ _ (proj2 Ex) Sy) in Du', Pp'. cbn [taken] in Du', Pp'. rewrite H0, H1 in Du', Pp'. cbn [crashed] in Du', Pp'. rewrite fmap_app, packets_app in Du', Pp'.
      apply prefix_length in Pp'. rewrite app_length in Pp'. cbn [length] in Pp'. set (P := packets h (processed ls sys_new).*2) in *. set (Q := packets h [(e, o)].*2) in *.
      assert (length Q <= 1)%nat as LQ. { subst Q. destruct o; cbn; try lia. destruct (_ =? h); cbn; lia. }
      assert (exists k k', delivered h y = take k (set_up id) /\ delivered h y ++ rest' = take k' (set_up id) /\ (k' <= k + 2)%nat /\ (k <= 7)%nat) as (k & k' & D1 & D2 & Lk & L7).
      { destruct (p_devices (y_pica y) !! h) as [d|] eqn:Ld; destruct Du as [Du1 Du2].
        - revert Du'. match goal with |- context [match ?X with Some _ => _ | None => _ end] => destruct X as [d'|] end; intros [Du1' Du2'].
          + rewrite app_length in Du2'. eexists _, _. split; [exact Du2|]. split; [exact Du2'|]. lia.
          + apply app_nil in Du1' as [E1 E2]. exists 0%nat, 0%nat. rewrite E1, E2. split_and!; done || lia.
        - revert Du'. match goal with |- context [match ?X with Some _ => _ | None => _ end] => destruct X as [d'|] end; intros [Du1' Du2'].
          + rewrite app_length, Du2 in Du2'. exists 0%nat. eexists. split; [exact Du1|]. split; [exact Du2'|]. cbn [length]. 
            enough (Q = []) as -> by (cbn [length] in *; lia). subst Q. destruct o as [| | | |k pk| | |]; try done. cbn. destruct (N.eqb_spec k h) as [->|]; [|done]. exfalso. cbn [step] in H1. unfold uci_packet in H1. rewrite Ld in H1. injection H1 as <- <-. by apply Mn.
          + apply app_nil in Du1' as [E1 E2]. exists 0%nat, 0%nat. rewrite E1, E2. split_and!; done || lia. }
      rewrite D1 in D2. clear -D2 Lk L7.
      destruct k as [|[|[|[|[|[|[|[|k]]]]]]]]; try lia; destruct k' as [|[|[|[|[|[|[|[|[|[|k']]]]]]]]]]; try lia; cbn in D2;
        first [discriminate | injection D2 as -> | injection D2 as <- | subst | idtac]; cbn; try lia; try discriminate.
    - (* effect *) destruct (perform_fields o (y_set_todo todo y)) as (_ & _ & _ & Et & _). rewrite Et. cbn [y_todo y_set_todo]. rewrite H in One.
      unfold scheduled in *. cbn [map concat] in One. rewrite app_length in One.
      destruct o as [k [m|dl m|id' iv|id'|a id' n']|k a|k a|rp]; cbn [perform] in *; try (change (waiting h _) with (waiting h y); lia).
      + destruct (_ && _); [change (waiting h _) with (waiting h y); lia|]. unfold waiting in *. destruct (deliver_fields k m (y_set_todo todo y)) as (_ & _ & _ & _ & _ & -> & _). cbn [y_delayed y_set_todo]. lia.
      + change (waiting h (y_set_delayed _ _)) with (waiting h (y_set_delayed (y_delayed y ++ [Delayed k (y_now y + dl) m]) y)). rewrite waiting_app, app_length. cbn [n_host n_msg].
        cbn in One. destruct (k =? h); cbn [length] in *; lia.
    - (* notify *) destruct (deliver_fields (n_host n0) (n_msg n0) (y_set_delayed (delete i0 (y_delayed y)) y)) as (_ & _ & _ & -> & _ & Ed & _). unfold waiting in *. rewrite Ed. cbn [y_todo y_set_delayed].
      pose proof (waiting_delete h y i0 n0 H) as Pd. apply Permutation_length in Pd. rewrite app_length in Pd. unfold waiting in Pd. lia.
  Qed.
  Lemma set_up_kept ls y : executed ls y -> along (orderly h) ls sys_new -> follows prog h ls ->
    (exists n, (n <= 7)%nat /\ delivered h y = take n (set_up id)) /\ (~ gone h y -> y_crash y = None -> reached ls y).
  Proof.
    revert ls y. refine (executed_ind _ _ _).
    - intros _ _. split; [exists 0%nat; split; [lia|done]|]. intros _ _. split; [|cbn; lia]. constructor; try done. by exists [r; i; c].
    - intros ls y lb y' Ex IH Wl Cr M Sy A Fo. assert (executed (ls ++ [lb]) y') as Ex' by (by eapply executed_snoc).
      apply (along_snoc _ _ _ _ _ (proj2 Ex)) in A as [A Ca].
      assert (follows prog h ls) as Fo'. { intros ls1 packet ls2 y1 -> R1. eapply (Fo ls1 packet (ls2 ++ [lb]) y1); [by rewrite <- app_assoc|done]. }
      destruct (IH A Fo') as [D R]. 
      assert (gone h y' \/ y_crash y' <> None \/ ~ gone h y' /\ y_crash y' = None) as [G|[G|[G Cr']]].
      { destruct (decide (h ∈ p_closed (y_pica y'))); [by left|]. right. destruct (y_crash y'); [by left|by right]. }
      + split; [|done]. rewrite (delivered_stuck _ _ _ _ M (or_introl G) Cr). done.
      + split; [|done]. rewrite (delivered_stuck _ _ _ _ M (or_intror G) Cr). done.
      + assert (reached (ls ++ [lb]) y') as R'.
        { eapply reached_step; try done. apply R; [intros ?; apply G; by eapply gone_mono|done]. }
        split; [|done]. eapply (reached_delivered _ _ Ex'); try done; [|apply R']. apply (along_snoc _ _ _ _ _ (proj2 Ex)). by split.
  Qed.
  Lemma set_up_outcome ls y : executed ls y -> along (orderly h) ls sys_new -> follows prog h ls ->
    outcome_of prog h y <> Raised
    /\ (outcome_of prog h y = Finished -> ~ gone h y -> y_crash y = None ->
         exists s, session_at (y_pica y) h id = Some s /\ s_state s = SsIdle /\ s_type s = ty /\ s_cfg s = cfg)
    /\ (~ gone h y -> y_crash y = None -> connected (y_pica y) h -> all_arrived prog h ls y -> outcome_of prog h y = Finished).
  Proof.
    intros Ex A Fo. destruct (set_up_kept _ _ Ex A Fo) as [(n & Ln & D) K]. destruct (received_at _ _ Ln D) as [P Se]. unfold outcome_of. rewrite P. cbn [snd].
    split; [by destruct (Nat.eqb n 7)|]. split.
    - intros F G Cr. destruct (Nat.eqb_spec n 7) as [->|]; [|discriminate]. destruct (K G Cr) as [R _]. destruct (reached_due _ _ Ex A R G Cr) as (rest & _ & Du).
      destruct (p_devices (y_pica y) !! h) as [d|] eqn:Ld; [|rewrite D in Du; by destruct Du].
      destruct Du as [[_ St] E]. apply (f_equal length) in E. rewrite app_length, D, !take_length in E. cbn [length set_up] in E.
      destruct (length (packets h (processed ls sys_new).*2)) as [|[|[|k]]]; [lia..|]. destruct St as (_ & _ & Es).
      eexists. split; [unfold session_at; rewrite Ld; cbn; rewrite Es; apply lookup_singleton|]. done.
    - intros G Cr [d Ld] (I1 & I2 & I3 & I4). destruct (K G Cr) as [R _]. destruct (reached_due _ _ Ex A R G Cr) as (rest & Pr & Du). rewrite Ld in Du.
      rewrite I3, I4 in Pr. apply Permutation_sym, Permutation_nil in Pr as ->. rewrite app_nil_r in Du. destruct Du as [_ Du].
      pose proof (packets_in_order _ _ h Ex Cr) as Po. rewrite I2, app_nil_r, I1, Se in Po. apply (f_equal length) in Po. rewrite take_length in Po. cbn [length] in Po.
      apply (f_equal length) in Du. rewrite D, !take_length in Du. cbn [length set_up] in Du.
      destruct n as [|[|[|[|[|[|[|[|n]]]]]]]]; cbn [sent_at] in Po; try lia; done.
  Qed.
End SetUp.
Lemma program_sets_up h id ty l cfg ls y : wf_cmd (CmdSessionInit id ty) -> wf_cmd (CmdSetAppConfig id l) -> (length (cmd_args (CmdSetAppConfig id l)) <= 255)%nat ->
  sets_all default_app_config l cfg [] -> configured cfg ->
  executed ls y -> along (orderly h) ls sys_new -> follows (set_up_program id ty l) h ls ->
  outcome_of (set_up_program id ty l) h y <> Raised
  /\ (outcome_of (set_up_program id ty l) h y = Finished -> ~ gone h y -> y_crash y = None ->
       exists s, session_at (y_pica y) h id = Some s /\ s_state s = SsIdle /\ s_type s = ty /\ s_cfg s = cfg)
  /\ (~ gone h y -> y_crash y = None -> connected (y_pica y) h -> all_arrived (set_up_program id ty l) h ls y -> outcome_of (set_up_program id ty l) h y = Finished).
Proof.
  intros Wi Wc Lc Sa Cf. assert (sendable (CmdSessionInit id ty)) as Si by (split; [done|cbn; lia]). assert (sendable (CmdSetAppConfig id l)) as Sc by (by split).
  destruct (send_frame (CmdDeviceReset 0)) as (r & Fr & Er & _); [split; [done|cbn; lia]|].
  destruct (send_frame _ Si) as (i & Fi & Ei & _). destruct (send_frame _ Sc) as (c & Fc & Ec & _).
  by apply (set_up_outcome h id ty l cfg r i c).
Qed.
