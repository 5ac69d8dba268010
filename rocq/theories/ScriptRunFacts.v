(** The programs of tests/ranging.py and tests/data_transfer.py, running against the simulator. *)
From Coq Require Import ZifyBool ZifyN ZifyNat Sorted.
From Verif Require Import Base Uci MacAddress AppConfig Codec Session Device Pica Sys Transport BaseFacts CodecSpec ContextSpec HistorySpec SessionSpec InvFacts StepFacts.
From Verif Require Import CodecFacts CommandFacts SessionFacts RangingSpec RangingFacts EffectFacts SysSpec SysFacts ScheduleFacts DeliveryFacts PropsContext PropsMulticast PropsSession DialogueSpec DialogueFacts SetupFacts.
From Verif Require Import TransportSpec TransportFacts PyHost PyHostSpec PyHostFacts PyReader PyReaderSpec PyReaderFacts Script ScriptSpec ScriptFacts ScriptView.
Notation Send := Session.Send (only parsing).

(** ** The data messages sent before the session is started *)
Record part : Type := Part { pt_pbf : N; pt_dst : N; pt_seq : N; pt_data : bytes; pt_frame : bytes }.
Record part_ok (id : N) (p : part) : Prop := {
  po_sent : py_send_data_message (pt_pbf p) id (pt_dst p) (pt_seq p) (pt_data p) = Some (pt_frame p);
  po_wf : wf_bytes (pt_frame p);
  po_data : data_message id (pt_dst p) (pt_seq p) (pt_data p) (pt_frame p);
  po_host : exists q, host_send_ok (HData q) /\ py_send (HData q) = Some (pt_frame p) }.
Definition part_send (id : N) (p : part) : action := SendData (pt_pbf p) id (pt_dst p) (pt_seq p) (pt_data p).
Definition part_steps (id : N) (p : part) : list action := [part_send id p; Expect (SessionDataCreditNtf id CREDIT_AVAILABLE)].
Definition steps_of (id : N) (ps : list part) : list action := concat (map (part_steps id) ps).
Definition file_of (ps : list part) : bytes := concat (map pt_data ps).
Lemma part_exists pbf id dst seq data : pbf < 2 -> word32 id -> word64 dst -> word16 seq -> wf_bytes data -> (length data <= N.to_nat 1024)%nat ->
  exists f, part_ok id (Part pbf dst seq data f).
Proof.
  intros H1 H2 H3 H4 H5 H6. destruct (py_data_message_ok pbf id dst seq data H1 H2 H3 H4 H5 H6) as (q & p & E1 & E2 & O & _ & D). exists p. split; cbn; try done; [|by exists q].
  destruct (py_send_frames [HData q] [p]) as (_ & W & _); [constructor; [exact O|constructor]|cbn; by rewrite E2|]. by inversion W.
Qed.
Lemma loop_parts id dst : word32 id -> word64 dst -> forall fuel rest seq, wf_bytes rest -> (length rest <= fuel)%nat -> seq < 65535 ->
  exists ps, transfer_loop fuel id dst seq rest = steps_of id ps /\ Forall (part_ok id) ps /\ file_of ps = rest.
Proof.
  intros Wi Wd. induction fuel as [|fuel IH]; intros rest sq W L Q; [destruct rest; [by exists []|cbn in L; lia]|]. cbn [transfer_loop]. destruct rest as [|b rest0] eqn:E; [by exists []|]. rewrite <- E in *.
  set (pbf := if (length rest <=? CONSOLE_MAX)%nat then PBF_COMPLETE else PBF_NOT_COMPLETE).
  assert (length (take CONSOLE_MAX rest) <= N.to_nat 1024)%nat as Lt by (rewrite take_length; unfold CONSOLE_MAX; lia).
  assert (wf_bytes (take CONSOLE_MAX rest)) as Wt by by apply Forall_take.
  destruct (part_exists pbf id dst sq _ ltac:(subst pbf; by destruct (_ <=? _)%nat) Wi Wd ltac:(unfold word16; lia) Wt Lt) as (f & P).
  destruct (IH (drop CONSOLE_MAX rest) (if 65535 <=? sq + 1 then 0 else sq + 1)) as (ps & E1 & P1 & E2).
  { by apply Forall_drop. }
  { rewrite drop_length. unfold CONSOLE_MAX. rewrite E in L |- *. cbn [length] in *. lia. }
  { destruct (N.leb_spec 65535 (sq + 1)); lia. }
  exists (Part pbf dst sq (take CONSOLE_MAX rest) f :: ps). split_and!; [|by constructor|].
  - cbv zeta. rewrite E1. done.
  - unfold file_of in *. cbn [map concat pt_data]. rewrite E2. apply take_drop.
Qed.
Lemma transfer_parts id dst file : word32 id -> word64 dst -> wf_bytes file ->
  exists ps, data_transfer id dst file = steps_of id ps /\ Forall (part_ok id) ps /\ file_of ps = file.
Proof.
  intros Wi Wd W. unfold data_transfer. destruct (Nat.ltb_spec CONSOLE_MAX (length file)) as [G|G]; [by apply loop_parts|].
  destruct (part_exists PBF_COMPLETE id dst 0 file) as (f & P); try done. exists [Part PBF_COMPLETE dst 0 file f]. split_and!; [done|constructor; [exact P|constructor]|]. cbn. apply app_nil_r.
Qed.

(** ** The program *)
Section Run.
  Context (h id ty : N) (l : list (tlv_id * bytes)) (cfg : app_config) (n : nat) (ps : list part) (wait : list msg) (r i c s t x : bytes).
  Context (Er : encodes (CmdDeviceReset 0) r) (Ei : encodes (CmdSessionInit id ty) i) (Ec : encodes (CmdSetAppConfig id l) c)
    (Es : encodes (CmdStart id) s) (Et : encodes (CmdStop id) t) (Ex : encodes (CmdSessionDeinit id) x).
  Context (Br : wf_bytes r) (Bi : wf_bytes i) (Bc : wf_bytes c) (Bs : wf_bytes s) (Bt : wf_bytes t) (Bx : wf_bytes x).
  Context (Wi : wf_cmd (CmdSessionInit id ty)) (Wc : wf_cmd (CmdSetAppConfig id l)).
  Context (Sa : sets_all default_app_config l cfg []) (Cf : configured cfg).
  Context (Nt : session_info_ntf_config cfg <> 0) (Du : 5 < ranging_duration cfg).
  Context (Ps : Forall (part_ok id) ps) (Ty : ps = [] \/ ty = 1).
  Notation I := (ranging_duration cfg).
  Notation np := (length ps).
  Notation credit := (SessionDataCreditNtf id 1).
  Definition frames : list bytes := [r; i; c] ++ map pt_frame ps ++ [s; t; x].
  Lemma frames_length : length frames = (6 + np)%nat.
  Proof. unfold frames. rewrite !app_length, map_length. cbn. lia. Qed.
  (** Where the program is: [k] of its commands and [j] of its data messages are processed. *)
  Definition at_ok (k j : nat) : Prop := (k <= 6 /\ j <= np /\ (k < 3 -> j = 0) /\ (3 < k -> j = np))%nat.
  Definition frame_at (k j : nat) : option bytes :=
    match k with
    | 0%nat => Some r | 1%nat => Some i | 2%nat => Some c
    | 3%nat => if (j <? np)%nat then pt_frame <$> ps !! j else Some s
    | 4%nat => Some t | 5%nat => Some x | _ => None
    end.
  Lemma frames_at k j : at_ok k j -> frames !! (k + j)%nat = frame_at k j.
  Proof.
    intros (K & J & J0 & Jn). unfold frames. destruct k as [|[|[|k]]].
    1-3: rewrite (J0 ltac:(lia)); done.
    rewrite (lookup_app_r [r; i; c]) by (cbn; lia). replace (S (S (S k)) + j - length [r; i; c])%nat with (k + j)%nat by (cbn; lia). cbn [frame_at]. destruct k as [|k].
    - cbn [Nat.add]. destruct (Nat.ltb_spec j np).
      + rewrite lookup_app_l by (rewrite map_length; lia). apply list_lookup_fmap.
      + rewrite lookup_app_r by (rewrite map_length; lia). rewrite map_length. by replace (j - np)%nat with 0%nat by lia.
    - rewrite (Jn ltac:(lia)). rewrite lookup_app_r by (rewrite map_length; lia). rewrite map_length. replace (S k + np - np)%nat with (S k) by lia. destruct k as [|[|k]]; done.
  Qed.

  (** *** The device *)
  Definition stopped_with : list msg := [SessionStopRsp 0x00; SessionStatusNtf id SsIdle 0x00; CoreDeviceStatusNtf DsReady].
  Definition ended_with : list msg := [SessionDeinitRsp 0x00; SessionStatusNtf id SsDeinit 0x00].
  Record session_in (sn : session) (st : session_state) (task : bool) (k : nat) (data : bytes) : Prop := {
    in_id : s_id sn = id; in_state : s_state sn = st; in_task : s_task sn = task; in_cfg : s_cfg sn = cfg; in_seq : s_seq sn = N.of_nat k; in_type : s_type sn = ty;
    in_data : s_data sn = data }.
  Definition held (infos : list msg) : bytes := match infos with [] => file_of ps | _ => [] end.
  Definition stage_at (k j : nat) (infos : list msg) (d : device) : Prop :=
    match k with
    | 0%nat => d_sessions d = ∅ /\ d_state d = DsReady /\ d_active d = 0
    | 1%nat => d_is_reset d = true /\ d_sessions d = ∅ /\ d_state d = DsReady /\ d_active d = 0
    | 2%nat => d_is_reset d = true /\ d_sessions d = {[ id := s_set_state SsInit (session_new id ty) ]} /\ d_state d = DsReady /\ d_active d = 0
    | 3%nat => d_is_reset d = true /\ d_state d = DsReady /\ d_active d = 0 /\ exists sn, d_sessions d = {[ id := sn ]} /\ session_in sn SsIdle false 0%nat (file_of (take j ps))
    | 4%nat => d_is_reset d = true /\ d_state d = DsActive /\ d_active d = 1 /\ exists sn, d_sessions d = {[ id := sn ]} /\ session_in sn SsActive true (length infos) (held infos)
    | 5%nat => d_is_reset d = true /\ d_state d = DsReady /\ d_active d = 0 /\ exists sn, d_sessions d = {[ id := sn ]} /\ session_in sn SsIdle false (length infos) (held infos)
    | _ => d_is_reset d = true /\ d_sessions d = ∅
    end.
  (** What is due after the packets and the rounds [infos]. *)
  Definition due_at (k j : nat) (infos : list msg) : list msg :=
    match k with
    | 0%nat => take 1 (set_up id) | 1%nat => take 3 (set_up id) | 2%nat => take 5 (set_up id) | 3%nat => set_up id ++ repeat credit j
    | 4%nat => set_up id ++ repeat credit j ++ started_up id ++ infos
    | 5%nat => set_up id ++ repeat credit j ++ started_up id ++ infos ++ stopped_with
    | _ => set_up id ++ repeat credit j ++ started_up id ++ infos ++ stopped_with ++ ended_with
    end.
  Definition effects_of (k : nat) : list eff :=
    match k with
    | 0%nat => [After 5 (CoreDeviceStatusNtf DsReady); Send (CoreDeviceResetRsp 0)]
    | 1%nat => [After 1 (SessionStatusNtf id SsInit 0); Send (SessionInitRsp 0)]
    | 2%nat => [After 1 (SessionStatusNtf id SsIdle 0); Send (SessionSetAppConfigRsp 0 [])]
    | 3%nat => [SpawnRanging id I; After 1 (SessionStatusNtf id SsActive 0); After 5 (CoreDeviceStatusNtf DsActive); Send (SessionStartRsp 0)]
    | 4%nat => [AbortRanging id; After 1 (SessionStatusNtf id SsIdle 0); After 5 (CoreDeviceStatusNtf DsReady); Send (SessionStopRsp 0)]
    | _ => [After 1 (SessionStatusNtf id SsDeinit 0); Send (SessionDeinitRsp 0)]
    end.
  Lemma command_run k j infos d p d' e : stage_at k j infos d -> at_ok k j -> (k = 3 -> j = np)%nat -> frame_at k j = Some p -> (k <= 3 -> infos = [])%nat -> receive_packet d p = Ret (d', e) ->
    stage_at (S k) j infos d' /\ e = effects_of k.
  Proof.
    intros St (K & J & J0 & Jn) J3 P Z. pose proof (proj1 Wc) as Wid.
    assert (wf_cmd (CmdStart id) /\ wf_cmd (CmdStop id) /\ wf_cmd (CmdSessionDeinit id)) as (Ws & Wt & Wx) by (destruct Wi as [? _]; done).
    destruct k as [|[|[|[|[|[|k]]]]]]; [..|discriminate]; cbn [frame_at] in P; try (rewrite (J3 eq_refl), Nat.ltb_irrefl in P); apply (inj Some) in P; subst p; cbn [stage_at effects_of] in *.
    - rewrite (receive_command_eq d (CmdDeviceReset 0)) by (done || by right). cbn [handle_command]. rewrite core_reset_eq. unfold device_drop. destruct St as (-> & _). cbn. intros [= <- <-]. done.
    - destruct St as (R & Se & Ds & Ac). rewrite (receive_command_eq d (CmdSessionInit id ty)) by (done || by left). cbn [handle_command]. unfold session_init. rewrite Se, lookup_empty.
      unfold session_init_state. rewrite session_set_state_eq. cbn. intros [= <- <-]. done.
    - destruct St as (R & Se & Ds & Ac). rewrite (receive_command_eq d (CmdSetAppConfig id l)) by (done || by left). cbn [handle_command]. unfold session_set_app_config. rewrite Se, lookup_singleton.
      cbn [s_state s_set_state s_type session_new s_cfg]. destruct (negb _); [done|].
      cbn [negb]. rewrite (bool_decide_false (SsInit = SsActive)), (bool_decide_true (SsInit = SsInit)) by done. cbn [andb negb].
      destruct (set_tlvs default_app_config l []) as [[c' inv]|] eqn:Sq; [|done]. cbn [obind]. apply sets_all_spec in Sq as (rr & -> & Sa'). cbn [app].
      destruct (sets_all_fun _ _ _ _ _ _ Sa Sa') as [<- <-]. pose proof Cf as Cf'. apply configured_spec in Cf'. rewrite Cf'.
      cbn [s_state s_set_cfg s_set_state session_new]. rewrite (bool_decide_true (SsInit = SsInit)) by done. rewrite session_set_state_eq. cbn [s_state s_id s_set_state s_set_cfg session_new].
      rewrite (bool_decide_false (SsIdle = SsInit)) by done. cbn. intros [= <- <-]. split; [|done]. cbn. split_and!; try done. eexists. split; [by rewrite insert_singleton|]. rewrite (J0 ltac:(lia)). done.
    - destruct St as (R & Ds & Ac & sn & Se & In). rewrite (receive_command_eq d (CmdStart id)) by (done || by left). cbn [handle_command]. unfold session_start. rewrite Se, lookup_singleton.
      rewrite (in_state _ _ _ _ _ In), (in_task _ _ _ _ _ In), (in_cfg _ _ _ _ _ In). cbn [negb bool_decide decide_rel]. rewrite session_set_state_eq, device_set_state_eq. cbn [s_state s_id s_set_task d_state d_set_active d_set_sessions].
      rewrite (in_state _ _ _ _ _ In), (in_id _ _ _ _ _ In), Ds. rewrite (Z ltac:(lia)). cbn. intros [= <- <-]. split; [|done]. cbn. split_and!; try done; [by rewrite Ac|]. eexists. split; [by rewrite insert_singleton|].
      rewrite (J3 eq_refl), firstn_all in In. destruct In. by split.
    - destruct St as (R & Ds & Ac & sn & Se & In). rewrite (receive_command_eq d (CmdStop id)) by (done || by left). cbn [handle_command]. unfold session_stop. rewrite Se, lookup_singleton.
      rewrite (in_state _ _ _ _ _ In). cbn [negb bool_decide decide_rel]. rewrite stop_ranging_task_eq, session_set_state_eq. unfold device_dec_active. cbn [d_active d_set_sessions d_set_active]. rewrite Ac. cbn [N.eqb]. 
      change (1 - 1 =? 0) with true. cbv iota. rewrite device_set_state_eq. cbn [s_state s_id s_set_task d_state d_set_active d_set_sessions obind].
      rewrite (in_state _ _ _ _ _ In), (in_id _ _ _ _ _ In), (in_task _ _ _ _ _ In), Ds. cbn. intros [= <- <-]. split; [|done]. cbn. split_and!; try done. eexists. split; [by rewrite insert_singleton|].
      destruct In. by split.
    - destruct St as (R & Ds & Ac & sn & Se & In). rewrite (receive_command_eq d (CmdSessionDeinit id)) by (done || by left). cbn [handle_command]. unfold session_deinit. rewrite Se, lookup_singleton.
      rewrite (in_state _ _ _ _ _ In). cbn [negb bool_decide decide_rel obind]. rewrite session_drop_eq, (in_state _ _ _ _ _ In), (in_id _ _ _ _ _ In), (in_task _ _ _ _ _ In). cbn. intros [= <- <-]. split; [|done]. split; [done|]. cbn [d_sessions d_set_sessions]. rewrite Se. apply delete_singleton.
  Qed.
  Lemma data_run j infos d p d' e : stage_at 3 j infos d -> (j < np)%nat -> frame_at 3 j = Some p -> receive_packet d p = Ret (d', e) -> stage_at 3 (S j) infos d' /\ e = [Send credit].
  Proof.
    intros (R & Ds & Ac & sn & Se & In) J P. cbn [frame_at] in P. rewrite (proj2 (Nat.ltb_lt _ _) J) in P. apply fmap_Some in P as (pt & Lp & ->).
    rewrite Forall_forall in Ps. pose proof (Ps pt (elem_of_list_lookup_2 _ _ _ Lp)) as Po. destruct Po as [_ W D _].
    pose proof (data_message_hd _ _ _ _ _ D) as Hd. pose proof (data_message_decode _ _ _ _ _ W D) as Dd.
    unfold receive_packet. destruct (pt_frame pt) as [|x0 rest]; [discriminate|]. pose proof W as W0. apply wf_bytes_cons in W0 as [Hx _]. cbn [hd] in Hd. rewrite (proj2 (parse_message_type_data x0 Hx) Hd), Dd.
    cbn [device_data_message_snd]. rewrite Se, lookup_singleton. unfold session_data_message_snd, FIRA_RANGING_AND_IN_BAND_DATA_SESSION.
    assert (ty = 1) as T by (destruct Ty as [->|]; [cbn in J; lia|done]). rewrite (in_type _ _ _ _ _ In), T, (in_id _ _ _ _ _ In), !N.eqb_refl. cbn [negb N.eqb Pos.eqb obind]. intros [= <- <-]. split; [|done].
    cbn. split_and!; try done. eexists. split; [by rewrite insert_singleton|]. destruct In. split; try done. cbn [s_data s_set_data]. rewrite (take_S_r _ _ _ Lp). unfold file_of in *. rewrite map_app, concat_app. cbn. rewrite app_nil_r. congruence.
  Qed.

  (** *** The invariant *)
  (** The number of packets sent once [m] control messages and [y] data messages are received. *)
  Definition sent_count (m y : nat) : nat :=
    (if m <? 1 then 0 else if m <? 3 then 1 else if m <? 5 then 2 else if m <? 7 then 3 else if m <? 7 + np then 4 + (m - 7)
     else if (m <? 10 + np + n) || (y <? length wait) then 4 + np else if m <? 13 + np + n then 5 + np else 6 + np)%nat.
  Definition timerless (e : list eff) : Prop := Forall (fun y => match y with Send _ | After _ _ => True | _ => False end) e.
  Definition infos_ok (infos : list msg) : Prop := forall j m, infos !! j = Some m -> exists ms, m = SessionInfoNtf (N.of_nat j) id 0 0 ms [].
  Definition later (k : N) (E : list eff) : list (N * msg) := map (shift k) (eff_delays E).
  Definition pending (E : list eff) (W : list (N * msg)) : list msg := eff_sent E ++ map snd W ++ map snd (eff_delays E).
  (** [T0] is the time at which the session was started. *)
  Notation turn T0 k := (T0 + I * N.of_nat k).
  Inductive timers_ok (k : nat) (infos : list msg) (T0 now : N) : list eff -> list (N * msg) -> list timer -> list N -> Prop :=
    | TNone E W : (k <= 3)%nat -> timerless E -> timers_ok k infos T0 now E W [] []
    | TSpawn e : k = 4%nat -> infos = [] -> T0 = now -> timerless e -> Forall (fun y => y.1 < I) (eff_delays e) -> pending e [] <> [] -> timers_ok k infos T0 now (SpawnRanging id I :: e) [] [] []
    | TRun E W dl : k = 4%nat -> timerless E -> Forall (fun y => y.1 < dl) (W ++ later now E) -> dl = turn T0 (S (length infos)) -> T0 <= now ->
        now < dl \/ now = dl /\ pending E W = [] /\ (length infos < n)%nat -> timers_ok k infos T0 now E W [Timer h id I dl true] []
    | TDue dl : k = 4%nat -> (length infos < n)%nat -> now = turn T0 (S (length infos)) -> dl = now + I -> timers_ok k infos T0 now [] [] [Timer h id I dl true] [id]
    | TAbort e W dl : (5 <= k)%nat -> timerless e -> T0 <= now -> now < dl -> timers_ok k infos T0 now (AbortRanging id :: e) W [Timer h id I dl true] []
    | TEnd E W T : (5 <= k)%nat -> timerless E -> T0 <= now -> Forall (fun y => t_live y = false /\ now < t_deadline y) T -> timers_ok k infos T0 now E W T [].
  Record live (PR : list bytes) (k j : nat) (infos : list msg) (T0 : N) (v : view) : Prop := {
    lv_k : at_ok k j;
    lv_dev : exists d, v_dev v = Some d /\ stage_at k j infos d;
    lv_read : PR = take (k + j) frames ++ v_packets v;
    lv_prefix : PR `prefix_of` frames;
    lv_count : (length PR <= sent_count (length (v_got v)) (length (v_data v)))%nat;
    lv_msgs : v_got v ++ pending (v_eff v) (v_wait v) = due_at k j infos;
    lv_sorted : StronglySorted (fun a b => a.1 < b.1) (v_wait v ++ later (v_now v) (v_eff v));
    lv_late : Forall (fun y => v_now v <= y.1) (v_wait v);
    lv_later : eff_sent (v_eff v) <> [] -> Forall (fun y => v_now v < y.1) (v_wait v);
    lv_pos : Forall (fun y => 0 < y.1) (eff_delays (v_eff v));
    lv_infos : infos_ok infos;
    lv_n : (length infos <= n)%nat;
    lv_none : (k <= 3)%nat -> infos = [];
    lv_all : (5 <= k)%nat -> length infos = n;
    lv_timers : timers_ok k infos T0 (v_now v) (v_eff v) (v_wait v) (v_timers v) (v_rounds v) }.
  Record unborn (PR : list bytes) (v : view) : Prop := {
    un_dev : v_dev v = None; un_eff : v_eff v = []; un_wait : v_wait v = []; un_timers : v_timers v = []; un_rounds : v_rounds v = [];
    un_packets : v_packets v = []; un_got : v_got v = []; un_read : PR = [] }.
  Record pos : Type := Pos { q_k : nat; q_j : nat; q_infos : list msg; q_start : N }.
  Definition nowhere : pos := Pos 0 0 [] 0.
  Definition vpos (o : option pos) (PR : list bytes) (v : view) : Prop :=
    match o with None => unborn PR v | Some q => live PR (q_k q) (q_j q) (q_infos q) (q_start q) v end.
  Record evolves (o o' : option pos) (v v' : view) : Prop := {
    ev_start : (q_k (default nowhere o) <= 3 -> 4 <= q_k (default nowhere o') -> q_k (default nowhere o') = 4 /\ q_start (default nowhere o') = v_now v')%nat;
    ev_keep : (4 <= q_k (default nowhere o) -> q_k (default nowhere o) <= q_k (default nowhere o') /\ q_start (default nowhere o') = q_start (default nowhere o))%nat;
    ev_infos : q_infos (default nowhere o') = q_infos (default nowhere o) \/ exists a, v_rounds v = a :: v_rounds v' }.
  (** What the kind of schedule says about a step. *)
  Definition allowed (PR : list bytes) (a : act) (v : view) : Prop :=
    let sent := take (sent_count (length (v_got v)) (length (v_data v))) frames in
    match a with
    | ATick => v_eff v = [] /\ v_packets v = [] /\ v_rounds v = [] /\ Forall (fun y => v_now v < y.1) (v_wait v)
        /\ Forall (fun y => t_live y = true /\ v_now v < t_deadline y) (v_timers v) /\ PR = sent
        /\ ((length (v_data v) < length wait)%nat -> (10 + np + n <= length (v_got v))%nat -> Forall (fun y => v_now v + 1 < t_deadline y) (v_timers v))
    | ARead p => (PR ++ [p]) `prefix_of` sent
    | AOther => True
    end.
  Definition read_after (PR : list bytes) (a : act) : list bytes := match a with ARead p => PR ++ [p] | _ => PR end.

  Ltac counts := unfold sent_count in *; repeat match goal with |- context [Nat.ltb ?a ?b] => destruct (Nat.ltb_spec a b) | H : context [Nat.ltb ?a ?b] |- _ => destruct (Nat.ltb_spec a b) end; cbn [orb] in *; try lia.
  Lemma sent_count_mono m m' y y' : (m <= m' -> y <= y' -> sent_count m y <= sent_count m' y')%nat.
  Proof. intros L1 L2. counts. Qed.
  Lemma sent_count_max m y : (sent_count m y <= 6 + np)%nat.
  Proof. counts. Qed.
  Lemma due_length k j infos : length (due_at k j infos) = match k with 0 => 1 | 1 => 3 | 2 => 5 | 3 => 7 + j | 4 => 10 + j + length infos | 5 => 13 + j + length infos | _ => 15 + j + length infos end%nat.
  Proof. destruct k as [|[|[|[|[|[|k]]]]]]; cbn [due_at]; rewrite ?app_length, ?repeat_length; cbn; lia. Qed.
  (** A packet of the program is processed when everything before has been received. *)
  Lemma all_received PR k j infos T0 v p P : live PR k j infos T0 v -> v_packets v = p :: P ->
    pending (v_eff v) (v_wait v) = [] /\ (k < 6)%nat /\ frame_at k j = Some p /\ frames !! (k + j)%nat = Some p /\ (k = 4%nat -> length infos = n).
  Proof.
    intros L E. pose proof (lv_read _ _ _ _ _ _ L) as Rd. pose proof (lv_prefix _ _ _ _ _ _ L) as Px. pose proof (lv_count _ _ _ _ _ _ L) as Ct. rewrite E in Rd.
    pose proof (lv_k _ _ _ _ _ _ L) as K. pose proof K as (K6 & J & J0 & Jn). pose proof (prefix_length _ _ Px) as Lp. rewrite Rd, app_length, take_length in Lp, Ct. cbn [length] in Lp, Ct. rewrite frames_length in *.
    assert (k < 6)%nat as K' by lia. pose proof (lv_msgs _ _ _ _ _ _ L) as M. apply (f_equal length) in M. rewrite app_length, due_length in M.
    pose proof (lv_n _ _ _ _ _ _ L) as Ln. pose proof (lv_all _ _ _ _ _ _ L) as La.
    assert (length (pending (v_eff v) (v_wait v)) = 0%nat /\ (k = 4%nat -> length infos = n)) as [Z Z'].
    { destruct k as [|[|[|[|[|[|k]]]]]]; try lia; counts. }
    assert (frames !! (k + j)%nat = Some p) as Fp.
    { destruct Px as [z Ez]. rewrite Rd in Ez. rewrite <- app_assoc in Ez. rewrite Ez. rewrite lookup_app_r; rewrite take_length, frames_length; [|lia]. by replace (k + j - (k + j) `min` (6 + np))%nat with 0%nat by lia. }
    split_and!; [by destruct (pending _ _)|done| |done|done]. by rewrite <- frames_at.
  Qed.

  Lemma eff_sent_cons y E : eff_sent (y :: E) = match y with Send m => [m] | _ => [] end ++ eff_sent E.
  Proof. by destruct y. Qed.
  Lemma eff_delays_cons y E : eff_delays (y :: E) = match y with After k m => [(k, m)] | _ => [] end ++ eff_delays E.
  Proof. by destruct y. Qed.
  Lemma stage_enabled k j infos d a sn : stage_at k j infos d -> d_sessions d !! a = Some sn -> k = 4%nat -> a = id /\ is_session_info_ntf_enabled sn = true /\ session_in sn SsActive true (length infos) (held infos) /\ d_sessions d = {[ id := sn ]}.
  Proof.
    intros St L ->. destruct St as (_ & _ & _ & sn' & Se & In). rewrite Se in L. apply lookup_singleton_Some in L as [<- <-]. split_and!; try done. unfold is_session_info_ntf_enabled. rewrite (in_cfg _ _ _ _ _ In).
    apply negb_true_iff. by apply N.eqb_neq.
  Qed.
  Lemma sorted_snoc_first (W1 W2 : list (N * msg)) y L now : StronglySorted (fun a b => a.1 < b.1) ((W1 ++ y :: W2) ++ L) -> Forall (fun z => now <= z.1) (W1 ++ y :: W2) -> y.1 <= now -> W1 = [].
  Proof.
    destruct W1 as [|w W1]; [done|]. cbn [app]. intros So Fo Le. exfalso. apply StronglySorted_inv in So as [_ So]. apply Forall_cons in Fo as [F1 _].
    rewrite Forall_forall in So. assert (w.1 < y.1) by (apply So; set_solver). lia.
  Qed.
  Ltac fields := cbn [v_now v_dev v_eff v_wait v_timers v_rounds v_packets v_got v_data] in *.
  Ltac stay k j infos T0 := exists (Some (Pos k j infos T0)); split; [cbn [vpos q_k q_j q_infos q_start]|split; cbn; try lia; by left].
  Ltac born o V := destruct o as [[k j infos T0]|]; cbn [vpos q_k q_j q_infos q_start] in V; cycle 1.
  Lemma vpos_step o PR v a v' : vpos o PR v -> allowed PR a v -> vstep h v a v' -> exists o', vpos o' (read_after PR a) v' /\ evolves o o' v v'.
  Proof.
    intros V A St. destruct St; cbn [allowed read_after v_eff v_packets v_rounds v_wait v_timers v_now v_got v_data] in *.
    - exists o. split; [done|]. split; [lia|done|by left].
    - (* tick *) destruct A as (-> & -> & -> & Fw & Ft & Er' & Ad). born o V.
      { exists None. split; [destruct V; by split|]. split; cbn; try lia. by left. }
      stay k j infos T0. destruct V as [K Dv Rd Px Ct Ms So La Lr Po In Ln Nn Al Ti]. pose proof K as (K6 & Jp & J0 & Jn). fields. split; fields; try done.
      + eapply Forall_impl; [exact Fw|]. cbn. lia.
      + assert (length (take (k + j) frames) = length (take (sent_count (length G) (length X)) frames)) as Eq by (by rewrite <- Er', Rd, app_nil_r).
        remember (@nil eff) as E eqn:HE. remember (@nil N) as R' eqn:HR. destruct Ti as [E' W' ? ?|?|E' W' dl K4 Tl Fa Tu Ts Dl|?|e W' dl ? ? ? ?|E' W' T' ? ? ? Fd]; try discriminate; try (injection HE as ->); clear HR; try subst E'.
        * by apply TNone.
        * apply Forall_cons in Ft as [[_ Ft] _]. cbn in Ft. apply TRun; try done; [lia|]. destruct (decide (n0 + 1 < dl)) as [|Ge]; [by left|right]. unfold later in Fa. cbn in Fa. rewrite app_nil_r in Fa.
          destruct W' as [|w W']; [|exfalso; apply Forall_cons in Fa as [? _]; apply Forall_cons in Fw as [? _]; lia]. split; [lia|]. split; [done|].
          change (pending [] []) with (@nil msg) in Ms. rewrite app_nil_r in Ms. rewrite !take_length, frames_length, Ms, due_length in Eq. rewrite K4 in Eq, Jn. rewrite (Jn ltac:(lia)) in Eq.
          destruct (decide (length infos < n)%nat) as [|Gn]; [done|]. exfalso. assert (length infos = n) as Ln' by lia.
          rewrite Ms, due_length, K4, Ln', (Jn ltac:(lia)) in Ad. destruct (decide (length X < length wait)%nat) as [Lx|Gx].
          { specialize (Ad Lx ltac:(lia)). apply Forall_cons in Ad as [Ad _]. cbn in Ad. lia. }
          pose proof (sent_count_max (10 + np + length infos) (length X)). rewrite Ln' in *. subst k. counts.
        * replace T' with (@nil timer). { apply TEnd; try done. lia. } destruct T' as [|t' T']; [done|]. apply Forall_cons in Fd as [[? _] _]. apply Forall_cons in Ft as [[? _] _]. congruence.
    - (* read *) born o V.
      { exfalso. destruct V as [? ? ? ? ? ? Ug Ur]. fields. subst. cbn in A. apply prefix_length in A. cbn in A. lia. }
      stay k j infos T0. destruct V as [K Dv Rd Px Ct Ms So La Lr Po In Ln Nn Al Ti]. fields. split; fields; try done.
      + by rewrite Rd, app_assoc.
      + etrans; [exact A|]. exists (drop (sent_count (length G) (length X)) frames). by rewrite take_drop.
      + apply prefix_length in A. rewrite take_length in A. lia.
    - (* connect *) born o V; [|exfalso; destruct (lv_dev _ _ _ _ _ _ V) as (? & [=] & _)].
      destruct V as [_ _ Uw Ut Ur Up Ug Ur']. fields. subst. exists (Some (Pos 0 0 [] 0)). split; [|split; cbn; try lia; by left]. cbn [vpos q_k q_j q_infos q_start]. split; fields; try done; try lia.
      + split_and!; lia.
      + by exists d.
      + apply prefix_nil.
      + cbn. repeat constructor.
      + cbn. repeat constructor.
      + cbn. lia.
      + apply TNone; [lia|]. repeat constructor.
    - (* packet *) born o V; [destruct V; discriminate|]. destruct (all_received _ _ _ _ _ _ _ _ V eq_refl) as (Pe & K' & Fp & Fp' & N4).
      destruct V as [K Dv Rd Px Ct Ms So La Lr Po In Ln Nn Al Ti]. fields. destruct Dv as (d0 & [= <-] & Dv). pose proof K as (K6 & Jp & J0 & Jn).
      rewrite Pe, app_nil_r in Ms. assert (W = []) as -> by (unfold pending in Pe; cbn in Pe; rewrite app_nil_r in Pe; by destruct W).
      destruct (decide (k = 3 /\ j < np)%nat) as [[-> Jl]|Kj].
      { destruct (data_run _ _ _ _ _ _ Dv Jl Fp H) as [Dv' ->]. stay 3%nat (S j) infos T0. split; fields; try done; try lia.
        + split_and!; lia.
        + by exists d'.
        + rewrite Rd. replace (3 + S j)%nat with (S (3 + j)) by lia. rewrite (take_S_r _ _ _ Fp'), <- app_assoc. done.
        + subst G. cbn [due_at]. change (pending (clean [Send credit]) []) with [credit]. rewrite <- app_assoc. f_equal. cbn [repeat]. by rewrite (repeat_cons j credit).
        + remember (@nil eff) as E eqn:HE. remember (@nil (N * msg)) as W' eqn:HW. destruct Ti as [E' W1 K3 ?|?|E' W1 dl K4 Tl Fa Tu Ts Dl|dl ? Lt ? ?|e W1 dl ? ? ? ?|E' W1 T' ? ? ? Fd]; try lia. rewrite HE. apply TNone; [done|]. repeat constructor. }
      assert (k = 3 -> j = np)%nat as J3 by lia.
      destruct (command_run _ _ _ _ _ _ _ Dv K J3 Fp Nn H) as [Dv' ->].
      assert (timers_ok (S k) infos (if decide (k = 3%nat) then n0 else T0) n0 (effects_of k) [] T R) as Ti'.
      { remember (@nil eff) as E eqn:HE. remember (@nil (N * msg)) as W' eqn:HW. destruct Ti as [E' W1 K3 ?|?|E' W1 dl K4 Tl Fa Tu Ts Dl|dl ? Lt ? ?|e W1 dl ? ? ? ?|E' W1 T' ? ? ? Fd]; try discriminate; subst.
        * destruct k as [|[|[|[|k]]]]; [..|lia]; cbn; try (apply TNone; [lia|]; repeat constructor). apply TSpawn; [done|by apply Nn|done|repeat constructor|cbn; repeat constructor; cbn; lia|by cbn].
        * cbn. apply TAbort; [lia|repeat constructor|done|]. destruct Dl as [|(_ & _ & Dl)]; [done|]. specialize (N4 eq_refl). lia.
        * exfalso. specialize (N4 eq_refl). lia.
        * destruct k as [|[|[|[|[|[|k]]]]]]; try lia. cbn. apply TEnd; [lia|repeat constructor|done|done]. }
      exists (Some (Pos (S k) j infos (if decide (k = 3%nat) then n0 else T0))). split; [|split; cbn; [destruct (decide (k = 3%nat)); [split; [lia|done]|lia]|destruct (decide (k = 3%nat)); [lia|lia]|by left]]. cbn [vpos q_k q_j q_infos q_start].
      assert (clean (effects_of k) = effects_of k) as -> by (by destruct k as [|[|[|[|[|[|k]]]]]]).
      split; fields; try done; try lia.
      + split_and!; lia.
      + by exists d'.
      + rewrite Rd. change (S k + j)%nat with (S (k + j)). rewrite (take_S_r _ _ _ Fp'), <- app_assoc. done.
      + subst G. destruct k as [|[|[|[|[|[|k]]]]]]; try lia; cbn -[set_up started_up repeat]; rewrite <- ?app_assoc; try done; [by rewrite (J0 ltac:(lia))|]. rewrite (Nn ltac:(lia)). done.
      + destruct k as [|[|[|[|[|[|k]]]]]]; try lia; cbn; repeat constructor; cbn; lia.
      + destruct k as [|[|[|[|[|[|k]]]]]]; try lia; cbn; repeat constructor; cbn; lia.
      + intros. apply Nn. lia.
    - (* round *) born o V; [destruct V; discriminate|].
      destruct V as [K Dv Rd Px Ct Ms So La Lr Po In Ln Nn Al Ti]. fields. destruct Dv as (d0 & [= <-] & Dv).
      remember (@nil eff) as E0 eqn:HE. remember (id0 :: R) as R0 eqn:HR. destruct Ti as [E' W1 K3 ?|?|E' W1 dl K4 Tl Fa Tu Ts Dl|dl K4 Lt Tu Hd|e W1 dl ? ? ? ?|E' W1 T' ? ? ? Fd]; try discriminate. injection HR as <- <-. subst k.
      destruct (stage_enabled _ _ _ _ _ _ Dv H eq_refl) as (_ & En & Is & Se). destruct H0 as [(? & _)|(_ & -> & ->)]; [congruence|].
      change (pending [] []) with (@nil msg) in Ms. rewrite app_nil_r in Ms. subst G.
      exists (Some (Pos 4 j (infos ++ [SessionInfoNtf (s_seq s0) id 0 0 ms []]) T0)). split; [|split; cbn; [lia|done|right; by exists id]]. cbn [vpos q_k q_j q_infos q_start]. split; fields; try done; try lia.
      + eexists. split; [done|]. destruct Dv as (D1 & D2 & D3 & sn & _). cbn. split_and!; try done. eexists. split; [by rewrite Se, insert_singleton|]. destruct Is as [? ? ? ? Iq ? ?]. split; try done; cbn. { rewrite Iq, app_length. cbn. lia. } by destruct infos.
      + cbn [due_at]. change (pending [Send ?m] []) with [m]. by rewrite <- !app_assoc.
      + intros a m L. apply lookup_app_Some in L as [L|[Ge L]]; [by eapply In|]. destruct (a - length infos)%nat as [|z] eqn:Z; [|by destruct z]. injection L as <-.
        assert (a = length infos) as -> by lia. rewrite <- (in_seq _ _ _ _ _ Is). by eexists.
      + rewrite app_length. cbn. lia.
      + apply TRun; [done|by repeat constructor|constructor|rewrite app_length; cbn; lia|lia|left; lia].
    - (* send *) born o V; [destruct V; discriminate|]. stay k j infos T0.
      destruct V as [K Dv Rd Px Ct Ms So La Lr Po In Ln Nn Al Ti]. fields. split; fields; try done.
      + rewrite app_length. pose proof (sent_count_mono (length G) (length G + length [m]) (length X) (length X) ltac:(lia) ltac:(lia)). lia.
      + rewrite <- Ms. unfold pending. rewrite eff_sent_cons. by rewrite <- !app_assoc.
      + intros _. apply Lr. by rewrite eff_sent_cons.
      + inversion Ti; subst; try (match goal with X : timerless (_ :: _) |- _ => apply Forall_cons in X as [_ X] end); [by apply TNone| |by apply TEnd].
        apply TRun; try done. match goal with X : _ \/ _ |- _ => destruct X as [|(_ & X & _)]; [by left|discriminate X] end.
    - (* after *) born o V; [destruct V; discriminate|]. stay k j infos T0.
      destruct V as [K Dv Rd Px Ct Ms So La Lr Po In Ln Nn Al Ti]. fields.
      assert (W ++ later n0 (After ms m :: E) = (W ++ [(n0 + ms, m)]) ++ later n0 E) as Eq by (unfold later; rewrite eff_delays_cons, <- app_assoc; done).
      rewrite eff_delays_cons in Po. apply Forall_cons in Po as [P1 Po]. cbn in P1. split; fields; try done.
      + rewrite <- Ms. unfold pending. rewrite eff_delays_cons, map_app. cbn. rewrite <- !app_assoc. done.
      + by rewrite <- Eq.
      + apply Forall_app. split; [done|]. repeat constructor. cbn. lia.
      + intros Z. apply Forall_app. split; [by apply Lr|]. repeat constructor. cbn. lia.
      + inversion Ti; subst; try (match goal with X : timerless (_ :: _) |- _ => apply Forall_cons in X as [_ X] end); [by apply TNone| |by apply TEnd].
        rewrite Eq in *. apply TRun; try done. match goal with X : _ \/ _ |- _ => destruct X as [|(_ & X & _)]; [by left|]; exfalso; unfold pending in X; rewrite eff_delays_cons in X; change (eff_sent (After ms m :: E)) with (eff_sent E) in X; apply (f_equal length) in X; rewrite !app_length, !map_length, !app_length in X; cbn in X; lia end.
    - (* spawn *) born o V; [destruct V; discriminate|]. stay k j infos T0.
      destruct V as [K Dv Rd Px Ct Ms So La Lr Po In Ln Nn Al Ti]. fields. split; fields; try done.
      inversion Ti; subst; try (match goal with X : timerless (_ :: _) |- _ => by apply Forall_cons in X as [[] _] end). apply TRun; try done; [|cbn [length]; lia|left; lia].
      cbn [app]. unfold later. apply Forall_map. eapply Forall_impl; [match goal with X : Forall (fun y => y.1 < I) (eff_delays E) |- _ => exact X end|]. cbn. lia.
    - (* abort *) born o V; [destruct V; discriminate|]. stay k j infos T0.
      destruct V as [K Dv Rd Px Ct Ms So La Lr Po In Ln Nn Al Ti]. fields. split; fields; try done.
      inversion Ti; subst; try (match goal with X : timerless (_ :: _) |- _ => by apply Forall_cons in X as [[] _] end). apply TEnd; try done.
      cbn. unfold abort. cbn. rewrite !N.eqb_refl. cbn. by repeat constructor.
    - (* timer *) born o V; [destruct V as [? ? ? Ut]; by destruct T1|]. stay k j infos T0.
      destruct V as [K Dv Rd Px Ct Ms So La Lr Po In Ln Nn Al Ti]. fields. split; fields; try done.
      remember (T1 ++ t0 :: T2) as T eqn:HT. destruct Ti as [E' W' ? ?|?|E' W' dl K4 Tl Fa Tu Ts Dl|?|e W' dl ? ? ? ?|E' W' T' ? ? ? Fd]; try (by destruct T1).
      + destruct T1 as [|? T1]; [|by destruct T1]. injection HT as <- <-. cbn in H. destruct Dl as [|(En & Pe & Li)]; [lia|]. cbn. unfold pending in Pe. 
        destruct (eff_sent E') eqn:Z1; [|done]. destruct W'; [|done]. destruct (eff_delays E') eqn:Z2; [|done]. assert (E' = []) as ->. { destruct E' as [|[] ?]; try done; by apply Forall_cons in Tl as [Tl _]. } 
        apply TDue; try done. lia.
      + destruct T1 as [|? T1]; [|by destruct T1]. injection HT as <- <-. cbn in H. lia.
      + destruct T1 as [|? T1]; [|by destruct T1]. injection HT as <- <-. cbn in H. lia.
      + subst T'. apply Forall_app in Fd as [_ Fd]. apply Forall_cons in Fd as [[? _] _]. congruence.
    - (* late *) born o V; [destruct V as [? ? ? Ut]; by destruct T1|]. exfalso. destruct V as [K Dv Rd Px Ct Ms So La Lr Po In Ln Nn Al Ti]. fields. clear - Ti H H0.
      remember (T1 ++ t0 :: T2) as T eqn:HT. destruct Ti as [E' W' ? ?|?|E' W' dl K4 Tl Fa Tu Ts Dl|?|e W' dl ? ? ? ?|E' W' T' ? ? ? Fd]; try (by destruct T1); try (destruct T1 as [|? T1]; [injection HT as <- <-; done|by destruct T1]).
      subst T'. apply Forall_app in Fd as [_ Fd]. apply Forall_cons in Fd as [[_ ?] _]. lia.
    - (* end *) born o V; [destruct V as [? ? ? Ut]; by destruct T1|]. stay k j infos T0.
      destruct V as [K Dv Rd Px Ct Ms So La Lr Po In Ln Nn Al Ti]. fields. split; fields; try done.
      remember (T1 ++ t0 :: T2) as T eqn:HT. destruct Ti as [E' W' ? ?|?|E' W' dl K4 Tl Fa Tu Ts Dl|?|e W' dl ? ? ? ?|E' W' T' ? ? ? Fd]; try (by destruct T1); try (destruct T1 as [|? T1]; [injection HT as <- <-; done|by destruct T1]).
      subst T'. apply Forall_app in Fd as [? Fd]. apply Forall_cons in Fd as [_ ?]. apply TEnd; try done. by apply Forall_app.
    - (* notify *) born o V; [destruct V as [? ? Uw]; by destruct W1|]. stay k j infos T0.
      destruct V as [K Dv Rd Px Ct Ms So La Lr Po In Ln Nn Al Ti]. fields.
      pose proof (sorted_snoc_first _ _ _ _ _ So La H) as ->. cbn [app] in *. apply Forall_cons in La as [L1 La].
      assert (eff_sent E = []) as Se. { destruct (eff_sent E) eqn:Z; [done|]. exfalso. pose proof (Lr ltac:(done)) as Lr'. apply Forall_cons in Lr' as [? _]. lia. }
      split; fields; try done.
      + rewrite app_length. pose proof (sent_count_mono (length G) (length G + length [x0.2]) (length X) (length X) ltac:(lia) ltac:(lia)). lia.
      + rewrite <- Ms. unfold pending. rewrite Se. cbn. by rewrite <- app_assoc.
      + by apply StronglySorted_inv in So as [? _].
      + inversion Ti; subst; [by apply TNone| | |by apply TEnd].
        * apply TRun; try done; [match goal with X : Forall _ ((_ :: _) ++ _) |- _ => by apply Forall_cons in X as [_ ?] end|]. match goal with X : _ \/ _ |- _ => destruct X as [|(_ & X & _)]; [by left|] end. unfold pending in *. by rewrite Se in *.
        * by apply TAbort.
    - (* data *) born o V. { exists None. split; [destruct V; by split|]. split; cbn; try lia. by left. }
      stay k j infos T0. destruct V as [K Dv Rd Px Ct Ms So La Lr Po In Ln Nn Al Ti]. fields. split; fields; try done.
      rewrite app_length. pose proof (sent_count_mono (length G) (length G) (length X) (length X + length [m]) ltac:(lia) ltac:(lia)). lia.
  Qed.

  (** *** The program *)
  Context (Fr : py_send_command (CmdDeviceReset 0) = Some r) (Fi : py_send_command (CmdSessionInit id ty) = Some i)
    (Fc : py_send_command (CmdSetAppConfig id l) = Some c) (Fs : py_send_command (CmdStart id) = Some s)
    (Ft : py_send_command (CmdStop id) = Some t) (Fx : py_send_command (CmdSessionDeinit id) = Some x).
  Context (Lc : (length (cmd_args (CmdSetAppConfig id l)) <= 255)%nat).
  Notation prog := (session_program id ty l (steps_of id ps) wait n).
  Definition outs : list action :=
    [Script.Send (CmdDeviceReset 0); Script.Send (CmdSessionInit id ty); Script.Send (CmdSetAppConfig id l)] ++ map (part_send id) ps
    ++ [Script.Send (CmdStart id); Script.Send (CmdStop id); Script.Send (CmdSessionDeinit id)].
  Lemma parts_frames : mapM py_out (map (part_send id) ps) = Some (map pt_frame ps).
  Proof. clear Ty. induction ps as [|p ps' IH]; [done|]. apply Forall_cons in Ps as [P1 P2]. cbn [map mapM]. assert (py_out (part_send id p) = Some (pt_frame p)) as -> by exact (po_sent _ _ P1). cbn [mbind option_bind]. by rewrite (IH P2). Qed.
  Lemma outs_frames : mapM py_out outs = Some frames.
  Proof.
    unfold outs, frames. apply mapM_Some. apply Forall2_app; [|apply Forall2_app].
    - by repeat constructor.
    - apply mapM_Some, parts_frames.
    - by repeat constructor.
  Qed.
  Lemma frames_sent : exists qs, Forall host_send_ok qs /\ mapM py_send qs = Some frames.
  Proof.
    assert (forall cm f, ScriptFacts.sendable cm -> py_send_command cm = Some f -> exists q, host_send_ok q /\ py_send q = Some f) as C.
    { intros cm f [W L] E. exists (HControl (py_serialize cm)). split; [by apply py_command_ok|exact E]. }
    destruct Wi as [Wid _].
    assert (Forall (fun f => exists q, host_send_ok q /\ py_send q = Some f) frames) as F.
    { unfold frames. apply Forall_app. split; [|apply Forall_app; split].
      - constructor; [by eapply (C (CmdDeviceReset 0)); [split; [done|cbn; lia]|]|]. constructor; [by eapply (C (CmdSessionInit id ty)); [split; [done|cbn; lia]|]|]. constructor; [|constructor]. by eapply (C (CmdSetAppConfig id l)).
      - apply Forall_map. eapply Forall_impl; [exact Ps|]. intros p P. destruct (po_host _ _ P) as (q & O & E). by exists (HData q).
      - constructor; [by eapply (C (CmdStart id)); [split; [done|cbn; lia]|]|]. constructor; [by eapply (C (CmdStop id)); [split; [done|cbn; lia]|]|]. constructor; [|constructor]. by eapply (C (CmdSessionDeinit id)); [split; [done|cbn; lia]|]. }
    clear -F. induction F as [|f fs (q & O & E) F (qs & Os & Es)]; [by exists []|]. exists (q :: qs). split; [by constructor|]. cbn. rewrite E. cbn. by rewrite Es.
  Qed.
  Lemma server_takes k : (read_routine None (read_stream (concat (take k frames)))).1 = take k frames.
  Proof.
    destruct frames_sent as (qs & O & M). apply mapM_Some in M. assert (mapM py_send (take k qs) = Some (take k frames)) as M' by (by apply mapM_Some, Forall2_take).
    apply py_send_delivered in M'; [|by apply Forall_take]. by rewrite M'.
  Qed.
  Lemma steps_waits qs : waits (steps_of id qs) = repeat (Expect credit) (length qs) /\ data_waits (steps_of id qs) = [] /\ all_sends (steps_of id qs) = map (part_send id) qs.
  Proof. induction qs as [|q qs (IH1 & IH2 & IH3)]; [done|]. unfold steps_of in *. cbn. by rewrite IH1, IH2, IH3. Qed.
  Lemma sends_steps qs p m y : sends (steps_of id qs ++ p) m y = if (m <? length qs)%nat then take (S m) (map (part_send id) qs) else map (part_send id) qs ++ sends p (m - length qs) y.
  Proof.
    revert m. induction qs as [|q qs IH]; intros m; [by rewrite Nat.sub_0_r|]. unfold steps_of in *. cbn [map concat part_steps app sends part_send length]. destruct m as [|m]; [done|].
    rewrite IH. cbn [map app]. change (S m <? S (length qs))%nat with (m <? length qs)%nat. by destruct (m <? length qs)%nat.
  Qed.
  Lemma all_outs : all_sends prog = outs.
  Proof.
    unfold session_program, outs. rewrite !all_sends_app. destruct (steps_waits ps) as (_ & _ & ->). destruct (waits_data wait) as (_ & _ & ->). destruct (waits_infos n) as (_ & _ & ->). done.
  Qed.
  Lemma prog_sends m y : sends prog m y = take (sent_count m y) outs.
  Proof.
    unfold session_program, set_up_program, init_program. cbn [app].
    do 7 (destruct m as [|m]; [done|]). cbn [sends]. rewrite sends_steps. unfold outs. change (take ?k ([?a1; ?a2; ?a3] ++ ?rest)) with (take k (a1 :: a2 :: a3 :: rest)).
    assert (exists k, sent_count (7 + m) y = (3 + k)%nat /\ (if (m <? np)%nat then take (S m) (map (part_send id) ps) else map (part_send id) ps ++
      sends ([Script.Send (CmdStart id); Expect (SessionStartRsp 0); Expect (SessionStatusNtf id SsActive 0); Expect (CoreDeviceStatusNtf DsActive)] ++ map ExpectData wait ++ repeat ExpectInfo n ++
        [Script.Send (CmdStop id); Expect (SessionStopRsp 0); Expect (SessionStatusNtf id SsIdle 0); Expect (CoreDeviceStatusNtf DsReady); Script.Send (CmdSessionDeinit id); Expect (SessionDeinitRsp 0)]) (m - np) y)
      = take k (map (part_send id) ps ++ [Script.Send (CmdStart id); Script.Send (CmdStop id); Script.Send (CmdSessionDeinit id)])) as (k & Ek & E).
    2:{ change (S (S (S (S (S (S (S m))))))) with (7 + m)%nat. rewrite Ek. change (3 + k)%nat with (S (S (S k))). cbn [take firstn app]. by rewrite <- E. }
    destruct (Nat.ltb_spec m np) as [L|L].
    { exists (S m). split; [counts|]. rewrite take_app_le by (rewrite map_length; lia). done. }
    assert (forall k, map (part_send id) ps ++ take k [Script.Send (CmdStart id); Script.Send (CmdStop id); Script.Send (CmdSessionDeinit id)]
      = take (np + k) (map (part_send id) ps ++ [Script.Send (CmdStart id); Script.Send (CmdStop id); Script.Send (CmdSessionDeinit id)])) as Tk.
    { intros k. rewrite <- (map_length (part_send id) ps). by rewrite firstn_app_2. }
    destruct (m - np)%nat as [|[|[|a]]] eqn:A.
    1-3: exists (np + 1)%nat; split; [counts|]; rewrite <- Tk; done.
    cbn [app sends]. rewrite sends_data. destruct (Nat.ltb_spec y (length wait)).
    { exists (np + 1)%nat. split; [counts|]. by rewrite <- Tk. }
    rewrite sends_infos. destruct (Nat.ltb_spec a n).
    { exists (np + 1)%nat. split; [counts|]. by rewrite <- Tk. }
    cbn [sends]. destruct (a - n)%nat as [|[|[|b]]] eqn:B.
    1-3: exists (np + 2)%nat; split; [counts|]; rewrite <- Tk; done.
    exists (np + 3)%nat. split; [counts|]. rewrite <- Tk. by destruct b.
  Qed.
  Lemma prog_waits : waits prog = map Expect (set_up id) ++ repeat (Expect credit) np ++ map Expect (started_up id) ++ repeat ExpectInfo n ++ map Expect [SessionStopRsp 0x00; SessionStatusNtf id SsIdle 0x00; CoreDeviceStatusNtf DsReady; SessionDeinitRsp 0x00].
  Proof. unfold session_program. rewrite !waits_app. destruct (steps_waits ps) as (-> & _ & _). destruct (waits_data wait) as (-> & _ & _). destruct (waits_infos n) as (-> & _ & _). done. Qed.
  Lemma prog_data_waits : data_waits prog = wait.
  Proof. unfold session_program. rewrite !data_waits_app. destruct (steps_waits ps) as (_ & -> & _). destruct (waits_data wait) as (_ & -> & _). destruct (waits_infos n) as (_ & -> & _). cbn. by rewrite app_nil_r. Qed.
  (** What has been received at any time. *)
  Definition good (G : list msg) : Prop := exists k j infos, G `prefix_of` due_at k j infos /\ at_ok k j /\ infos_ok infos /\ (length infos <= n)%nat /\ ((k <= 3)%nat -> infos = []) /\ ((5 <= k)%nat -> length infos = n).
  Lemma agree_map ms g : ms = g -> agree (map Expect ms) g.
  Proof. intros <- j a m Hl Hg. rewrite list_lookup_fmap, Hg in Hl. by injection Hl as <-. Qed.
  Lemma agree_infos k infos : infos_ok infos -> agree (repeat ExpectInfo k) infos.
  Proof. intros O j a m Hl Hg. apply elem_of_list_lookup_2 in Hl. apply elem_of_list_In, repeat_spec in Hl as ->. destruct (O _ _ Hg) as [ms ->]. by repeat eexists. Qed.
  Lemma agree_credits k j : agree (repeat (Expect credit) k) (repeat credit j).
  Proof. intros a b m Hl Hg. apply elem_of_list_lookup_2 in Hl, Hg. apply elem_of_list_In, repeat_spec in Hl as ->. by apply elem_of_list_In, repeat_spec in Hg as ->. Qed.
  Lemma agree_end L g g' : agree L g -> length g = length L -> agree L (g ++ g').
  Proof. intros A E j a m Hl Hg. rewrite lookup_app_l in Hg; [by eapply A|]. rewrite E. by eapply lookup_lt_Some. Qed.
  Lemma agree_more L L' g : agree L g -> (length g <= length L)%nat -> agree (L ++ L') g.
  Proof. intros A E j a m Hl Hg. rewrite lookup_app_l in Hl; [by eapply A|]. apply lookup_lt_Some in Hg. lia. Qed.
  Lemma good_agree G : good G -> agree (waits prog) G.
  Proof.
    intros (k & j & infos & P & (K & J & J0 & Jn) & O & Ln & Z & Al). eapply agree_prefix; [exact P|]. rewrite prog_waits.
    assert (agree (map Expect (set_up id)) (set_up id)) as A1 by (by apply agree_map).
    assert (agree (map Expect (started_up id)) (started_up id)) as A2 by (by apply agree_map).
    destruct k as [|[|[|[|k]]]].
    1-3: apply agree_more; [|cbn; lia]; eapply agree_prefix; [|exact A1]; cbn; by repeat eapply prefix_cons; apply prefix_nil.
    { cbn [due_at]. apply agree_app; [done| |done]. apply agree_more; [apply agree_credits|]. by rewrite !repeat_length. }
    assert (agree (repeat ExpectInfo n ++ map Expect [SessionStopRsp 0x00; SessionStatusNtf id SsIdle 0x00; CoreDeviceStatusNtf DsReady; SessionDeinitRsp 0x00])
      (match k with 0%nat => infos | 1%nat => infos ++ stopped_with | _ => infos ++ stopped_with ++ ended_with end)) as A3.
    { destruct k as [|[|k]].
      - apply agree_more; [by apply agree_infos|]. by rewrite repeat_length.
      - apply agree_app; [by apply agree_infos| |rewrite repeat_length; symmetry; apply Al; lia].
        unfold stopped_with. eapply agree_prefix; [|apply (agree_map _ _ eq_refl)]. by eexists [_].
      - apply agree_app; [by apply agree_infos| |rewrite repeat_length; symmetry; apply Al; lia].
        unfold stopped_with, ended_with. cbn [app]. apply (agree_end _ [_; _; _; _] [_]); [|done]. by apply agree_map. }
    assert (agree (map Expect (set_up id) ++ repeat (Expect credit) np ++ map Expect (started_up id) ++ repeat ExpectInfo n ++ map Expect [SessionStopRsp 0x00; SessionStatusNtf id SsIdle 0x00; CoreDeviceStatusNtf DsReady; SessionDeinitRsp 0x00])
      (set_up id ++ repeat credit j ++ started_up id ++ (match k with 0%nat => infos | 1%nat => infos ++ stopped_with | _ => infos ++ stopped_with ++ ended_with end))) as A4.
    { apply agree_app; [done| |done]. apply agree_app; [apply agree_credits| |rewrite !repeat_length; rewrite Jn; lia]. by apply agree_app. }
    destruct k as [|[|k]]; exact A4.
  Qed.
  Lemma due_plain k j infos : infos_ok infos -> Forall (fun m => plain m = true) (due_at k j infos).
  Proof.
    intros O. assert (Forall (fun m => plain m = true) infos) as P. { apply Forall_lookup. intros a m L. by destruct (O _ _ L) as [ms ->]. }
    assert (Forall (fun m => plain m = true) (repeat credit j)) as Q. { apply Forall_forall. intros m Hm. by apply elem_of_list_In, repeat_spec in Hm as ->. }
    destruct k as [|[|[|[|[|[|k]]]]]]; cbn [due_at]; rewrite ?Forall_app; split_and?; try done; repeat constructor.
  Qed.
  Lemma prefix_plain G : good G -> Forall (fun m => plain m = true) G.
  Proof. intros (k & j & infos & [z E] & _ & O & _). pose proof (due_plain k j infos O) as F. rewrite E in F. by apply Forall_app in F as [F _]. Qed.
  Definition data_good (D : list msg) : Prop := agree_data wait D.
  Lemma received_run y : Forall wf_msg (delivered h y) -> good (control_messages (delivered h y)) -> data_good (data_messages (delivered h y)) ->
    let m := length (control_messages (delivered h y)) in let w := length (data_messages (delivered h y)) in
    py_program prog (received h y) = (take (sent_count m w) frames, if (14 + np + n <=? m)%nat && (length wait <=? w)%nat then Finished else Blocked)
    /\ sent_by prog (received h y) = take (sent_count m w) frames.
  Proof.
    intros W G D m w. destruct (received_seen _ W (prefix_plain _ G)) as (st & S & F & F').
    assert (received h y = py_read_stream st) as -> by (unfold received; by rewrite S). 
    destruct (program_runs prog _ _ _ _ frames F F' (good_agree _ G)) as (fs & E1 & E2). { by rewrite prog_data_waits. } { rewrite all_outs. apply outs_frames. }
    rewrite prog_sends in E1. fold m w in E1, E2.
    assert (fs = take (sent_count m w) frames) as ->. { pose proof outs_frames as C. apply mapM_Some in C. assert (Forall2 (fun a b => py_out a = Some b) (take (sent_count m w) outs) (take (sent_count m w) frames)) as C' by (by apply Forall2_take). apply mapM_Some in C'. congruence. }
    unfold sent_by, py_program. rewrite E2. cbn [fst]. split.
    - rewrite prog_data_waits. assert (length (waits prog) = (14 + np + n)%nat) as ->; [|done]. rewrite prog_waits, !app_length, !repeat_length, !map_length. cbn. lia.
    - apply server_takes.
  Qed.

  (** *** Every state *)
  Lemma vpos_good o PR v : vpos o PR v -> good (v_got v).
  Proof.
    destruct o as [[k j infos T0]|]; cbn.
    - intros [K Dv Rd Px Ct Ms So La Lr Po In Ln Nn Al Ti]. exists k, j, infos. split_and!; try done. rewrite <- Ms. by apply prefix_app_r.
    - intros U. rewrite (un_got _ _ U). exists 0%nat, 0%nat, []. split_and!; try done; try (cbn; lia); [apply prefix_nil|split_and!; lia].
  Qed.
  Lemma frames_type PR : PR `prefix_of` frames -> Forall (fun p => hd 0 p / 32 < 4) PR.
  Proof.
    intros [z E]. assert (Forall (fun p => hd 0 p / 32 < 4) frames) as F.
    { assert (forall cm f, encodes cm f -> hd 0 f / 32 < 4) as X by (intros cm f (a & b & c1 & c2 & -> & H & _); cbn; lia).
      unfold frames. apply Forall_app. split; [|apply Forall_app; split]; [repeat (constructor; [by eapply X|]); constructor| |repeat (constructor; [by eapply X|]); constructor].
      apply Forall_map. eapply Forall_impl; [exact Ps|]. cbn. intros p P. by rewrite (data_message_hd _ _ _ _ _ (po_data _ _ P)). }
    rewrite E in F. by apply Forall_app in F as [F _].
  Qed.
  Definition run_ok (ls : list label) (y : sys) : Prop := packets_read h ls `prefix_of` frames /\ good (control_messages (delivered h y)).
  Lemma read_snoc lb ls : packets_read h (ls ++ [lb]) = read_after (packets_read h ls) (act_of h lb).
  Proof.
    unfold packets_read. rewrite map_app, concat_app. cbn [map concat]. rewrite app_nil_r. destruct lb; cbn; rewrite ?app_nil_r; try done. destruct (_ =? h); [done|]. by rewrite app_nil_r.
  Qed.
  Lemma done_view y : done_at h y -> v_eff (view_of h y) = [] /\ v_packets (view_of h y) = [] /\ v_rounds (view_of h y) = []
    /\ Forall (fun z => v_now (view_of h y) < z.1) (v_wait (view_of h y)) /\ Forall (fun z => t_live z = true /\ v_now (view_of h y) < t_deadline z) (v_timers (view_of h y)).
  Proof.
    intros (D1 & D2 & D3 & D4 & D5). cbn [view_of v_eff v_packets v_rounds v_now v_wait v_timers]. split_and!.
    - assert (effs_at h (y_todo y) = []) as ->; [|done]. clear -D1. unfold effs_at. induction (y_todo y) as [|o L IH]; [done|]. cbn [map concat]. rewrite IH by (intros z Hz; apply (D1 z); by right). rewrite app_nil_r.
      destruct o as [k z| | |]; try done. cbn. destruct (N.eqb_spec k h) as [->|]; [|done]. exfalso. apply (D1 z). by left.
    - done.
    - clear -D3. unfold rounds. unfold queued_rounds in D3. induction (y_queue y) as [|o L IH]; [done|]. cbn [map concat].
      assert (round_of h o = []) as ->. { destruct o as [| |k j| | | | |]; try done. cbn. destruct (N.eqb_spec k h) as [->|]; [|done]. specialize (D3 j). cbn in D3. by rewrite !N.eqb_refl in D3. }
      apply IH. intros j. specialize (D3 j). cbn in D3. destruct (is_ranging h j o); [done|exact D3].
    - apply Forall_forall. intros z Hz. apply elem_of_list_In, filter_In in Hz as [Hz _]. unfold dw in Hz. apply in_concat in Hz as (w & Hw & Hz). apply in_map_iff in Hw as (nt & <- & Hn).
      unfold dw_of in Hz. destruct (N.eqb_spec (n_host nt) h) as [E|]; [|done]. destruct Hz as [<-|[]]. cbn. by apply D4.
    - apply Forall_forall. intros z Hz. apply elem_of_list_In, filter_In in Hz as [Hz E]. apply D5; [done|]. by apply N.eqb_eq.
  Qed.
  Lemma stage_session k j infos d a sn : stage_at k j infos d -> d_sessions d !! a = Some sn -> a = id /\ (s_state sn = SsActive -> k = 4%nat) /\ (s_state sn <> SsInit -> s_cfg sn = cfg).
  Proof.
    intros St Ls. destruct k as [|[|[|[|[|[|k]]]]]]; cbn in St.
    - destruct St as (Z & _). by rewrite Z in Ls.
    - destruct St as (_ & Z & _). by rewrite Z in Ls.
    - destruct St as (_ & Z & _). rewrite Z in Ls. apply lookup_singleton_Some in Ls as [-> <-]. done.
    - destruct St as (_ & _ & _ & sn' & Z & In). rewrite Z in Ls. apply lookup_singleton_Some in Ls as [<- <-]. by rewrite (in_cfg _ _ _ _ _ In), (in_state _ _ _ _ _ In).
    - destruct St as (_ & _ & _ & sn' & Z & In). rewrite Z in Ls. apply lookup_singleton_Some in Ls as [<- <-]. by rewrite (in_cfg _ _ _ _ _ In).
    - destruct St as (_ & _ & _ & sn' & Z & In). rewrite Z in Ls. apply lookup_singleton_Some in Ls as [<- <-]. by rewrite (in_cfg _ _ _ _ _ In), (in_state _ _ _ _ _ In).
    - destruct St as (_ & Z). by rewrite Z in Ls.
  Qed.
  (** The data expected come in time. *)
  Definition tick_ok (y : sys) : Prop :=
    (length (data_messages (delivered h y)) < length wait)%nat -> (10 + np + n <= length (control_messages (delivered h y)))%nat ->
    Forall (fun z => y_now y + 1 < t_deadline z) (List.filter (of_host h) (y_timers y)).
  Definition obeys (ls : list label) : Prop := follows prog h ls /\ brisk prog h ls /\ not_stopped (device_mac_address cfg) id ls.
  Lemma obeys_before ls lb y y' : executed ls y -> sys_step lb y = Some y' -> obeys (ls ++ [lb]) -> obeys ls.
  Proof.
    intros Xe Sy (Fo & Br' & Ns). split_and!.
    - intros ls1 packet ls2 y1 -> R1. eapply (Fo ls1 packet (ls2 ++ [lb]) y1); [by rewrite <- app_assoc|done].
    - intros ls1 ls2 y1 -> R1. eapply (Br' ls1 (ls2 ++ [lb]) y1); [by rewrite <- app_assoc|done].
    - intros e m Hm. eapply Ns. rewrite (processed_snoc _ _ _ _ _ (proj2 Xe) Sy). apply in_or_app. left. exact Hm.
  Qed.
  Lemma run_step ls y lb y' : executed ls y -> executed (ls ++ [lb]) y' -> y_crash y = None -> moved y lb y' -> sys_step lb y = Some y' -> obeys (ls ++ [lb]) ->
    run_ok ls y -> data_good (data_messages (delivered h y)) -> (lb = LTick -> ~ gone h y -> tick_ok y) ->
    packets_read h (ls ++ [lb]) `prefix_of` frames
    /\ (~ gone h y' -> y_crash y' = None -> forall o, vpos o (packets_read h ls) (view_of h y) ->
         exists o', vpos o' (packets_read h (ls ++ [lb])) (view_of h y') /\ evolves o o' (view_of h y) (view_of h y')).
  Proof.
    intros Xe Xe' Cr M Sy (Fo & Br' & Ns) (Px & Gd) Dg Tk.
    assert (Forall wf_msg (delivered h y)) as Wf by (eapply (delivered_wf_host _ _ h Xe); by apply frames_type).
    destruct (received_run y Wf Gd Dg) as [_ Sb]. set (m := length (control_messages (delivered h y))) in *. set (w := length (data_messages (delivered h y))) in *.
    assert (forall p, lb = LRead h p -> (packets_read h ls ++ [p]) `prefix_of` take (sent_count m w) frames) as Rd. { intros p ->. rewrite <- Sb. by apply (Fo ls p [] y eq_refl (proj2 Xe)). }
    assert (forall p, act_of h lb = ARead p -> lb = LRead h p) as Ar. { intros p. destruct lb; cbn; try done. destruct (N.eqb_spec h0 h) as [->|]; [|done]. by intros [= ->]. }
    rewrite read_snoc. split.
    { destruct (act_of h lb) as [|p|] eqn:Ea; cbn; [done| |done]. etrans; [apply Rd, Ar; done|]. exists (drop (sent_count m w) frames). by rewrite take_drop. }
    intros G Cr' o V. assert (~ gone h y) as G0 by (intros ?; apply G; by eapply gone_mono).
    apply vpos_step; [done| |].
    - unfold allowed. cbn [view_of v_got v_data]. fold m w. destruct (act_of h lb) as [|p|] eqn:Ea; [|apply Rd, Ar; done|done].
      assert (lb = LTick) as ->. { destruct lb; cbn in Ea; try done. by destruct (_ =? h). }
      destruct (Br' ls [] y eq_refl (proj2 Xe) G0) as [D E]. destruct (done_view _ D) as (? & ? & ? & ? & ?). split_and!; try done. { by rewrite E, Sb. } by apply Tk.
    - destruct (executed_sinv _ _ Xe) as (outs0 & Si). pose proof (si_reach _ _ _ Si) as Re. apply view_step; try done; [by eexists _, _|by eapply executed_cinv|].
      intros e a id' q d -> Q Ld. apply stop_controlee_none. intros sn Ls [Sa' Sm].
      destruct o as [[k j infos T0]|]; cbn [vpos q_k q_j q_infos q_start] in V; [|pose proof (un_dev _ _ V) as Z; cbn in Z; congruence]. destruct (lv_dev _ _ _ _ _ _ V) as (d' & Ed & St). cbn in Ed. rewrite Ld in Ed. injection Ed as <-.
      destruct (stage_session _ _ _ _ _ _ St Ls) as (-> & _ & Ecf). rewrite Ecf in Sm by (rewrite Sa'; done).
      apply (Ns e a); [|done]. rewrite (processed_snoc _ _ _ _ _ (proj2 Xe) Sy). apply in_or_app. right. cbn [taken]. rewrite Q. cbn. by left.
  Qed.
  (** For the other part: *)
  Definition kept (ls : list label) (y : sys) : Prop := run_ok ls y /\ (~ gone h y -> y_crash y = None -> exists o, vpos o (packets_read h ls) (view_of h y)).
  Lemma kept_nil : kept [] sys_new.
  Proof. split; [split; [apply prefix_nil|]|]. { exists 0%nat, 0%nat, []. split_and!; try done; try (cbn; lia); [apply prefix_nil|split_and!; lia]. } intros _ _. exists None. by split. Qed.
  Lemma stuck_or_not y : (gone h y \/ y_crash y <> None) \/ ~ gone h y /\ y_crash y = None.
  Proof. destruct (decide (h ∈ p_closed (y_pica y))); [by left; left|]. destruct (y_crash y); [by left; right|by right]. Qed.
  Lemma kept_step ls y lb y' : executed ls y -> executed (ls ++ [lb]) y' -> y_crash y = None -> moved y lb y' -> sys_step lb y = Some y' -> obeys (ls ++ [lb]) ->
    kept ls y -> data_good (data_messages (delivered h y)) -> (lb = LTick -> ~ gone h y -> tick_ok y) -> kept (ls ++ [lb]) y'.
  Proof.
    intros Xe Xe' Cr M Sy Ob [Rk Vi] Dg Tk. destruct (run_step _ _ _ _ Xe Xe' Cr M Sy Ob Rk Dg Tk) as [Px' Vi'].
    destruct (stuck_or_not y') as [G|[G Cr']].
    - split; [split; [done|]|]; [|intros; destruct G; done]. rewrite (delivered_stuck _ _ _ _ M G Cr). by destruct Rk.
    - assert (~ gone h y) as G0 by (intros ?; apply G; by eapply gone_mono). destruct (Vi G0 Cr) as [o V]. destruct (Vi' G Cr' o V) as (o' & V' & _). split; [|by exists o']. split; [done|]. by apply vpos_good in V'.
  Qed.

  (** *** The results *)
  Lemma infos_control L : concat (map (info_seq id) (control_messages L)) = concat (map (info_seq id) L).
  Proof. induction L as [|m L IH]; [done|]. cbn [control_messages List.filter]. destruct m; cbn; by rewrite <- IH. Qed.
  Lemma infos_numbers infos k : (forall j m, infos !! j = Some m -> exists ms, m = SessionInfoNtf (N.of_nat (k + j)) id 0 0 ms []) -> concat (map (info_seq id) infos) = map N.of_nat (seq k (length infos)).
  Proof.
    revert k. induction infos as [|m infos IH]; intros k O; [done|]. cbn [map concat length seq]. destruct (O 0%nat m eq_refl) as [ms ->]. cbn [info_seq]. rewrite N.eqb_refl, Nat.add_0_r. cbn [app]. f_equal.
    apply IH. intros j m' L. rewrite Nat.add_succ_comm. by apply (O (S j)).
  Qed.
  Lemma good_infos G : good G -> (14 + np + n <= length G)%nat -> concat (map (info_seq id) G) = map N.of_nat (seq 0 n).
  Proof.
    intros (k & j & infos & P & (K & J & J0 & Jn) & O & Ln & Z & Al) L. pose proof (prefix_length _ _ P) as Lp. rewrite due_length in Lp.
    assert (5 <= k)%nat as K5 by (destruct k as [|[|[|[|[|k]]]]]; lia). specialize (Al K5).
    assert (concat (map (info_seq id) (repeat credit j)) = []) as Cr. { clear. induction j; [done|]. exact IHj. }
    assert (forall q, concat (map (info_seq id) (set_up id ++ repeat credit j ++ started_up id ++ infos ++ q)) = map N.of_nat (seq 0 n) ++ concat (map (info_seq id) q)) as X.
    { intros q. rewrite !map_app, !concat_app, Cr. rewrite (infos_numbers infos 0%nat O), Al. done. }
    destruct P as [z E]. assert (k = 6%nat) as -> by (destruct k as [|[|[|[|[|[|[|k]]]]]]]; lia). cbn [due_at] in E.
    pose proof (X (stopped_with ++ ended_with)) as X1. rewrite E, map_app, concat_app in X1.
    assert (length z <= 1)%nat as Lz. { apply (f_equal length) in E. rewrite !app_length, Al, repeat_length in E. cbn in E. lia. }
    assert (concat (map (info_seq id) z) = []) as Z'.
    { destruct z as [|m []]; [done| |cbn in Lz; lia]. assert (m = SessionStatusNtf id SsDeinit 0x00) as ->; [|done].
      replace (set_up id ++ repeat credit j ++ started_up id ++ infos ++ stopped_with ++ ended_with) with ((set_up id ++ repeat credit j ++ started_up id ++ infos ++ stopped_with ++ [SessionDeinitRsp 0x00]) ++ [SessionStatusNtf id SsDeinit 0x00]) in E by (by rewrite <- !app_assoc).
      by apply app_inj_tail in E as [_ <-]. }
    rewrite Z', app_nil_r in X1. rewrite X1. cbn. by rewrite app_nil_r.
  Qed.
  Lemma no_messages outs : messages h outs = [] -> eff_sent (clean (effs_at h outs)) = [] /\ eff_delays (clean (effs_at h outs)) = [].
  Proof.
    unfold messages, effs_at. induction outs as [|o outs IH]; [done|]. cbn [map concat]. intros E. apply app_nil in E as [E1 E2]. destruct (IH E2) as [I1 I2].
    rewrite clean_app, eff_delays_app. unfold eff_sent in *. rewrite map_app, concat_app, I1, I2, !app_nil_r. destruct o as [k z| | |]; try done.
    unfold effs_of. destruct (k =? h) eqn:Ek; [|done]. destruct z; try done; unfold messages_to in E1; cbn in E1; by rewrite Ek in E1.
  Qed.
  Lemma live_view y : live_timers h id y = length (List.filter (fun z => (t_session z =? id) && t_live z) (List.filter (of_host h) (y_timers y))).
  Proof.
    unfold live_timers. induction (y_timers y) as [|z L IH]; [done|]. cbn [List.filter]. change (is_timer h id z) with (of_host h z && (t_session z =? id)). destruct (of_host h z); cbn [andb]; [|exact IH].
    cbn [List.filter]. destruct ((t_session z =? id) && t_live z); cbn [length]; by rewrite IH.
  Qed.
  Lemma rounds_in y : In id (rounds h (y_queue y)) -> queued_rounds h id y <> 0%nat.
  Proof.
    unfold rounds, queued_rounds. induction (y_queue y) as [|o L IH]; [done|]. cbn [map concat]. intros I. apply in_app_or in I as [I|I].
    - destruct o as [| |k j| | | | |]; try destruct I. cbn in *. destruct (k =? h); [|destruct I]. destruct I as [->|[]]. by rewrite N.eqb_refl.
    - cbn [List.filter]. destruct (is_ranging h id o); [done|]. by apply IH.
  Qed.
  Lemma run_outcome ls y : executed ls y -> kept ls y -> data_good (data_messages (delivered h y)) ->
    outcome_of prog h y <> Raised
    /\ (outcome_of prog h y = Finished -> infos_delivered h id y = map N.of_nat (seq 0 n) /\ wait `prefix_of` data_messages (delivered h y) /\ (~ gone h y -> y_crash y = None -> session_at (y_pica y) h id = None))
    /\ (~ gone h y -> y_crash y = None -> connected (y_pica y) h -> all_arrived prog h ls y -> queued_rounds h id y = 0%nat -> outcome_of prog h y = Finished \/ live_timers h id y = 1%nat).
  Proof.
    intros Xe [(Px & Gd) Vi] Dg.
    assert (Forall wf_msg (delivered h y)) as Wf by (eapply (delivered_wf_host _ _ h Xe); by apply frames_type).
    destruct (received_run y Wf Gd Dg) as [Pr Sb]. unfold outcome_of. rewrite Pr. cbn [snd]. set (m := length (control_messages (delivered h y))) in *. set (w := length (data_messages (delivered h y))) in *.
    destruct (((14 + np + n <=? m) && (length wait <=? w))%nat) eqn:B; (split; [done|]).
    - apply andb_true_iff in B as [Le Lw]. apply Nat.leb_le in Le, Lw. split; [|by left]. intros _. split. { unfold infos_delivered. rewrite <- infos_control. by apply good_infos. }
      split. { exists (drop (length wait) (data_messages (delivered h y))). rewrite <- (take_drop (length wait) (data_messages (delivered h y))) at 1. f_equal. subst w. clear -Dg Lw. apply list_eq. intros a.
        destruct (decide (a < length wait)%nat) as [La|Ga].
        - rewrite lookup_take by done. destruct (lookup_lt_is_Some_2 wait a La) as [m1 E1]. destruct (lookup_lt_is_Some_2 (data_messages (delivered h y)) a ltac:(lia)) as [m2 E2]. rewrite E1, E2. f_equal. symmetry. by eapply Dg.
        - rewrite lookup_take_ge by lia. symmetry. apply lookup_ge_None. lia. }
      intros G Cr. destruct (Vi G Cr) as [[[k j infos T0]|] Lv]; cbn [vpos q_k q_j q_infos q_start] in Lv.
      2:{ pose proof (un_got _ _ Lv) as Z. cbn in Z. subst m. rewrite Z in Le. cbn in Le. lia. }
      pose proof (lv_msgs _ _ _ _ _ _ Lv) as Ms. cbn [view_of v_got] in Ms. apply (f_equal length) in Ms. rewrite app_length, due_length in Ms. fold m in Ms.
      pose proof (lv_n _ _ _ _ _ _ Lv) as Ln. pose proof (lv_k _ _ _ _ _ _ Lv) as (K & J & J0 & Jn). destruct (lv_dev _ _ _ _ _ _ Lv) as (d & Ed & St). cbn in Ed.
      assert (k = 6%nat) as -> by (destruct k as [|[|[|[|[|[|[|k]]]]]]]; lia). destruct St as [_ Z]. unfold session_at. rewrite Ed. cbn. by rewrite Z.
    - split; [done|]. intros G Cr [d Cn] (A1 & A2 & A3 & A4) Qr. right. destruct (Vi G Cr) as [[[k j infos T0]|] Lv]; cbn [vpos q_k q_j q_infos q_start] in Lv; [|pose proof (un_dev _ _ Lv) as Z; cbn in Z; congruence].
      assert (pending (v_eff (view_of h y)) (v_wait (view_of h y)) = []) as Pe.
      { cbn [view_of v_eff v_wait]. unfold pending.
        destruct (no_messages _ A3) as [-> ->]. rewrite (dw_nil _ _ A4). done. }
      pose proof (lv_msgs _ _ _ _ _ _ Lv) as Ms. rewrite Pe, app_nil_r in Ms. cbn [view_of v_got] in Ms. apply (f_equal length) in Ms. rewrite due_length in Ms. fold m in Ms.
      pose proof (lv_read _ _ _ _ _ _ Lv) as Rd. cbn [view_of v_packets] in Rd. rewrite A2, app_nil_r, A1, Sb in Rd. apply (f_equal length) in Rd. rewrite !take_length, frames_length in Rd.
      pose proof (lv_n _ _ _ _ _ _ Lv) as Ln. pose proof (lv_k _ _ _ _ _ _ Lv) as (K & J & J0 & Jn). pose proof (lv_all _ _ _ _ _ _ Lv) as Al. pose proof (sent_count_max m w).
      assert (~ (14 + np + n <= m /\ length wait <= w)%nat) as B'. { intros [B1 B2]. apply Nat.leb_le in B1, B2. by rewrite B1, B2 in B. }
      assert (k = 4%nat) as ->. { destruct k as [|[|[|[|[|[|[|k]]]]]]]; try lia; exfalso; counts. }
      pose proof (lv_timers _ _ _ _ _ _ Lv) as Ti. cbn [view_of v_eff v_wait v_timers v_rounds v_now] in Ti, Pe. rewrite live_view. rewrite (dw_nil _ _ A4) in Ti, Pe. cbn [List.filter] in Ti, Pe.
      remember (@nil (N * msg)) as W0 eqn:HW in Ti, Pe. remember (clean (effs_at h (y_todo y))) as E0 eqn:HE. remember (List.filter (of_host h) (y_timers y)) as T1 eqn:HT. remember (rounds h (y_queue y)) as R0 eqn:HR.
      destruct Ti as [? ? ? ?|e ? ? ? ? ? Ne|E W dl ? ? ? ? ? ?|dl ? ? ? ?|? ? ? ?|? ? ? ?]; try lia.
      + exfalso. apply Ne. exact Pe.
      + cbn. by rewrite N.eqb_refl.
      + exfalso. apply (rounds_in y); [rewrite <- HR; by left|done].
  Qed.
  Lemma alone_kept ls y : wait = [] -> executed ls y -> obeys ls -> kept ls y.
  Proof.
    intros Wn. revert ls y. refine (executed_ind _ _ _); [intros _; apply kept_nil|].
    intros ls y lb y' Xe IH Wl Cr M Sy Ob. eapply kept_step; try done; [by eapply executed_snoc|apply IH; by eapply obeys_before| |].
    - unfold data_good. rewrite Wn. intros j m m' L. done.
    - intros _ _. unfold tick_ok. rewrite Wn. cbn. lia.
  Qed.
  Lemma alone_outcome ls y : wait = [] -> executed ls y -> obeys ls ->
    outcome_of prog h y <> Raised
    /\ (outcome_of prog h y = Finished -> infos_delivered h id y = map N.of_nat (seq 0 n) /\ (~ gone h y -> y_crash y = None -> session_at (y_pica y) h id = None))
    /\ (~ gone h y -> y_crash y = None -> connected (y_pica y) h -> all_arrived prog h ls y -> queued_rounds h id y = 0%nat -> outcome_of prog h y = Finished \/ live_timers h id y = 1%nat).
  Proof.
    intros Wn Xe Ob. destruct (run_outcome ls y Xe (alone_kept _ _ Wn Xe Ob)) as (R1 & R2 & R3); [unfold data_good; rewrite Wn; by intros j m m' L|].
    split; [done|]. split; [|done]. intros F. by destruct (R2 F) as (? & _ & ?).
  Qed.
End Run.
Lemma frames_exist id ty l : wf_cmd (CmdSessionInit id ty) -> wf_cmd (CmdSetAppConfig id l) -> (length (cmd_args (CmdSetAppConfig id l)) <= 255)%nat ->
  exists r i c s t x, (encodes (CmdDeviceReset 0) r /\ encodes (CmdSessionInit id ty) i /\ encodes (CmdSetAppConfig id l) c /\ encodes (CmdStart id) s /\ encodes (CmdStop id) t /\ encodes (CmdSessionDeinit id) x)
    /\ (wf_bytes r /\ wf_bytes i /\ wf_bytes c /\ wf_bytes s /\ wf_bytes t /\ wf_bytes x)
    /\ (py_send_command (CmdDeviceReset 0) = Some r /\ py_send_command (CmdSessionInit id ty) = Some i /\ py_send_command (CmdSetAppConfig id l) = Some c
        /\ py_send_command (CmdStart id) = Some s /\ py_send_command (CmdStop id) = Some t /\ py_send_command (CmdSessionDeinit id) = Some x).
Proof.
  intros Wi Wc Lc. pose proof Wi as [Wid _].
  destruct (send_frame (CmdDeviceReset 0)) as (r & Fr & Er & Br); [split; [done|cbn; lia]|].
  destruct (send_frame (CmdSessionInit id ty)) as (i & Fi & Ei & Bi); [split; [done|cbn; lia]|].
  destruct (send_frame (CmdSetAppConfig id l)) as (c & Fc & Ec & Bc); [by split|].
  destruct (send_frame (CmdStart id)) as (s & Fs & Es & Bs); [split; [done|cbn; lia]|].
  destruct (send_frame (CmdStop id)) as (t & Ft & Et & Bt); [split; [done|cbn; lia]|].
  destruct (send_frame (CmdSessionDeinit id)) as (x & Fx & Ex & Bx); [split; [done|cbn; lia]|].
  exists r, i, c, s, t, x. done.
Qed.
Lemma session_program_runs h id ty l cfg n ps ls y : wf_cmd (CmdSessionInit id ty) -> wf_cmd (CmdSetAppConfig id l) -> (length (cmd_args (CmdSetAppConfig id l)) <= 255)%nat ->
  sets_all default_app_config l cfg [] -> configured cfg -> session_info_ntf_config cfg <> 0 -> 5 < ranging_duration cfg -> Forall (part_ok id) ps -> ps = [] \/ ty = 1 ->
  let prog := session_program id ty l (steps_of id ps) [] n in
  executed ls y -> follows prog h ls -> brisk prog h ls -> not_stopped (device_mac_address cfg) id ls ->
  outcome_of prog h y <> Raised
  /\ (outcome_of prog h y = Finished ->
       infos_delivered h id y = map N.of_nat (seq 0 n) /\ (~ gone h y -> y_crash y = None -> session_at (y_pica y) h id = None))
  /\ (~ gone h y -> y_crash y = None -> connected (y_pica y) h -> all_arrived prog h ls y -> queued_rounds h id y = 0%nat ->
       outcome_of prog h y = Finished \/ live_timers h id y = 1%nat).
Proof.
  intros Wi Wc Lc Sa Cf Nt Du Ps Ty prog Xe Fo Br Ns. destruct (frames_exist _ _ _ Wi Wc Lc) as (r & i & c & s & t & x & (E1 & E2 & E3 & E4 & E5 & E6) & (B1 & B2 & B3 & B4 & B5 & B6) & F1 & F2 & F3 & F4 & F5 & F6).
  by eapply (alone_outcome h id ty l cfg n ps [] r i c s t x).
Qed.
Lemma program_ranges h id ty l cfg n ls y : wf_cmd (CmdSessionInit id ty) -> wf_cmd (CmdSetAppConfig id l) -> (length (cmd_args (CmdSetAppConfig id l)) <= 255)%nat ->
  sets_all default_app_config l cfg [] -> configured cfg -> session_info_ntf_config cfg <> 0 -> 5 < ranging_duration cfg ->
  executed ls y -> follows (ranging_program id ty l n) h ls -> brisk (ranging_program id ty l n) h ls -> not_stopped (device_mac_address cfg) id ls ->
  outcome_of (ranging_program id ty l n) h y <> Raised
  /\ (outcome_of (ranging_program id ty l n) h y = Finished ->
       infos_delivered h id y = map N.of_nat (seq 0 n) /\ (~ gone h y -> y_crash y = None -> session_at (y_pica y) h id = None))
  /\ (~ gone h y -> y_crash y = None -> connected (y_pica y) h -> all_arrived (ranging_program id ty l n) h ls y -> queued_rounds h id y = 0%nat ->
       outcome_of (ranging_program id ty l n) h y = Finished \/ live_timers h id y = 1%nat).
Proof. intros. eapply (session_program_runs h id ty l cfg n []); try done. by left. Qed.
(** The program that sends a file. *)
Lemma sender_runs h id l cfg dst file n ls y : wf_cmd (CmdSessionInit id 1) -> wf_cmd (CmdSetAppConfig id l) -> (length (cmd_args (CmdSetAppConfig id l)) <= 255)%nat ->
  sets_all default_app_config l cfg [] -> configured cfg -> session_info_ntf_config cfg <> 0 -> 5 < ranging_duration cfg -> word64 dst -> wf_bytes file ->
  let prog := sender_program id 1 l dst file n in
  executed ls y -> follows prog h ls -> brisk prog h ls -> not_stopped (device_mac_address cfg) id ls ->
  outcome_of prog h y <> Raised
  /\ (outcome_of prog h y = Finished ->
       infos_delivered h id y = map N.of_nat (seq 0 n) /\ (~ gone h y -> y_crash y = None -> session_at (y_pica y) h id = None))
  /\ (~ gone h y -> y_crash y = None -> connected (y_pica y) h -> all_arrived prog h ls y -> queued_rounds h id y = 0%nat ->
       outcome_of prog h y = Finished \/ live_timers h id y = 1%nat).
Proof.
  intros Wi Wc Lc Sa Cf Nt Du Wd Wf prog. destruct (transfer_parts id dst file (proj1 Wi) Wd Wf) as (ps & E & P & _). subst prog. unfold sender_program. rewrite E. apply session_program_runs; try done. by right.
Qed.
