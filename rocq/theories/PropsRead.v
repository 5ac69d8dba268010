(** C95: what a host reads of a session is what it last set, through any history. *)
From Verif Require Import Base Uci MacAddress AppConfig Codec Session Device Pica.
From Verif Require Import BaseFacts CodecSpec ContextSpec HistorySpec InvFacts StepFacts CommandFacts GateFacts EvolveFacts Demo
  PropsContext PropsDevice ReadSpec ReadFacts.

(** The last command of a history. *)
Lemma last_asked p tr o outs h c : executes p (tr ++ [(o, outs)]) -> asks h c o -> c <> CmdDeviceReset 0 ->
  exists p0, executes p0 tr /\ (commanded p0 h c p outs \/ ~ serving p0 h /\ forall m, m ∈ sent h outs -> exists st, m = CoreDeviceStatusNtf st).
Proof.
  intros X (packet & -> & Wc & E) Nr. inversion X as [H0|p0 tr0 e o0 p1 outs0 X0 We Wo S Ep Et]; [by destruct tr|].
  apply app_inj_tail in Et as [-> [= -> ->]]. subst p1. exists p0. split; [done|].
  destruct (p_devices p0 !! h) as [d|] eqn:L.
  - destruct (d_is_reset d) eqn:R.
    + left. apply executes_reaches in X0 as (l & X0 & _). split; [by eexists _, _|]. split; [by exists d|]. split; [done|]. by exists e, packet.
    + right. split; [intros (d' & L' & R'); congruence|].
      rewrite (gate_step e p0 h d c packet) in S by done. apply Ret_inj in S. injection S as _ <-.
      pose proof (sent_one h [] (CoreDeviceStatusNtf DsError) eq_refl) as E1. cbn [app map] in E1. rewrite E1.
      intros m ->%elem_of_list_singleton. by eexists.
  - right. split; [intros (d' & L' & R'); congruence|]. cbn [step] in S. unfold uci_packet in S. rewrite L in S.
    apply Ret_inj in S. injection S as _ <-. by intros m ?%elem_of_nil.
Qed.
Lemma exists_serving p tr h id : executes p tr -> exists_after h id tr -> serving p h.
Proof.
  intros X H. apply (exists_iff _ _ _ _ executes_pinv X) in H as [s Hs]. unfold session_at in Hs.
  destruct (p_devices p !! h) as [d|] eqn:L; [|done]. exists d. split; [done|].
  destruct (executes_pinv _ _ X) as [D _ _]. destruct (D _ _ L) as (I & _). destruct (d_is_reset d) eqn:R; [done|].
  cbn in Hs. by rewrite (di_reset _ _ I R) in Hs.
Qed.
Lemma zip_fst {A B} (P : A -> B -> Prop) l k : Forall2 P l k -> (zip l k).*1 = l.
Proof. induction 1 as [|x y l k _ _ IH]; [done|]. cbn. by rewrite IH. Qed.
Lemma zip_all {A B} (P : A -> B -> Prop) l k x y : Forall2 P l k -> (x, y) ∈ zip l k -> x ∈ l /\ P x y.
Proof.
  induction 1 as [|x0 y0 l k H _ IH]; [by intros ?%elem_of_nil|]. cbn. intros [[= -> ->]|Hx]%elem_of_cons; [split; [left|done]|].
  destruct (IH Hx). split; [by right|done].
Qed.

(** The answer to a host which reads parameters of a session, after any history: ERROR_SESSION_NOT_EXIST when the session does not
    exist; otherwise all of the parameters asked for, each with the value last given to it; or FAILED when one of them has none.
    The number and the addresses of the controlees may also change with the list of controlees (C31-C33): for these two, the
    value given last is read as long as the list was not updated since. *)
Theorem C95_read : forall p tr o outs h id ids status tlvs,
  executes p (tr ++ [(o, outs)]) -> asks h (CmdGetAppConfig id ids) o -> SessionGetAppConfigRsp status tlvs ∈ sent h outs ->
  (status = 0x11 (* ERROR_SESSION_NOT_EXIST *) /\ tlvs = [] /\ ~ exists_after h id tr)
  \/ (status = 0x00 (* OK *) /\ exists_after h id tr /\ tlvs.*1 = ids
      /\ forall i v, (i, v) ∈ tlvs -> (~ of_list i -> holds h id i tr v) /\ (forall w, holds h id i tr w -> w = v))
  \/ (status = 0x02 (* FAILED *) /\ tlvs = [] /\ exists_after h id tr /\ exists i, i ∈ ids /\ forall v, ~ holds h id i tr v).
Proof.
  intros p tr o outs h id ids status tlvs X A Hm.
  assert (Forall known_id ids) as K by (destruct A as (? & _ & (_ & _ & ?) & _); done).
  destruct (last_asked _ _ _ _ _ _ X A) as (p0 & X0 & [C|[_ H]]); [done| |by destruct (H _ Hm)].
  pose proof (C30_get_app_config _ _ _ _ _ _ C) as G. pose proof (exists_iff p0 tr h id executes_pinv X0) as Ex.
  assert (forall m, outs = [OEff h (Send m)] -> m = SessionGetAppConfigRsp status tlvs) as U.
  { intros m ->. pose proof (sent_one h [] m eq_refl) as E1. cbn [app map] in E1. rewrite E1 in Hm. by apply elem_of_list_singleton in Hm. }
  destruct (session_at p0 h id) as [s|] eqn:Ls.
  - assert (exists_after h id tr) as Et by (apply Ex; by eexists).
    assert (forall i, rd (session_at p0 h id) i = app_config_get (s_cfg s) i) as Rd by (intros i; by rewrite Ls).
    destruct G as [(vs & F & E)|((i & Hi & E') & E)]; apply U in E as [= <- <-]; right; [left|right].
    + split; [done|]. split; [done|]. split; [by eapply zip_fst|]. intros i v [Hi Hv]%(zip_all _ _ _ _ _ F).
      rewrite Forall_forall in K. split.
      * intros Nl. apply (holds_complete p0 tr); try exact executes_pinv; auto. by rewrite Rd.
      * intros w Hw. eapply (holds_sound p0 tr) in Hw; try exact executes_pinv; auto. rewrite Rd, Hv in Hw. by injection Hw.
    + split; [done|]. split; [done|]. split; [done|]. exists i. split; [done|]. intros v Hv. rewrite Forall_forall in K.
      apply (holds_sound p0 tr) in Hv; try exact executes_pinv; auto. rewrite Rd in Hv. congruence.
  - left. apply U in G as [= <- <-]. split; [done|]. split; [done|]. intros Et%Ex. by destruct Et.
Qed.
Print Assumptions C95_read.
(** The read is answered, by one message, when the session exists. *)
Theorem C95_answered : forall p tr o outs h id ids,
  executes p (tr ++ [(o, outs)]) -> asks h (CmdGetAppConfig id ids) o -> exists_after h id tr ->
  exists status tlvs, sent h outs = [SessionGetAppConfigRsp status tlvs].
Proof.
  intros p tr o outs h id ids X A Et.
  destruct (last_asked _ _ _ _ _ _ X A) as (p0 & X0 & [C|[Ns _]]); [done| |].
  2:{ destruct Ns. by eapply exists_serving. }
  pose proof (C30_get_app_config _ _ _ _ _ _ C) as G.
  assert (forall m, sent h [OEff h (Send m)] = [m]) as S by (intros m; exact (sent_one h [] m eq_refl)).
  destruct (session_at p0 h id); [destruct G as [(vs & _ & ->)|[_ ->]]|subst outs]; rewrite S; eauto.
Qed.
Print Assumptions C95_answered.
(** A parameter was last given at most one value, and each accepted value is read back at once. *)
Theorem C95_one_value : forall p tr h id i v w, executes p tr -> known_id i -> holds h id i tr v -> holds h id i tr w -> v = w.
Proof.
  intros p tr h id i v w X K H1 H2.
  apply (holds_sound p tr) in H1, H2; try exact executes_pinv; auto. rewrite H1 in H2. by injection H2.
Qed.
Print Assumptions C95_one_value.
(** The host sets SLOT_DURATION and RANGING_DURATION, sets the latter again, has two commands refused, and reads both; after a reset the session is gone. *)
Definition dialogue : list op := inited ++ [
  cmd 0 (CmdSetAppConfig 7 (controller_config [1; 0] [2; 0] ++ [(T_SLOT_DURATION, [0; 5]); (T_RANGING_DURATION, [100; 0; 0; 0])]));
  cmd 0 (CmdSetAppConfig 7 [(T_SLOT_DURATION, [1; 1])]); cmd 0 (CmdStart 7);
  cmd 0 (CmdSetAppConfig 7 [(T_RANGING_DURATION, [50; 0; 0; 0])]); cmd 0 (CmdSetAppConfig 8 [(T_SLOT_DURATION, [1; 1])])].
Definition read : op := cmd 0 (CmdGetAppConfig 7 [T_RANGING_DURATION; T_SLOT_DURATION; T_CHANNEL_NUMBER]).
Example C95_example :
  executes (state_after (dialogue ++ [read])) (trace pica_new dialogue ++ [(read, outs_of dialogue read)])
  /\ asks 0 (CmdGetAppConfig 7 [T_RANGING_DURATION; T_SLOT_DURATION; T_CHANNEL_NUMBER]) read
  /\ SessionGetAppConfigRsp 0x00 [(T_RANGING_DURATION, [50; 0; 0; 0]); (T_SLOT_DURATION, [0; 5]); (T_CHANNEL_NUMBER, [9])] ∈ sent 0 (outs_of dialogue read)
  /\ exists_after 0 7 (trace pica_new dialogue)
  /\ sent 0 (outs_of (dialogue ++ [cmd 0 (CmdDeviceReset 0)]) read) = [SessionGetAppConfigRsp 0x11 []].
Proof.
  assert (executes (state_after (dialogue ++ [read])) (trace pica_new dialogue ++ [(read, outs_of dialogue read)])) as X.
  { pose proof (history_executes (dialogue ++ [read]) ltac:(vm_compute; reflexivity)) as X.
    assert (trace pica_new (dialogue ++ [read]) = trace pica_new dialogue ++ [(read, outs_of dialogue read)]) as E by (vm_compute; reflexivity).
    by rewrite E in X. }
  assert (asks 0 (CmdGetAppConfig 7 [T_RANGING_DURATION; T_SLOT_DURATION; T_CHANNEL_NUMBER]) read) as A.
  { eexists. split; [reflexivity|]. split; [|apply cmd_packet_encodes]. split; [done|]. split; [unfold short_list; cbn; lia|]. repeat constructor. }
  assert (SessionGetAppConfigRsp 0x00 [(T_RANGING_DURATION, [50; 0; 0; 0]); (T_SLOT_DURATION, [0; 5]); (T_CHANNEL_NUMBER, [9])] ∈ sent 0 (outs_of dialogue read)) as M.
  { assert (sent 0 (outs_of dialogue read) = [SessionGetAppConfigRsp 0x00 [(T_RANGING_DURATION, [50; 0; 0; 0]); (T_SLOT_DURATION, [0; 5]); (T_CHANNEL_NUMBER, [9])]]) as ->
      by (vm_compute; reflexivity). left. }
  split; [exact X|]. split; [exact A|]. split; [exact M|]. split; [|vm_compute; reflexivity].
  destruct (C95_read _ _ _ _ _ _ _ _ _ X A M) as [(E & _)|[(_ & Ex & _)|(E & _)]]; [discriminate E|exact Ex|discriminate E].
Qed.
