(** C102: the LOW_POWER_MODE which a host reads is the one it last set since it last reset its device, and on before. *)
From Verif Require Import Base Uci MacAddress AppConfig Codec Session Device Pica.
From Verif Require Import BaseFacts CodecSpec ContextSpec HistorySpec InvFacts StepFacts CommandFacts DeviceSpec Demo
  PropsContext PropsDevice ReadSpec ReadFacts PropsRead PowerSpec PowerFacts.

(** A host which reads the parameter 1, alone or with others, reads the mode which follows from its own history, and only one mode does. *)
Theorem C102_read : forall p tr o outs h ids tlvs v,
  executes p (tr ++ [(o, outs)]) -> asks h (CmdGetConfig ids) o -> CoreGetConfigRsp 0x00 tlvs ∈ sent h outs -> (1, v) ∈ tlvs ->
  exists b, v = [if b : bool then 1 else 0] /\ forall b', mode h tr b' <-> b' = b.
Proof.
  intros p tr o outs h ids tlvs v X A Hm Hv.
  destruct (last_asked _ _ _ _ _ _ X A) as (p0 & X0 & [C|[_ H]]); [done| |by destruct (H _ Hm)].
  pose proof C as (_ & (d & L & _) & _).
  assert (forall m, outs = [OEff h (Send m)] -> m = CoreGetConfigRsp 0x00 tlvs) as U.
  { intros m ->. pose proof (sent_one h [] m eq_refl) as E1. cbn [app map] in E1. rewrite E1 in Hm. by apply elem_of_list_singleton in Hm. }
  destruct (C20_get_config _ _ _ _ _ _ C L) as [_ [(vs & F & E)|(_ & E)]]; apply U in E; [|done]. injection E as <-.
  apply (zip_all _ _ _ _ _ F) in Hv as [_ Hv]. cbn in Hv. injection Hv as <-. exists (d_low_power d). split; [done|].
  assert (mode h tr (d_low_power d)) as M by (apply (mode_now p0 tr h executes_pinv X0); unfold low_at; by rewrite L).
  intros b'. split; [|by intros ->]. intros M'. by eapply mode_fun.
Qed.
Print Assumptions C102_read.
(** The mode is switched off by a command refused because of its other parameter; a reset switches it on again. *)
Definition powers : list op := ready ++ [cmd 0 (CmdSetConfig [(1, [0]); (5, [])])].
Definition read_mode : op := cmd 0 (CmdGetConfig [1]).
Definition mode_of (l : list op) : list msg := sent 0 (outs_of l read_mode).
Example C102_example :
  executes (state_after (powers ++ [read_mode])) (trace pica_new powers ++ [(read_mode, outs_of powers read_mode)])
  /\ asks 0 (CmdGetConfig [1]) read_mode
  /\ mode_of ready = [CoreGetConfigRsp 0x00 [(1, [1])]] /\ mode_of powers = [CoreGetConfigRsp 0x00 [(1, [0])]]
  /\ mode_of (powers ++ [cmd 0 (CmdDeviceReset 0)]) = [CoreGetConfigRsp 0x00 [(1, [1])]]
  /\ mode 0 (trace pica_new powers) false.
Proof.
  assert (executes (state_after (powers ++ [read_mode])) (trace pica_new powers ++ [(read_mode, outs_of powers read_mode)])) as X.
  { pose proof (history_executes (powers ++ [read_mode]) ltac:(vm_compute; reflexivity)) as X.
    assert (trace pica_new (powers ++ [read_mode]) = trace pica_new powers ++ [(read_mode, outs_of powers read_mode)]) as E by (vm_compute; reflexivity).
    by rewrite E in X. }
  assert (asks 0 (CmdGetConfig [1]) read_mode) as A.
  { eexists. split; [reflexivity|]. split; [|apply cmd_packet_encodes]. cbn. split; [unfold short_list; cbn; lia|]. repeat constructor. }
  assert (mode_of powers = [CoreGetConfigRsp 0x00 [(1, [0])]]) as M by (vm_compute; reflexivity).
  split; [exact X|]. split; [exact A|]. split; [vm_compute; reflexivity|]. split; [exact M|]. split; [vm_compute; reflexivity|].
  destruct (C102_read _ _ _ _ 0 _ [(1, [0])] [0] X A) as (b & E & Hb); [unfold mode_of in M; rewrite M; left|left|].
  destruct b; [discriminate E|]. by apply Hb.
Qed.
