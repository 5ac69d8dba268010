(** C99: the controlees which a host reads are those which it last set, as changed by the updates which were accepted, through any history. *)
From Verif Require Import Base Uci MacAddress AppConfig Codec Session Device Pica.
From Verif Require Import BaseFacts CodecSpec ContextSpec HistorySpec InvFacts StepFacts CommandFacts GateFacts EvolveFacts Demo
  PropsContext PropsDevice PropsMulticast ReadSpec ReadFacts PropsRead ControleeSpec ControleeFacts.

(** A host which reads DST_MAC_ADDRESS reads the addresses of its list of controlees, one after the other, and a host which reads
    NUMBER_OF_CONTROLEES reads the number last set, or the length of the list (modulo 256) when the list was updated since. *)
Theorem C99_read : forall p tr o outs h id ids tlvs,
  executes p (tr ++ [(o, outs)]) -> asks h (CmdGetAppConfig id ids) o -> SessionGetAppConfigRsp 0x00 tlvs ∈ sent h outs ->
  (forall v, (T_DST_MAC_ADDRESS, v) ∈ tlvs -> exists dst, v = concat dst /\ forall l, listed h id tr l <-> l = dst)
  /\ (forall v, (T_NUMBER_OF_CONTROLEES, v) ∈ tlvs -> exists n, v = [n] /\ forall k, counted h id tr k <-> k = n).
Proof.
  intros p tr o outs h id ids tlvs X A Hm.
  destruct (last_asked _ _ _ _ _ _ X A) as (p0 & X0 & [C|[_ H]]); [done| |by destruct (H _ Hm)].
  pose proof (C30_get_app_config _ _ _ _ _ _ C) as G.
  pose proof (listed_iff p0 tr h id executes_pinv X0) as Li. pose proof (counted_iff p0 tr h id executes_pinv X0) as Co.
  assert (forall m, outs = [OEff h (Send m)] -> m = SessionGetAppConfigRsp 0x00 tlvs) as U.
  { intros m ->. pose proof (sent_one h [] m eq_refl) as E1. cbn [app map] in E1. rewrite E1 in Hm. by apply elem_of_list_singleton in Hm. }
  unfold cfg_at in *. destruct (session_at p0 h id) as [s|] eqn:Ls; [|by apply U in G].
  destruct G as [(vs & F & E)|(_ & E)]; apply U in E; [|done]. injection E as <-. split; intros v [_ Hv]%(zip_all _ _ _ _ _ F); cbn in Hv; injection Hv as <-.
  - exists (dsts (s_cfg s)). split; [unfold dsts; by rewrite <- flat_map_concat_map|]. intros l. rewrite Li. split; [|intros ->; by eexists]. intros (k & [= <-] & ->). done.
  - eexists. split; [reflexivity|]. intros n. rewrite Co. split; [|intros ->; by eexists]. intros (k & [= <-] & ->). done.
Qed.
Print Assumptions C99_read.
(** While the session exists, and only then, there is one list of controlees and one number. *)
Theorem C99_exists : forall p tr h id, executes p tr ->
  (exists_after h id tr <-> exists dst, listed h id tr dst) /\ (exists_after h id tr <-> exists n, counted h id tr n)
  /\ (forall l l', listed h id tr l -> listed h id tr l' -> l = l') /\ (forall n n', counted h id tr n -> counted h id tr n' -> n = n').
Proof.
  intros p tr h id X. pose proof (listed_iff p tr h id executes_pinv X) as Li. pose proof (counted_iff p tr h id executes_pinv X) as Co.
  rewrite (exists_iff p tr h id executes_pinv X). unfold cfg_at in *. split_and!.
  - split; [|intros (d & (k & Hk & _)%Li); by destruct (session_at p h id)]. intros [s Hs]. exists (dsts (s_cfg s)). apply Li. exists (s_cfg s). by rewrite Hs.
  - split; [|intros (d & (k & Hk & _)%Co); by destruct (session_at p h id)]. intros [s Hs]. eexists. apply Co. exists (s_cfg s). by rewrite Hs.
  - intros l l' (k & Hk & ->)%Li (k' & Hk' & ->)%Li. by simplify_eq.
  - intros l l' (k & Hk & ->)%Co (k' & Hk' & ->)%Co. by simplify_eq.
Qed.
Print Assumptions C99_exists.
(** One controlee is set, [2; 0]; an update adds [3; 0] and refuses to add [2; 0] again; another one removes [2; 0] and the unknown [4; 0]. *)
Definition updates : list op := active ++ [cmd 0 (CmdMulticast 7 AddControlee two_more);
  cmd 0 (CmdMulticast 7 RemoveControlee [2; 2; 0; 0; 0; 0; 0; 4; 0; 0; 0; 0; 0])].
Definition read_list : op := cmd 0 (CmdGetAppConfig 7 [T_NUMBER_OF_CONTROLEES; T_DST_MAC_ADDRESS]).
Definition read_of (l : list op) : list msg := sent 0 (outs_of l read_list).
Example C99_example :
  executes (state_after (updates ++ [read_list])) (trace pica_new updates ++ [(read_list, outs_of updates read_list)])
  /\ asks 0 (CmdGetAppConfig 7 [T_NUMBER_OF_CONTROLEES; T_DST_MAC_ADDRESS]) read_list
  /\ read_of active = [SessionGetAppConfigRsp 0x00 [(T_NUMBER_OF_CONTROLEES, [1]); (T_DST_MAC_ADDRESS, [2; 0])]]
  /\ read_of (take (length active + 1) updates) = [SessionGetAppConfigRsp 0x00 [(T_NUMBER_OF_CONTROLEES, [2]); (T_DST_MAC_ADDRESS, [2; 0; 3; 0])]]
  /\ read_of updates = [SessionGetAppConfigRsp 0x00 [(T_NUMBER_OF_CONTROLEES, [1]); (T_DST_MAC_ADDRESS, [3; 0])]]
  /\ exists dst, listed 0 7 (trace pica_new updates) dst /\ concat dst = [3; 0].
Proof.
  assert (executes (state_after (updates ++ [read_list])) (trace pica_new updates ++ [(read_list, outs_of updates read_list)])) as X.
  { pose proof (history_executes (updates ++ [read_list]) ltac:(vm_compute; reflexivity)) as X.
    assert (trace pica_new (updates ++ [read_list]) = trace pica_new updates ++ [(read_list, outs_of updates read_list)]) as E by (vm_compute; reflexivity).
    by rewrite E in X. }
  assert (asks 0 (CmdGetAppConfig 7 [T_NUMBER_OF_CONTROLEES; T_DST_MAC_ADDRESS]) read_list) as A.
  { eexists. split; [reflexivity|]. split; [|apply cmd_packet_encodes]. split; [done|]. split; [unfold short_list; cbn; lia|]. repeat constructor. }
  assert (read_of updates = [SessionGetAppConfigRsp 0x00 [(T_NUMBER_OF_CONTROLEES, [1]); (T_DST_MAC_ADDRESS, [3; 0])]]) as M by (vm_compute; reflexivity).
  split; [exact X|]. split; [exact A|]. split; [vm_compute; reflexivity|]. split; [vm_compute; reflexivity|]. split; [exact M|].
  destruct (C99_read _ _ _ _ _ _ _ _ X A ltac:(unfold read_of in M; rewrite M; left)) as [L _].
  destruct (L [3; 0]) as (dst & E & Hd); [right; left|]. exists dst. split; [by apply Hd|done].
Qed.
