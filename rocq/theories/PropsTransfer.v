(** The two programs of tests/data_transfer.py, running against the simulator (C85). *)
From Verif Require Import Base Uci MacAddress AppConfig Codec Session Device Pica Sys Transport CodecSpec ContextSpec HistorySpec SessionSpec RangingSpec SysSpec DialogueSpec.
From Verif Require Import PyHost PyReaderSpec Script ScriptSpec InvFacts CommandFacts Demo SysDemo DialogueDemo ScriptDemo ScriptFacts ScriptRunDemo TransferSpec TransferFacts TransferDemo PropsDialogue PropsScript PropsScriptRun.

(** ** C85. The programs of tests/data_transfer.py *)
(** The program that sends the file, whatever the other hosts do: no expectation fails; when it finishes, it has received
    exactly [n] session information notifications, numbered from 0, and the session does not exist any more. *)
Theorem C85_sender_partial : forall h id l cfg dst file n ls y,
  accepted id l cfg -> word64 dst -> wf_bytes file -> executed ls y -> runs_at (sender_program id 1 l dst file n) h id cfg ls ->
  outcome_of (sender_program id 1 l dst file n) h y <> Raised
  /\ (outcome_of (sender_program id 1 l dst file n) h y = Finished ->
       infos_delivered h id y = map N.of_nat (seq 0 n) /\ (~ gone h y -> y_crash y = None -> session_at (y_pica y) h id = None)).
Proof. intros. by edestruct sender_outcome as (? & ? & _). Qed.
Print Assumptions C85_sender_partial.
(** The program that receives it: if each session becomes ACTIVE before the end of the first round of the other, the two
    devices can be measured, no other device sends data in a session with the same identifier, and the first connection
    does not end, no expectation fails, in particular that of the file. *)
Theorem C85_receiver_partial : forall a b id la lb ca cb mac dst file na nb ls y,
  accepted id la ca -> accepted id lb cb -> transfers ca cb mac -> word64 dst -> wf_bytes file -> a <> b -> (1 <= na)%nat -> (1 <= nb)%nat ->
  executed ls y -> runs_at (sender_program id 1 la dst file na) a id ca ls -> runs_at (receiver_program id 1 lb (le_nat mac) file nb) b id cb ls ->
  joins a b id (ranging_duration ca) ls -> joins b a id (ranging_duration ca) ls -> estimated a b ls -> only_sender a b id ls -> ~ gone a y ->
  outcome_of (receiver_program id 1 lb (le_nat mac) file nb) b y <> Raised.
Proof. intros * Aa Ab Tr Wd Wf Ne Na Nb Ex Oa Ob Ja Jb Es On G. by destruct (receiver_runs a b id la lb ca cb mac dst file na nb ls y Aa Ab Tr Wd Wf Ne Na Nb Ex Oa Ob Ja Jb Es On G) as (R & _). Qed.
Print Assumptions C85_receiver_partial.
(** When it finishes, the first data message it has received is the file. *)
Theorem C85_received_partial : forall a b id la lb ca cb mac dst file na nb ls y,
  accepted id la ca -> accepted id lb cb -> transfers ca cb mac -> word64 dst -> wf_bytes file -> a <> b -> (1 <= na)%nat -> (1 <= nb)%nat ->
  executed ls y -> runs_at (sender_program id 1 la dst file na) a id ca ls -> runs_at (receiver_program id 1 lb (le_nat mac) file nb) b id cb ls ->
  joins a b id (ranging_duration ca) ls -> joins b a id (ranging_duration ca) ls -> estimated a b ls -> only_sender a b id ls -> ~ gone a y ->
  outcome_of (receiver_program id 1 lb (le_nat mac) file nb) b y = Finished ->
  head (data_messages (delivered b y)) = Some (DataMessageRcv id 0x00 (le_nat mac) 0x01 file)
  /\ infos_delivered b id y = map N.of_nat (seq 0 nb) /\ (~ gone b y -> y_crash y = None -> session_at (y_pica y) b id = None).
Proof. intros * Aa Ab Tr Wd Wf Ne Na Nb Ex Oa Ob Ja Jb Es On G F. by destruct (receiver_runs a b id la lb ca cb mac dst file na nb ls y Aa Ab Tr Wd Wf Ne Na Nb Ex Oa Ob Ja Jb Es On G) as (_ & R & _); destruct (R F) as (? & ? & ?). Qed.
Print Assumptions C85_received_partial.
(** Neither waits for something that will not come: if nothing is on its way, it has finished, or the ranging task of its
    session is running. *)
Theorem C85_never_stuck_partial : forall a b id la lb ca cb mac dst file na nb ls y,
  accepted id la ca -> accepted id lb cb -> transfers ca cb mac -> word64 dst -> wf_bytes file -> a <> b -> (1 <= na)%nat -> (1 <= nb)%nat ->
  let progs := [(a, sender_program id 1 la dst file na); (b, receiver_program id 1 lb (le_nat mac) file nb)] in
  executed ls y -> runs_at (sender_program id 1 la dst file na) a id ca ls -> runs_at (receiver_program id 1 lb (le_nat mac) file nb) b id cb ls ->
  joins a b id (ranging_duration ca) ls -> joins b a id (ranging_duration ca) ls -> estimated a b ls -> only_sender a b id ls -> ~ gone a y -> ~ gone b y -> y_crash y = None ->
  forall h prog, In (h, prog) progs -> connected (y_pica y) h -> all_arrived prog h ls y -> queued_rounds h id y = 0%nat ->
  outcome_of prog h y = Finished \/ live_timers h id y = 1%nat.
Proof.
  intros * Aa Ab Tr Wd Wf Ne Na Nb progs Ex Oa Ob Ja Jb Es On Ga Gb Cr h prog [I|[I|[]]]; injection I as <- <-; intros Cn Al Qr.
  - destruct (sender_outcome a id la ca dst file na ls y Aa Wd Wf Ex Oa) as (_ & _ & R). by apply R.
  - destruct (receiver_runs a b id la lb ca cb mac dst file na nb ls y Aa Ab Tr Wd Wf Ne Na Nb Ex Oa Ob Ja Jb Es On Ga) as (_ & _ & R). by apply R.
Qed.
Print Assumptions C85_never_stuck_partial.

Lemma transfer_config_ok role kind mac peer : role < 2 /\ kind < 2 /\ mac ∈ [[1; 0]; [2; 0]] /\ peer ∈ [[1; 0]; [2; 0]] ->
  exists cfg, accepted 7 (transfer_config role kind mac peer) cfg /\ app_config_get cfg T_DEVICE_ROLE = Some [role] /\ app_config_get cfg T_DEVICE_MAC_ADDRESS = Some mac /\ ranging_duration cfg = 100.
Proof.
  intros (R & K & M & P).
  assert (role = 0 \/ role = 1) as R' by lia. assert (kind = 0 \/ kind = 1) as K' by lia. assert (mac = [1; 0] \/ mac = [2; 0]) as M' by set_solver. assert (peer = [1; 0] \/ peer = [2; 0]) as P' by set_solver. clear R K M P.
  destruct R' as [->| ->], K' as [->| ->], M' as [->| ->], P' as [->| ->].
  all: eexists; split; [split; [split; [done|right; by left]|]; split; [split_and!; [done|apply Nat.ltb_lt; vm_compute; reflexivity|by repeat constructor]|]; split; [apply Nat.leb_le; vm_compute; reflexivity|];
    split; [unfold transfer_config, ranging_config; cbn [map]; repeat (eapply SaOk; [vm_compute; reflexivity|]); apply SaNil|]; split; [intros i [<-|[<-|[<-|[<-|[<-|[]]]]]]; vm_compute; discriminate|];
    split; [by vm_compute|vm_compute; reflexivity]|]; split; [vm_compute; reflexivity|]; split; vm_compute; reflexivity.
Qed.
Lemma late_seen : Forall seen transfer_late.
Proof.
  unfold transfer_late, transfer_early. generalize (at_end [LConnect]). intros y0. set (l1 := fast2 _ _ _ _ _ _ 180 y0).
  assert (Forall seen l1) as F1 by apply fast2_seen. clearbody l1. generalize (at_end (([LConnect] ++ l1) ++ [LConnect])). intros y1.
  apply Forall_app. split; [apply Forall_app; split; [by repeat constructor|done]|]. apply Forall_app. split; [by repeat constructor|apply fast2_seen].
Qed.
Lemma run_seen : Forall seen transfer_run.
Proof. unfold transfer_run. generalize (at_end transfer_start). intros y. apply Forall_app. split; [by repeat constructor|apply fast2_seen]. Qed.
Lemma file_wf : wf_bytes sent_file.
Proof. apply wf_bytesb. vm_compute. reflexivity. Qed.
Lemma transfer_late_run : executed transfer_late (at_end transfer_late) /\ follows sender_7 0 transfer_late /\ brisk sender_7 0 transfer_late /\ follows receiver_7 1 transfer_late /\ brisk receiver_7 1 transfer_late
  /\ (forall a, not_stopped a 7 transfer_late) /\ estimated 0 1 transfer_late /\ only_sender 0 1 7 transfer_late /\ ~ gone 0 (at_end transfer_late) /\ outcome_of receiver_7 1 (at_end transfer_late) = Raised.
Proof.
  split; [apply seen_executed; [apply late_seen|vm_compute; reflexivity|vm_compute; reflexivity]|].
  split; [apply followsb_sound; vm_compute; reflexivity|]. split; [apply briskb_sound; vm_compute; reflexivity|]. split; [apply followsb_sound; vm_compute; reflexivity|]. split; [apply briskb_sound; vm_compute; reflexivity|].
  split; [intros a; apply no_stopb_sound; vm_compute; reflexivity|]. split; [apply seen_estimated, late_seen|]. split; [apply only_senderb_sound; vm_compute; reflexivity|].
  split; [apply not_gone_b; vm_compute; reflexivity|vm_compute; reflexivity].
Qed.
(** If the second host connects after the first round, the file is lost, and a later round delivers an empty message: the
    data of a session are sent, and forgotten, in a round, even if there is nobody to receive them. *)
Theorem C85_refuted : ~ forall a b id la lb ca cb mac dst file na nb ls y,
  accepted id la ca -> accepted id lb cb -> transfers ca cb mac -> word64 dst -> wf_bytes file -> a <> b -> (1 <= na)%nat -> (1 <= nb)%nat ->
  executed ls y -> runs_at (sender_program id 1 la dst file na) a id ca ls -> runs_at (receiver_program id 1 lb (le_nat mac) file nb) b id cb ls ->
  estimated a b ls -> only_sender a b id ls -> ~ gone a y ->
  outcome_of (receiver_program id 1 lb (le_nat mac) file nb) b y <> Raised.
Proof.
  intros H. destruct (transfer_config_ok 1 1 [1; 0] [2; 0]) as (ca & Aa & Ra & Ma & Da); [split_and!; [done|done|set_solver|set_solver]|].
  destruct (transfer_config_ok 0 0 [2; 0] [1; 0]) as (cb & Ab & Rb & Mb & Db); [split_and!; [done|done|set_solver|set_solver]|].
  pose proof transfer_late_run as R. pose proof file_wf as Wf. revert Aa Ab R Wf. unfold sender_7, receiver_7. generalize (transfer_config 1 1 [1; 0] [2; 0]), (transfer_config 0 0 [2; 0] [1; 0]), sent_file.
  generalize (at_end transfer_late). generalize transfer_late. intros ls y la lb file Aa Ab (Ex & F1 & B1 & F2 & B2 & Ns & Es & On & G & E) Wf.
  refine (H 0 1 7 la lb ca cb [1; 0] 2 file 2%nat 1%nat ls y Aa Ab _ _ Wf _ _ _ Ex _ _ Es On G E); try done; try lia; split_and!; try done; try apply Ns. by rewrite Da.
Qed.
Print Assumptions C85_refuted.
(** A run where a file of 1030 bytes is transferred, while a third host is connected. *)
Lemma transfer_run_runs : executed transfer_run (at_end transfer_run) /\ follows sender_7 0 transfer_run /\ brisk sender_7 0 transfer_run /\ follows receiver_7 1 transfer_run /\ brisk receiver_7 1 transfer_run
  /\ (forall a, not_stopped a 7 transfer_run) /\ estimated 0 1 transfer_run /\ only_sender 0 1 7 transfer_run /\ joins 0 1 7 100 transfer_run /\ joins 1 0 7 100 transfer_run
  /\ ~ gone 0 (at_end transfer_run) /\ ~ gone 1 (at_end transfer_run) /\ y_crash (at_end transfer_run) = None
  /\ outcome_of sender_7 0 (at_end transfer_run) = Finished /\ outcome_of receiver_7 1 (at_end transfer_run) = Finished.
Proof.
  split; [apply seen_executed; [apply run_seen|vm_compute; reflexivity|vm_compute; reflexivity]|].
  split; [apply followsb_sound; vm_compute; reflexivity|]. split; [apply briskb_sound; vm_compute; reflexivity|]. split; [apply followsb_sound; vm_compute; reflexivity|]. split; [apply briskb_sound; vm_compute; reflexivity|].
  split; [intros a; apply no_stopb_sound; vm_compute; reflexivity|]. split; [apply seen_estimated, run_seen|]. split; [apply only_senderb_sound; vm_compute; reflexivity|].
  split; [apply joinsb_sound; vm_compute; reflexivity|]. split; [apply joinsb_sound; vm_compute; reflexivity|].
  split; [apply not_gone_b; vm_compute; reflexivity|]. split; [apply not_gone_b; vm_compute; reflexivity|]. split; [vm_compute; reflexivity|]. split; vm_compute; reflexivity.
Qed.
Example C85_example : exists ca cb,
  accepted 7 (transfer_config 1 1 [1; 0] [2; 0]) ca /\ accepted 7 (transfer_config 0 0 [2; 0] [1; 0]) cb /\ transfers ca cb [1; 0] /\ word64 2 /\ wf_bytes sent_file /\ 0 <> 1
  /\ executed transfer_run (at_end transfer_run) /\ runs_at sender_7 0 7 ca transfer_run /\ runs_at receiver_7 1 7 cb transfer_run
  /\ joins 0 1 7 (ranging_duration ca) transfer_run /\ joins 1 0 7 (ranging_duration ca) transfer_run /\ estimated 0 1 transfer_run /\ only_sender 0 1 7 transfer_run
  /\ ~ gone 0 (at_end transfer_run) /\ ~ gone 1 (at_end transfer_run) /\ y_crash (at_end transfer_run) = None
  /\ outcome_of sender_7 0 (at_end transfer_run) = Finished /\ outcome_of receiver_7 1 (at_end transfer_run) = Finished.
Proof.
  destruct (transfer_config_ok 1 1 [1; 0] [2; 0]) as (ca & Aa & Ra & Ma & Da); [split_and!; [done|done|set_solver|set_solver]|].
  destruct (transfer_config_ok 0 0 [2; 0] [1; 0]) as (cb & Ab & Rb & Mb & Db); [split_and!; [done|done|set_solver|set_solver]|].
  pose proof transfer_run_runs as R. pose proof file_wf as Wf. exists ca, cb. rewrite Da. revert Aa Ab R Wf. generalize (transfer_config 1 1 [1; 0] [2; 0]), (transfer_config 0 0 [2; 0] [1; 0]), sent_file.
  generalize (at_end transfer_run). generalize sender_7, receiver_7, transfer_run. intros p q ls y la lb file Aa Ab (Ex & F1 & B1 & F2 & B2 & Ns & Es & On & J1 & J2 & R) Wf.
  split; [exact Aa|]. split; [exact Ab|]. split; [split_and!; [exact Ra|exact Rb|exact Ma|by rewrite Da]|]. split; [done|]. split; [exact Wf|]. split; [done|]. split; [exact Ex|].
  split; [split_and!; [exact F1|exact B1|apply Ns]|]. split; [split_and!; [exact F2|exact B2|apply Ns]|]. split; [exact J1|]. split; [exact J2|]. split; [exact Es|]. split; [exact On|]. exact R.
Qed.
