(** Concrete histories for the examples and the refutations. *)
From Verif Require Import Base Uci MacAddress AppConfig Codec Session Device Pica CodecSpec ContextSpec InvFacts CommandFacts.

(** The packet of a command, as a host writes it. *)
Definition cmd_packet (c : command) : bytes :=
  (32 + cmd_gid c) :: cmd_oid c :: 0 :: N.of_nat (length (cmd_args c)) :: cmd_args c.
Lemma cmd_packet_encodes c : encodes c (cmd_packet c).
Proof. exists (32 + cmd_gid c), (cmd_oid c), 0, (N.of_nat (length (cmd_args c))). by destruct c. Qed.
Definition cmd (h : N) (c : command) : op := UciPacket h (cmd_packet c).

Definition wf_macb (m : mac_address) : bool :=
  match m with
  | MShort l => Nat.eqb (length l) 2 && forallb (fun b => b <? 256) l
  | MExtended l => Nat.eqb (length l) 8 && forallb (fun b => b <? 256) l
  end.
Definition wf_opb (o : op) : bool :=
  match o with
  | UciPacket _ packet => forallb (fun b => b <? 256) packet
  | StopRanging m _ | CreateAnchor m | DestroyAnchor m => wf_macb m
  | _ => true
  end.
Lemma wf_bytesb l : forallb (fun b => b <? 256) l = true -> wf_bytes l.
Proof. intros H. apply Forall_forall. intros x Hx. rewrite forallb_forall in H. apply N.ltb_lt, H. by apply elem_of_list_In. Qed.
Lemma wf_opb_sound o : wf_opb o = true -> wf_op o.
Proof.
  assert (forall m, wf_macb m = true -> wf_mac m) as M.
  { intros [l|l] H; apply andb_true_iff in H as [H1 H2]; apply Nat.eqb_eq in H1; apply wf_bytesb in H2; done. }
  destruct o; cbn; auto using wf_bytesb.
Qed.

(** Histories in which the estimator answers [est] and maps are visited in the order of [map_to_list]. *)
Definition est_env (est : N -> N -> option ranging_measurement) : env := Env est (fun l => l) (fun l => reflexivity _).
Definition history (l : list op) : list (env * op) := map (pair plain_env) l.
Definition ok_history (l : list op) : bool :=
  forallb wf_opb l && negb (crashed (run pica_new (history l))).
Definition state_after (l : list op) : pica :=
  match run pica_new (history l) with Ret (p, _) => p | Crash _ => pica_new end.
Definition outs_after (l : list op) : list out :=
  match run pica_new (history l) with Ret (_, o) => o | Crash _ => [] end.
(** The outputs of one more command. *)
Definition outs_of (l : list op) (o : op) : list out :=
  match step plain_env (state_after l) o with Ret (_, o) => o | Crash _ => [] end.

Lemma history_reaches l : ok_history l = true -> reaches (history l) (state_after l) (outs_after l).
Proof.
  intros H. apply andb_true_iff in H as [W C]. split.
  - apply Forall_forall. intros x Hx. apply elem_of_list_fmap in Hx as (o & -> & Ho). split; [apply plain_env_wf|].
    apply wf_opb_sound. rewrite forallb_forall in W. by apply W, elem_of_list_In.
  - unfold state_after, outs_after. destruct (run pica_new (history l)) as [[p o]|]; [done|discriminate].
Qed.
Lemma history_reachable l : ok_history l = true -> reachable (state_after l).
Proof. intros H. eexists _, _. by apply history_reaches. Qed.

Definition servingb (p : pica) (h : N) : bool :=
  match p_devices p !! h with Some d => d_is_reset d | None => false end.
Lemma servingb_sound p h : servingb p h = true -> serving p h.
Proof. unfold servingb, serving. destruct (p_devices p !! h) as [d|]; [|discriminate]. by exists d. Qed.
Lemma history_step l o : ok_history (l ++ [o]) = true ->
  ok_history l = true /\ step plain_env (state_after l) o = Ret (state_after (l ++ [o]), outs_of l o).
Proof.
  intros H. apply andb_true_iff in H as [W C]. rewrite forallb_app in W. apply andb_true_iff in W as [W1 W2].
  unfold history in C. rewrite map_app in C. cbn [map] in C.
  unfold ok_history, state_after, outs_of, state_after, history. rewrite W1, map_app. cbn [map andb].
  rewrite run_app in *. destruct (run pica_new (map _ l)) as [[p o1]|]; [|discriminate]. cbn [obind run] in *.
  split; [done|]. destruct (step plain_env p o) as [[p' o2]|]; [|discriminate]. done.
Qed.
Lemma history_commanded l h c : wf_cmd c -> ok_history (l ++ [cmd h c]) = true -> servingb (state_after l) h = true ->
  commanded (state_after l) h c (state_after (l ++ [cmd h c])) (outs_of l (cmd h c)).
Proof.
  intros Wc H S. pose proof (history_step _ _ H) as [H1 H2].
  split; [by apply history_reachable|]. split; [by apply servingb_sound|]. split; [done|].
  exists plain_env, (cmd_packet c). split; [|split; [apply cmd_packet_encodes|done]].
  apply andb_true_iff in H as [W _]. rewrite forallb_app in W. apply andb_true_iff in W as [_ W].
  cbn [forallb] in W. rewrite andb_true_r in W. by apply wf_bytesb.
Qed.

(** A device, reset. *)
Definition ready : list op := [Connect; cmd 0 (CmdDeviceReset 0)].
(** The mandatory parameters of a controller (role 1, mac address [a]) with one controlee. *)
Definition controller_config (a dst : bytes) : list (tlv_id * bytes) := [
  (T_DEVICE_TYPE, [1]); (T_DEVICE_ROLE, [1]); (T_MULTI_NODE_MODE, [1]); (T_RANGING_ROUND_USAGE, [2]);
  (T_SCHEDULE_MODE, [1]); (T_MAC_ADDRESS_MODE, [0]); (T_DEVICE_MAC_ADDRESS, a);
  (T_NUMBER_OF_CONTROLEES, [1]); (T_DST_MAC_ADDRESS, dst) ].
Definition controlee_config (a dst : bytes) : list (tlv_id * bytes) := [
  (T_DEVICE_TYPE, [0]); (T_DEVICE_ROLE, [0]); (T_MULTI_NODE_MODE, [1]); (T_RANGING_ROUND_USAGE, [2]);
  (T_SCHEDULE_MODE, [1]); (T_MAC_ADDRESS_MODE, [0]); (T_DEVICE_MAC_ADDRESS, a);
  (T_NUMBER_OF_CONTROLEES, [1]); (T_DST_MAC_ADDRESS, dst) ].
(** The device 0 with session 7 in states INIT, IDLE, ACTIVE. *)
Definition inited : list op := ready ++ [cmd 0 (CmdSessionInit 7 0)].
Definition idle : list op := inited ++ [cmd 0 (CmdSetAppConfig 7 (controller_config [1; 0] [2; 0]))].
Definition active : list op := idle ++ [cmd 0 (CmdStart 7)].
