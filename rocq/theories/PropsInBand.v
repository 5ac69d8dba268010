(** C45 for the executions of the whole system: the number of in-band stop commands. *)
From Verif Require Import Base Uci MacAddress AppConfig Codec Session Device Pica Sys.
From Verif Require Import BaseFacts CodecSpec CodecFacts ContextSpec HistorySpec InvFacts StepFacts CommandFacts RangingSpec RangingFacts EffectFacts SysSpec SysFacts DialogueSpec DialogueFacts InBandSpec Demo SysDemo.

Local Arguments total : simpl never.
Lemma total_nil : total [] = 0.
Proof. done. Qed.
Lemma total_cons x l : total (x :: l) = x + total l.
Proof. done. Qed.
Lemma total_app l l' : total (l ++ l') = total l + total l'.
Proof. induction l as [|x l IH]; cbn; [done|]. rewrite !total_cons, IH. lia. Qed.
Ltac count := cbn; rewrite ?map_app, ?total_app; cbn; rewrite ?total_cons, ?total_nil.
Lemma total_insert {A} (f : A -> N) l i x x' : l !! i = Some x -> total (map f (<[i := x']> l)) + f x = total (map f l) + f x'.
Proof.
  revert i. induction l as [|z l IH]; [done|]. intros [|i] H; cbn in H.
  - injection H as ->. change (<[0%nat := x']> (x :: l)) with (x' :: l). cbn [map]. rewrite !total_cons. lia.
  - specialize (IH _ H). change (<[S i := x']> (z :: l)) with (z :: <[i := x']> l). cbn [map]. rewrite !total_cons. lia.
Qed.
Lemma outputs_app p l p1 o1 l' : run p l = Ret (p1, o1) -> outputs p (l ++ l') = outputs p l ++ outputs p1 l'.
Proof.
  revert p o1. induction l as [|[e o] l IH]; intros p o1 R.
  - cbn in R. by injection R as <- <-.
  - cbn [app outputs run] in *. destruct (step e p o) as [[p2 o2]|]; [|discriminate]. cbn [obind] in R. destruct (run p2 l) as [[p3 o3]|] eqn:R2; [|discriminate]. cbn [obind] in R. injection R as <- <-.
    cbn [app]. f_equal. by eapply IH.
Qed.

Lemma stops_step ls l y y' m id : executed ls y -> moved y l y' -> sys_step l y = Some y' -> wf_label l ->
  stops_processed m id (ls ++ [l]) + stops_to_come m id y' + stops_asked m id ls = stops_processed m id ls + stops_to_come m id y + stops_asked m id (ls ++ [l]).
Proof.
  intros Ex M S W. destruct (executed_sinv ls y Ex) as (outs & I). pose proof (si_reach _ _ _ I) as (_ & R).
  unfold stops_processed, stops_asked. destruct Ex as [F Rn]. rewrite (processed_snoc ls l sys_new y y' Rn S), (outputs_app _ _ _ _ _ R).
  rewrite concat_app, !map_app, !total_app. set (A := total (map _ (processed ls _))). set (B := total (map _ (concat (outputs _ _)))). clearbody A B.
  unfold stops_to_come. inversion M as [e o q p o2 T Q St|e o q s T Q St|o td T|i t T D Q Lv|i t T D Q Lv|i t T Lv|i n T D|i k T L Q|h pk C Q|h C|h C Q|h C|Q|a Q|a Q|]; subst l y'; cbn [taken];
    try (cbn [y_queue y_set_queue y_stoppers y_set_stoppers y_todo y_set_timers y_set_conns close_host y_set_pica y_set_now]; count; lia).
  - rewrite Q, St. cbn. rewrite T, St. cbn. rewrite app_nil_r. count. lia.
  - rewrite Q, St. cbn. rewrite T. destruct o; count; cbn in *; try discriminate; lia.
  - destruct (perform_fields o (y_set_todo td y)) as (_ & _ & -> & -> & _). rewrite T. count.
    destruct o as [h []| | |]; cbn [perform stops_in]; try (count; lia).
    + destruct (_ && _); [count; lia|]. destruct (deliver_fields h m0 (y_set_todo td y)) as (_ & _ & _ & _ & _ & _ & -> & _). count. lia.
    + count. unfold stops_left at 2. cbn. destruct (_ && _); lia.
  - destruct (deliver_fields (n_host n) (n_msg n) (y_set_delayed (delete i (y_delayed y)) y)) as (_ & _ & -> & -> & _ & _ & -> & _). count. lia.
  - count. pose proof (total_insert (stops_left m id) _ i k (Stopper (k_mac k) (k_session k) (k_left k - 1)) T) as E. revert E.
    cbn. unfold stops_left. cbn. destruct (_ && _); lia.
Qed.
(** Every in-band stop command that was asked for is processed, or will come, exactly once. *)
Theorem C45_attempts : forall ls y m id, executed ls y ->
  stops_processed m id ls + stops_to_come m id y = stops_asked m id ls.
Proof.
  intros ls y m id. revert ls y. apply (executed_ind (fun ls y => stops_processed m id ls + stops_to_come m id y = stops_asked m id ls)); [done|].
  intros ls y l y' Ex IH W C M S. pose proof (stops_step ls l y y' m id Ex M S W). lia.
Qed.
Print Assumptions C45_attempts.
(** Three commands asked for; one has been processed, one is in the queue, one is to be sent. *)
Definition y_removal : list label :=
  parts [raw y_ready; serve [rd 0 (CmdSessionInit 7 0); rd 0 (CmdSetAppConfig 7 (controller_config [1; 0] [2; 0] ++ [(T_IN_BAND_TERMINATION_ATTEMPT_COUNT, [3])])); rd 0 (CmdStart 7); rd 0 (CmdMulticast 7 RemoveControlee [1; 2; 0; 0; 0; 0; 0])];
         serve [LStopper 0]; raw [LStopper 0]] sys_new.
Example C45_attempts_example : executed y_removal (at_end y_removal)
  /\ stops_asked (MShort [2; 0]) 7 y_removal = 3 /\ stops_processed (MShort [2; 0]) 7 y_removal = 1 /\ stops_to_come (MShort [2; 0]) 7 (at_end y_removal) = 2.
Proof. split; [run_demo|]. split; [|split]; vm_compute; reflexivity. Qed.
