(** C12-C15: the application configuration parameters, for every identifier byte [b]. *)
From Verif Require Import Base Uci AppConfig AppConfigSpec AppConfigFacts.

(** The parameter [b] of configuration [c] reads as [v]. *)
Definition reads (c : app_config) (b : N) (v : option bytes) : Prop :=
  exists id, tlv_of_byte b = Some id /\ app_config_get c id = v.
(** Setting the parameter [b] of [c] to [v] is accepted, or refused, and leaves [c']. *)
Definition sets (c : app_config) (b : N) (v : bytes) (ok : bool) (c' : app_config) : Prop :=
  exists id, tlv_of_byte b = Some id /\ app_config_set c id v = Ret (c', ok).

(** C12. 0x2B is UWB_INITIATION_TIME. *)
Theorem C12_read_back : forall c b v c',
  wf_bytes v -> sets c b v true c' ->
  reads c' b (Some (if (b =? 0x2B) && Nat.eqb (length v) 4 then v ++ [0; 0; 0; 0] else v)).
Proof.
  intros c b v c' W (id & I & S). exists id. split; [done|].
  rewrite (set_readback _ _ _ _ W S). unfold readback. f_equal.
  apply tlv_of_byte_wf in I as [[I _] <-].
  destruct (bool_decide_reflect (id = T_UWB_INITIATION_TIME)) as [->|Hne]; [reflexivity|].
  destruct (N.eqb_spec (tlv_byte id) 0x2B) as [E|E]; [|reflexivity]. destruct Hne.
  rewrite E in I. apply (inj Some) in I. by rewrite <- I.
Qed.
Print Assumptions C12_read_back.

(** C13. *)
Theorem C13_independent : forall c b v ok c' b' w,
  sets c b v ok c' -> b' <> b -> (reads c' b' w <-> reads c b' w).
Proof.
  intros c b v ok c' b' w (id & I & S) Hne. unfold reads.
  assert (forall id', tlv_of_byte b' = Some id' -> app_config_get c' id' = app_config_get c id') as H.
  { intros id' I'. apply (set_other _ _ _ _ _ _ S). intros <-.
    apply tlv_of_byte_wf in I as [_ I]. apply tlv_of_byte_wf in I' as [_ I']. congruence. }
  split; intros (id' & I' & G); exists id'; (split; [done|]).
  - by rewrite <- H.
  - by rewrite H.
Qed.
Print Assumptions C13_independent.

(** C14. *)
Theorem C14_refused_unchanged : forall c b v c', sets c b v false c' -> c' = c.
Proof. intros c b v c' (id & _ & S). exact (set_refused _ _ _ _ S). Qed.
Print Assumptions C14_refused_unchanged.

(** C15. 0x26 is MAC_ADDRESS_MODE, 0x05 NUMBER_OF_CONTROLEES. [parameters] and
    [acceptable] are in AppConfigSpec.v. *)
Theorem C15_accepted_iff : forall c b v mode controlees,
  reads c 0x26 (Some [mode]) -> reads c 0x05 (Some [controlees]) -> In mode [0; 1; 2] ->
  (exists id, tlv_of_byte b = Some id) ->
  ((exists c', sets c b v true c') <->
   exists shape, In (b, shape) parameters /\ acceptable mode controlees shape v).
Proof.
  intros c b v mode controlees (i1 & I1 & G1) (i2 & I2 & G2) M (id & I).
  injection I1 as <-. injection I2 as <-. injection G1 as <-. injection G2 as <-.
  destruct (tlv_of_byte_wf _ _ I) as [W Hb].
  rewrite <- Hb, <- set_accepted; [|done|cbn [In] in M; lia].
  unfold sets. split.
  - intros (c' & id' & I' & S). rewrite Hb, I in I'. injection I' as <-. eauto.
  - intros (c' & S). exists c', id. by rewrite Hb.
Qed.
Print Assumptions C15_accepted_iff.

(** A parameter that is not accepted is refused, except that an address sent while the
    unsupported address mode 1 is selected panics. *)
Theorem C15_else_refused : forall c b v mode,
  reads c 0x26 (Some [mode]) -> ~ (mode = 1 /\ In b [0x06; 0x07]) ->
  (exists id, tlv_of_byte b = Some id) -> (~ exists c', sets c b v true c') ->
  sets c b v false c.
Proof.
  intros c b v mode (i1 & I1 & G1) M (id & I) N.
  injection I1 as <-. injection G1 as <-. destruct (tlv_of_byte_wf _ _ I) as [W Hb].
  destruct (set_no_panic c id v) as (c' & [] & S).
  - intros [E D]. apply M. split; [done|]. rewrite <- Hb. destruct D as [-> | ->]; cbn; tauto.
  - destruct N. exists c', id. done.
  - exists id. split; [done|]. rewrite S. by rewrite (set_refused _ _ _ _ S).
Qed.
Print Assumptions C15_else_refused.

Theorem C15_address_mode_1_panics : forall c id v,
  reads c 0x26 (Some [1]) -> In (tlv_byte id) [0x06; 0x07] -> tlv_of_byte (tlv_byte id) = Some id ->
  app_config_set c id v = Crash MacAddressMode1.
Proof.
  intros c id v (i1 & I1 & G1) H I. injection I1 as <-. injection G1 as G1.
  apply set_panic; [done|]. cbn [In] in H.
  destruct H as [H|[H|[]]]; rewrite <- H in I; apply (inj Some) in I; rewrite <- I; auto.
Qed.
Print Assumptions C15_address_mode_1_panics.

(** The identifiers of the table are identifiers the decoder knows. *)
Theorem C15_table_known : forall b shape, In (b, shape) parameters ->
  b < 256 /\ exists id, tlv_of_byte b = Some id.
Proof.
  intros b sh H.
  assert (forallb (fun p => (fst p <? 256) && bool_decide (is_Some (tlv_of_byte (fst p)))) parameters = true) as E
    by (vm_compute; reflexivity).
  rewrite forallb_forall in E. specialize (E _ H). cbn [fst] in E.
  apply andb_true_iff in E as [E1 E2]. split; [by apply N.ltb_lt|].
  apply bool_decide_eq_true in E2. exact E2.
Qed.
Print Assumptions C15_table_known.

(** The modes reachable are 0, 1 and 2, initially 0. *)
Theorem C15_mode_range : forall c b v ok c' mode,
  (forall m, reads c 0x26 (Some [m]) -> In m [0; 1; 2]) ->
  sets c b v ok c' -> reads c' 0x26 (Some [mode]) -> In mode [0; 1; 2].
Proof.
  intros c b v ok c' mode H S R.
  destruct (N.eq_dec b 0x26) as [->|Hne].
  - destruct ok; [|by apply C14_refused_unchanged in S as ->; apply H].
    assert (exists id, tlv_of_byte 0x26 = Some id) as K by (by eexists).
    destruct (H (mac_address_mode c)) as [E|[E|[E|[]]]]; try (by eexists);
      (assert (exists c', sets c 0x26 v true c') as A by (by eexists));
      (eapply (C15_accepted_iff c 0x26 v (mac_address_mode c) (number_of_controlees c)) in A;
        [|by eexists|by eexists|rewrite <- E; cbn; tauto|done]);
      destruct A as (sh & I & A);
      apply shape_of_spec in I; injection I as <-; destruct A as (m & -> & Hm);
      destruct S as (i & I & S); injection I as <-;
      destruct R as (i & I & R); injection I as <-; injection R as <-;
      (replace (mac_address_mode c') with m; [exact Hm|]);
      revert S; cbn [In] in Hm; destruct Hm as [<-|[<-|[<-|[]]]]; intros S; injection S as <-; reflexivity.
  - apply H. apply (C13_independent _ _ _ _ _ _ _ S); [congruence|done].
Qed.
Print Assumptions C15_mode_range.

(** Two controlees announced, then a list of two short addresses is accepted, reads back,
    and leaves the number of controlees; a list of three bytes is refused. *)
Example C12_example : exists c c',
  sets default_app_config 0x05 [2] true c /\ sets c 0x07 [1; 2; 3; 4] true c'
  /\ reads c' 0x07 (Some [1; 2; 3; 4]) /\ reads c' 0x05 (Some [2]) /\ reads c' 0x26 (Some [0])
  /\ sets c' 0x07 [1; 2; 3] false c'.
Proof. do 2 eexists. split_and!; eexists; split; vm_compute; reflexivity. Qed.
Example C12_example_initiation_time : exists c,
  sets default_app_config 0x2B [1; 2; 3; 4] true c /\ reads c 0x2B (Some [1; 2; 3; 4; 0; 0; 0; 0]).
Proof. eexists. split; eexists; split; vm_compute; reflexivity. Qed.
Example C15_example :
  sets default_app_config 0x04 [7] false default_app_config  (* no channel 7 *)
  /\ (exists c, sets default_app_config 0x04 [9] true c)
  /\ sets default_app_config 0x49 [1] false default_app_config
  /\ reads default_app_config 0x26 (Some [0]) /\ reads default_app_config 0x05 (Some [1])
  /\ (exists id, tlv_of_byte 0x49 = Some id).
Proof.
  split_and!; [exists T_CHANNEL_NUMBER|eexists _, T_CHANNEL_NUMBER|exists (T_OTHER 0x49)|eexists|eexists|eexists];
    try split; try (vm_compute; reflexivity).
Qed.
