(** The addresses in the scene and in the events of the web server are addresses. *)
From Verif Require Import Base Uci MacAddress AppConfig Codec Session Device Pica CodecSpec ContextSpec HistorySpec InvFacts StepFacts PropsContext Http HttpSpec HttpFacts Json JsonSpec JsonFacts.

Section Web.
Context {P : Type} (default_position : P) (compute : P -> P -> N * Z * Z).
Definition wf_feed (ev : pica_event) : Prop := match ev with Connected _ m | Disconnected _ m => wf_mac m end.
Definition wf_rq (q : request P) : Prop := match q with RqQueued r _ | RqReplied r _ => wf_request r end.
Record einv (w : web P) : Prop := {
  ei_pinv : pinv (fun _ => false) (w_pica w);
  ei_feed : Forall wf_feed (w_feed w);
  ei_devices : map_Forall (fun _ i => wf_mac (di_mac i)) (w_devices w);
  ei_requests : map_Forall (fun _ q => wf_rq q) (w_requests w);
  ei_events : Forall wf_event (w_events w) }.

Lemma wf_mac_of_handle h : wf_mac (mac_of_handle h).
Proof.
  unfold mac_of_handle. cbn. split; [done|]. pose proof (N.mod_lt h 65536 ltac:(done)). pose proof (N.mod_lt h 256 ltac:(done)).
  assert (h mod 65536 / 256 < 256) by (apply N.div_lt_upper_bound; lia). repeat constructor; unfold is_byte; lia.
Qed.
Lemma step_feed e p o p' outs : pinv (fun _ => false) p -> step e p o = Ret (p', outs) -> Forall wf_feed (pica_events outs).
Proof.
  intros I S. destruct o as [|h| | | | |m|m] eqn:Eo.
  all: try (pose proof (step_quiet _ _ _ _ _ I S) as [-> _]; constructor).
  - destruct (step_connect e p) as (p1 & o1 & S1 & Ev & _). rewrite S1 in S. apply Ret_inj in S. injection S as _ <-. rewrite Ev. constructor; [apply wf_mac_of_handle|constructor].
  - destruct (step_disconnect e p h I) as (p1 & o1 & S1 & _ & [[Ev _]|[Ev _]]); rewrite S1 in S; apply Ret_inj in S; injection S as _ <-; rewrite Ev; [constructor; [apply wf_mac_of_handle|]|]; constructor.
  - destruct (create_cases p m) as [[_ E]|[_ E]]; rewrite E in S; apply Ret_inj in S; injection S as _ <-; constructor.
  - cbn [step] in S. unfold destroy_anchor in S. destruct (p_anchors p !! m); cbn in S; apply Ret_inj in S; injection S as _ <-; constructor.
Qed.
Lemma einv_process w order perm o : einv w -> wf_op o -> einv (process compute order perm o w).1.
Proof.
  intros [I1 I2 I3 I4 I5] W. unfold process. destruct (step _ _ o) as [[p outs]|s] eqn:S; [|done]. cbn [fst]. split; cbn; try done.
  - eapply pinv_weaken; [eapply pinv_step; [exact I1|done|exact S]|done].
  - apply Forall_app_2; [done|]. by eapply step_feed.
Qed.
Lemma einv_broadcast ev w w' : broadcast ev w = Some w' -> einv w -> wf_event ev -> einv w'.
Proof. intros [-> _]%broadcast_inv [] W. split; cbn; try done. apply Forall_app_2; [done|]. by constructor. Qed.
Lemma einv_neighbors d l w w' : wf_mac (di_mac d) -> Forall (fun i => wf_mac (di_mac i)) l -> neighbors compute d l w = Some w' -> einv w -> einv w'.
Proof.
  intros Wd. revert w. induction l as [|o l IH]; intros w Wl E I; cbn in E; [by injection E as <-|]. inversion Wl; subst.
  destruct (bool_decide _); [by eapply IH|]. destruct (compute _ _) as [[a b] c], (compute _ _) as [[a' b'] c']. destruct (negb _); [discriminate|].
  destruct (broadcast _ w) as [w1|] eqn:E1; [|discriminate]. cbn in E. destruct (broadcast _ w1) as [w2|] eqn:E2; [|discriminate]. cbn in E.
  eapply IH; [done|exact E|]. eapply einv_broadcast; [exact E2| |done]. by eapply einv_broadcast; [exact E1|..].
Qed.
Lemma einv_step w l w' : einv w -> wf_web_label l -> web_step default_position compute l w = Some w' -> einv w'.
Proof.
  intros I W S. unfold web_step in S. destruct (w_end w); [discriminate|]. pose proof I as [I1 I2 I3 I4 I5]. destruct l; cbn in W.
  - assert (Some (process compute order perm o w).1 = Some w') as E by (destruct o; done). injection E as <-. by apply einv_process.
  - unfold handle_connection_event in S. destruct (w_feed w) as [|ev feed] eqn:F; [discriminate|]. destruct (16 <? _); [(injection S as <-; destruct I; by split)|]. destruct (w_poisoned w); [(injection S as <-; destruct I; by split)|].
    inversion I2 as [|? ? We Wf]; subst. destruct ev as [h m|h m]; cbn in We.
    + assert (einv (w_set_devices (<[h := DeviceInformation CategoryUci m default_position]> (w_devices (w_set_feed feed w))) (w_set_feed feed w))) as J.
      { split; cbn; try done. by apply map_Forall_insert_2. }
      destruct (broadcast _ _) as [w1|] eqn:B; injection S as <-; [by eapply einv_broadcast|]. (destruct J; by split).
    + assert (einv (w_set_devices (delete h (w_devices (w_set_feed feed w))) (w_set_feed feed w))) as J.
      { split; cbn; try done. by apply map_Forall_delete. }
      destruct (broadcast _ _) as [w1|] eqn:B; injection S as <-; [by eapply einv_broadcast|]. (destruct J; by split).
  - (injection S as <-; destruct I; by split).
  - destruct (_ =? 0); [discriminate|]. (injection S as <-; destruct I; by split).
  - destruct (bool_decide _); [|discriminate]. injection S as <-. unfold set_position. cbn [w_poisoned w_set_next]. destruct (w_poisoned w); [(destruct I; by split)|].
    destruct (first_with m _ order) as [[h d]|] eqn:F; [|(destruct I; by split)]. apply first_with_inv in F as (_ & L & Hm). cbn in L.
    pose proof (I3 h d L) as Wd. cbn in Wd.
    match goal with |- context [broadcast _ ?x] => assert (einv x) as J; [split; cbn; try done; by apply map_Forall_insert_2|set (w0 := x) in *] end.
    match goal with |- einv (match ?b with _ => _ end) => destruct b as [w2|] eqn:B; [|(destruct J; by split)] end.
    destruct (broadcast _ w0) as [w1|] eqn:B1; [|discriminate]. cbn [mbind option_bind] in B.
    assert (einv w1) as J1 by (eapply einv_broadcast; [exact B1|done|done]).
    apply einv_neighbors in B as J2; [|done| |done]; [(destruct J2; by split)|]. apply Forall_forall. intros i Hi. apply elem_of_list_omap in Hi as (k & _ & Hk). by apply (ei_devices _ J1 k).
  - injection S as <-. split; cbn; try done. by apply map_Forall_insert_2.
  - destruct (w_requests w !! k) as [[r ab|]|] eqn:L; try discriminate. pose proof (I4 k _ L) as Wr. cbn in Wr.
    assert (wf_op (command_of r)) as Wo by (by destruct r). pose proof (einv_process w (fun l => l) (fun l => reflexivity l) (command_of r) I Wo) as J.
    destruct (process compute _ _ (command_of r) w) as [w1 outs]. cbn in J. destruct (reply_of outs); [|(injection S as <-; destruct J; by split)]. injection S as <-. destruct J. split; cbn; try done.
    destruct ab; [by apply map_Forall_delete|]. by apply map_Forall_insert_2.
  - destruct (w_requests w !! k) as [[|r answer]|] eqn:L; try discriminate. pose proof (I4 k _ L) as Wr. cbn in Wr. injection S as <-.
    assert (einv (w_set_requests (delete k (w_requests w)) w)) as J by (split; cbn; try done; by apply map_Forall_delete).
    unfold finish_request. destruct answer as [h|m|m]; try (destruct J; by split). cbn [w_poisoned w_set_requests]. destruct (w_poisoned w); [done|].
    destruct r as [m pos|m]; cbn in Wr.
    + match goal with |- context [broadcast _ ?x] => assert (einv x) as J'; [destruct J; split; cbn; try done; by apply map_Forall_insert_2|] end.
      destruct (broadcast _ _) as [w1|] eqn:B; [|(destruct J'; by split)]. assert (einv w1) as J1 by (eapply einv_broadcast; [exact B|done|done]). (destruct J1; by split).
    + match goal with |- context [broadcast _ ?x] => assert (einv x) as J'; [destruct J; split; cbn; try done; by apply map_Forall_delete|] end.
      destruct (broadcast _ _) as [w1|] eqn:B; [|(destruct J'; by split)]. assert (einv w1) as J1 by (eapply einv_broadcast; [exact B|done|done]). (destruct J1; by split).
  - destruct (w_requests w !! k) as [[r [|]|r answer]|] eqn:L; try discriminate; injection S as <-; pose proof (I4 k _ L) as Wr; split; cbn; try done; [by apply map_Forall_insert_2|by apply map_Forall_delete].
Qed.
Lemma served_einv ls w : served default_position compute ls w -> einv w.
Proof.
  revert ls w. apply served_ind.
  - split; cbn; [apply pinv_new|constructor|apply map_Forall_empty|apply map_Forall_empty|constructor].
  - intros ls w l w' _ I W S. by eapply einv_step.
Qed.
End Web.
