(** Facts about the schemas of the texts. *)
From Coq Require Import Strings.String.
From Verif Require Import Base Uci MacAddress MacSpec MacFacts AppConfig Codec Session Device Pica CodecSpec ContextSpec InvFacts PropsContext Http HttpSpec HttpFacts JsonSpec SchemaSpec.

Lemma str_inj s t : str s = str t -> s = t.
Proof.
  revert t. induction s as [|c s IH]; intros [|d t] H; try discriminate H; [done|]. cbn in H. injection H as H1 H2. f_equal; [|by apply IH].
  rewrite <- (Ascii.ascii_N_embedding c), <- (Ascii.ascii_N_embedding d). by f_equal.
Qed.
(** An object with exactly the properties, each as it says. *)
Definition each (all : bool) (ms : list (list N * json)) : list (string * schema) -> Prop :=
  fix each l := match l with [] => True | (name, s) :: l => (all = true -> exists u, (str name, u) ∈ ms) /\ (forall u, (str name, u) ∈ ms -> valid all s u) /\ each l end.
Lemma valid_object all props v : valid all (SObject props) v <-> exists ms, v = JObject ms /\ each all ms props.
Proof. done. Qed.
Lemma each_iff all ms props : each all ms props <-> Forall (fun p => (all = true -> exists u, (str p.1, u) ∈ ms) /\ forall u, (str p.1, u) ∈ ms -> valid all p.2 u) props.
Proof. induction props as [|[name s] l IH]; cbn; [split; [constructor|done]|]. rewrite IH, Forall_cons. cbn. tauto. Qed.
Lemma same_members all ms (says : list (string * (json -> Prop))) props :
  Forall2 (fun m d => m.1 = str d.1 /\ d.2 m.2) ms says -> NoDup props.*1 ->
  Forall2 (fun (d : string * (json -> Prop)) (p : string * schema) => d.1 = p.1 /\ forall v, d.2 v -> valid all p.2 v) says props -> each all ms props.
Proof.
  intros F ND G. apply each_iff, Forall_forall. intros [name s] Hp. cbn.
  apply elem_of_list_lookup in Hp as [i Hi]. destruct (Forall2_lookup_r _ _ _ _ _ G Hi) as ([n Q] & Hd & En & Hv). cbn in En, Hv. subst n.
  destruct (Forall2_lookup_r _ _ _ _ _ F Hd) as ([k u] & Hm & Ek & Hu). cbn in Ek, Hu. subst k.
  split; [intros _; exists u; by apply elem_of_list_lookup_2 in Hm|]. intros u' Hu'. apply elem_of_list_lookup in Hu' as [j Hj].
  destruct (Forall2_lookup_l _ _ _ _ _ F Hj) as ([n' Q'] & Hd' & En' & Hq'). cbn in En', Hq'. apply str_inj in En' as <-.
  destruct (Forall2_lookup_l _ _ _ _ _ G Hd') as ([n2 s2] & Hi' & E2 & Hv'). cbn in E2, Hv'. subst n2.
  assert (i = j) as ->. { eapply NoDup_lookup; [exact ND|..]; rewrite list_lookup_fmap; [rewrite Hi|rewrite Hi']; done. }
  rewrite Hi in Hi'. injection Hi' as <-. by apply Hv'.
Qed.
Lemma object_valid all v (says : list (string * (json -> Prop))) props : is_object says v -> NoDup props.*1 ->
  Forall2 (fun (d : string * (json -> Prop)) (p : string * schema) => d.1 = p.1 /\ forall v, d.2 v -> valid all p.2 v) says props -> valid all (SObject props) v.
Proof. intros (ms & -> & F) ND G. exists ms. split; [done|]. by eapply same_members. Qed.
Lemma address_valid all m v : wf_mac m -> is_address m v -> valid all SAddress v.
Proof.
  intros W ->. eexists. split; [done|]. pose proof (mac_printed m W) as Pr. destruct m as [l|l]; (exists l; split; [|done]); destruct W as [E _]; rewrite ?E; auto.
Qed.
Lemma category_valid all c v : is_category c v -> valid all actual_category v.
Proof. intros ->. destruct c; eexists; (split; [|reflexivity]); set_solver. Qed.
Lemma integer_valid all z lo hi v : is_integer z v -> at_least lo z -> at_most hi z -> valid all (SInteger lo hi) v.
Proof. intros. exists z. done. Qed.
Lemma category_wrong all c v : is_category c v -> ~ valid all Category v.
Proof.
  intros -> (t & Ht & E). assert (str t = match c with CategoryUci => str "Uci" | CategoryAnchor => str "Anchor" end) as E' by (destruct c; congruence).
  destruct c; apply str_inj in E'; subst; repeat (apply elem_of_cons in Ht as [Ht|Ht]; [discriminate Ht|]); by apply elem_of_nil in Ht.
Qed.

(** The measurements which are announced were computed. *)
Section Web.
Context {P : Type} (default_position : P) (compute : P -> P -> N * Z * Z).
Definition computed (ev : event P) : Prop :=
  match ev with NeighborUpdated _ _ _ _ distance azimuth elevation => exists p q, compute p q = (distance, azimuth, elevation) | _ => True end.
Definition announced (w w' : web P) : Prop := exists evs, w_events w' = w_events w ++ evs /\ Forall computed evs.
Lemma announced_same (w w' : web P) : w_events w' = w_events w -> announced w w'.
Proof. intros E. exists []. by rewrite app_nil_r. Qed.
Lemma announced_broadcast ev (w w' : web P) : computed ev -> broadcast ev w = Some w' -> announced w w'.
Proof. intros C [-> _]%broadcast_inv. exists [ev]. cbn. split; [done|]. by constructor. Qed.
Lemma announced_trans (w1 w2 w3 : web P) : announced w1 w2 -> announced w2 w3 -> announced w1 w3.
Proof. intros (e1 & E1 & F1) (e2 & E2 & F2). exists (e1 ++ e2). rewrite E2, E1, app_assoc. split; [done|]. by apply Forall_app_2. Qed.
Lemma announced_neighbors d l (w w' : web P) : neighbors compute d l w = Some w' -> announced w w'.
Proof.
  revert w. induction l as [|o l IH]; intros w E; cbn in E; [injection E as <-; by apply announced_same|].
  destruct (bool_decide _); [by apply IH|]. destruct (compute (di_position d) _) as [[a b] c] eqn:C1, (compute _ (di_position d)) as [[a' b'] c'] eqn:C2. destruct (negb _); [discriminate|].
  destruct (broadcast _ w) as [w1|] eqn:E1; [|discriminate]. cbn in E. destruct (broadcast _ w1) as [w2|] eqn:E2; [|discriminate]. cbn in E.
  eapply announced_trans; [eapply announced_broadcast; [|exact E1]; cbn; eauto|]. eapply announced_trans; [eapply announced_broadcast; [|exact E2]; cbn; eauto|]. by apply IH.
Qed.
Lemma announced_step w l w' : web_step default_position compute l w = Some w' -> announced w w'.
Proof.
  intros S. unfold web_step in S. destruct (w_end w); [discriminate|].
  assert (forall order perm o, w_events (process compute order perm o w).1 = w_events w) as Pr by (intros; unfold process; by destruct (step _ _ _) as [[??]|?]).
  destruct l.
  - assert (Some (process compute order perm o w).1 = Some w') as E by (destruct o; done). injection E as <-. apply announced_same, Pr.
  - unfold handle_connection_event in S. destruct (w_feed w) as [|ev feed] eqn:F; [discriminate|]. destruct (16 <? _); [injection S as <-; by apply announced_same|]. destruct (w_poisoned w); [injection S as <-; by apply announced_same|].
    destruct ev as [h m|h m]; (destruct (broadcast _ _) as [w1|] eqn:B; injection S as <-; [eapply announced_trans; [|eapply announced_broadcast; [|exact B]; done]|]; by apply announced_same).
  - injection S as <-. by apply announced_same.
  - destruct (_ =? 0); [discriminate|]. injection S as <-. by apply announced_same.
  - destruct (bool_decide _); [|discriminate]. injection S as <-. unfold set_position. cbn [w_poisoned w_set_next]. destruct (w_poisoned w); [by apply announced_same|].
    destruct (first_with m _ order) as [[h d]|] eqn:F; [|by apply announced_same].
    match goal with |- announced _ (match ?b with _ => _ end) => destruct b as [w2|] eqn:B; [|by apply announced_same] end.
    destruct (broadcast _ _) as [w1|] eqn:B1; [|discriminate]. cbn [mbind option_bind] in B.
    eapply announced_trans; [|eapply announced_trans; [eapply announced_broadcast; [|exact B1]; done|eapply announced_trans; [eapply announced_neighbors; exact B|]]]; by apply announced_same.
  - injection S as <-. by apply announced_same.
  - destruct (w_requests w !! k) as [[r ab|]|] eqn:L; try discriminate. specialize (Pr (fun l => l) (fun l => reflexivity l) (command_of r)).
    destruct (process compute _ _ (command_of r) w) as [w1 outs]. cbn in Pr. destruct (reply_of outs); injection S as <-; by apply announced_same.
  - destruct (w_requests w !! k) as [[|r answer]|] eqn:L; try discriminate. injection S as <-.
    unfold finish_request. destruct answer as [h|m|m]; try by apply announced_same. cbn [w_poisoned w_set_requests]. destruct (w_poisoned w); [by apply announced_same|].
    destruct r as [m pos|m]; (destruct (broadcast _ _) as [w1|] eqn:B; [eapply announced_trans; [|eapply announced_trans; [eapply announced_broadcast; [|exact B]; done|]]|]; by apply announced_same).
  - destruct (w_requests w !! k) as [[r [|]|r answer]|] eqn:L; try discriminate; injection S as <-; by apply announced_same.
Qed.
Lemma served_computed ls w : served default_position compute ls w -> Forall computed (w_events w).
Proof.
  revert ls w. apply served_ind; [constructor|]. intros ls w l w' _ I _ S. destruct (announced_step _ _ _ S) as (evs & -> & F). by apply Forall_app_2.
Qed.
End Web.
