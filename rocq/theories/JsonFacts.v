(** Proofs about the texts which the web interface writes. *)
From Coq Require Import Strings.String Strings.Ascii.
From Verif Require Import Base Uci MacAddress Pica Http Json JsonSpec.

(** ** Numbers *)
Lemma decimal_from_ok f n : n < 2 ^ N.of_nat (S f) ->
  digits (decimal_from (S f) n) /\ decimal_from (S f) n <> [] /\ digits_to_N (decimal_from (S f) n) = n /\
  (decimal_from (S f) n = [48] \/ exists c ds, decimal_from (S f) n = c :: ds /\ 49 <= c <= 57).
Proof.
  revert n. induction f as [|f IH]; intros n Hn.
  - assert (n < 10) by (change (2 ^ N.of_nat 1) with 2 in Hn; lia).
    cbn [decimal_from]. replace (n <? 10) with true by lia.
    split_and!; [by repeat constructor; lia|done|cbn; lia|].
    destruct (decide (n = 0)) as [->|]; [by left|right]. eexists _, _. split; [done|lia].
  - remember (S f) as g. cbn [decimal_from]. destruct (n <? 10) eqn:L.
    + split_and!; [by repeat constructor; lia|done|cbn; lia|].
      destruct (decide (n = 0)) as [->|]; [by left|right]. eexists _, _. split; [done|lia].
    + assert (n / 10 < 2 ^ N.of_nat g) as Hd.
      { rewrite Nat2N.inj_succ, N.pow_succ_r' in Hn. apply N.div_lt_upper_bound; [done|]. lia. }
      destruct (IH (n / 10) Hd) as (A & B & C & D).
      pose proof (N.mod_lt n 10 ltac:(done)). pose proof (N.div_mod n 10 ltac:(done)).
      split_and!.
      * apply Forall_app. split; [done|]. repeat constructor; lia.
      * by destruct (decimal_from g (n / 10)).
      * unfold digits_to_N in *. rewrite fold_left_app, C. cbn [fold_left]. lia.
      * right. destruct D as [D|(c & ds & D & E)].
        -- exfalso. rewrite D in C. unfold digits_to_N in C. cbn in C. lia.
        -- rewrite D. by eexists _, _.
Qed.
Lemma decimal_ok n :
  digits (decimal n) /\ decimal n <> [] /\ digits_to_N (decimal n) = n /\
  (decimal n = [48] \/ exists c ds, decimal n = c :: ds /\ 49 <= c <= 57).
Proof.
  apply decimal_from_ok. rewrite Nat2N.inj_succ. destruct n as [|p]; [done|].
  cbn [N.size_nat]. pose proof (Pos.size_nat_monotone p p).
  assert (N.pos p < 2 ^ N.of_nat (Pos.size_nat p)) as E; [|rewrite N.pow_succ_r'; lia].
  clear. induction p as [p IH|p IH|]; cbn [Pos.size_nat]; [rewrite Nat2N.inj_succ, N.pow_succ_r'; lia..|done].
Qed.
Lemma integer_text z : integer_value (integer z) z /\ number (integer z).
Proof.
  destruct (decimal_ok (Z.abs_N z)) as (A & B & C & D). unfold integer. split.
  - exists (decimal (Z.abs_N z)). split_and!; [done..|]. rewrite C. destruct (z <? 0)%Z eqn:L; [right|left]; split; try done; lia.
  - exists (if (z <? 0)%Z then [45] else []), (decimal (Z.abs_N z)), [], []. split_and!; [|by destruct (z <? 0)%Z; auto| |by left..].
    + rewrite app_nil_r. by destruct (z <? 0)%Z.
    + destruct D as [->|(c & ds & E & F)]; [by left|right]. exists c, ds. split_and!; [done|lia..|]. rewrite E in A. by inversion A.
Qed.

(** ** Strings of ASCII characters *)
Definition ascii_text (s : bytes) : Prop := Forall (fun c => c < 128) s.
Lemma ascii_dec s : forallb (fun c => c <? 128) s = true -> ascii_text s.
Proof. unfold ascii_text. induction s as [|c s IH]; cbn; [constructor|]. intros H. constructor; [lia|apply IH; destruct (forallb _ s); lia]. Qed.
Lemma escape_chars c u t : c < 128 -> chars u t -> chars (c :: u) (escape c ++ t).
Proof.
  intros Hc H. unfold escape.
  destruct (decide (c < 32)) as [L|L].
  - assert (In c (map N.of_nat (seq 0 32))) as I.
    { apply in_map_iff. exists (N.to_nat c). split; [lia|]. apply in_seq. lia. }
    cbn in I. repeat destruct I as [<-|I]; [..|done]; cbn;
      (apply chars_escape; [by vm_compute; repeat (constructor || apply elem_of_list_further)|done]) ||
      (match goal with |- chars (?n :: _) (92 :: 117 :: 48 :: 48 :: ?a :: ?b :: _) =>
         apply (chars_unicode 48 48 a b 0 0 (n / 16) (n mod 16)) end; cbn; try done; apply elem_of_list_In; cbn; tauto).
  - destruct (decide (c = 34)) as [->|N1]; [by apply chars_escape; [apply elem_of_list_In; cbn; auto|]|].
    destruct (decide (c = 92)) as [->|N2]; [by apply chars_escape; [apply elem_of_list_In; cbn; auto|]|].
    rewrite !(proj2 (N.eqb_neq c _)) by lia. replace (c <? 32) with false by lia.
    apply (chars_plain c [c] [c]); [left; lia|lia|done|done|constructor; lia|constructor; lia|done].
Qed.
Lemma quote_chars s : ascii_text s -> chars s (concat (map escape s)).
Proof. induction 1 as [|c s Hc Hs IH]; [constructor|]. by apply escape_chars. Qed.
Lemma quote_string s : ascii_text s -> value (JString s) (quote s).
Proof. intros H. constructor. by apply quote_chars. Qed.
(** ** Objects and lists *)
Lemma object_value (ds : list (string * (json -> Prop))) (l : list (bytes * bytes)) :
  l <> [] -> Forall2 (fun d t => t.1 = str d.1 /\ ascii_text t.1 /\ exists v, value v t.2 /\ d.2 v) ds l ->
  exists v, value v (object l) /\ is_object ds v.
Proof.
  intros Hl H.
  assert (exists ms, members ms (commas (map (fun kv => quote kv.1 ++ 58 :: kv.2) l)) /\
                     Forall2 (fun m d => m.1 = str d.1 /\ d.2 m.2) ms ds) as (ms & A & B).
  { induction H as [|d t ds l (A & B & v & C & D) H IH]; [done|].
    assert (member t.1 v (quote t.1 ++ 58 :: t.2)) as M.
    { unfold quote. rewrite <-app_comm_cons, <-app_assoc. apply (member_intro _ _ [] []); [by apply quote_chars|constructor|constructor|done]. }
    destruct l as [|t' l].
    - apply Forall2_nil_inv_r in H as ->. exists [(t.1, v)]. split.
      + cbn [map commas]. rewrite <-(app_nil_r (_ ++ _)). apply (members_one _ _ []); [constructor|done|constructor].
      + by repeat constructor.
    - destruct (IH ltac:(done)) as (ms & E & F). exists ((t.1, v) :: ms). split.
      + cbn [map commas]. apply (members_more _ _ [] _ []); [constructor|done|constructor|done].
      + by constructor. }
  exists (JObject ms). split; [by constructor|]. by exists ms.
Qed.
(** ** Texts of events *)
Lemma mac_ascii m : wf_mac m -> ascii_text (mac_to_string m).
Proof.
  intros W. unfold mac_to_string.
  assert (wf_bytes (mac_to_vec m)) as B by (destruct m; by destruct W).
  assert (forall s, ascii_text s -> ascii_text (trim_end_colons s)) as T.
  { induction s as [|c s IH]; cbn; [done|]. intros F. inversion F; subst. specialize (IH ltac:(done)).
    destruct (trim_end_colons s); [|by constructor]. destruct (c =? CH_COLON); by repeat constructor. }
  apply T. induction B as [|b l Hb Hl IH]; cbn [map concat]; [constructor|]. apply Forall_app. split; [|done].
  unfold fmt_byte, hex_digit, CH_COLON. unfold is_byte in Hb. pose proof (N.mod_lt b 16 ltac:(done)). assert (b / 16 < 16) by (apply N.div_lt_upper_bound; lia).
  repeat constructor; repeat case_match; lia.
Qed.
Lemma category_value c : exists v, value v (category_text c) /\ is_category c v.
Proof. eexists. split; [|done]. apply quote_string. destruct c; by apply ascii_dec. Qed.
Lemma mac_value m : wf_mac m -> exists v, value v (mac_text m) /\ is_address m v.
Proof. intros W. eexists. split; [|done]. by apply quote_string, mac_ascii. Qed.
Lemma integer_json z : exists v, value v (integer z) /\ is_integer z v.
Proof. destruct (integer_text z). exists (JNumber (integer z)). split; [by constructor|]. by eexists. Qed.

Section Facts.
Context {P : Type} (fields : P -> Z * Z * Z * Z * Z * Z).

Definition wf_event (ev : event P) : Prop :=
  match ev with
  | DeviceAdded _ m _ | DeviceRemoved _ m | DeviceUpdated _ m _ => wf_mac m
  | NeighborUpdated _ m _ m' _ _ _ => wf_mac m /\ wf_mac m'
  end.
Ltac field := repeat split; [by apply ascii_dec|]; cbn [fst snd]; first [by apply category_value|by apply mac_value|by apply integer_json].
Ltac members := repeat first [apply Forall2_nil_2|apply Forall2_cons_2; [by field|]|apply Forall2_cons; split; [by field|]].
Lemma event_value ev : wf_event ev -> exists v, value v (event_text fields ev) /\ says_event fields ev v.
Proof.
  intros W. destruct ev; cbn in W; cbn [event_text says_event]; unfold position_members, place_members.
  all: try destruct (fields _) as [[[[[x y] z] yaw] pitch] roll]; apply object_value; [done|]; try destruct W; members.
Qed.
Lemma device_value i : wf_mac (di_mac i) -> exists v, value v (device_text fields i) /\ says_device fields i v.
Proof.
  intros W. unfold device_text, says_device, position_members, place_members.
  destruct (fields _) as [[[[[x y] z] yaw] pitch] roll]. apply object_value; [done|]. members.
Qed.

(** ** The stream *)
Definition plain_text (s : bytes) : Prop := Forall (fun c => 32 <= c) s.
Lemma plain_dec s : forallb (fun c => 32 <=? c) s = true -> plain_text s.
Proof. unfold plain_text. induction s as [|c s IH]; cbn; [constructor|]. intros H. constructor; [lia|apply IH; destruct (forallb _ s); lia]. Qed.
Lemma quote_plain s : plain_text (quote s).
Proof.
  unfold quote. constructor; [lia|]. apply Forall_app. split; [|by repeat constructor].
  induction s as [|c s IH]; cbn; [constructor|]. apply Forall_app. split; [|done].
  unfold escape, hex_lower. repeat case_match; repeat constructor; lia.
Qed.
Lemma integer_plain z : plain_text (integer z).
Proof.
  destruct (decimal_ok (Z.abs_N z)) as (A & _). assert (plain_text (decimal (Z.abs_N z))) as B by (eapply Forall_impl; [done|]; cbn; lia).
  unfold integer. destruct (z <? 0)%Z; [constructor; [lia|]|]; done.
Qed.
Lemma object_plain l : Forall (fun kv => plain_text kv.2) l -> plain_text (object l).
Proof.
  intros H. unfold object. constructor; [lia|]. apply Forall_app. split; [|by repeat constructor].
  induction H as [|kv l A B IH]; [constructor|]. cbn [map commas].
  assert (plain_text (quote kv.1 ++ 58 :: kv.2)) as E by (apply Forall_app; split; [apply quote_plain|constructor; [lia|done]]).
  destruct l; [done|]. cbn [map] in *. apply Forall_app. split; [done|]. constructor; [lia|done].
Qed.
Lemma event_plain ev : plain_text (event_text fields ev).
Proof.
  destruct ev; cbn [event_text]; unfold position_members, category_text, mac_text;
    try destruct (fields _) as [[[[[x y] z] yaw] pitch] roll]; apply object_plain; repeat (apply Forall_cons_2; [cbn [snd]; first [apply quote_plain|apply integer_plain]|]); apply Forall_nil_2.
Qed.

Lemma lines_cons c t : c <> 10 -> c <> 13 -> stream_lines (c :: t) = match stream_lines t with l :: ls => (c :: l) :: ls | [] => [] end.
Proof. intros. cbn. repeat case_match; subst; congruence. Qed.
Lemma lines_line l t : plain_text l -> stream_lines (l ++ 10 :: t) = l :: stream_lines t.
Proof. induction 1 as [|c l Hc Hl IH]; [done|]. rewrite <-app_comm_cons, lines_cons by lia. by rewrite IH. Qed.
Lemma frame_lines ev t : stream_lines (frame fields ev ++ t) = (str "event: " ++ event_name ev) :: (str "data: " ++ event_text fields ev) :: [] :: stream_lines t.
Proof.
  unfold frame. rewrite (app_assoc (str "event: ")), <-(app_assoc (str "event: " ++ _)). cbn [app].
  rewrite lines_line by (destruct ev; by apply plain_dec). f_equal.
  rewrite (app_assoc (str "data: ")), <-app_assoc. cbn [app].
  rewrite lines_line; [done|]. apply Forall_app. split; [by apply plain_dec|apply event_plain].
Qed.
Lemma event_text_cons ev : exists t, event_text fields ev = 123 :: t.
Proof. destruct ev; cbn [event_text]; unfold object; by eexists. Qed.
Lemma frame_dispatched ev ls :
  dispatched [] [] ((str "event: " ++ event_name ev) :: (str "data: " ++ event_text fields ev) :: [] :: ls) = (type_of ev, event_text fields ev) :: dispatched [] [] ls.
Proof.
  destruct (event_text_cons ev) as (t & E).
  assert (dispatched (type_of ev) [] ((str "data: " ++ event_text fields ev) :: [] :: ls) = (type_of ev, event_text fields ev) :: dispatched [] [] ls) as D.
  { rewrite E. change (str "data: " ++ 123 :: t) with (100 :: 97 :: 116 :: 97 :: 58 :: 32 :: 123 :: t). cbn [dispatched].
    change (field_value (100 :: 97 :: 116 :: 97 :: 58 :: 32 :: 123 :: t)) with (str "data", 123 :: t). cbn -[str removelast].
    rewrite bool_decide_eq_false_2, bool_decide_eq_true_2 by done. f_equal. f_equal; [by destruct ev|]. by rewrite app_comm_cons, removelast_last. }
  destruct ev; apply D.
Qed.
Lemma stream_frames evs t :
  event_stream (concat (map (frame fields) evs) ++ t) = map (fun ev => (type_of ev, event_text fields ev)) evs ++ event_stream t.
Proof.
  induction evs as [|ev evs IH]; [done|]. cbn [map concat]. rewrite <-app_assoc. unfold event_stream in *.
  rewrite frame_lines, frame_dispatched, IH. done.
Qed.

(** A cut *)
Lemma lines_prefix p t : p `prefix_of` t -> stream_lines p `prefix_of` stream_lines t.
Proof.
  revert t. remember (length p) as n eqn:En. revert p En. induction (lt_wf n) as [n _ IH]. intros p En t [s ->].
  destruct p as [|c p]; [apply prefix_nil|]. rewrite <-app_comm_cons.
  destruct (decide (c = 10)) as [->|N1].
  { cbn [stream_lines]. apply prefix_cons. apply (IH (length p)); [cbn in En; lia|done|by exists s]. }
  destruct (decide (c = 13)) as [->|N2].
  { cbn [stream_lines]. apply prefix_cons. destruct p as [|d p].
    - cbn. destruct s as [|d s]; apply prefix_nil.
    - rewrite <-app_comm_cons. destruct (decide (d = 10)) as [->|N3].
      + apply (IH (length p)); [cbn in En; lia|done|by exists s].
      + assert (forall u, match d :: u with 10 :: t => stream_lines t | _ => stream_lines (d :: u) end = stream_lines (d :: u)) as R by (intros; repeat case_match; congruence).
        rewrite !R. apply (IH (length (d :: p))); [cbn in *; lia|done|by exists s]. }
  rewrite !lines_cons by done. pose proof (IH (length p) ltac:(cbn in En; lia) p eq_refl (p ++ s) ltac:(by exists s)) as [k E].
  rewrite E. destruct (stream_lines p) as [|l ls]; [apply prefix_nil|]. cbn. apply prefix_cons, prefix_app_r. done.
Qed.
Lemma cut_silent ev c : c `prefix_of` frame fields ev -> c <> frame fields ev -> event_stream c = [].
Proof.
  intros [s E] Hn.
  assert (exists t, frame fields ev = t ++ [10] /\ stream_lines t = [str "event: " ++ event_name ev; str "data: " ++ event_text fields ev]) as (t & F & L).
  { exists (str "event: " ++ event_name ev ++ [10] ++ str "data: " ++ event_text fields ev ++ [10]). split.
    - unfold frame. by rewrite <-!app_assoc.
    - rewrite (app_assoc (str "event: ")). cbn [app]. rewrite lines_line by (destruct ev; by apply plain_dec). f_equal.
      rewrite (app_assoc (str "data: ")). rewrite lines_line; [done|]. apply Forall_app. split; [by apply plain_dec|apply event_plain]. }
  rewrite F in E. destruct s as [|x s _] using rev_ind.
  { rewrite app_nil_r in E. exfalso. by rewrite F, E in Hn. }
  rewrite app_assoc in E. apply app_inj_tail in E as [-> _].
  pose proof (lines_prefix c (c ++ s) ltac:(by exists s)) as [k K]. rewrite L in K. unfold event_stream.
  assert (field_value (str "event: " ++ event_name ev) = (str "event", event_name ev)) as FE by (by destruct ev).
  assert (field_value (str "data: " ++ event_text fields ev) = (str "data", event_text fields ev)) as FD by done.
  destruct (stream_lines c) as [|l1 [|l2 [|l3 ls]]]; [done| | |done]; cbn in K; injection K; intros; subst.
  - destruct ev; done.
  - destruct ev; cbn [dispatched]; done.
Qed.
Lemma stream_cut evs ev c : c `prefix_of` frame fields ev -> c <> frame fields ev ->
  event_stream (concat (map (frame fields) evs) ++ c) = map (fun ev => (type_of ev, event_text fields ev)) evs.
Proof. intros H N. by rewrite stream_frames, (cut_silent ev c H N), app_nil_r. Qed.
Lemma stream_whole evs : event_stream (concat (map (frame fields) evs)) = map (fun ev => (type_of ev, event_text fields ev)) evs.
Proof. rewrite <-(app_nil_r (concat _)), stream_frames. apply app_nil_r. Qed.
Lemma told evs : Forall wf_event evs -> Forall2 (tells fields) (map (fun ev => (type_of ev, event_text fields ev)) evs) evs.
Proof.
  induction 1 as [|ev evs W _ IH]; cbn; constructor; [|done]. split; [done|]. destruct (event_value ev W) as (v & V & S).
  exists v. split; [|done]. exists [], (event_text fields ev), []. rewrite app_nil_r. split_and!; [constructor|done|constructor|done].
Qed.
Lemma state_value l : Forall (fun i => wf_mac (di_mac i)) l ->
  exists v vs, json_text v (state_text fields l) /\ v = JObject [(str "devices", JArray vs)] /\ Forall2 (fun v i => says_device fields i v) vs l.
Proof.
  intros W. assert (exists vs, value (JArray vs) (array (map (device_text fields) l)) /\ Forall2 (fun v i => says_device fields i v) vs l) as (vs & V & S).
  { destruct l as [|a l].
    { exists []. split; [|constructor]. apply (value_array_empty []). constructor. }
    assert (exists vs, elements vs (commas (map (device_text fields) (a :: l))) /\ Forall2 (fun v a => says_device fields a v) vs (a :: l)) as (vs & E & F); [|by exists vs; split; [constructor|]].
    revert a W. induction l as [|b l IH]; intros a W; inversion W as [|? ? Wa Wl]; subst; destruct (device_value a Wa) as (v & V1 & V2).
    - exists [v]. split; [|by repeat constructor]. cbn [map commas]. rewrite <-(app_nil_l (device_text _ a)), <-(app_nil_r (device_text _ a)). apply elements_one; [constructor|done|constructor].
    - destruct (IH b Wl) as (vs & E & F). exists (v :: vs). split; [|by constructor].
      change (elements (v :: vs) ([] ++ device_text fields a ++ [] ++ 44 :: commas (map (device_text fields) (b :: l)))). apply elements_more; [constructor|done|constructor|done]. }
  eexists _, vs. split_and!; [|done..]. exists [], (state_text fields l), []. split_and!; [constructor| |constructor|by rewrite app_nil_r].
  unfold state_text, object. cbn [map commas fst snd]. constructor. rewrite <-(app_nil_r (_ ++ _)). apply (members_one _ _ []); [constructor| |constructor].
  unfold quote. rewrite <-app_comm_cons, <-app_assoc. apply (member_intro _ _ [] []); [|constructor|constructor|done]. by apply quote_chars, ascii_dec.
Qed.
End Facts.
