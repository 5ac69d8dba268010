(** The lines typed at the interactive console. [typed name ws l] (ConsoleLineSpec.v): the line [l] is the name of a command
    and the words [ws]; [supplied]: the values which they give to the parameters; [stands]: what the command with these values is. *)
From Coq Require Import Strings.String.
From Verif Require Import Base Uci MacAddress MacSpec MacFacts Codec CodecSpec Transport TransportSpec PyHost PyHostSpec PyHostFacts Http Json JsonSpec.
From Verif Require Import Console ConsoleSpec ConsoleFacts ConsoleLine ConsoleLineSpec ConsoleLineFacts.

(** ** C94. *)
(** A line executes the command it names, with the values it gives, however the words are ordered and spaced. *)
Theorem C94_typed : forall file name params ws vs a l, (str name, params) ∈ manual -> typed (str name) ws l ->
  supplied params ws vs -> stands file name vs a -> line file l = Some a.
Proof.
  intros file name params ws vs a l Hm Ht Hs Ha. rewrite (line_typed _ _ _ _ Ht), (not_quit _ _ Hm).
  destruct (manual_entry _ _ Hm) as (sg & -> & <-). rewrite (bind_ok _ _ _ _ Hm Hs). by apply invoke_ok.
Qed.
(** Hence, except for the six commands of C90, a line for a UCI command sends one packet, which the device decodes as it. *)
Theorem C94_sent_partial : forall file name params ws vs k c l, (str name, params) ∈ manual -> typed (str name) ws l ->
  supplied params ws vs -> stands file name vs (UseDevice k) -> means k c -> misnamed k = false ->
  exists p, line file l = Some (UseDevice k) /\ console k = Some [p] /\ decoded_as c p.
Proof.
  intros file name params ws vs k c l Hm Ht Hs Ha Hk M. destruct (console_means k c Hk M) as [S E].
  destruct (send_ok c S) as (p & E' & _ & D & _). exists p. rewrite E, E'. split; [by eapply C94_typed|done].
Qed.
(** A line which names no command executes nothing, and the console goes on. *)
Theorem C94_undefined : forall file name ws l, typed name ws l -> name ∉ manual.*1 -> name <> str "quit" -> name <> str "q" ->
  line file l = Some Undefined.
Proof.
  intros file name ws l Ht Hm H1 H2. rewrite (line_typed _ _ _ _ Ht), !bool_decide_eq_false_2 by done.
  rewrite assoc_none; [done|]. by rewrite signature_names.
Qed.
(** quit, or q, leaves. *)
Theorem C94_quit : forall file name ws l, typed name ws l -> name = str "quit" \/ name = str "q" -> line file l = Some Leave.
Proof. intros file name ws l Ht [->| ->]; by rewrite (line_typed _ _ _ _ Ht). Qed.
(** A line ends the console when there are too many plain words, when a parameter is given by a plain word and by its name,
    or when a parameter which has no default is not given. *)
Theorem C94_ends : forall file name params ws l, (name, params) ∈ manual -> typed name ws l ->
  (length params < length (plain ws))%nat
  \/ (exists i p, (i < length (plain ws))%nat /\ params !! i = Some p /\ p.1 ∈ (keyed ws).*1)
  \/ (exists i n, (length (plain ws) <= i)%nat /\ params !! i = Some (n, None) /\ n ∉ (keyed ws).*1) ->
  line file l = None.
Proof.
  intros file name params ws l Hm Ht H. rewrite (line_typed _ _ _ _ Ht), (not_quit _ _ Hm).
  destruct (manual_entry _ _ Hm) as (sg & -> & <-).
  destruct (bind sg (plain ws) (keyed ws)) as [vs|] eqn:E; [|done]. exfalso. unfold bind in E.
  destruct (assoc (str "self") (keyed ws)); [done|]. destruct (sg_kargs sg || _); [|done].
  apply bind_params_some in E as (E1 & E2 & E3). destruct H as [H|[(i & p & Hi & Hp & Hin)|(i & n & Hi & Hp & Hn)]]; [lia| |].
  - by apply (E2 i p).
  - by apply Hn, (E3 i n).
Qed.
(** A name which is not one of a parameter is not refused: in every command but data_transfer, the word is ignored. *)
Theorem C94_ignored_refuted : forall file name params ws1 key value ws2 l l', (name, params) ∈ manual -> name <> str "data_transfer" ->
  typed name (ws1 ++ Keyed key value :: ws2) l -> typed name (ws1 ++ ws2) l' -> key ∉ params.*1 -> key <> str "self" ->
  line file l = line file l'.
Proof.
  intros file name params ws1 key value ws2 l l' Hm Hd Ht Ht' Hk Hs.
  rewrite (line_typed _ _ _ _ Ht), (line_typed _ _ _ _ Ht'). destruct (manual_entry _ _ Hm) as (sg & Ha & <-). rewrite Ha.
  rewrite !plain_app, !keyed_app. simpl. by rewrite (bind_ignored name sg _ (keyed ws1) key value (keyed ws2)).
Qed.
(** The line "range_stop sessionid=7" stops the session 0. *)
Theorem C94_misspelled_refuted : exists l, l = str "range_stop sessionid=7" /\ typed (str "range_stop") [Keyed (str "sessionid") (str "7")] l
  /\ forall file, line file l = Some (UseDevice (KStop 0)).
Proof.
  exists (str "range_stop sessionid=7"). split; [done|]. split; [|intros file; vm_compute; reflexivity].
  split; [by repeat constructor|]. split; [done|]. exists (32 :: repeat 32 0 ++ word_text (Keyed (str "sessionid") (str "7")) ++ repeat 32 0).
  split; [done|]. constructor; [|constructor]. split; by repeat constructor.
Qed.
(** The values may be given by name, in any order, with several blanks. *)
Definition words : list word := [Keyed (str "dst_mac_addresses") (str "01:02,0A:0B"); Keyed (str "session_id") (str "7")].
Definition text : bytes := str "session_set_app_config  dst_mac_addresses=01:02,0A:0B session_id=7 ".
Example C94_example : typed (str "session_set_app_config") words text
  /\ supplied [opt "session_id" "0"; opt "ranging_interval" "200"; opt "dst_mac_addresses" ""] words [str "7"; str "200"; str "01:02,0A:0B"]
  /\ stands (fun _ => None) "session_set_app_config" [str "7"; str "200"; str "01:02,0A:0B"] (UseDevice (KSetAppConfig 7 200 [[1; 2]; [10; 11]]))
  /\ line (fun _ => None) text = Some (UseDevice (KSetAppConfig 7 200 [[1; 2]; [10; 11]])).
Proof.
  split; [|split; [|split; [|vm_compute; reflexivity]]].
  - split; [by repeat constructor|]. split; [done|]. eexists. split; [|apply (TWord 1); [|apply (TWord 0); [|apply (TEnd 1)]]]; [done| |].
    + split; by repeat constructor.
    + split; by repeat constructor.
  - split; [done|]. split; [simpl; lia|]. split. { apply (bool_decide_eq_true_1 _). vm_compute. reflexivity. }
    split. { simpl. set_solver. } split. { intros i p Hi. simpl in Hi. lia. }
    intros [|[|[|i]]] v Hv; [| | |done]; injection Hv as <-; right; (split; [simpl; lia|]); eexists _, _; (split; [reflexivity|]).
    + left. right. left.
    + right. split; [|done]. apply (bool_decide_eq_true_1 _). vm_compute. reflexivity.
    + left. left.
  - apply SSetAppConfig.
    + exists (str "7"). split; [by repeat constructor|]. split; [done|]. left. split; [done|]. vm_compute. reflexivity.
    + exists (str "200"). split; [by repeat constructor|]. split; [done|]. left. split; [done|]. vm_compute. reflexivity.
    + exists [str "01:02"; str "0A:0B"]. split; [|done].
      constructor; [|constructor; [|constructor]].
      * apply (printed_cons 0 1 48 49 [2] [48; 50]); [done|done|]. by apply (printed_last 0 2).
      * apply (printed_cons 0 10 48 65 [11] [48; 66]); [done|done|]. by apply (printed_last 0 11).
Qed.
(** Lines which end the console: two plain words for one parameter, a value given twice, a missing file name, two "=" in a
    word, a word which is not a number. A blank before the name makes the command undefined. *)
Example C94_example_ends : forall file, line file (str "range_stop 7 8") = None /\ line file (str "range_stop 7 session_id=7") = None
  /\ line file (str "data_transfer 01:02") = None /\ line file (str "quit a=b=c") = None /\ line file (str "range_stop seven") = None
  /\ line file (str " range_stop 7") = Some Undefined.
Proof. intros file. repeat split; vm_compute; reflexivity. Qed.
Print Assumptions C94_typed.
Print Assumptions C94_sent_partial.
Print Assumptions C94_undefined.
Print Assumptions C94_quit.
Print Assumptions C94_ends.
Print Assumptions C94_ignored_refuted.
Print Assumptions C94_misspelled_refuted.
