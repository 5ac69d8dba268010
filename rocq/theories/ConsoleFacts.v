(** Proofs about the interactive console. *)
From Coq Require Import Strings.String.
From Verif Require Import Base Uci MacAddress Codec CodecSpec BaseFacts AppConfigSpec AppConfigFacts CodecFacts.
From Verif Require Import Transport TransportSpec TransportFacts Session Device Pica ContextSpec InvFacts StepFacts CommandFacts RangingSpec RangingFacts GateFacts MulticastSpec.
From Verif Require Import PyHost PyHostSpec PyHostFacts Http Json JsonSpec JsonFacts JsonFaithful JsonRead JsonBody Console ConsoleSpec.

Local Arguments le_bytes : simpl never.
Local Arguments le_nat : simpl never.

(** ** Arguments *)
Lemma unsigned_ok n : py_unsigned (Z.of_N n) = Some n.
Proof. unfold py_unsigned. destruct (Z.ltb_spec (Z.of_N n) 0); [lia|]. by rewrite N2Z.id. Qed.
Lemma unsigned_none z : py_unsigned z = None <-> (z < 0)%Z.
Proof. unfold py_unsigned. destruct (Z.ltb_spec z 0); split; intros; try done; lia. Qed.
Lemma to_bytes_ok k n : n < 256 ^ N.of_nat k -> py_to_bytes k (Z.of_N n) = Some (le_bytes k n).
Proof. intros H. unfold py_to_bytes. rewrite unsigned_ok. cbn [mbind option_bind]. by rewrite (proj2 (N.ltb_lt _ _) H). Qed.
Lemma to_bytes_some k z b : py_to_bytes k z = Some b -> exists n, z = Z.of_N n /\ n < 256 ^ N.of_nat k /\ b = le_bytes k n.
Proof.
  unfold py_to_bytes, py_unsigned. destruct (Z.ltb_spec z 0); [done|]. cbn [mbind option_bind].
  destruct (N.ltb_spec (Z.to_N z) (256 ^ N.of_nat k)); [|done]. intros E. injection E as <-. exists (Z.to_N z). split; [lia|done].
Qed.
(** The values which do not fit are truncated. *)
Lemma ser_int_mod k v : py_ser_int k (v mod 256 ^ N.of_nat k) = py_ser_int k v.
Proof.
  unfold py_ser_int. rewrite !N.land_ones. f_equal.
  replace (2 ^ (8 * N.of_nat k)) with (256 ^ N.of_nat k) by (by rewrite N.pow_mul_r).
  apply N.mod_mod. by apply N.pow_nonzero.
Qed.
Lemma ser_int4_mod v : py_ser_int 4 (v mod 4294967296) = py_ser_int 4 v.
Proof. exact (ser_int_mod 4 v). Qed.
Lemma ser_int8_mod v : py_ser_int 8 (v mod 18446744073709551616) = py_ser_int 8 v.
Proof. exact (ser_int_mod 8 v). Qed.
Lemma word32_mod v : word32 (v mod 4294967296).
Proof. unfold word32. by apply N.mod_lt. Qed.

(** ** Packets written *)
(** The packets [ps] are those of the list [hs] of calls to the library. *)
Definition calls (hs : list host_send) (ps : list bytes) : Prop := Forall host_send_ok hs /\ mapM py_send hs = Some ps.
Lemma calls_nil : calls [] [].
Proof. done. Qed.
Lemma calls_app hs ps hs' ps' : calls hs ps -> calls hs' ps' -> calls (hs ++ hs') (ps ++ ps').
Proof.
  intros [A B] [C D]. split; [by apply Forall_app|]. clear A C. revert ps B. induction hs as [|h hs IH]; intros ps B.
  - cbn in B. by injection B as <-.
  - cbn [mapM app] in *. apply bind_Some in B as (p & Hp & B). apply bind_Some in B as (qs & Hq & B). injection B as <-.
    rewrite Hp. cbn [mbind option_bind]. by rewrite (IH _ Hq).
Qed.
Lemma calls_read hs ps : calls hs ps -> read_routine None (read_stream (concat ps)) = (ps, EndOfStream).
Proof. intros [A B]. by eapply py_send_delivered. Qed.
Lemma calls_wf hs ps : calls hs ps -> Forall wf_bytes ps.
Proof. intros [A B]. by destruct (py_send_frames _ _ A B) as (_ & W & _). Qed.

(** A command with arguments that fit. *)
Definition sendable (c : command) : Prop := wf_cmd c /\ (length (cmd_args c) <= 255)%nat.
Lemma send_ok c : sendable c -> exists p, send c = Some [p] /\ calls [HControl (py_serialize c)] [p] /\ decoded_as c p /\ encodes c p.
Proof.
  intros [W L]. unfold send. assert (exists p, py_send_command c = Some p) as [p E].
  { unfold py_send_command. rewrite py_serialize_eq by done. unfold py_send_control. rewrite (proj2 (Nat.leb_le _ _) L). by eexists. }
  assert (calls [HControl (py_serialize c)] [p]) as C.
  { split; [constructor; [by apply py_command_ok|constructor]|]. cbn. fold (py_send_command c). by rewrite E. }
  exists p. rewrite E. split; [done|]. split; [done|]. pose proof (calls_wf _ _ C) as F. apply Forall_cons in F as [Wp _].
  assert (encodes c p) as En.
  { destruct C as [A B]. destruct (py_send_frames _ _ A B) as (_ & _ & R & _). inversion R; subst. by apply received_encodes. }
  split; [|done]. by apply decode_command_iff.
Qed.
(** What the library makes of a value which is too large. *)
Lemma send_same c c' : py_ser_args c = py_ser_args c' -> py_ser_kind c = py_ser_kind c' -> send c = send c'.
Proof. intros A B. unfold send, py_send_command, py_serialize. by rewrite A, B. Qed.
Lemma data_calls handle dst file : word32 handle -> word64 dst -> wf_bytes file ->
  exists hs ps parts, py_data_transfer handle dst file = Some ps /\ calls hs ps /\ numbered handle dst 0 parts ps.
Proof.
  intros W1 W2 W. unfold py_data_transfer. destruct (Nat.ltb_spec CONSOLE_MAX (length file)) as [G|G].
  - destruct (py_transfer_loop_ok handle dst W1 W2 (length file) file 0 W) as (qs & frames & parts & E & Em & Of & Fl & Ne & Ec & Lp & Nb).
    { intros ->. cbn in G. lia. }
    { done. }
    change (N.of_nat 0 mod 65535) with 0 in E. by exists (map HData qs), frames, parts.
  - destruct (py_data_message_ok PBF_COMPLETE handle dst 0 file) as (q & p & -> & E2 & Ok & M & D); try done.
    cbn [mbind option_bind]. exists [HData q], [p], [file]. split; [done|]. split.
    + split; [constructor; [exact Ok|constructor]|]. cbn. by rewrite E2.
    + by apply numbered_cons.
Qed.
Lemma transfer_mod handle dst file : py_data_transfer (handle mod 4294967296) (dst mod 18446744073709551616) file = py_data_transfer handle dst file.
Proof.
  assert (forall pbf seq data, py_send_data_message pbf (handle mod 4294967296) (dst mod 18446744073709551616) seq data = py_send_data_message pbf handle dst seq data) as E.
  { intros pbf seq data. unfold py_send_data_message, py_serialize_data. by rewrite ser_int4_mod, ser_int8_mod. }
  unfold py_data_transfer. rewrite E. destruct (Nat.ltb _ _); [|done]. generalize (length file) 0. intros fuel. revert file.
  induction fuel as [|fuel IH]; intros file seq; [done|]. cbn [py_transfer_loop]. destruct file as [|x file]; [done|].
  rewrite E. cbv zeta. by rewrite !IH.
Qed.

(** ** The commands *)
Lemma attribute_eq l n : attribute l n = if bool_decide (n ∈ l) then Some tt else None.
Proof. done. Qed.
Ltac lookup_names := repeat match goal with |- context [attribute ?l ?n] =>
  let b := eval vm_compute in (attribute l n) in replace (attribute l n) with b by (vm_compute; reflexivity); cbn [mbind option_bind] end.
Lemma console_misnamed k : misnamed k = true -> console k = None.
Proof.
  destruct k; try discriminate; intros _; cbn [console]; lookup_names; try reflexivity. destruct (py_to_bytes 4 _); [|done]. cbn [mbind option_bind]. by lookup_names.
Qed.
(** The UCI command built with the number [id], which need not fit. *)
Definition one_id (k : console_command) : option (Z * (N -> command)) :=
  match k with
  | KSessionInit id => Some (id, fun id => CmdSessionInit id 1)
  | KSessionDeinit id => Some (id, CmdSessionDeinit)
  | KGetAppConfig id => Some (id, fun id => CmdGetAppConfig id [T_RANGING_DURATION])
  | KGetState id => Some (id, CmdGetState)
  | KStart id => Some (id, CmdStart)
  | KStop id => Some (id, CmdStop)
  | KGetRangingCount id => Some (id, CmdGetRangingCount)
  | _ => None
  end.
Lemma console_one_id k z f : one_id k = Some (z, f) -> console k = (id ← py_unsigned z; send (f id)).
Proof. destruct k; try discriminate; intros H; injection H as <- <-; cbn [console]; lookup_names; reflexivity. Qed.
Lemma one_id_sendable k z f id : one_id k = Some (z, f) -> word32 id -> sendable (f id) /\ f id <> CmdDeviceReset 0.
Proof.
  intros H W. split; [|by destruct k; try discriminate; injection H as <- <-].
  destruct k; try discriminate; injection H as <- <-; split; cbn [cmd_args wf_cmd]; rewrite ?app_length, ?le_bytes_length; try (cbn; lia); try exact W.
  - split; [exact W|]. by right; left.
  - split; [exact W|]. split; [unfold short_list; cbn; lia|]. by constructor.
Qed.
Lemma one_id_mod k z f id : one_id k = Some (z, f) -> send (f (id mod 4294967296)) = send (f id).
Proof.
  intros H. destruct k; try discriminate; injection H as <- <-; apply send_same; try reflexivity; unfold py_ser_args; by rewrite ser_int4_mod.
Qed.
Lemma console_multicast id add mac sub : console (KMulticast id (Some add) mac sub) =
  (mac ← py_to_bytes 2 mac; sub ← py_unsigned sub; id ← py_unsigned id;
   send (CmdMulticast id (if add then AddControlee else RemoveControlee) (py_ser_controlees [(mac, sub, [])]))).
Proof. cbn [console]. lookup_names. reflexivity. Qed.
Lemma multicast_mod id a mac sub :
  send (CmdMulticast (id mod 4294967296) a (py_ser_controlees [(mac, sub mod 4294967296, [])])) = send (CmdMulticast id a (py_ser_controlees [(mac, sub, [])])).
Proof.
  apply send_same; [|reflexivity]. unfold py_ser_args. rewrite ser_int4_mod. do 2 f_equal.
  unfold py_ser_controlees, py_ser_list, py_ser_controlee. cbn [take map fst snd concat]. by rewrite ser_int4_mod.
Qed.
Lemma one_controlee a mac sub : word16 mac -> word32 sub -> a = AddControlee \/ a = RemoveControlee ->
  controlees a [(le_bytes 2 mac, sub, [])] (py_ser_controlees [(le_bytes 2 mac, sub, [])]).
Proof.
  intros A B C. assert (Forall (wf_controlee (key_size a)) [(le_bytes 2 mac, sub, [])]) as F.
  { constructor; [|constructor]. unfold wf_controlee. cbn [fst snd]. destruct C as [-> | ->]; cbn [key_size]; split_and!; try done; try apply le_bytes_length; try apply le_bytes_wf; constructor. }
  split; [unfold short_list; cbn; lia|]. split; [done|]. eapply py_ser_controlees_eq; [unfold short_list; cbn; lia|exact F].
Qed.
Lemma multicast_sendable id a mac sub : word32 id -> word16 mac -> word32 sub ->
  sendable (CmdMulticast id a (py_ser_controlees [(le_bytes 2 mac, sub, [])])).
Proof.
  intros A B C. unfold py_ser_controlees, py_ser_list, py_ser_controlee. cbn [take map fst snd concat length].
  rewrite (py_ser_int_eq 4) by by apply w32. split.
  - split; [done|]. cbn. rewrite !app_nil_r. apply wf_bytes_cons. split; [done|]. apply wf_bytes_app. split; apply le_bytes_wf.
  - cbn [cmd_args]. repeat (rewrite ?app_length, ?le_bytes_length; cbn [length]). lia.
Qed.
Lemma console_transfer dst file id : console (KDataTransfer dst file id) =
  Some (default [] (file ← file; id ← py_unsigned id; py_data_transfer id (py_from_bytes dst) file)).
Proof. cbn [console]. destruct file; [|reflexivity]. cbn [mbind option_bind]. by lookup_names. Qed.
Lemma console_count : console KGetCount = send CmdGetCount.
Proof. cbn [console]. by lookup_names. Qed.

(** Each packet of the console is a command other than a reset, or a data message. *)
Definition harmless (p : bytes) : Prop :=
  wf_bytes p /\ ((exists c, wf_cmd c /\ encodes c p /\ c <> CmdDeviceReset 0) \/ exists id dst seq data, data_message id dst seq data p).
Lemma send_harmless c ps : sendable c -> c <> CmdDeviceReset 0 -> send c = Some ps -> exists hs, calls hs ps /\ Forall harmless ps.
Proof.
  intros S Ne E. destruct (send_ok c S) as (p & E' & C & _ & En). rewrite E in E'. injection E' as ->.
  eexists. split; [exact C|]. pose proof (calls_wf _ _ C) as F. apply Forall_cons in F as [Wp _]. constructor; [|constructor]. split; [done|]. left. exists c. split; [apply S|done].
Qed.
Lemma from_bytes_word b : exists n, n = py_from_bytes b mod 18446744073709551616 /\ word64 n.
Proof. eexists. split; [reflexivity|]. by apply N.mod_lt. Qed.
Lemma numbered_member handle dst i parts frames p : numbered handle dst i parts frames -> p ∈ frames -> exists seq data, data_message handle dst seq data p.
Proof.
  intros [L Nb] H. apply elem_of_list_lookup in H as (k & H). pose proof (lookup_lt_Some _ _ _ H) as K. rewrite L in K.
  apply lookup_lt_is_Some in K as [part K]. destruct (Nb k part K) as (q & Q & D). rewrite H in Q. injection Q as <-. by eexists _, _.
Qed.
Lemma console_some k ps : wf_console k -> console k = Some ps -> exists hs, calls hs ps /\ Forall harmless ps.
Proof.
  intros W H. destruct (misnamed k) eqn:M; [by rewrite (console_misnamed k M) in H|].
  destruct (one_id k) as [[z f]|] eqn:O.
  { rewrite (console_one_id k z f O) in H. apply bind_Some in H as (id & _ & H). rewrite <- (one_id_mod k z f id O) in H.
    destruct (one_id_sendable k z f _ O (word32_mod id)) as [S Ne]. by eapply send_harmless. }
  destruct k as [| | |m| |id|id|id i dst|id| |id|id [a|] mac sub|id|id|id|dst file id]; try discriminate.
  - rewrite console_count in H. refine (send_harmless _ _ _ _ H); [|done]. split; [done|]. cbn. lia.
  - rewrite console_multicast in H. apply bind_Some in H as (mb & Hm & H). apply bind_Some in H as (s & _ & H). apply bind_Some in H as (i & _ & H).
    apply to_bytes_some in Hm as (m & _ & Lm & ->). rewrite <- multicast_mod in H. refine (send_harmless _ _ _ _ H); [|done].
    apply multicast_sendable; [apply word32_mod| |apply word32_mod]. exact Lm.
  - cbn [console] in H. injection H as <-. exists []. split; [apply calls_nil|constructor].
  - rewrite console_transfer in H. injection H as <-. destruct W as [Wd Wf].
    destruct file as [file|]; [|exists []; split; [apply calls_nil|constructor]]. cbn [mbind option_bind]. destruct (py_unsigned id) as [i|]; [|exists []; split; [apply calls_nil|constructor]]. cbn [mbind option_bind].
    rewrite <- transfer_mod. destruct (data_calls (i mod 4294967296) (py_from_bytes dst mod 18446744073709551616) file) as (hs & ps & parts & -> & C & Nb).
    { apply word32_mod. } { by apply N.mod_lt. } { by apply Wf. }
    exists hs. split; [exact C|]. unfold default, from_option. apply Forall_forall. intros p Hp. split.
    + pose proof (calls_wf _ _ C) as F. rewrite Forall_forall in F. by apply F.
    + right. destruct (numbered_member _ _ _ _ _ _ Nb Hp) as (seq & data & D). by eexists _, _, _, _.
Qed.
Lemma session_harmless ks : Forall wf_console ks -> exists hs, calls hs (console_session ks).1 /\ Forall harmless (console_session ks).1.
Proof.
  induction 1 as [|k ks W F (hs & C & H)]; [exists []; split; [apply calls_nil|constructor]|]. cbn [console_session]. destruct (console k) as [ps|] eqn:E; [|exists []; split; [apply calls_nil|constructor]].
  destruct (console_some k ps W E) as (hs' & C' & H'). destruct (console_session ks) as [qs b]. cbn [fst] in *. exists (hs' ++ hs). split; [by apply calls_app|].
  by apply Forall_app.
Qed.
Lemma console_fails k : console k = None <-> misnamed k = true \/ bad_argument k.
Proof.
  destruct (misnamed k) eqn:M; [rewrite (console_misnamed k M); split; [by left|done]|].
  destruct (one_id k) as [[z f]|] eqn:O.
  { rewrite (console_one_id k z f O). assert (bad_argument k <-> (z < 0)%Z) as -> by (destruct k; try discriminate; injection O as <- <-; done).
    rewrite <- unsigned_none. destruct (py_unsigned z) as [id|] eqn:U; [|split; [by right|done]]. cbn [mbind option_bind].
    rewrite <- (one_id_mod k z f id O). destruct (one_id_sendable k z f _ O (word32_mod id)) as [S _]. destruct (send_ok _ S) as (p & -> & _). split; [done|]. by intros [|]. }
  destruct k as [| | |m| |id|id|id i dst|id| |id|id [a|] mac sub|id|id|id|dst file id]; try discriminate; cbn [bad_argument].
  - rewrite console_count. destruct (send_ok CmdGetCount) as (p & -> & _); [split; [done|cbn; lia]|]. split; [done|]. by intros [|].
  - rewrite console_multicast. unfold py_to_bytes, py_unsigned. change (256 ^ N.of_nat 2) with 65536.
    destruct (Z.ltb_spec mac 0) as [A|A]; [split; [auto|done]|]. cbn [mbind option_bind]. destruct (N.ltb_spec (Z.to_N mac) 65536) as [B|B]; [|split; [right; lia|done]]. cbn [mbind option_bind].
    destruct (Z.ltb_spec sub 0) as [C|C]; [split; [right; lia|done]|]. cbn [mbind option_bind]. destruct (Z.ltb_spec id 0) as [D|D]; [split; [right; lia|done]|]. cbn [mbind option_bind].
    rewrite <- multicast_mod. destruct (send_ok (CmdMulticast (Z.to_N id mod 4294967296) (if a then AddControlee else RemoveControlee) (py_ser_controlees [(le_bytes 2 (Z.to_N mac), Z.to_N sub mod 4294967296, [])]))) as (p & -> & _).
    { apply multicast_sendable; [apply word32_mod|exact B|apply word32_mod]. }
    split; [done|]. intros [|]; [done|lia].
  - cbn [console]. split; [done|]. by intros [|].
  - rewrite console_transfer. split; [done|]. by intros [|].
Qed.
Lemma console_means k c : means k c -> misnamed k = false -> sendable c /\ console k = send c.
Proof.
  intros H M. destruct (one_id k) as [[z f]|] eqn:O.
  { rewrite (console_one_id k z f O). assert (exists id, z = Z.of_N id /\ word32 id /\ c = f id) as (id & -> & W & ->).
    { inversion H; subst; try discriminate; injection O as <- <-; eexists; (split; [reflexivity|]); done. }
    rewrite unsigned_ok. split; [|reflexivity]. by apply (one_id_sendable k (Z.of_N id) f). }
  inversion H as [| | | | | | | | | |? W|id mac sub pl W1 W2 W3 C E|id mac sub pl W1 W2 W3 C E| | |]; subst; try discriminate.
  - split; [split; [done|cbn; lia]|apply console_count].
  - destruct C as (_ & _ & ->). destruct (one_controlee AddControlee mac sub W2 W3 ltac:(by left)) as (_ & _ & <-). split; [by apply multicast_sendable|].
    rewrite console_multicast, !unsigned_ok, (to_bytes_ok 2) by exact W2. reflexivity.
  - destruct C as (_ & _ & ->). destruct (one_controlee RemoveControlee mac sub W2 W3 ltac:(by right)) as (_ & _ & <-). split; [by apply multicast_sendable|].
    rewrite console_multicast, !unsigned_ok, (to_bytes_ok 2) by exact W2. reflexivity.
Qed.

(** ** The device *)
Lemma harmless_step e p h packet : reachable p -> connected p h -> ~ serving p h -> harmless packet ->
  exists m, step e p (UciPacket h packet) = Ret (p, [OEff h (Send m)]) /\ rejection m.
Proof.
  intros R (d & L) Ns [W H].
  assert (d_is_reset d = false) as Nr by (destruct (d_is_reset d) eqn:E; [destruct Ns; by exists d|done]).
  destruct H as [(c & Wc & En & Ne)|(id & dst & seq & data & D)].
  - exists (CoreDeviceStatusNtf DsError). split; [by eapply gate_step|by left].
  - exists (SessionDataTransferStatusNtf id 0 4 1). split; [|right; by exists id].
    pose proof (data_message_hd _ _ _ _ _ D) as Hd. pose proof (data_message_decode _ _ _ _ _ W D) as Dd.
    apply reachable_pinv in R. destruct (pi_device _ _ R _ _ L) as (I & _). pose proof (di_reset _ _ I Nr) as Es.
    cbn [step]. unfold uci_packet. rewrite L. unfold receive_packet. destruct packet as [|x rest]; [destruct D as (_ & _ & _ & _ & _ & ? & ? & ? & ? & ? & _); discriminate|].
    pose proof W as W0. apply wf_bytes_cons in W0 as [Hx _]. cbn [hd] in Hd. rewrite (proj2 (parse_message_type_data x Hx) Hd), Dd.
    cbn [device_data_message_snd]. rewrite Es, lookup_empty. cbn [obind]. f_equal. f_equal.
    destruct p. unfold p_set_device, p_set_devices. cbn in *. by rewrite insert_id.
Qed.
Lemma harmless_not_reset packet : harmless packet -> ~ encodes (CmdDeviceReset 0) packet.
Proof.
  intros [W [(c & Wc & En & Ne)|(id & dst & seq & data & D)]] X.
  - apply Ne. assert (decoded_as c packet) as (cp & D1 & _ & D2) by (by apply decode_command_iff).
    assert (decoded_as (CmdDeviceReset 0) packet) as (cp' & D1' & _ & D2') by (by apply decode_command_iff). congruence.
  - apply data_message_hd in D. destruct X as (h & o & r1 & r2 & -> & Hh & _). cbn [hd] in D. lia.
Qed.
Lemma never_serving l p outs h : reaches l p outs -> connected p h -> (forall e packet, (e, UciPacket h packet) ∈ l -> harmless packet) -> ~ serving p h.
Proof.
  intros R C H S. apply (serving_iff _ _ _ _ R C) in S as (l1 & e & packet & l2 & p1 & o1 & -> & En & _).
  apply (harmless_not_reset packet); [|done]. apply (H e). apply elem_of_app. right. by left.
Qed.

(** ** The bodies *)
Definition number_member (kz : string * Z) : bytes * bytes := (str kz.1, integer kz.2).
Lemma dumps_written kzs : kzs <> [] -> Forall (fun kz => ascii_text (str kz.1)) kzs ->
  forall w, spaces w -> members (map (fun kz => (str kz.1, JNumber (integer kz.2))) kzs) (w ++ dumps_members (map number_member kzs)).
Proof.
  intros Ne F. induction F as [|[k z] kzs A F IH]; [done|]. intros w W. cbn [fst snd] in *.
  assert (member (str k) (JNumber (integer z)) (quote (str k) ++ str ": " ++ integer z)) as M.
  { unfold quote. rewrite <- app_comm_cons, <- app_assoc. apply (member_intro _ _ [] [32]); [by apply quote_chars|constructor|by repeat constructor|].
    constructor. apply integer_text. }
  destruct kzs as [|kz kzs].
  - cbn [map dumps_members number_member fst snd].
    replace (w ++ quote (str k) ++ str ": " ++ integer z) with (w ++ (quote (str k) ++ str ": " ++ integer z) ++ []) by (by rewrite app_nil_r).
    apply members_one; [exact W|exact M|constructor].
  - specialize (IH ltac:(done) [32] ltac:(by repeat constructor)). cbn [map] in *. 
    replace (w ++ dumps_members (number_member (k, z) :: number_member kz :: map number_member kzs))
      with (w ++ (quote (str k) ++ str ": " ++ integer z) ++ [] ++ 44 :: ([32] ++ dumps_members (number_member kz :: map number_member kzs))).
    { apply members_more; [exact W|exact M|constructor|exact IH]. }
    cbn [dumps_members number_member fst snd]. rewrite <- !app_assoc. reflexivity.
Qed.
Definition six_members (x y z yaw pitch roll : Z) : list (string * Z) :=
  [("x", x); ("y", y); ("z", z); ("yaw", yaw); ("pitch", pitch); ("roll", roll)]%string.
Lemma dumps_text x y z yaw pitch roll :
  json_text (JObject (map (fun kz => (str kz.1, JNumber (integer kz.2))) (six_members x y z yaw pitch roll))) (dumps x y z yaw pitch roll).
Proof.
  exists [], (dumps x y z yaw pitch roll), []. split; [constructor|]. split; [|split; [constructor|by rewrite app_nil_r]].
  apply value_object. apply (dumps_written (six_members x y z yaw pitch roll)) with (w := []); [done| |constructor].
  repeat (constructor; [by apply ascii_dec|]). constructor.
Qed.
Lemma integer_not_minus_zero v : integer v <> str "-0".
Proof.
  unfold integer. destruct (v <? 0)%Z eqn:L; intros E0.
  - injection E0 as E0. destruct (decimal_ok (Z.abs_N v)) as (_ & _ & V & _). rewrite E0 in V. cbn in V. lia.
  - destruct (decimal_ok (Z.abs_N v)) as (D & _). rewrite E0 in D. inversion D. lia.
Qed.
Lemma integer_in_iff lo hi v v' : integer_in lo hi v' (JNumber (integer v)) <-> v' = v /\ (lo <= v <= hi)%Z.
Proof.
  destruct (integer_text v) as [I _]. split.
  - intros (t & E & J & _ & B). injection E as <-. pose proof (integer_value_fun _ _ _ I J) as <-. done.
  - intros [-> B]. exists (integer v). split_and!; try done; [apply integer_not_minus_zero|lia|lia].
Qed.
Lemma dumps_position x y z yaw pitch roll x' y' z' yaw' pitch' roll' :
  is_position (JObject (map (fun kz => (str kz.1, JNumber (integer kz.2))) (six_members x y z yaw pitch roll))) x' y' z' yaw' pitch' roll'
  <-> (x', y', z', yaw', pitch', roll') = (x, y, z, yaw, pitch, roll) /\ fits x y z yaw pitch roll.
Proof.
  set (ms := map _ _).
  assert (forall name v P, filter (fun m => m.1 = str name) ms = [(str name, JNumber (integer v))] -> one_member ms name P <-> P (JNumber (integer v))) as O.
  { intros name v P E. unfold one_member. rewrite E. split; [intros (u & U & H); by injection U as <-|]. intros H. by eexists. }
  unfold is_position. split.
  - intros [(ms' & E & _ & H1 & H2 & H3 & H4 & H5 & H6)|(? & ? & ? & ? & ? & ? & E & _)]; [|discriminate]. injection E as <-.
    apply (O "x"%string x) in H1; [|reflexivity]. apply (O "y"%string y) in H2; [|reflexivity]. apply (O "z"%string z) in H3; [|reflexivity].
    apply (O "yaw"%string yaw) in H4; [|reflexivity]. apply (O "pitch"%string pitch) in H5; [|reflexivity]. apply (O "roll"%string roll) in H6; [|reflexivity].
    apply integer_in_iff in H1 as [-> ?], H2 as [-> ?], H3 as [-> ?], H4 as [-> ?], H5 as [-> ?], H6 as [-> ?]. done.
  - intros [E (R1 & R2 & R3 & R4 & R5 & R6)]. injection E as -> -> -> -> -> ->. left. exists ms. split; [done|]. split.
    + intros k u I. apply decode16_unicode; subst ms; cbn [six_members map fst] in I;
        repeat (apply elem_of_cons in I as [I|I]; [injection I as -> _; by repeat constructor || by eexists|]); by apply elem_of_nil in I.
    + split_and!; [apply (O "x"%string x)|apply (O "y"%string y)|apply (O "z"%string z)|apply (O "yaw"%string yaw)|apply (O "pitch"%string pitch)|apply (O "roll"%string roll)];
        try reflexivity; by apply integer_in_iff.
Qed.
