(** Proofs about the reference Python host. *)
From Verif Require Import Base Uci MacAddress Codec CodecSpec BaseFacts AppConfigSpec AppConfigFacts CodecFacts.
From Verif Require Import Transport TransportSpec TransportFacts Session Device Pica ContextSpec InvFacts StepFacts CommandFacts RangingSpec RangingFacts CrashSpec RoundFacts.
From Verif Require Import Sys EffectFacts SysSpec SysFacts ScheduleFacts PyHost PyHostSpec.

Local Arguments le_bytes : simpl never.
Local Arguments le_nat : simpl never.
Local Arguments N.add : simpl never.
Local Arguments N.mul : simpl never.

(** ** Fields *)
Lemma py_need_ok k span : (k <= length span)%nat -> py_need k span = Some tt.
Proof. intros H. unfold py_need. destruct (Nat.ltb_spec (length span) k); [lia|done]. Qed.
Lemma py_need_short k span : (length span < k)%nat -> py_need k span = None.
Proof. intros H. unfold py_need. destruct (Nat.ltb_spec (length span) k); [done|lia]. Qed.
Lemma py_slice_ok v r : py_slice (N.of_nat (length v)) (v ++ r) = Some (v, r).
Proof.
  unfold py_slice. rewrite Nat2N.id, py_need_ok by (rewrite app_length; lia). cbn [mbind option_bind].
  by rewrite take_app, drop_app.
Qed.
Lemma py_slice_all v : py_slice (N.of_nat (length v)) v = Some (v, []).
Proof. rewrite <- (py_slice_ok v []). by rewrite app_nil_r. Qed.
Lemma py_elements_ok {A} (k : nat) (parse : bytes -> option (A * bytes)) (enc : A -> bytes) (ok : A -> Prop) l r :
  (forall x, ok x -> length (enc x) = k /\ parse (enc x) = Some (x, [])) -> Forall ok l ->
  py_elements (length l) k parse (concat (map enc l) ++ r) = Some l.
Proof.
  intros H F. induction F as [|x l Hx F IH]; [done|]. cbn [length map concat py_elements].
  destruct (H x Hx) as [L E]. rewrite <- app_assoc, take_app_length', drop_app_length' by done.
  rewrite E. cbn [mbind option_bind]. by rewrite IH.
Qed.
Lemma py_array_ok {A} (k : nat) (parse : bytes -> option (A * bytes)) (enc : A -> bytes) (ok : A -> Prop) l r :
  (forall x, ok x -> length (enc x) = k /\ parse (enc x) = Some (x, [])) -> Forall ok l ->
  py_array (N.of_nat (length l)) k parse (concat (map enc l) ++ r) = Some (l, r).
Proof.
  intros H F. assert (length (concat (map enc l)) = length l * k)%nat as L.
  { clear r. induction F as [|x l Hx F IH]; [done|]. cbn [map concat length]. rewrite app_length, IH, (proj1 (H x Hx)). lia. }
  unfold py_array. rewrite Nat2N.id, py_need_ok by (rewrite app_length; lia). cbn [mbind option_bind].
  rewrite (py_elements_ok k parse enc ok) by done. cbn [mbind option_bind]. by rewrite drop_app_length'.
Qed.
Lemma py_sequence_ok {A} (parse : bytes -> option (A * bytes)) (enc : A -> bytes) (ok : A -> Prop) l r :
  (forall x r, ok x -> parse (enc x ++ r) = Some (x, r)) -> Forall ok l ->
  py_sequence (length l) parse (concat (map enc l) ++ r) = Some (l, r).
Proof.
  intros H F. induction F as [|x l Hx F IH]; [done|]. cbn [length map concat py_sequence].
  rewrite <- app_assoc, H by done. cbn [mbind option_bind]. by rewrite IH.
Qed.
Lemma py_tlv_ok {A} (id : N -> A) (code : A -> N) (a : A) v r : id (code a) = a ->
  py_tlv id (code a :: with_length v ++ r) = Some ((a, v), r).
Proof.
  intros E. unfold py_tlv, with_length. cbn [app]. rewrite py_need_ok by (cbn; lia). cbn [mbind option_bind].
  change (drop 2 _) with (v ++ r). change (py_at 1 _) with (N.of_nat (length v)). rewrite py_slice_ok. cbn [mbind option_bind].
  change (py_at 0 _) with (code a). by rewrite E.
Qed.
Lemma py_id_known i : known_id i -> py_AppConfigTlvType (tlv_byte i) = i.
Proof. intros H. unfold py_AppConfigTlvType. by rewrite H. Qed.
Lemma py_enum_le l v k : (forallb (fun n => existsb (N.eqb (N.of_nat n)) l) (seq 0 (S k))) = true -> v <= N.of_nat k -> py_enum l v = Some v.
Proof.
  intros H L. apply member_spec. split; [done|]. rewrite forallb_forall in H. specialize (H (N.to_nat v)).
  rewrite N2Nat.id in H. apply existsb_exists in H as (x & Hx & E%N.eqb_eq); [by subst|]. apply in_seq. lia.
Qed.
Lemma py_controlee_ok (p : bytes * N) : length p.1 = 2%nat /\ wf_bytes p.1 /\ p.2 <= 8 ->
  length (p.1 ++ [p.2]) = 3%nat /\ py_controlee_status (p.1 ++ [p.2]) = Some (p, []).
Proof.
  destruct p as [a st]. cbn [fst snd]. intros (L & _ & S). rewrite app_length, L. split; [done|].
  destruct a as [|x [|y [|? ?]]]; try discriminate L. unfold py_controlee_status. cbn [app].
  rewrite !py_need_ok by (cbn; lia). cbn [mbind option_bind take drop].
  change (py_at 0 [st]) with st. unfold py_MulticastUpdateStatus. rewrite (py_enum_le _ _ 8) by (reflexivity || lia). done.
Qed.
Lemma py_measurement_ok m : wf_measurement m -> length (enc_measurement m) = 31%nat /\ py_measurement (enc_measurement m) = Some (m, []).
Proof.
  intros W. split; [done|]. unfold py_measurement. rewrite py_need_ok by done. cbn [mbind option_bind].
  unfold wf_measurement in W. destruct m; cbn in W. destruct_and!.
  do 2 f_equal. f_equal; try reflexivity; by apply (le_nat_bytes 2), w16.
Qed.

(** ** Classes *)
Lemma py_children_here c l mt oid pl x : c_mt c = mt -> c_oid c = oid -> c_parse c pl = Some (x, []) ->
  py_children (c :: l) mt oid pl = Some x.
Proof. intros <- <- E. cbn [py_children]. by rewrite bool_decide_eq_true_2, N.eqb_refl, E by done. Qed.
Lemma py_children_skip c l mt oid pl : bool_decide (c_mt c = mt) && (c_oid c =? oid) = false ->
  py_children (c :: l) mt oid pl = py_children l mt oid pl.
Proof. intros E. cbn [py_children]. by rewrite E. Qed.
Lemma py_children_fail c l mt oid pl : c_parse c pl = None -> py_children (c :: l) mt oid pl = py_children l mt oid pl.
Proof. intros E. cbn [py_children]. rewrite E. by destruct (_ && _). Qed.

Lemma head_cases h mt gid : h / 32 = mt -> h mod 16 = gid -> h = 32 * mt + gid \/ h = 32 * mt + 16 + gid.
Proof.
  intros E1 E2. pose proof (N.div_mod h 16 ltac:(done)) as D. assert (h / 16 / 2 = mt) as E3 by (rewrite N.div_div by done; done).
  pose proof (N.div_mod (h / 16) 2 ltac:(done)) as D2. pose proof (N.mod_lt (h / 16) 2 ltac:(done)). lia.
Qed.
Lemma py_enum_in l o : In o l -> py_enum l o = Some o.
Proof. intros H. by apply member_spec. Qed.
Lemma py_group_cons oids classes generic mt o r x pl : In o oids -> o < 64 ->
  py_group oids classes generic mt (o :: r :: x :: pl)
  = Some (match py_children classes mt o pl with Some x => x | None => generic mt o pl end).
Proof.
  intros I L. unfold py_group. rewrite py_need_ok by (cbn; lia). cbn [mbind option_bind drop].
  change (py_at 0 _) with o. rewrite land_3f, N.mod_small by lia. by rewrite py_enum_in.
Qed.
Definition control_mt (mt : message_type) : Prop := mt = MtResponse \/ mt = MtNotification.
Lemma py_parse_core h o r x pl mt : control_mt mt -> h / 32 = mt_code mt -> h mod 16 = 0x0 -> In o py_CoreOpcodeId ->
  py_parse (h :: o :: r :: x :: pl)
  = Some (match py_children py_core_classes mt o pl with Some x => x | None => PyCorePacket mt o pl end).
Proof.
  intros M E1 E2 I. assert (o < 64) by (cbn in I; lia).
  pose proof (py_group_cons py_CoreOpcodeId py_core_classes PyCorePacket mt o r x pl I ltac:(done)) as G.
  destruct M as [-> | ->]; destruct (head_cases h _ _ E1 E2) as [-> | ->]; clear E1 E2;
    match goal with |- py_parse (?a :: _) = _ => let v := eval vm_compute in a in change a with v end;
    unfold py_parse, py_parse_control; cbn -[py_group py_core_classes py_CoreOpcodeId]; by rewrite G.
Qed.
Lemma py_parse_config h o r x pl mt : control_mt mt -> h / 32 = mt_code mt -> h mod 16 = 0x1 -> In o py_SessionConfigOpcodeId ->
  py_parse (h :: o :: r :: x :: pl)
  = Some (match py_children py_session_config_classes mt o pl with Some x => x | None => PySessionConfigPacket mt o pl end).
Proof.
  intros M E1 E2 I. assert (o < 64) by (cbn in I; lia).
  pose proof (py_group_cons py_SessionConfigOpcodeId py_session_config_classes PySessionConfigPacket mt o r x pl I ltac:(done)) as G.
  destruct M as [-> | ->]; destruct (head_cases h _ _ E1 E2) as [-> | ->]; clear E1 E2;
    match goal with |- py_parse (?a :: _) = _ => let v := eval vm_compute in a in change a with v end;
    unfold py_parse, py_parse_control; cbn -[py_group py_session_config_classes py_SessionConfigOpcodeId]; by rewrite G.
Qed.
Lemma py_parse_session h o r x pl mt : control_mt mt -> h / 32 = mt_code mt -> h mod 16 = 0x2 -> In o py_SessionControlOpcodeId ->
  py_parse (h :: o :: r :: x :: pl)
  = Some (match py_children py_session_control_classes mt o pl with Some x => x | None => PySessionControlPacket mt o pl end).
Proof.
  intros M E1 E2 I. assert (o < 64) by (cbn in I; lia).
  pose proof (py_group_cons py_SessionControlOpcodeId py_session_control_classes PySessionControlPacket mt o r x pl I ltac:(done)) as G.
  destruct M as [-> | ->]; destruct (head_cases h _ _ E1 E2) as [-> | ->]; clear E1 E2;
    match goal with |- py_parse (?a :: _) = _ => let v := eval vm_compute in a in change a with v end;
    unfold py_parse, py_parse_control; cbn -[py_group py_session_control_classes py_SessionControlOpcodeId]; by rewrite G.
Qed.
Lemma py_parse_android h o r x pl mt : control_mt mt -> h / 32 = mt_code mt -> h mod 16 = 0xc -> In o py_AndroidOpcodeId ->
  py_parse (h :: o :: r :: x :: pl)
  = Some (match py_children py_android_classes mt o pl with Some x => x | None => PyAndroidPacket mt o pl end).
Proof.
  intros M E1 E2 I. assert (o < 64) by (cbn in I; lia).
  pose proof (py_group_cons py_AndroidOpcodeId py_android_classes PyAndroidPacket mt o r x pl I ltac:(done)) as G.
  destruct M as [-> | ->]; destruct (head_cases h _ _ E1 E2) as [-> | ->]; clear E1 E2;
    match goal with |- py_parse (?a :: _) = _ => let v := eval vm_compute in a in change a with v end;
    unfold py_parse, py_parse_control; cbn -[py_group py_android_classes py_AndroidOpcodeId]; by rewrite G.
Qed.

Lemma received_shape h o r x pl p : received_as (h :: o :: r :: x :: pl) p ->
  exists h' r' x', p = h' :: o :: r' :: x' :: pl /\ h' / 32 = h / 32 /\ h' mod 16 = h mod 16.
Proof.
  intros ((E1 & E2 & E3) & Ep & L). destruct p as [|h' [|o' [|r' [|x' pl']]]]; try (cbn in L; lia).
  unfold pkt_mt, pkt_low, pkt_byte1, payload in *. cbn [hd nth skipn] in *. change (pl' = pl) in Ep. subst.
  by exists h', r', x'.
Qed.

(** ** Every message *)
Ltac len := rewrite ?app_length, ?le_bytes_length; cbn [length]; rewrite ?app_length, ?le_bytes_length; cbn [length]; lia.
Ltac at_class := rewrite ?py_children_skip by reflexivity.
Ltac need := rewrite py_need_ok by (first [len | match goal with |- (?k <= _)%nat => apply (Nat.le_add_r k) end]); cbn [mbind option_bind].
Ltac here := at_class; erewrite py_children_here; [reflexivity|reflexivity|reflexivity|]; cbn [c_parse].
Ltac one_status := here; unfold py_status; need; reflexivity.
Ltac core mt := rewrite (py_parse_core _ _ _ _ _ mt) by (first [by left | by right | done | cbn; tauto]); unfold py_core_classes.
Ltac config mt := rewrite (py_parse_config _ _ _ _ _ mt) by (first [by left | by right | done | cbn; tauto]); unfold py_session_config_classes.
Ltac control mt := rewrite (py_parse_session _ _ _ _ _ mt) by (first [by left | by right | done | cbn; tauto]); unfold py_session_control_classes.
Ltac android mt := rewrite (py_parse_android _ _ _ _ _ mt) by (first [by left | by right | done | cbn; tauto]); unfold py_android_classes.
Ltac split_head Sh := destruct (Sh _ _ _ _ eq_refl eq_refl I) as (h & r & x & -> & E1 & E2).
Ltac word32 tok := change (py_int 0 4 _) with (le_nat (le_bytes 4 tok)); rewrite (le_nat_bytes 4 tok) by by apply w32.

Lemma py_tlvs_ok {A} (id : N -> A) (code : A -> N) (okA : A -> Prop) (l : list (A * bytes)) :
  (forall a, okA a -> id (code a) = a) -> Forall (fun tv => okA tv.1 /\ short_list tv.2 /\ wf_bytes tv.2) l ->
  py_sequence (N.to_nat (N.of_nat (length l))) (py_tlv id) (concat (map (enc_pair (fun b => [code b]) with_length) l)) = Some (l, []).
Proof.
  intros H F. rewrite Nat2N.id, <- (app_nil_r (concat _)). apply (py_sequence_ok _ _ (fun tv => okA tv.1)).
  - intros [a v] r Ha. unfold enc_pair. cbn [fst snd app] in *. apply py_tlv_ok, H, Ha.
  - eapply Forall_impl; [exact F|]. by intros ? [? _].
Qed.
Lemma py_statuses_ok {A} (id : N -> A) (code : A -> N) (okA : A -> Prop) (l : list (A * N)) :
  (forall a, okA a -> id (code a) = a) -> Forall (fun p => okA p.1 /\ byte p.2) l ->
  py_array (N.of_nat (length l)) 2 (py_id_status id) (concat (map (enc_pair (fun b => [code b]) (fun b => [b])) l)) = Some (l, []).
Proof.
  intros H F. rewrite <- (app_nil_r (concat _)). apply (py_array_ok _ _ _ (fun p => okA p.1)).
  - intros [a st] Ha. cbn [fst] in Ha. split; [done|]. unfold py_id_status, enc_pair. cbn [fst snd app]. need.
    change (py_at 0 _) with (code a). by rewrite H.
  - eapply Forall_impl; [exact F|]. by intros ? [? _].
Qed.
Lemma py_info_ok seq token rcr interval l vendor : word32 seq -> word32 token -> byte rcr -> word32 interval -> Forall wf_measurement l ->
  py_session_info (le_bytes 4 seq ++ le_bytes 4 token ++ [rcr] ++ le_bytes 4 interval
    ++ [RANGING_MEASUREMENT_TWO_WAY; 0; MAC_SHORT_ADDRESS] ++ le_bytes 8 0 ++ with_count enc_measurement l ++ vendor)
  = Some (PyMsg (SessionInfoNtf seq token rcr interval l vendor), []).
Proof.
  intros W1 W2 W3 W4 F. set (pl := with_count enc_measurement l ++ vendor). unfold py_session_info. need.
  change (py_at 13 _) with 1. change (py_at 15 _) with 0. change (py_at 8 _) with rcr. change (drop 24 _) with pl.
  change (py_int 0 4 _) with (le_nat (le_bytes 4 seq)). change (py_int 4 8 _) with (le_nat (le_bytes 4 token)).
  change (py_int 9 13 _) with (le_nat (le_bytes 4 interval)). rewrite !(le_nat_bytes 4) by by apply w32.
  unfold py_RangingMeasurementType, py_MacAddressIndicator. rewrite !py_enum_in by (cbn; tauto). cbn [mbind option_bind].
  change ((1 =? 1) && (0 =? 0)) with true. unfold pl, with_count. cbn [app]. need.
  change (drop 1 _) with (concat (map enc_measurement l) ++ vendor). change (py_at 0 _) with (N.of_nat (length l)).
  rewrite (py_array_ok 31 _ enc_measurement wf_measurement _ _ py_measurement_ok F). done.
Qed.
Lemma py_data_ok h r1 r2 r3 handle status source seq data : h / 32 = 0 -> h mod 16 = 2 ->
  word32 handle -> byte status -> word64 source -> word16 seq -> N.of_nat (length data) <= 65535 ->
  py_parse (h :: r1 :: r2 :: r3 :: le_bytes 4 handle ++ [status] ++ le_bytes 8 source ++ le_bytes 2 seq
            ++ le_bytes 2 (N.of_nat (length data)) ++ data)
  = Some (PyMsg (DataMessageRcv handle status source seq data)).
Proof.
  intros E1 E2 W1 W2 W3 W4 L. set (pl := le_bytes 4 handle ++ _).
  assert (py_parse_data (h :: r1 :: r2 :: r3 :: pl) = Some (PyMsg (DataMessageRcv handle status source seq data))) as G.
  2:{ unfold py_parse. change (py_at 0 _) with h. by destruct (head_cases h _ _ E1 E2) as [-> | ->]. }
  unfold py_parse_data. need. change (py_at 0 _) with h. change (drop 4 _) with pl.
  assert (N.land h 15 = 2 /\ N.land (N.shiftr h 5) 7 = 0) as [-> ->] by (by destruct (head_cases h _ _ E1 E2) as [-> | ->]).
  unfold py_DataPacketFormat. rewrite py_enum_in by (cbn; tauto). cbn [mbind option_bind].
  change (2 =? 1) with false. change ((2 =? 2) && bool_decide (MtData = MtData)) with true. cbn [mt_of_code N.eqb andb mbind option_bind].
  unfold pl. need. change (drop 17 _) with data.
  change (py_int 15 17 _) with (le_nat (le_bytes 2 (N.of_nat (length data)))). change (py_int 0 4 _) with (le_nat (le_bytes 4 handle)).
  change (py_int 5 13 _) with (le_nat (le_bytes 8 source)). change (py_int 13 15 _) with (le_nat (le_bytes 2 seq)). change (py_at 4 _) with status.
  rewrite (le_nat_bytes 4) by by apply w32. rewrite (le_nat_bytes 8) by by apply w64. rewrite !(le_nat_bytes 2) by (apply w16; unfold word16; first [done|lia]).
  rewrite py_slice_all. done.
Qed.

Lemma py_wire_shows m b p : wf_msg m -> multicast_response m = false -> wire m = Some b -> received_as b p -> py_shows m p.
Proof.
  intros W NM E R.
  assert (forall mt gid oid pl, msg_header m = Some (mt, gid, oid) -> msg_payload m = Some pl ->
    (match m with DataMessageRcv _ _ _ _ _ | UnknownGroupRsp _ _ _ | UnknownCmdRsp _ _ _ => False | _ => True end) ->
    exists h r x, p = h :: oid :: r :: x :: pl /\ h / 32 = mk_hdr (mt_code mt) gid / 32 /\ h mod 16 = mk_hdr (mt_code mt) gid mod 16) as Sh.
  { intros mt gid oid pl Hh Hp Hm. apply (received_shape _ _ 0 0). unfold wire in E. rewrite Hp in E. cbn [mbind option_bind] in E.
    apply (inj Some) in E. subst b. destruct m; try done; cbn [msg_header] in *; by injection Hh as <- <- <-. }
  destruct m; cbn [wf_msg multicast_response] in *; try discriminate NM; destruct_and?; cbn [msg_header msg_payload py_shows] in *.
  - split_head Sh. core MtResponse. one_status.
  - split_head Sh. core MtNotification. by destruct s.
  - rewrite enc_vec8_short in Sh by done. split_head Sh. core MtResponse. here. unfold with_length. need.
    match goal with |- context [py_slice ?a ?d] => change a with (N.of_nat (length vendor)); change d with vendor end.
    rewrite py_slice_all. cbn [mbind option_bind]. do 2 f_equal.
    f_equal. f_equal; try reflexivity; by apply (le_nat_bytes 2), w16.
  - rewrite (enc_tlv_short id byte) in Sh by done. split_head Sh. core MtResponse. here. unfold with_count. need.
    change (py_at 1 _) with (N.of_nat (length tlvs)). change (drop 2 (status :: ?a :: ?l)) with l.
    by rewrite (py_tlvs_ok _ id byte) by done.
  - rewrite (enc_status_short id) in Sh by done. split_head Sh. core MtResponse. here. unfold with_count. need.
    change (py_at 1 _) with (N.of_nat (length parameters)). change (drop 2 (status :: ?a :: ?l)) with l.
    by rewrite (py_statuses_ok _ id byte) by done.
  - rewrite (enc_tlv_short id byte) in Sh by done. split_head Sh. core MtResponse. here. unfold with_count. need.
    change (py_at 1 _) with (N.of_nat (length parameters)). change (drop 2 (status :: ?a :: ?l)) with l.
    by rewrite (py_tlvs_ok _ id byte) by done.
  - split_head Sh. config MtResponse. rewrite py_children_fail by reflexivity. one_status.
  - split_head Sh. config MtResponse. one_status.
  - split_head Sh. config MtNotification. here. need.
    change (py_at 4 _) with (ss_code s). change (py_at 5 _) with reason. word32 token. by destruct s.
  - rewrite (enc_status_short tlv_byte) in Sh by done. split_head Sh. config MtResponse. here. unfold with_count. need.
    change (py_at 1 _) with (N.of_nat (length cfg)). change (drop 2 (status :: ?a :: ?l)) with l.
    by rewrite (py_statuses_ok _ tlv_byte known_id) by (done || apply py_id_known).
  - rewrite (enc_tlv_short tlv_byte known_id) in Sh by done. split_head Sh. config MtResponse. here. unfold with_count. need.
    change (py_at 1 _) with (N.of_nat (length tlvs)). change (drop 2 (status :: ?a :: ?l)) with l.
    by rewrite (py_tlvs_ok _ tlv_byte known_id) by (done || apply py_id_known).
  - split_head Sh. config MtResponse. here. need. done.
  - split_head Sh. config MtResponse. here. need. by destruct s.
  - rewrite enc_address_short in Sh by done. split_head Sh. config MtNotification. here. unfold with_count. need.
    change (py_at 4 _) with (N.of_nat (length l)). word32 token.
    match goal with |- context [drop 5 ?a] => change (drop 5 a) with (concat (map (enc_pair (fun b : bytes => b) (fun b => [b])) l)) end.
    rewrite <- (app_nil_r (concat _)). rewrite (py_array_ok 3 _ (enc_pair (fun b : bytes => b) (fun b => [b])) _ _ _ py_controlee_ok) by done. done.
  - split_head Sh. control MtNotification. here. need. change (py_at 4 _) with credit. word32 token.
    unfold py_CreditAvailability. by rewrite (py_enum_le _ _ 1) by (reflexivity || lia).
  - split_head Sh. control MtNotification. here. need. change (py_at 4 _) with seq. change (py_at 5 _) with status. word32 token.
    unfold py_DataTransferNtfStatusCode. by rewrite (py_enum_le _ _ 7) by (reflexivity || lia).
  - split_head Sh. control MtResponse. one_status.
  - erewrite (enc_counted_short _ enc_measurement wf_measurement) in Sh by done. cbn [mbind option_bind] in Sh. split_head Sh. control MtNotification. here.
    by apply py_info_ok.
  - split_head Sh. control MtResponse. one_status.
  - split_head Sh. control MtResponse. here. need. do 3 f_equal. change (py_int 1 5 _) with (le_nat (le_bytes 4 count)).
    by rewrite (le_nat_bytes 4) by by apply w32.
  - split_head Sh. android MtResponse. here. need. do 3 f_equal. by f_equal; apply (le_nat_bytes 4), w32.
  - split_head Sh. android MtResponse. one_status.
  - unfold wire in E. cbn [msg_payload mbind option_bind app] in E. apply (inj Some) in E. subst b.
    apply received_shape in R as (h & r & x & -> & E1 & E2). exists r, x.
    match goal with H : gid < 16, H1 : defined_group gid = false, H2 : reserved_group gid = false |- _ =>
      assert (In gid [3; 9; 10; 11; 13; 14; 15]) as G
        by (apply (small_byte_sweep gid (fun g => implb (negb (defined_group g) && negb (reserved_group g)) (existsb (N.eqb g) [3; 9; 10; 11; 13; 14; 15]))) in H;
            [rewrite H1, H2 in H; by apply existsb_In in H|reflexivity]); clear H1 H2 end.
    repeat (destruct G as [<-|G]; [destruct (head_cases h _ _ E1 E2) as [-> | ->]; reflexivity|]). destruct G.
  - unfold wire in E. cbn [msg_payload mbind option_bind app] in E. apply (inj Some) in E. subst b.
    apply received_shape in R as (h & r & x & -> & E1 & E2).
    match goal with H : reserved_group gid = true |- _ => apply existsb_In in H; rename H into G end.
    repeat (destruct G as [<-|G]; [destruct (head_cases h _ _ E1 E2) as [-> | ->]; reflexivity|]). destruct G.
  - unfold wire in E. cbn [msg_payload] in E. unfold enc_vec16 in E.
    match goal with H : N.of_nat (length data) <= 65535 |- _ => rewrite (proj2 (N.leb_le _ _) H) in E end.
    cbn [mbind option_bind app] in E. apply (inj Some) in E. subst b.
    apply received_shape in R as (h & r & x & -> & E1 & E2). by apply py_data_ok.
Qed.

(** The response to a multicast update is not recognised: the class of the library has only the status. *)
Lemma py_children_remain c l mt oid pl x y r : c_parse c pl = Some (x, y :: r) -> py_children (c :: l) mt oid pl = py_children l mt oid pl.
Proof. intros E. cbn [py_children]. rewrite E. by destruct (_ && _). Qed.
Lemma py_wire_multicast st l b p : wf_msg (SessionUpdateControllerMulticastListRsp st l) ->
  wire (SessionUpdateControllerMulticastListRsp st l) = Some b -> received_as b p ->
  exists payload, py_parse p = Some (PySessionConfigPacket MtResponse 7 (st :: N.of_nat (length l) :: payload)).
Proof.
  cbn [wf_msg]. intros (W & L & F) E R. unfold wire in E. cbn [msg_payload] in E. rewrite enc_address_short in E by done.
  cbn [mbind option_bind msg_header app] in E. apply (inj Some) in E. subst b.
  apply received_shape in R as (h & r & x & -> & E1 & E2). eexists. config MtResponse. at_class.
  unfold with_count. erewrite py_children_remain by (cbn [c_parse]; unfold py_status; need; reflexivity). at_class. reflexivity.
Qed.

Lemma py_sees ms bs s : Forall wf_msg ms -> mapM wire ms = Some bs -> write_stream bs = Some s ->
  Forall2 (fun m p => exists b, wire m = Some b /\ received_as b p) ms (py_read_stream s).
Proof.
  intros W M S. apply mapM_Some in M.
  assert (Forall (fun m => wf_bytes m /\ (4 < length m)%nat /\ pkt_mt m < 4) bs) as F.
  { clear S. induction M; inversion W; subst; constructor; eauto using wire_wf. }
  pose proof (py_read_written _ _ F S) as R. clear S W F. revert R. generalize (py_read_stream s) as ps.
  induction M as [|m b ms bs Hm M IH]; intros ps R; inversion R; subst; constructor; eauto.
Qed.

(** ** Commands *)
Lemma py_ser_int_eq k v : v < 256 ^ N.of_nat k -> py_ser_int k v = le_bytes k v.
Proof.
  intros H. unfold py_ser_int. rewrite N.land_ones, N.mod_small; [done|]. rewrite N.pow_mul_r. exact H.
Qed.
Lemma py_ser_list_eq {A} (f : A -> bytes) l : short_list l -> py_ser_list f l = with_count f l.
Proof. intros H. unfold py_ser_list. by rewrite take_ge. Qed.
Lemma py_ser_tlv_eq id v : short_list v -> py_ser_tlv id v = id :: with_length v.
Proof. intros H. unfold py_ser_tlv. by rewrite take_ge. Qed.
Lemma with_count_ext {A} (f g : A -> bytes) l : Forall (fun x => f x = g x) l -> with_count f l = with_count g l.
Proof. intros F. unfold with_count. f_equal. f_equal. induction F; cbn [map]; congruence. Qed.
Lemma py_ser_args_eq c : wf_cmd c -> py_ser_args c = cmd_args c.
Proof.
  destruct c; cbn [wf_cmd py_ser_args cmd_args]; intros W; destruct_and?; try done;
    rewrite ?(py_ser_int_eq 4) by (by apply w32); try done.
  - rewrite py_ser_list_eq by done. apply with_count_ext. eapply Forall_impl; [eassumption|]. intros [t v] (? & ? & ?). by apply py_ser_tlv_eq.
  - by rewrite py_ser_list_eq.
  - rewrite py_ser_list_eq by done. f_equal. apply with_count_ext. eapply Forall_impl; [eassumption|]. intros [t v] (? & ? & ?). by apply py_ser_tlv_eq.
  - by rewrite py_ser_list_eq.
Qed.
Lemma cmd_args_wf c : wf_cmd c -> wf_bytes (cmd_args c).
Proof.
  destruct c; cbn [wf_cmd cmd_args]; intros W; destruct_and?; rewrite ?wf_bytes_app; split_and?; try apply le_bytes_wf; try done; try (by constructor).
  - subst. by repeat constructor.
  - apply wf_with_count; [done|]. eapply Forall_impl; [eassumption|]. intros [t v] (? & ? & ?). apply wf_bytes_cons. split; [done|]. by apply wf_with_length.
  - apply wf_with_count; [done|]. eapply Forall_impl; [eassumption|]. intros t ?. by apply wf_bytes_one.
  - apply wf_bytes_one. unfold byte. match goal with H : In _ _ |- _ => cbn [In] in H; lia end.
  - apply wf_with_count; [done|]. eapply Forall_impl; [eassumption|]. intros [t v] (? & ? & ?). apply wf_bytes_cons. split; [by apply known_id_byte|]. by apply wf_with_length.
  - apply wf_with_count; [done|]. eapply Forall_impl; [eassumption|]. intros t ?. by apply wf_bytes_one, known_id_byte.
  - by destruct action; repeat constructor.
Qed.

Lemma py_serialize_eq c : wf_cmd c -> py_serialize c = N.lor (cmd_gid c) 32 :: cmd_oid c :: 0 :: 0 :: cmd_args c.
Proof. intros W. unfold py_serialize. rewrite py_ser_args_eq by done. by destruct c. Qed.
Lemma py_command_ok c : wf_cmd c -> host_send_ok (HControl (py_serialize c)).
Proof.
  intros W. rewrite py_serialize_eq by done. pose proof (cmd_args_wf c W).
  cbn [host_send_ok]. split; [rewrite !wf_bytes_cons; split_and!; try done; by destruct c|]. by destruct c.
Qed.
Lemma received_encodes c p : wf_cmd c -> received_as (py_serialize c) p -> encodes c p.
Proof.
  intros W R. rewrite py_serialize_eq in R by done. apply received_shape in R as (h & r & x & -> & E1 & E2).
  exists h, (cmd_oid c), r, x. split; [done|]. split; [rewrite E1; by destruct c|]. split; [rewrite E2; by destruct c|]. by destruct c.
Qed.
Lemma py_commands_received cs : Forall (fun c => wf_cmd c /\ (length (cmd_args c) <= 255)%nat) cs ->
  exists frames packets, mapM py_send_command cs = Some frames
    /\ read_routine None (read_stream (concat frames)) = (packets, EndOfStream)
    /\ Forall2 decoded_as cs packets.
Proof.
  intros F. assert (exists frames, mapM py_send_command cs = Some frames) as [frames M].
  { induction F as [|c cs [W L] F [fs IH]]; [by exists []|]. cbn [mapM]. rewrite IH.
    unfold py_send_command. rewrite py_serialize_eq by done. unfold py_send_control. rewrite (proj2 (Nat.leb_le _ _) L). cbn. by eexists. }
  assert (mapM py_send (map (fun c => HControl (py_serialize c)) cs) = Some frames) as M'.
  { clear F. revert frames M. induction cs as [|c cs IH]; intros frames M; [done|]. cbn [map mapM] in *.
    apply bind_Some in M as (b & Hb & M). apply bind_Some in M as (bs & Hbs & M). cbn [py_send]. fold (py_send_command c). rewrite Hb. cbn [mbind option_bind].
    rewrite (IH _ Hbs). exact M. }
  assert (Forall host_send_ok (map (fun c => HControl (py_serialize c)) cs)) as O.
  { apply Forall_map. eapply Forall_impl; [exact F|]. intros c [W _]. by apply py_command_ok. }
  exists frames, frames. split; [done|]. split; [by eapply py_send_delivered|].
  destruct (py_send_frames _ _ O M') as (_ & Wf & R & _). clear M M' O. revert frames Wf R.
  induction F as [|c cs [W L] F IH]; intros frames Wf R; inversion R; subst; inversion Wf; subst; constructor; [|by apply IH].
  apply decode_command_iff; [done|]. split; [done|]. by apply received_encodes.
Qed.
Lemma py_command_too_long c : wf_cmd c -> (255 < length (cmd_args c))%nat -> py_send_command c = None.
Proof.
  intros W L. unfold py_send_command. rewrite py_serialize_eq by done. unfold py_send_control.
  destruct (Nat.leb_spec (length (cmd_args c)) 255); [lia|done].
Qed.
Lemma py_ser_controlees_eq k l : short_list l -> Forall (wf_controlee k) l -> py_ser_controlees l = with_count controlee_bytes l.
Proof.
  intros L F. unfold py_ser_controlees. rewrite py_ser_list_eq by done. apply with_count_ext. eapply Forall_impl; [exact F|].
  intros c (_ & _ & W & _). unfold py_ser_controlee, controlee_bytes. by rewrite (py_ser_int_eq 4) by by apply w32.
Qed.

(** ** Files *)
Lemma py_data_message_ok pbf handle dst seq data : pbf < 2 -> word32 handle -> word64 dst -> word16 seq -> wf_bytes data ->
  (length data <= N.to_nat 1024)%nat ->
  exists q p, py_send_data_message pbf handle dst seq data = Some p /\ py_send_data q = Some p /\ host_send_ok (HData q)
    /\ pkt_more p = pbf /\ data_message handle dst seq data p.
Proof.
  intros P W1 W2 W3 W4 L. assert (N.of_nat (length data) <= 1024) as L' by lia. clear L.
  set (body := le_bytes 4 handle ++ le_bytes 8 dst ++ le_bytes 2 seq ++ le_bytes 2 (N.of_nat (length data)) ++ data).
  assert (py_serialize_data pbf handle dst seq data = Some (N.lor 1 (N.lor (N.shiftl pbf 4) (N.shiftl 0 5)) :: 0 :: 0 :: 0 :: body)) as Eq.
  { unfold py_serialize_data. rewrite (proj2 (N.ltb_lt _ _)) by lia. rewrite (py_ser_int_eq 4) by by apply w32.
    rewrite (py_ser_int_eq 8) by by apply w64. rewrite (py_ser_int_eq 2) by by apply w16. reflexivity. }
  assert (wf_bytes body) as Wb by (unfold body; rewrite !wf_bytes_app; split_and!; try apply le_bytes_wf; done).
  assert (N.of_nat (length body) = 16 + N.of_nat (length data)) as Lb by (unfold body; rewrite !app_length, !le_bytes_length; lia).
  set (h0 := N.lor 1 (N.lor (N.shiftl pbf 4) (N.shiftl 0 5))) in *.
  assert (h0 < 256 /\ h0 / 32 = 0 /\ h0 mod 16 = 1 /\ (h0 / 16) mod 2 = pbf) as (H0 & H1 & H2 & H3).
  { assert (pbf = 0 \/ pbf = 1) as [-> | ->] by lia; done. }
  exists (h0 :: 0 :: 0 :: 0 :: body), (h0 :: 0 :: le_bytes 2 (N.of_nat (length body)) ++ body).
  assert (py_send_data (h0 :: 0 :: 0 :: 0 :: body) = Some (h0 :: 0 :: le_bytes 2 (N.of_nat (length body)) ++ body)) as Es.
  { unfold py_send_data. by rewrite (proj2 (N.ltb_lt _ _)) by lia. }
  split_and!.
  - unfold py_send_data_message. rewrite Eq. exact Es.
  - exact Es.
  - cbn [host_send_ok]. split; [by rewrite !wf_bytes_cons|]. unfold TransportSpec.is_data, pkt_mt. cbn [hd]. by rewrite H1.
  - exact H3.
  - split_and!; try done; [lia|]. unfold encodes_data_snd. eexists h0, 0, _, _. split; [reflexivity|]. done.
Qed.

Lemma numbered_cons handle dst i part p parts frames : data_message handle dst (N.of_nat i mod 65535) part p ->
  numbered handle dst (S i) parts frames -> numbered handle dst i (part :: parts) (p :: frames).
Proof.
  intros D [L N]. split; [cbn; lia|]. intros [|k] part'; cbn.
  - intros [= <-]. exists p. by rewrite Nat.add_0_r.
  - intros H. destruct (N _ _ H) as (p' & Hp & D'). exists p'. by rewrite Nat.add_succ_r.
Qed.
Lemma py_transfer_loop_ok handle dst : word32 handle -> word64 dst -> forall fuel rest i, wf_bytes rest -> rest <> [] -> (length rest <= fuel)%nat ->
  exists qs frames parts, py_transfer_loop fuel handle dst (N.of_nat i mod 65535) rest = Some frames
    /\ mapM py_send (map HData qs) = Some frames /\ Forall host_send_ok (map HData qs) /\ boundary_flags frames /\ frames <> []
    /\ concat parts = rest /\ Forall (fun part => 0 < N.of_nat (length part) <= 1024) parts /\ numbered handle dst i parts frames.
Proof.
  intros W1 W2. induction fuel as [|fuel IH]; intros rest i W N L; [destruct rest; [done|cbn in L; lia]|].
  cbn [py_transfer_loop]. destruct rest as [|b0 rest0] eqn:Er; [done|]. rewrite <- Er in *. clear N.
  assert (0 < length rest)%nat as L0 by (rewrite Er; cbn; lia). clear b0 rest0 Er.
  assert (word16 (N.of_nat i mod 65535)) as Ws by (unfold word16; pose proof (N.mod_lt (N.of_nat i) 65535); lia).
  assert (wf_bytes (take CONSOLE_MAX rest)) as Wt by by apply Forall_take.
  assert (length (take CONSOLE_MAX rest) <= N.to_nat 1024)%nat as Lt by (rewrite take_length; unfold CONSOLE_MAX; lia).
  assert (0 < N.of_nat (length (take CONSOLE_MAX rest)) <= 1024) as Lt' by (rewrite take_length in *; unfold CONSOLE_MAX in *; lia).
  assert (forall pbf, pbf < 2 -> _) as Dm by (intros pbf P; exact (py_data_message_ok pbf handle dst _ _ P W1 W2 Ws Wt Lt)).
  cbv zeta. destruct (Nat.leb_spec (length rest) CONSOLE_MAX) as [Le|Gt].
  - destruct (Dm PBF_COMPLETE ltac:(done)) as (q & p & -> & E2 & Ok & M & D). cbn [mbind option_bind].
    rewrite drop_ge by done. assert (forall s, py_transfer_loop fuel handle dst s [] = Some []) as -> by (by destruct fuel).
    exists [q], [p], [rest]. rewrite take_ge in * by done. cbn. rewrite E2, app_nil_r.
    split_and!; try done; [constructor; [done|constructor]| |by apply numbered_cons].
    constructor; [done|constructor].
  - destruct (Dm PBF_NOT_COMPLETE ltac:(done)) as (q & p & -> & E2 & Ok & M & D). cbn [mbind option_bind].
    assert ((if 65535 <=? N.of_nat i mod 65535 + 1 then 0 else N.of_nat i mod 65535 + 1) = N.of_nat (S i) mod 65535) as ->.
    { rewrite Nat2N.inj_succ, <- N.add_1_l. pose proof (N.mod_lt (N.of_nat i) 65535 ltac:(done)) as Lm.
      rewrite (N.add_comm 1), <- (N.add_mod_idemp_l (N.of_nat i) 1) by done. destruct (N.leb_spec 65535 (N.of_nat i mod 65535 + 1)).
      - replace (N.of_nat i mod 65535 + 1) with 65535 by lia. done.
      - by rewrite (N.mod_small (N.of_nat i mod 65535 + 1)) by done. }
    destruct (IH (drop CONSOLE_MAX rest) (S i)) as (qs & frames & parts & -> & Em & Of & Fl & Ne & Ec & Lp & Nb).
    { by apply Forall_drop. }
    { intros E. apply (f_equal length) in E. rewrite drop_length in E. cbn [length] in E. lia. }
    { rewrite drop_length. unfold CONSOLE_MAX in *. lia. }
    cbn [mbind option_bind]. exists (q :: qs), (p :: frames), (take CONSOLE_MAX rest :: parts).
    split_and!; try done.
    + cbn [map mapM py_send]. rewrite E2. cbn [mbind option_bind]. by rewrite Em.
    + by constructor.
    + destruct frames; [done|]. by split.
    + cbn [concat]. by rewrite Ec, take_drop.
    + by constructor.
    + by apply numbered_cons.
Qed.
Lemma py_transfer_ok handle dst file : word32 handle -> word64 dst -> wf_bytes file ->
  exists frames parts, py_data_transfer handle dst file = Some frames
    /\ read_routine None (read_stream (concat frames)) = (frames, EndOfStream) /\ boundary_flags frames /\ Forall wf_bytes frames
    /\ concat parts = file /\ Forall (fun part => N.of_nat (length part) <= 1024) parts /\ numbered handle dst 0 parts frames.
Proof.
  intros W1 W2 W. unfold py_data_transfer. destruct (Nat.ltb_spec CONSOLE_MAX (length file)) as [G|G].
  - destruct (py_transfer_loop_ok handle dst W1 W2 (length file) file 0 W) as (qs & frames & parts & E & Em & Of & Fl & Ne & Ec & Lp & Nb).
    { intros ->. cbn in G. lia. }
    { done. }
    change (N.of_nat 0 mod 65535) with 0 in E. exists frames, parts. split_and!; try done.
    + by eapply py_send_delivered.
    + by destruct (py_send_frames _ _ Of Em) as (_ & ? & _).
    + eapply Forall_impl; [exact Lp|]. intros ? [_ ?]. done.
  - destruct (py_data_message_ok PBF_COMPLETE handle dst 0 file) as (q & p & -> & E2 & Ok & M & D); try done.
    cbn [mbind option_bind]. exists [p], [file].
    assert (mapM py_send [HData q] = Some [p]) as Em by (cbn; by rewrite E2).
    assert (Forall host_send_ok [HData q]) as Of by (constructor; [exact Ok|constructor]).
    split_and!; try done.
    + by eapply py_send_delivered.
    + by destruct (py_send_frames _ _ Of Em) as (_ & ? & _).
    + cbn. by rewrite app_nil_r.
    + constructor; [unfold CONSOLE_MAX in G; lia|constructor].
    + by apply numbered_cons.
Qed.

(** The packets processed one after the other. *)
Lemma data_step e p h id s dst seq data packet : reachable p -> session_at p h id = Some s -> s_type s = 1 -> wf_bytes packet ->
  data_message id dst seq data packet ->
  exists p' outs, step e p (UciPacket h packet) = Ret (p', outs) /\ session_at p' h id = Some (s_set_data (s_data s ++ data) s)
    /\ sent h outs = [SessionDataCreditNtf id 1].
Proof.
  intros R S T W D. pose proof (data_message_hd _ _ _ _ _ D) as Hd. pose proof (data_message_decode _ _ _ _ _ W D) as Dd.
  unfold session_at in S. destruct (p_devices p !! h) as [d|] eqn:L; [|discriminate]. cbn [mbind option_bind] in S.
  assert (s_id s = id) as Si. { apply reachable_pinv in R. destruct (pi_device _ _ R _ _ L) as (I & _). by apply (so_id _ _ (di_session _ _ I _ _ S)). }
  cbn [step]. unfold uci_packet. rewrite L. unfold receive_packet. destruct packet as [|x rest]; [discriminate|].
  pose proof W as W0. apply wf_bytes_cons in W0 as [Hx _]. cbn [hd] in Hd. rewrite (proj2 (parse_message_type_data x Hx) Hd), Dd.
  cbn [device_data_message_snd]. rewrite S. unfold session_data_message_snd, FIRA_RANGING_AND_IN_BAND_DATA_SESSION. rewrite T, Si, !N.eqb_refl.
  cbn [negb N.eqb Pos.eqb obind]. eexists _, _. split; [reflexivity|]. split.
  - unfold session_at. cbn [p_devices p_set_device p_set_devices]. rewrite lookup_insert. cbn [mbind option_bind d_sessions d_set_sessions]. by rewrite lookup_insert.
  - cbn. by rewrite N.eqb_refl.
Qed.
Lemma transfer_run handle dst h : forall parts frames i p s l, reachable p -> session_at p h handle = Some s -> s_type s = 1 ->
  Forall wf_bytes frames -> numbered handle dst i parts frames ->
  map snd l = map (UciPacket h) frames -> Forall wf_env l.*1 ->
  exists p' outs, run p l = Ret (p', outs) /\ reachable p' /\ session_at p' h handle = Some (s_set_data (s_data s ++ concat parts) s)
    /\ sent h outs = repeat (SessionDataCreditNtf handle 1) (length frames).
Proof.
  induction parts as [|part parts IH]; intros frames i p s l R S T W [Ln Nb] El We.
  - destruct frames; [|discriminate]. destruct l; [|discriminate]. exists p, []. split; [done|]. split; [done|]. cbn. rewrite app_nil_r.
    split; [by destruct s|done].
  - destruct frames as [|q frames]; [discriminate|]. destruct l as [|[e o] l]; [discriminate|]. cbn in El. injection El as -> El.
    cbn in We. apply Forall_cons in We as [We1 We]. apply Forall_cons in W as [W1 W].
    destruct (Nb 0%nat part eq_refl) as (q' & Eq & D). injection Eq as <-.
    destruct (data_step e p h handle s dst _ part q R S T W1 D) as (p1 & o1 & H1 & S1 & N1).
    assert (reachable p1) as R1. { destruct R as (l0 & o0 & R). exists (l0 ++ [(e, UciPacket h q)]), (o0 ++ o1). by eapply reaches_snoc. }
    destruct (IH frames (Datatypes.S i) p1 _ l R1 S1 T W) as (p2 & o2 & H2 & R2 & S2 & N2); [|done|done|].
    { split; [cbn in Ln; lia|]. intros k part' Hk. destruct (Nb (Datatypes.S k) part' Hk) as (q' & Eq & D'). exists q'. split; [done|].
      by rewrite Nat.add_succ_r in D'. }
    cbn [run]. rewrite H1. cbn [obind]. rewrite H2. cbn [obind]. eexists _, _. split; [reflexivity|]. split; [done|]. split.
    + rewrite S2. cbn [concat s_data s_set_data]. rewrite app_assoc. done.
    + rewrite sent_app, N1, N2. done.
Qed.

Lemma transfer_round e p h id s k p' outs : reachable p -> session_at p h id = Some s -> receives e p h id s k ->
  step e p (Ranging h id) = Ret (p', outs) -> exists src, data_received k outs = [(id, 0x00, src, 1, s_data s)].
Proof.
  intros R S Rk H. pose proof (reachable_pinv _ R) as I.
  destruct (round_spec _ _ _ _ _ _ _ I H) as (s0 & s' & ms & ks & peers & S0 & _ & _ & Np & _ & _ & P & m & ms1 & _ & _ & O).
  rewrite S in S0. injection S0 as <-. apply P in Rk.
  assert (data_received k (map (fun k => OEff k (Send (DataMessageRcv id 0 (mac_to_u64 m) 1 (s_data s)))) peers)
      = [(id, 0x00, mac_to_u64 m, 1, s_data s)]) as E.
  { unfold data_received. rewrite messages_sends by done. by rewrite bool_decide_eq_true_2. }
  exists (mac_to_u64 m). destruct O as [(_ & _ & ->)|(_ & _ & ->)]; [|done].
  rewrite data_received_app, E. unfold data_received. rewrite messages_one. destruct (h =? k); cbn; by rewrite ?app_nil_r.
Qed.
Lemma transfer_round_crash e p h id s k : reachable p -> session_at p h id = Some s -> receives e p h id s k ->
  65535 < N.of_nat (length (s_data s)) -> crashed (step e p (Ranging h id)) = true.
Proof.
  intros R S Rk L. apply (op_crash _ e p (Ranging h id) (reachable_pinv _ R)); [done|]. apply FatalRound. eapply RoundData; eauto.
Qed.

(** ** Executions of the whole system *)
Lemma processed_read ls y h e packet : executed ls y -> In (e, UciPacket h packet) (processed ls sys_new) ->
  In (LRead h packet) ls.
Proof.
  revert ls y. refine (executed_ind _ _ _); [done|]. intros ls y l y' Ex IH W C M S Hi.
  rewrite (processed_snoc _ _ _ _ _ (proj2 Ex) S) in Hi. apply in_or_app. apply in_app_or in Hi as [Hi|Hi]; [left; by apply IH|].
  left. destruct l; cbn [taken] in Hi; try done.
  - destruct (y_queue y) as [|o q] eqn:Q; [done|]. destruct (crashed _); [done|]. destruct Hi as [Hi|[]]. injection Hi as -> ->.
    pose proof (packets_in_order _ _ h Ex C) as P. rewrite Q in P.
    assert (In packet (packets_read h ls)) as Hp.
    { rewrite <- P. apply in_or_app. right. unfold packets. cbn. rewrite N.eqb_refl. by left. }
    unfold packets_read in Hp. apply in_concat in Hp as (x & Hx & Hp). apply in_map_iff in Hx as (l & <- & Hl).
    destruct l; cbn in Hp; try done. destruct (N.eqb_spec h0 h) as [->|]; [|done]. by destruct Hp as [->|[]].
  - by destruct Hi as [Hi|[]].
  - by destruct Hi as [Hi|[]].
Qed.
Lemma reaches_wf l p outs h : reaches l p outs -> (forall e k packet, In (e, UciPacket k packet) l -> hd 0 packet / 32 < 4) ->
  Forall wf_msg (messages h outs).
Proof.
  revert l p outs. refine (reaches_ind _ _ _); [constructor|].
  intros l p outs e o p' outs' R IH We Wo St K. rewrite messages_app. apply Forall_app. split.
  - apply IH. intros. eapply K. apply in_or_app. by left.
  - pose proof (step_messages _ _ _ _ _ _ h (reachable_pinv _ (ex_intro _ l (ex_intro _ outs R))) We Wo St) as F.
    eapply Forall_impl; [exact F|]. intros m [?|(h' & a & b & rest & st & -> & Ha & _)]; [done|].
    exfalso. specialize (K e h' (a :: b :: rest)). cbn in K. assert (a / 32 < 4); [|lia]. apply K, in_or_app. right. by left.
Qed.
Lemma delivered_wf ls y h : executed ls y -> Forall known_type ls -> Forall wf_msg (delivered h y).
Proof.
  intros Ex K. destruct (executed_sinv _ _ Ex) as (outs & I). destruct (si_msgs _ _ _ I h) as (lost & P & _).
  assert (Forall wf_msg (messages h outs)) as F.
  { eapply reaches_wf; [apply (si_reach _ _ _ I)|]. intros e k packet Hi. apply (processed_read _ _ _ _ _ Ex) in Hi.
    rewrite Forall_forall in K. apply elem_of_list_In, K in Hi. done. }
  rewrite <- P in F. by apply Forall_app in F as [F _].
Qed.
Lemma wire_some m : wf_msg m -> is_Some (wire m).
Proof. intros W. destruct (wire_decode m W) as (b & E & _). by exists b. Qed.
Lemma py_sees_all ms : Forall wf_msg ms -> exists bs s, mapM wire ms = Some bs /\ write_stream bs = Some s
  /\ Forall2 (fun m p => multicast_response m = false -> py_shows m p) ms (py_read_stream s).
Proof.
  intros W. assert (is_Some (mapM wire ms)) as [bs M]. { apply mapM_is_Some. eapply Forall_impl; [exact W|]. apply wire_some. }
  assert (Forall (fun m => m <> []) bs) as Ne.
  { apply mapM_Some in M. clear -M W. induction M; inversion W; subst; constructor; eauto. intros ->. by destruct (wire_wf _ _ H2 H) as (_ & ? & _); cbn in *; lia. }
  destruct (write_stream_defined _ Ne) as [s S]. exists bs, s. split_and!; try done.
  pose proof (py_sees _ _ _ W M S) as F. clear M S Ne. revert W. generalize dependent (py_read_stream s). intros ps F W.
  induction F as [|m p ms ps (b & E & R) F IH]; inversion W; subst; constructor; [|by apply IH]. intros Nm. by eapply py_wire_shows.
Qed.
