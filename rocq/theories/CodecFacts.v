(** Proofs about the codec. *)
From Verif Require Import Base Uci MacAddress Codec CodecSpec BaseFacts AppConfigSpec AppConfigFacts.

Local Arguments le_bytes : simpl never.
Local Arguments le_nat : simpl never.
Local Arguments p_uint : simpl never.
Local Arguments p_bytes : simpl never.

(** ** Elementary decoders and their inverse *)
Definition fwd {A} (p : bytes -> option (A * bytes)) (enc : A -> bytes) (ok : A -> Prop) : Prop :=
  forall x r, ok x -> p (enc x ++ r) = Some (x, r).
Definition bwd {A} (p : bytes -> option (A * bytes)) (enc : A -> bytes) (ok : A -> Prop) : Prop :=
  forall b x r, wf_bytes b -> p b = Some (x, r) -> b = enc x ++ r /\ ok x /\ wf_bytes r.

Lemma take_app_length' {A} (l r : list A) k : length l = k -> take k (l ++ r) = l.
Proof. intros <-. apply take_app. Qed.
Lemma drop_app_length' {A} (l r : list A) k : length l = k -> drop k (l ++ r) = r.
Proof. intros <-. apply drop_app. Qed.

Lemma fwd_bytes k : fwd (p_bytes k) (fun l => l) (fun l => length l = k).
Proof.
  intros l r H. unfold p_bytes. rewrite app_length.
  destruct (Nat.ltb_spec (length l + length r) k); [lia|].
  by rewrite take_app_length', drop_app_length'.
Qed.
Lemma bwd_bytes k : bwd (p_bytes k) (fun l => l) (fun l => length l = k /\ wf_bytes l).
Proof.
  intros b l r W H. unfold p_bytes in H. destruct (Nat.ltb_spec (length b) k); [discriminate|].
  injection H as <- <-. rewrite take_drop, take_length.
  split_and!; auto using wf_bytes_take, wf_bytes_drop. lia.
Qed.
Lemma fwd_uint k : fwd (p_uint k) (le_bytes k) (fun n => n < 256 ^ N.of_nat k).
Proof.
  intros n r H. unfold p_uint. rewrite app_length, le_bytes_length.
  destruct (Nat.ltb_spec (k + length r) k); [lia|].
  rewrite take_app_length', drop_app_length' by apply le_bytes_length. by rewrite le_nat_bytes.
Qed.
Lemma bwd_uint k : bwd (p_uint k) (le_bytes k) (fun n => n < 256 ^ N.of_nat k).
Proof.
  intros b n r W H. unfold p_uint in H. destruct (Nat.ltb_spec (length b) k); [discriminate|].
  injection H as <- <-.
  assert (length (take k b) = k) as L by (rewrite take_length; lia).
  assert (wf_bytes (take k b)) as W' by by apply wf_bytes_take.
  pose proof (le_bytes_nat _ W') as E. pose proof (le_nat_bound _ W') as B.
  rewrite L in E, B. rewrite E, take_drop. auto using wf_bytes_drop.
Qed.
Lemma p_uint_1 b r : p_uint 1 (b :: r) = Some (b, r).
Proof.
  change (Some (b + 256 * 0, r) = Some (b, r)). do 2 f_equal. lia.
Qed.
Lemma fwd_u8 : fwd (p_uint 1) (fun b => [b]) byte.
Proof. intros b r _. apply p_uint_1. Qed.
Lemma bwd_u8 : bwd (p_uint 1) (fun b => [b]) byte.
Proof.
  intros b x r W H. destruct b as [|b bs]; [discriminate|]. rewrite p_uint_1 in H.
  injection H as <- <-. apply wf_bytes_cons in W as [? ?]. done.
Qed.
Lemma byte_of_short {A} (l : list A) : short_list l -> byte (N.of_nat (length l)).
Proof. unfold short_list, byte. lia. Qed.
Lemma fwd_vec8 : fwd p_vec8 with_length short_list.
Proof.
  intros l r H. unfold p_vec8, with_length. cbn [app]. rewrite p_uint_1. cbn [mbind option_bind].
  rewrite Nat2N.id. by apply fwd_bytes.
Qed.
Lemma bwd_vec8 : bwd p_vec8 with_length (fun l => short_list l /\ wf_bytes l).
Proof.
  intros b l r W H. unfold p_vec8 in H. destruct (p_uint 1 b) as [[n b']|] eqn:E; [|discriminate].
  cbn [mbind option_bind] in H. apply (bwd_u8 _ _ _ W) in E as (-> & Hn & W').
  apply (bwd_bytes _ _ _ _ W') in H as (-> & [L Wl] & Wr).
  unfold with_length. cbn [app]. unfold byte in Hn. split_and!; auto; unfold short_list; [f_equal|]; lia.
Qed.
Lemma fwd_vec16 l r : N.of_nat (length l) <= 65535 ->
  p_vec16 (le_bytes 2 (N.of_nat (length l)) ++ l ++ r) = Some (l, r).
Proof.
  intros H. unfold p_vec16. rewrite (fwd_uint 2); [|change (256 ^ N.of_nat 2) with 65536; lia].
  cbn [mbind option_bind]. rewrite Nat2N.id. by apply fwd_bytes.
Qed.
Lemma bwd_vec16 : bwd p_vec16 (fun l => le_bytes 2 (N.of_nat (length l)) ++ l)
  (fun l => N.of_nat (length l) <= 65535 /\ wf_bytes l).
Proof.
  intros b l r W H. unfold p_vec16 in H. destruct (p_uint 2 b) as [[n b']|] eqn:E; [|discriminate].
  cbn [mbind option_bind] in H. apply (bwd_uint _ _ _ _ W) in E as (-> & Hn & W').
  change (256 ^ N.of_nat 2) with 65536 in Hn.
  apply (bwd_bytes _ _ _ _ W') in H as (-> & [L Wl] & Wr).
  rewrite <- (app_assoc _ l r). split_and!; auto; [do 2 f_equal; lia|lia].
Qed.

Section arrays.
  Context {A : Type} (p : bytes -> option (A * bytes)) (enc : A -> bytes) (ok : A -> Prop).
  Lemma fwd_many l r : fwd p enc ok -> Forall ok l ->
    p_many (length l) p (concat (map enc l) ++ r) = Some (l, r).
  Proof.
    intros F. induction 1 as [|x l Hx Hl IH]; [reflexivity|]. cbn [length p_many map concat].
    rewrite <- app_assoc, (F _ _ Hx). cbn [mbind option_bind]. by rewrite IH.
  Qed.
  Lemma bwd_many n b l r : bwd p enc ok -> wf_bytes b -> p_many n p b = Some (l, r) ->
    b = concat (map enc l) ++ r /\ length l = n /\ Forall ok l /\ wf_bytes r.
  Proof.
    intros B. revert b l. induction n as [|n IH]; intros b l W H; cbn [p_many] in H.
    - injection H as <- <-. done.
    - destruct (p b) as [[x b']|] eqn:E; [|discriminate]. cbn [mbind option_bind] in H.
      destruct (p_many n p b') as [[l' b'']|] eqn:E'; [|discriminate]. cbn [mbind option_bind] in H.
      injection H as <- <-. apply (B _ _ _ W) in E as (-> & Hx & W').
      apply (IH _ _ W') in E' as (-> & L & Hl & Wr). cbn [map concat length].
      rewrite <- app_assoc. auto.
  Qed.
  Lemma fwd_counted : fwd p enc ok ->
    fwd (p_counted p) (with_count enc) (fun l => short_list l /\ Forall ok l).
  Proof.
    intros F l r [S Hl]. unfold p_counted, with_count. cbn [app]. rewrite p_uint_1.
    cbn [mbind option_bind]. rewrite Nat2N.id. by apply fwd_many.
  Qed.
  Lemma bwd_counted : bwd p enc ok ->
    bwd (p_counted p) (with_count enc) (fun l => short_list l /\ Forall ok l).
  Proof.
    intros B b l r W H. unfold p_counted in H. destruct (p_uint 1 b) as [[n b']|] eqn:E; [|discriminate].
    cbn [mbind option_bind] in H. apply (bwd_u8 _ _ _ W) in E as (-> & Hn & W').
    apply (bwd_many _ _ _ _ B W') in H as (-> & L & Hl & Wr).
    unfold with_count, short_list. unfold byte in Hn. cbn [app].
    split_and!; auto; [f_equal|]; lia.
  Qed.
End arrays.

Section pairs.
  Context {A B : Type} (p : bytes -> option (A * bytes)) (encA : A -> bytes) (okA : A -> Prop).
  Context (q : bytes -> option (B * bytes)) (encB : B -> bytes) (okB : B -> Prop).
  Definition enc_pair (x : A * B) : bytes := encA x.1 ++ encB x.2.
  Definition ok_pair (x : A * B) : Prop := okA x.1 /\ okB x.2.
  Lemma fwd_pair : fwd p encA okA -> fwd q encB okB -> fwd (pair_of p q) enc_pair ok_pair.
  Proof.
    intros F G [x y] r [Hx Hy]. unfold pair_of, enc_pair. cbn [fst snd] in *.
    rewrite <- app_assoc, (F _ _ Hx). cbn [mbind option_bind]. by rewrite (G _ _ Hy).
  Qed.
  Lemma bwd_pair : bwd p encA okA -> bwd q encB okB -> bwd (pair_of p q) enc_pair ok_pair.
  Proof.
    intros F G b [x y] r W H. unfold pair_of in H.
    destruct (p b) as [[x' b']|] eqn:E; [|discriminate]. cbn [mbind option_bind] in H.
    destruct (q b') as [[y' b'']|] eqn:E'; [|discriminate]. cbn [mbind option_bind] in H.
    injection H as <- <- <-. apply (F _ _ _ W) in E as (-> & Hx & W').
    apply (G _ _ _ W') in E' as (-> & Hy & Wr). unfold enc_pair, ok_pair. cbn [fst snd].
    rewrite <- app_assoc. done.
  Qed.
End pairs.

Section enums.
  Context {A : Type} (of_code : N -> option A) (code : A -> N) (ok : A -> Prop).
  Lemma fwd_enum : (forall x, ok x -> of_code (code x) = Some x) ->
    fwd (p_enum of_code) (fun x => [code x]) ok.
  Proof.
    intros H x r Hx. unfold p_enum. cbn [app]. rewrite p_uint_1. cbn [mbind option_bind].
    by rewrite (H _ Hx).
  Qed.
  Lemma bwd_enum : (forall n x, n < 256 -> of_code n = Some x -> n = code x /\ ok x) ->
    bwd (p_enum of_code) (fun x => [code x]) ok.
  Proof.
    intros H b x r W E. unfold p_enum in E.
    destruct (p_uint 1 b) as [[n b']|] eqn:E1; [|discriminate]. cbn [mbind option_bind] in E.
    destruct (of_code n) as [x'|] eqn:E2; [|discriminate]. cbn [mbind option_bind] in E.
    injection E as <- <-. apply (bwd_u8 _ _ _ W) in E1 as (-> & Hn & Wr).
    apply (H _ _ Hn) in E2 as [-> Hx]. done.
  Qed.
End enums.
Lemma p_end_Some {A} (x y : A) b : p_end x b = Some y -> b = [] /\ y = x.
Proof. destruct b; [intros H; by injection H|discriminate]. Qed.

Lemma fwd_id : fwd id_of (fun i => [tlv_byte i]) known_id.
Proof. apply fwd_enum. auto. Qed.
Lemma bwd_id : bwd id_of (fun i => [tlv_byte i]) known_id.
Proof.
  apply bwd_enum. intros n x _ H. apply tlv_of_byte_wf in H as [[H _] <-]. done.
Qed.
Lemma ss_of_code_spec n s : ss_of_code n = Some s <-> n = ss_code s.
Proof.
  unfold ss_of_code. split.
  - repeat (match goal with |- context [?a =? ?b] => destruct (N.eqb_spec a b) end); intros H; try discriminate;
      injection H as <-; done.
  - intros ->. by destruct s.
Qed.
Lemma ds_of_code_spec n s : ds_of_code n = Some s <-> n = ds_code s.
Proof.
  unfold ds_of_code. split.
  - repeat (match goal with |- context [?a =? ?b] => destruct (N.eqb_spec a b) end); intros H; try discriminate;
      injection H as <-; done.
  - intros ->. by destruct s.
Qed.
Lemma action_of_code_spec n s : action_of_code n = Some s <-> n = action_code s.
Proof.
  unfold action_of_code. split.
  - repeat (match goal with |- context [?a =? ?b] => destruct (N.eqb_spec a b) end); intros H; try discriminate;
      injection H as <-; done.
  - intros ->. by destruct s.
Qed.
Lemma member_spec l n x : member l n = Some x <-> x = n /\ In n l.
Proof.
  unfold member. destruct (existsb (N.eqb n) l) eqn:E.
  - apply existsb_In in E. split; [intros H; by injection H as <-|by intros [-> _]].
  - split; [discriminate|]. intros [_ H]. apply existsb_In in H. congruence.
Qed.

(** ** Encoders of the model *)
Lemma enc_vec8_short l : short_list l -> enc_vec8 l = Some (with_length l).
Proof. unfold short_list, enc_vec8. intros H. by apply Nat.leb_le in H as ->. Qed.
Lemma enc_counted_short {A} (enc : A -> option bytes) (enc' : A -> bytes) (ok : A -> Prop) l :
  (forall x, ok x -> enc x = Some (enc' x)) -> short_list l -> Forall ok l ->
  enc_counted enc l = Some (with_count enc' l).
Proof.
  intros H S Hl. unfold enc_counted. unfold short_list in S. apply Nat.leb_le in S as ->.
  replace (mapM enc l) with (Some (map enc' l)); [reflexivity|].
  symmetry. apply mapM_Some. induction Hl; constructor; auto.
Qed.

(** ** C06: messages *)
Lemma w16 n : word16 n -> n < 256 ^ N.of_nat 2. Proof. done. Qed.
Lemma w32 n : word32 n -> n < 256 ^ N.of_nat 4. Proof. done. Qed.
Lemma w64 n : word64 n -> n < 256 ^ N.of_nat 8. Proof. done. Qed.

Lemma fwd_measurement : fwd measurement_of enc_measurement wf_measurement.
Proof.
  intros m r W. destruct m as [f1 f2 f3 f4 f5 f6 f7 f8 f9 f10 f11 f12 f13 f14]. unfold wf_measurement in W. cbn in W.
  destruct_and!. unfold measurement_of, enc_measurement, u8, u16, field. cbn [m_mac_address m_status m_nlos m_distance
    m_aoa_azimuth m_aoa_azimuth_fom m_aoa_elevation m_aoa_elevation_fom
    m_aoa_destination_azimuth m_aoa_destination_azimuth_fom
    m_aoa_destination_elevation m_aoa_destination_elevation_fom m_slot_index m_rssi].
  rewrite <- ?app_assoc.
  repeat (first [rewrite p_uint_1 | rewrite (fwd_uint 2) by (by apply w16)]; cbn [mbind option_bind app]).
  rewrite app_assoc. rewrite (fwd_bytes 11) by reflexivity. done.
Qed.

Ltac step :=
  first [ rewrite p_uint_1 | rewrite (fwd_uint 2) by (by apply w16)
        | rewrite (fwd_uint 4) by (by apply w32) | rewrite (fwd_uint 8) by (by apply w64)
        | rewrite fwd_vec8 by done ]; cbn [mbind option_bind app].

Lemma fwd_nil {A} (p : bytes -> option (A * bytes)) enc ok x :
  fwd p enc ok -> ok x -> p (enc x) = Some (x, []).
Proof. intros F H. rewrite <- (app_nil_r (enc x)). by apply F. Qed.

Lemma enc_tlv_short {A} (code : A -> N) (okA : A -> Prop) (l : list (A * bytes)) :
  short_list l -> Forall (fun tv => okA tv.1 /\ short_list tv.2 /\ wf_bytes tv.2) l ->
  enc_counted (fun tv => v ← enc_vec8 tv.2; Some (code tv.1 :: v)) l
  = Some (with_count (enc_pair (fun b => [code b]) with_length) l).
Proof.
  intros S H. eapply enc_counted_short; [|done|exact H]. intros [t v] (_ & Sv & _).
  cbn [fst snd] in *. by rewrite enc_vec8_short.
Qed.
Lemma enc_status_short {A} (code : A -> N) (l : list (A * N)) : short_list l ->
  enc_counted (fun p => Some [code p.1; p.2]) l
  = Some (with_count (enc_pair (fun b => [code b]) (fun b => [b])) l).
Proof.
  intros S. apply (enc_counted_short _ _ (fun _ => True)); [|done|by apply Forall_true]. by intros [t v] _.
Qed.
Lemma enc_address_short (l : list (bytes * N)) : short_list l ->
  enc_counted (fun p => Some (p.1 ++ [p.2])) l
  = Some (with_count (enc_pair (fun b => b) (fun b => [b])) l).
Proof.
  intros S. apply (enc_counted_short _ _ (fun _ => True)); [|done|by apply Forall_true]. by intros [t v] _.
Qed.
Lemma dec_array {A} (p : bytes -> option (A * bytes)) enc (ok : A -> Prop) l :
  fwd p enc ok -> short_list l -> Forall ok l -> array p (with_count enc l) = Some (l, []).
Proof. intros F S H. apply (fwd_nil _ _ (fun l => short_list l /\ Forall ok l)); [by apply fwd_counted|done]. Qed.
Lemma dec_tlvs {A} (p : bytes -> option (A * bytes)) code (okA : A -> Prop) (l : list (A * bytes)) :
  fwd p (fun x => [code x]) okA ->
  short_list l -> Forall (fun tv => okA tv.1 /\ short_list tv.2 /\ wf_bytes tv.2) l ->
  array (pair_of p p_vec8) (with_count (enc_pair (fun x => [code x]) with_length) l) = Some (l, []).
Proof.
  intros F S H. eapply dec_array; [exact (fwd_pair _ _ _ _ _ _ F fwd_vec8)|done|].
  eapply Forall_impl; [exact H|]. intros [t v] (? & ? & ?). done.
Qed.
Lemma dec_statuses {A} (p : bytes -> option (A * bytes)) enc (okA : A -> Prop) (l : list (A * N)) :
  fwd p enc okA -> short_list l -> Forall (fun x => okA x.1 /\ byte x.2) l ->
  array (pair_of p u8) (with_count (enc_pair enc (fun b => [b])) l) = Some (l, []).
Proof. intros F S H. eapply dec_array; [exact (fwd_pair _ _ _ _ _ _ F fwd_u8)|done|exact H]. Qed.

Lemma small_byte_sweep (gid : N) (P : N -> bool) :
  forallb P [0;1;2;3;4;5;6;7;8;9;10;11;12;13;14;15] = true -> gid < 16 -> P gid = true.
Proof.
  intros H L. rewrite forallb_forall in H. apply H.
  destruct gid as [|q]; [by left|]. do 4 (destruct q as [q|q|]; try lia; try (cbn; tauto)).
Qed.

Ltac fields := unfold status_only, u8, u16, u32, u64, field; cbn [app]; repeat step.

Lemma wire_decode m : wf_msg m -> exists b, wire m = Some b /\ decode_msg b = Some m.
Proof.
  destruct m; cbn [wf_msg]; intros W; destruct_and?; unfold wire; cbn [msg_payload msg_header].
  - eexists; split; [reflexivity|]. change (status_only CoreDeviceResetRsp [status] = Some (CoreDeviceResetRsp status)).
    by fields.
  - eexists; split; [reflexivity|]. by destruct s.
  - rewrite enc_vec8_short by done. eexists; split; [reflexivity|]. cbn [mbind option_bind app].
    match goal with |- decode_msg (_ :: _ :: _ :: _ :: ?b) = ?r => change (decode_core_response 2 b = r) end.
    cbn -[le_bytes p_uint p_vec8 with_length]. fields.
    by rewrite (fwd_nil _ _ _ _ fwd_vec8).
  - rewrite (enc_tlv_short id byte) by done. eexists; split; [reflexivity|]. cbn [mbind option_bind app].
    match goal with |- decode_msg (_ :: _ :: _ :: _ :: ?b) = ?r => change (decode_core_response 3 b = r) end.
    cbn -[p_uint array with_count]. fields. by rewrite (dec_tlvs _ id byte _ fwd_u8).
  - rewrite (enc_status_short id) by done. eexists; split; [reflexivity|]. cbn [mbind option_bind app].
    match goal with |- decode_msg (_ :: _ :: _ :: _ :: ?b) = ?r => change (decode_core_response 4 b = r) end.
    cbn -[p_uint array with_count]. fields. by rewrite (dec_statuses _ _ byte _ fwd_u8).
  - rewrite (enc_tlv_short id byte) by done. eexists; split; [reflexivity|]. cbn [mbind option_bind app].
    match goal with |- decode_msg (_ :: _ :: _ :: _ :: ?b) = ?r => change (decode_core_response 5 b = r) end.
    cbn -[p_uint array with_count]. fields. by rewrite (dec_tlvs _ id byte _ fwd_u8).
  - eexists; split; [reflexivity|]. change (status_only SessionInitRsp [status] = Some (SessionInitRsp status)). by fields.
  - eexists; split; [reflexivity|]. change (status_only SessionDeinitRsp [status] = Some (SessionDeinitRsp status)). by fields.
  - eexists; split; [reflexivity|]. cbn [mbind option_bind app].
    match goal with |- decode_msg (_ :: _ :: _ :: _ :: ?b) = ?r => change (decode_notification 1 2 b = r) end.
    cbn -[p_uint le_bytes]. fields. unfold session_state_of, p_enum. destruct s; cbn [ss_code]; fields; cbn -[p_uint]; by fields.
  - rewrite (enc_status_short tlv_byte) by done. eexists; split; [reflexivity|]. cbn [mbind option_bind app].
    match goal with |- decode_msg (_ :: _ :: _ :: _ :: ?b) = ?r => change (decode_session_config_response 3 b = r) end.
    cbn -[p_uint array with_count]. fields. by rewrite (dec_statuses _ _ known_id _ fwd_id).
  - rewrite (enc_tlv_short tlv_byte known_id) by done. eexists; split; [reflexivity|]. cbn [mbind option_bind app].
    match goal with |- decode_msg (_ :: _ :: _ :: _ :: ?b) = ?r => change (decode_session_config_response 4 b = r) end.
    cbn -[p_uint array with_count]. fields. by rewrite (dec_tlvs _ tlv_byte known_id _ fwd_id).
  - eexists; split; [reflexivity|]. cbn [mbind option_bind app].
    match goal with |- decode_msg (_ :: _ :: _ :: _ :: ?b) = ?r => change (decode_session_config_response 5 b = r) end.
    cbn -[p_uint]. by fields.
  - eexists; split; [reflexivity|]. cbn [mbind option_bind app].
    match goal with |- decode_msg (_ :: _ :: _ :: _ :: ?b) = ?r => change (decode_session_config_response 6 b = r) end.
    cbn -[p_uint]. fields. by destruct s.
  - rewrite enc_address_short by done. eexists; split; [reflexivity|]. cbn [mbind option_bind app].
    match goal with |- decode_msg (_ :: _ :: _ :: _ :: ?b) = ?r => change (decode_session_config_response 7 b = r) end.
    cbn -[p_uint array with_count]. fields.
    erewrite (dec_statuses _ _ (fun l => length l = 2%nat)); [done|apply fwd_bytes|done|].
    eapply Forall_impl; [eassumption|]. intros [t v] (? & ? & L8). cbn [fst snd] in *. split; [done|unfold byte; lia].
  - rewrite enc_address_short by done. eexists; split; [reflexivity|]. cbn [mbind option_bind app].
    match goal with |- decode_msg (_ :: _ :: _ :: _ :: ?b) = ?r => change (decode_notification 1 7 b = r) end.
    cbn -[p_uint array with_count le_bytes]. fields.
    erewrite (dec_statuses _ _ (fun l => length l = 2%nat)); [done|apply fwd_bytes|done|].
    eapply Forall_impl; [eassumption|]. intros [t v] (? & ? & L8). cbn [fst snd] in *. split; [done|unfold byte; lia].
  - eexists; split; [reflexivity|]. cbn [mbind option_bind app].
    match goal with |- decode_msg (_ :: _ :: _ :: _ :: ?b) = ?r => change (decode_notification 2 4 b = r) end.
    cbn -[p_uint le_bytes]. by fields.
  - eexists; split; [reflexivity|]. cbn [mbind option_bind app].
    match goal with |- decode_msg (_ :: _ :: _ :: _ :: ?b) = ?r => change (decode_notification 2 5 b = r) end.
    cbn -[p_uint le_bytes]. by fields.
  - eexists; split; [reflexivity|]. change (status_only SessionStartRsp [status] = Some (SessionStartRsp status)). by fields.
  - erewrite (enc_counted_short _ enc_measurement wf_measurement) by done. eexists; split; [reflexivity|]. cbn [mbind option_bind app].
    match goal with |- decode_msg (_ :: _ :: _ :: _ :: ?b) = ?r => change (decode_notification 2 0 b = r) end.
    cbn -[p_uint le_bytes p_bytes array with_count measurement_of]. rewrite <- ?app_assoc. fields.
    rewrite (fwd_bytes 8) by reflexivity. cbn -[p_uint le_bytes p_bytes array with_count measurement_of].
    unfold array, field. by rewrite (fwd_counted _ _ _ fwd_measurement).
  - eexists; split; [reflexivity|]. change (status_only SessionStopRsp [status] = Some (SessionStopRsp status)). by fields.
  - eexists; split; [reflexivity|]. cbn [mbind option_bind app].
    match goal with |- decode_msg (_ :: _ :: _ :: _ :: ?b) = ?r => change (decode_session_control_response 3 b = r) end.
    cbn -[p_uint le_bytes]. fields. by rewrite (fwd_nil _ _ _ _ (fwd_uint 4)) by by apply w32.
  - eexists; split; [reflexivity|]. cbn [mbind option_bind app].
    match goal with |- decode_msg (_ :: _ :: _ :: _ :: ?b) = ?r => change (decode_android_response 0 b = r) end.
    cbn -[p_uint le_bytes]. fields. by rewrite (fwd_nil _ _ _ _ (fwd_uint 4)) by by apply w32.
  - eexists; split; [reflexivity|]. change (status_only AndroidSetCountryCodeRsp [status] = Some (AndroidSetCountryCodeRsp status)). by fields.
  - eexists; split; [reflexivity|]. cbn [mbind option_bind app].
    assert (exists h, mk_hdr (mt_code MtResponse) gid = h /\ h / 32 = 2 /\ h mod 16 = gid) as (h & -> & E1 & E2).
    { eexists; split; [reflexivity|].
      assert (((mk_hdr (mt_code MtResponse) gid) / 32 =? 2) && ((mk_hdr (mt_code MtResponse) gid) mod 16 =? gid) = true) as E.
      { apply (small_byte_sweep _ (fun gid => ((mk_hdr (mt_code MtResponse) gid) / 32 =? 2) && ((mk_hdr (mt_code MtResponse) gid) mod 16 =? gid))); [vm_compute; reflexivity|done]. }
      apply andb_true_iff in E as [E1 E2]. split; by apply N.eqb_eq. }
    unfold decode_msg. rewrite E1, E2.
    match goal with H : defined_group gid = false, H' : reserved_group gid = false |- _ => unfold defined_group in H; cbn [existsb] in H;
      rewrite !orb_false_iff in H; destruct H as (Q1 & Q2 & Q3 & Q4 & _); rewrite Q1, Q2, Q3, Q4, H' end. done.
  - eexists; split; [reflexivity|]. cbn [mbind option_bind app].
    match goal with H : reserved_group gid = true |- _ => apply existsb_In in H;
      repeat (destruct H as [<-|H];
        [match goal with |- _ = Some (UnknownCmdRsp ?g ?o ?s) => change (status_only (UnknownCmdRsp g o) [s] = Some (UnknownCmdRsp g o s)) end|]);
      try destruct H end; by fields.
  - unfold enc_vec16. match goal with H : N.of_nat (length data) <= 65535 |- _ => rewrite (proj2 (N.leb_le _ _) H) end.
    eexists; split; [reflexivity|]. cbn [mbind option_bind app]. unfold decode_msg.
    cbn -[p_uint le_bytes p_vec16]. fields.
    rewrite <- (app_nil_r (le_bytes 2 _ ++ data)), <- app_assoc. by rewrite fwd_vec16.
Qed.

Lemma wire_inj m m' b : wf_msg m -> wf_msg m' -> wire m = Some b -> wire m' = Some b -> m = m'.
Proof.
  intros W W' E E'. destruct (wire_decode _ W) as (c & F & D), (wire_decode _ W') as (c' & F' & D').
  congruence.
Qed.

(** ** C07: commands *)
Lemma hdr_low_mod h : h < 256 -> hdr_low h = h mod 16.
Proof.
  intros H. apply N.eqb_eq. revert h H. apply (forall_bytes (fun h => hdr_low h =? h mod 16)). vm_compute. reflexivity.
Qed.
Lemma hdr_mt_div h : h < 256 -> hdr_mt h = h / 32.
Proof.
  intros H. apply N.eqb_eq. revert h H. apply (forall_bytes (fun h => hdr_mt h =? h / 32)). vm_compute. reflexivity.
Qed.
Lemma land_3f o : o < 256 -> N.land o 0x3f = o mod 64.
Proof.
  intros H. apply N.eqb_eq. revert o H. apply (forall_bytes (fun h => N.land h 0x3f =? h mod 64)). vm_compute. reflexivity.
Qed.

Lemma decode_group_cons oids o r1 r2 args : o < 256 ->
  decode_group oids (o :: r1 :: r2 :: args) = (oid ← member oids (o mod 64); Some (oid, args)).
Proof.
  intros H. unfold decode_group. rewrite p_uint_1. cbn [mbind option_bind]. rewrite land_3f by done.
  destruct (member oids (o mod 64)); [|reflexivity]. done.
Qed.
Lemma decode_group_inv oids b oid args : wf_bytes b -> decode_group oids b = Some (oid, args) ->
  exists o r1 r2, b = o :: r1 :: r2 :: args /\ o mod 64 = oid /\ In oid oids.
Proof.
  intros W H. unfold decode_group in H.
  destruct (p_uint 1 b) as [[o b']|] eqn:E; [|discriminate]. cbn [mbind option_bind] in H.
  apply (bwd_u8 _ _ _ W) in E as (-> & Ho & W').
  destruct (member oids (N.land o 63)) as [oid'|] eqn:E; [|discriminate]. cbn [mbind option_bind] in H.
  apply member_spec in E as [-> I]. rewrite land_3f in * by done.
  destruct (p_uint 2 b') as [[r b'']|] eqn:E; [|discriminate]. cbn [mbind option_bind] in H.
  injection H as <- <-. apply (bwd_uint _ _ _ _ W') in E as (-> & _ & _).
  exists o. pose proof (le_bytes_length 2 r) as L.
  destruct (le_bytes 2 r) as [|r1 [|r2 [|? ?]]]; try discriminate L. exists r1, r2. done.
Qed.
Lemma sp_spec o c : sp o = SpCommand c <-> o = Some c.
Proof. destruct o; cbn; split; congruence. Qed.

Lemma fwd_config_parameter : fwd p_config_parameter (fun p => p.1 :: with_length p.2)
  (fun p => byte p.1 /\ short_list p.2 /\ wf_bytes p.2).
Proof.
  intros [t v] r (? & ? & ?). cbn [fst snd app] in *. unfold p_config_parameter. rewrite p_uint_1.
  cbn [mbind option_bind]. by rewrite fwd_vec8.
Qed.
Lemma fwd_tlv : fwd p_app_config_tlv (fun p => tlv_byte p.1 :: with_length p.2)
  (fun p => known_id p.1 /\ short_list p.2 /\ wf_bytes p.2).
Proof.
  intros [t v] r (? & ? & ?). exact (fwd_pair _ _ _ _ _ _ fwd_id fwd_vec8 (t, v) r (conj H H0)).
Qed.
Lemma bwd_config_parameter : bwd p_config_parameter (fun p => p.1 :: with_length p.2)
  (fun p => byte p.1 /\ short_list p.2 /\ wf_bytes p.2).
Proof.
  intros b [t v] r W H. exact (bwd_pair _ _ _ _ _ _ bwd_u8 bwd_vec8 b (t, v) r W H).
Qed.
Lemma bwd_tlv : bwd p_app_config_tlv (fun p => tlv_byte p.1 :: with_length p.2)
  (fun p => known_id p.1 /\ short_list p.2 /\ wf_bytes p.2).
Proof.
  intros b [t v] r W H. exact (bwd_pair _ _ _ _ _ _ bwd_id bwd_vec8 b (t, v) r W H).
Qed.

Lemma specialize_encoded c o r1 r2 : wf_cmd c -> o < 256 -> o mod 64 = cmd_oid c ->
  specialize_command (cmd_gid c) (o :: r1 :: r2 :: cmd_args c) = SpCommand c.
Proof.
  intros W Ho E. unfold specialize_command. rewrite !decode_group_cons by done. rewrite E. clear E.
  destruct c; cbn [wf_cmd] in W; destruct_and?; cbn -[p_uint p_bytes le_bytes p_end with_count]; apply sp_spec.
  - subst. reflexivity.
  - reflexivity.
  - reflexivity.
  - by rewrite (fwd_nil _ _ _ _ (fwd_counted _ _ _ fwd_config_parameter)).
  - by rewrite (fwd_nil _ _ _ _ (fwd_counted _ _ _ fwd_u8)).
  - step. unfold p_enum. step. rewrite (proj2 (member_spec VALUES_SessionType _ _) (conj eq_refl H0)). reflexivity.
  - by rewrite (fwd_nil _ _ _ _ (fwd_uint 4)) by by apply w32.
  - step. by rewrite (fwd_nil _ _ _ _ (fwd_counted _ _ _ fwd_tlv)).
  - step. by rewrite (fwd_nil _ _ _ _ (fwd_counted _ _ _ fwd_id)).
  - reflexivity.
  - by rewrite (fwd_nil _ _ _ _ (fwd_uint 4)) by by apply w32.
  - step. unfold p_enum. step. by rewrite (proj2 (action_of_code_spec _ _) eq_refl).
  - by rewrite (fwd_nil _ _ _ _ (fwd_uint 4)) by by apply w32.
  - by rewrite (fwd_nil _ _ _ _ (fwd_uint 4)) by by apply w32.
  - by rewrite (fwd_nil _ _ _ _ (fwd_uint 4)) by by apply w32.
  - reflexivity.
  - by rewrite (fwd_nil _ _ _ _ (fwd_bytes 2)).
Qed.

(** Invert one parser of a bind. *)
Lemma bind_inv {A B} (o : option A) (f : A -> option B) y :
  (x ← o; f x) = Some y -> exists x, o = Some x /\ f x = Some y.
Proof. destruct o; cbn; [eauto|discriminate]. Qed.
Ltac inv_bind H := let x := fresh "x" in let b := fresh "b" in let E := fresh "E" in
  apply bind_inv in H as ([x b] & E & H).

Lemma bwd_session_type : bwd (p_enum (member VALUES_SessionType)) (fun x => [x]) (fun x => In x VALUES_SessionType).
Proof. apply (bwd_enum _ (fun x => x)). intros n x _ E. apply member_spec in E as [-> H]. done. Qed.
Lemma bwd_reset : bwd (p_enum (member [UWBS_RESET])) (fun x => [x]) (fun x => x = 0).
Proof.
  apply (bwd_enum _ (fun x => x)). intros n x _ E. apply member_spec in E as [-> H].
  destruct H as [<-|[]]. done.
Qed.
Lemma bwd_action : bwd (p_enum action_of_code) (fun x => [action_code x]) (fun _ => True).
Proof. apply bwd_enum. intros n x _ E. apply action_of_code_spec in E as ->. done. Qed.

Lemma specialize_sound gid b c : wf_bytes b -> specialize_command gid b = SpCommand c ->
  gid = cmd_gid c /\ wf_cmd c /\
  exists o r1 r2, b = o :: r1 :: r2 :: cmd_args c /\ o mod 64 = cmd_oid c.
Proof.
  intros W H. unfold specialize_command in H.
  assert (forall oids, match decode_group oids b with
    | Some (oid, args) => exists o r1 r2, b = o :: r1 :: r2 :: args /\ o mod 64 = oid /\ wf_bytes args
    | None => True end) as G.
  { intros oids. destruct (decode_group oids b) as [[oid args]|] eqn:E; [|done].
    apply decode_group_inv in E as (o & r1 & r2 & -> & ? & _); [|done].
    exists o, r1, r2. apply wf_bytes_cons in W as [_ W]. apply wf_bytes_cons in W as [_ W].
    apply wf_bytes_cons in W as [_ W]. done. }
  Ltac fin_bwd W4 H :=
    repeat match type of H with _ ≫= _ = Some _ => inv_bind H end;
    repeat match goal with
      | W : wf_bytes ?b, E : p_uint 4 ?b = Some _ |- _ => apply (bwd_uint _ _ _ _ W) in E as (-> & ? & ?)
      | W : wf_bytes ?b, E : p_enum (member VALUES_SessionType) ?b = Some _ |- _ => apply (bwd_session_type _ _ _ W) in E as (-> & ? & ?)
      | W : wf_bytes ?b, E : p_enum (member [UWBS_RESET]) ?b = Some _ |- _ => apply (bwd_reset _ _ _ W) in E as (-> & ? & ?)
      | W : wf_bytes ?b, E : p_enum action_of_code ?b = Some _ |- _ => apply (bwd_action _ _ _ W) in E as (-> & ? & ?)
      | W : wf_bytes ?b, E : p_counted p_config_parameter ?b = Some _ |- _ => apply (bwd_counted _ _ _ bwd_config_parameter _ _ _ W) in E as (-> & [? ?] & ?)
      | W : wf_bytes ?b, E : p_counted p_app_config_tlv ?b = Some _ |- _ => apply (bwd_counted _ _ _ bwd_tlv _ _ _ W) in E as (-> & [? ?] & ?)
      | W : wf_bytes ?b, E : p_counted (p_uint 1) ?b = Some _ |- _ => apply (bwd_counted _ _ _ bwd_u8 _ _ _ W) in E as (-> & [? ?] & ?)
      | W : wf_bytes ?b, E : p_counted (p_enum tlv_of_byte) ?b = Some _ |- _ => apply (bwd_counted _ _ _ bwd_id _ _ _ W) in E as (-> & [? ?] & ?)
      | W : wf_bytes ?b, E : p_bytes 2 ?b = Some _ |- _ => apply (bwd_bytes _ _ _ _ W) in E as (-> & [? ?] & ?)
      end;
    first [apply p_end_Some in H as [-> ->] | injection H as <-].
  destruct (N.eqb_spec gid GID_CORE) as [->|_].
  { specialize (G VALUES_CoreOpcodeId). destruct (decode_group _ b) as [[oid args]|]; [|discriminate].
    destruct G as (o & r1 & r2 & -> & Eo & Wa). clear W. unfold specialize_core in H.
    repeat (match type of H with context [?x =? ?y] => destruct (N.eqb_spec x y) as [E|_] end;
      [first [apply sp_spec in H | by destruct (p_end tt args)]|]); try discriminate;
    fin_bwd Wa H; cbn [cmd_gid cmd_oid cmd_args wf_cmd]; rewrite ?app_nil_r, ?Eo, ?E;
      (split; [reflexivity|]); (split; [done|]); exists o, r1, r2; (split; [reflexivity|]); by rewrite Eo, E.
  }
  destruct (N.eqb_spec gid GID_SESSION_CONFIG) as [->|_].
  { specialize (G VALUES_SessionConfigOpcodeId). destruct (decode_group _ b) as [[oid args]|]; [|discriminate].
    destruct G as (o & r1 & r2 & -> & Eo & Wa). clear W. unfold specialize_session_config in H.
    repeat (match type of H with context [?x =? ?y] => destruct (N.eqb_spec x y) as [E|_] end;
      [first [apply sp_spec in H | by unfold sp_unimplemented in H; repeat case_match]|]); try discriminate;
    fin_bwd Wa H; cbn [cmd_gid cmd_oid cmd_args wf_cmd]; rewrite ?app_nil_r, ?Eo, ?E;
      (split; [reflexivity|]); (split; [done|]); exists o, r1, r2; (split; [reflexivity|]); by rewrite Eo, E.
  }
  destruct (N.eqb_spec gid GID_SESSION_CONTROL) as [->|_].
  { specialize (G VALUES_SessionControlOpcodeId). destruct (decode_group _ b) as [[oid args]|]; [|discriminate].
    destruct G as (o & r1 & r2 & -> & Eo & Wa). clear W. unfold specialize_session_control in H.
    repeat (match type of H with context [?x =? ?y] => destruct (N.eqb_spec x y) as [E|_] end;
      [apply sp_spec in H|]); try discriminate;
    fin_bwd Wa H; cbn [cmd_gid cmd_oid cmd_args wf_cmd]; rewrite ?app_nil_r, ?Eo, ?E;
      (split; [reflexivity|]); (split; [done|]); exists o, r1, r2; (split; [reflexivity|]); by rewrite Eo, E.
  }
  destruct (N.eqb_spec gid GID_VENDOR_ANDROID) as [->|_]; [|discriminate].
  { specialize (G VALUES_AndroidOpcodeId). destruct (decode_group _ b) as [[oid args]|]; [|discriminate].
    destruct G as (o & r1 & r2 & -> & Eo & Wa). clear W. unfold specialize_android in H.
    repeat (match type of H with context [?x =? ?y] => destruct (N.eqb_spec x y) as [E|_] end;
      [apply sp_spec in H|]); try discriminate;
    fin_bwd Wa H; cbn [cmd_gid cmd_oid cmd_args wf_cmd]; rewrite ?app_nil_r, ?Eo, ?E;
      (split; [reflexivity|]); (split; [done|]); exists o, r1, r2; (split; [reflexivity|]); by rewrite Eo, E.
  }
Qed.

(** A packet is decoded as a command exactly when it encodes it. *)
Lemma decode_command_iff c p : wf_bytes p ->
  (exists cp, decode_control_packet p = Some cp /\ cp_mt cp = MtCommand
     /\ specialize_command (cp_gid cp) (cp_payload cp) = SpCommand c)
  <-> wf_cmd c /\ encodes c p.
Proof.
  intros W. split.
  - intros (cp & D & Hmt & S). destruct p as [|h b]; [discriminate|]. cbn [decode_control_packet] in D.
    apply wf_bytes_cons in W as [Hh W].
    destruct (valid_gid (hdr_low h)) eqn:V; [|discriminate]. cbn [negb] in D.
    destruct (mt_of_code (hdr_mt h)) as [mt|] eqn:M; [|discriminate]. cbn [mbind option_bind] in D.
    injection D as <-. cbn [cp_mt cp_gid cp_payload] in *. subst mt.
    apply mt_of_code_inv in M. rewrite hdr_mt_div in M by done.
    apply specialize_sound in S as (G & Wc & o & r1 & r2 & -> & Ho); [|done].
    split; [done|]. exists h, o, r1, r2. rewrite hdr_low_mod in G by done. done.
  - intros (Wc & h & o & r1 & r2 & -> & Hmt & G & Ho). apply wf_bytes_cons in W as [Hh W].
    exists (ControlPacket MtCommand (cmd_gid c) (o :: r1 :: r2 :: cmd_args c)).
    cbn [decode_control_packet cp_mt cp_gid cp_payload].
    rewrite hdr_mt_div, hdr_low_mod, Hmt, G by done.
    split_and!; [destruct c; reflexivity|done|]. apply wf_bytes_cons in W as [? _]. by apply specialize_encoded.
Qed.

(** The arguments determine the command: a packet encodes at most one. *)
Lemma encodes_inj c c' p : wf_bytes p -> wf_cmd c -> wf_cmd c' -> encodes c p -> encodes c' p -> c = c'.
Proof.
  intros W Wc Wc' E E'.
  destruct (proj2 (decode_command_iff c p W) (conj Wc E)) as (cp & D & _ & S).
  destruct (proj2 (decode_command_iff c' p W) (conj Wc' E')) as (cp' & D' & _ & S'). congruence.
Qed.

(** Controlees. *)
Lemma decode_controlees_spec k l : short_list l -> Forall (wf_controlee k) l ->
  decode_controlees k (with_count controlee_bytes l) = Some (map fst l).
Proof.
  intros S F. unfold decode_controlees, p_counted, with_count. rewrite p_uint_1. cbn [mbind option_bind].
  rewrite Nat2N.id.
  assert (forall r, p_many (length l) (p_controlee k) (concat (map controlee_bytes l) ++ r) = Some (map fst l, r)) as H.
  { clear S. induction F as [|[[a i] key] l (? & ? & ? & ? & ?) F IH]; intros r; [reflexivity|]. cbn [fst snd] in *.
    cbn [length p_many map concat]. rewrite <- app_assoc.
    match goal with |- context [p_controlee k (?x ++ ?y)] => assert (p_controlee k (x ++ y) = Some ((a, i), y)) as -> end.
    { unfold p_controlee, controlee_bytes. cbn [fst snd]. rewrite <- !app_assoc.
      rewrite (fwd_bytes 2) by done. cbn [mbind option_bind].
      rewrite (fwd_uint 4) by by apply w32. cbn [mbind option_bind]. by rewrite (fwd_bytes k). }
    cbn [mbind option_bind]. by rewrite IH. }
  specialize (H []). rewrite app_nil_r in H. by rewrite H.
Qed.
Lemma decode_controlees_sound k b l : wf_bytes b -> decode_controlees k b = Some l ->
  exists l', l = map fst l' /\ short_list l' /\ Forall (wf_controlee k) l' /\ b = with_count controlee_bytes l'.
Proof.
  intros W H. unfold decode_controlees in H. inv_bind H. apply p_end_Some in H as [-> ->].
  unfold p_counted in E. apply bind_inv in E as ([n b'] & E & H). apply (bwd_u8 _ _ _ W) in E as (-> & Hn & W').
  clear W. unfold byte in Hn.
  assert (forall n b l r, wf_bytes b -> p_many n (p_controlee k) b = Some (l, r) ->
    exists l', l = map fst l' /\ length l' = n /\ Forall (wf_controlee k) l' /\ b = concat (map controlee_bytes l') ++ r) as G.
  { clear. induction n as [|n IH]; intros b l r W H; cbn [p_many] in H.
    - injection H as <- <-. exists []. done.
    - inv_bind H. inv_bind H. injection H as <- <-. unfold p_controlee in E.
      inv_bind E. inv_bind E. inv_bind E. injection E as <- <-.
      apply (bwd_bytes _ _ _ _ W) in E1 as (-> & [? ?] & W1).
      apply (bwd_uint _ _ _ _ W1) in E2 as (-> & ? & W2).
      apply (bwd_bytes _ _ _ _ W2) in E3 as (-> & [? ?] & W3).
      apply (IH _ _ _ W3) in E0 as (l' & -> & L & F & ->).
      exists ((x1, x2, x3) :: l'). cbn [map concat fst length].
      split_and!; [done|congruence|by constructor; [split_and!|]|].
      unfold controlee_bytes at 2. cbn [fst snd]. by rewrite <- !app_assoc. }
  apply (G _ _ _ _ W') in H as (l' & -> & L & F & ->). exists l'. rewrite app_nil_r. split_and!; try done.
  - unfold short_list. lia.
  - unfold with_count. cbn [app]. f_equal. lia.
Qed.

(** Data messages. *)
Lemma decode_data_snd_iff handle dst seq data p : wf_bytes p -> (exists h, hd_error p = Some h /\ h / 32 = 0) ->
  decode_data_packet p = DdPacket (DataMessageSnd handle dst seq data) <->
  word32 handle /\ word64 dst /\ word16 seq /\ N.of_nat (length data) <= 65535 /\ wf_bytes data
  /\ encodes_data_snd handle dst seq data p.
Proof.
  intros W (h & Hp & Hmt). destruct p as [|h' b]; [discriminate|]. injection Hp as ->.
  apply wf_bytes_cons in W as [Hh W]. split.
  - intros H. cbn [decode_data_packet] in H. rewrite !hdr_low_mod in H by done.
    destruct (N.eqb_spec (h mod 16) DPF_DATA_SND) as [E|E]; cbn [orb] in H.
    + destruct (p_uint 3 b) as [[r b']|] eqn:E3; [|discriminate].
      apply (bwd_uint _ _ _ _ W) in E3 as (-> & _ & W').
      match type of H with match ?x with _ => _ end = _ => destruct x as [d|] eqn:E4; [|discriminate] end.
      injection H as ->. repeat inv_bind E4. apply p_end_Some in E4 as [-> E4]. injection E4 as -> -> -> ->.
      apply (bwd_uint _ _ _ _ W') in E0 as (-> & ? & W1).
      apply (bwd_uint _ _ _ _ W1) in E1 as (-> & ? & W2).
      apply (bwd_uint _ _ _ _ W2) in E2 as (-> & ? & W3).
      apply (bwd_vec16 _ _ _ W3) in E3 as (-> & [? ?] & W4).
      split_and!; try done. pose proof (le_bytes_length 3 r) as L.
      destruct (le_bytes 3 r) as [|r1 [|r2 [|r3 [|? ?]]]]; try discriminate L.
      exists h, r1, r2, r3. rewrite app_nil_r. done.
    + destruct (N.eqb_spec (h mod 16) DPF_DATA_RCV) as [E'|E']; [|discriminate].
      destruct (p_uint 3 b) as [[r b']|]; [|discriminate].
      match type of H with match ?x with _ => _ end = _ => destruct x as [d|] eqn:E4; [|discriminate] end.
      injection H as ->. repeat inv_bind E4. apply p_end_Some in E4 as [_ E4]. discriminate.
  - intros (? & ? & ? & ? & ? & h' & r1 & r2 & r3 & E & _ & L).
    assert (h = h') as <- by congruence. apply (f_equal (@tail N)) in E. cbn [tail] in E. subst b.
    cbn [decode_data_packet]. rewrite hdr_low_mod, L by done. cbn [N.eqb orb DPF_DATA_SND Pos.eqb].
    match goal with |- context [p_uint 3 (r1 :: r2 :: r3 :: ?b)] =>
      change (p_uint 3 (r1 :: r2 :: r3 :: b)) with (Some (le_nat [r1; r2; r3], b)) end.
    cbv iota beta. repeat step. rewrite <- (app_nil_r data) at 2. by rewrite fwd_vec16.
Qed.

(** ** C05: through the transport *)
From Verif Require Import Transport TransportSpec TransportFacts.

Lemma decode_msg_ext b p : (4 <= length b)%nat -> received_as b p ->
  host_view <$> decode_msg p = host_view <$> decode_msg b.
Proof.
  intros L ((E1 & E2 & E3) & Ep & Lp).
  destruct b as [|h [|o [|r [|x b]]]]; try (cbn in L; lia).
  destruct p as [|h' [|o' [|r' [|x' p]]]]; try (cbn in Lp; lia).
  unfold pkt_mt, pkt_low, pkt_byte1, payload in *. cbn [hd nth skipn] in *.
  change (p = b) in Ep. subst p o'. unfold decode_msg. rewrite <- E1, <- E2.
  destruct (h / 32 =? 0); [reflexivity|]. destruct (h / 32 =? 2); [|reflexivity].
  destruct (h mod 16 =? 0); [reflexivity|]. destruct (h mod 16 =? 1); [reflexivity|].
  destruct (h mod 16 =? 2); [reflexivity|]. destruct (h mod 16 =? 12); [reflexivity|].
  destruct (reserved_group (h mod 16)); [reflexivity|].
  destruct b as [|st [|? ?]]; try reflexivity. by destruct (st =? STATUS_UNKNOWN_GID).
Qed.

Lemma wf_bytes_concat l : Forall wf_bytes l -> wf_bytes (concat l).
Proof. induction 1; cbn [concat]; [constructor|]. by apply wf_bytes_app. Qed.
Lemma wf_with_count {A} (enc : A -> bytes) l : short_list l -> Forall (fun x => wf_bytes (enc x)) l ->
  wf_bytes (with_count enc l).
Proof.
  intros S F. unfold with_count. apply wf_bytes_cons. split; [unfold short_list in S; lia|].
  apply wf_bytes_concat. by apply Forall_map.
Qed.
Lemma wf_with_length l : short_list l -> wf_bytes l -> wf_bytes (with_length l).
Proof. intros S W. apply wf_bytes_cons. split; [unfold short_list in S; lia|done]. Qed.
Lemma known_id_byte i : known_id i -> tlv_byte i < 256.
Proof. intros H. by apply tlv_of_byte_wf in H as [[_ H] _]. Qed.

Lemma wf_bytes_one b : byte b -> wf_bytes [b].
Proof. by repeat constructor. Qed.
Lemma wf_enc_measurement m : wf_measurement m -> wf_bytes (enc_measurement m).
Proof.
  intros W. unfold wf_measurement in W. destruct_and!. unfold enc_measurement.
  repeat (rewrite wf_bytes_app || rewrite wf_bytes_cons); split_and!; auto using le_bytes_wf; constructor.
Qed.

Lemma wire_payload m b : wire m = Some b -> exists h o r x p, b = h :: o :: r :: x :: p /\ msg_payload m = Some p.
Proof.
  unfold wire. destruct (msg_payload m) as [p|]; [|discriminate]. cbn [mbind option_bind].
  destruct m; cbn [msg_header app]; intros E; apply (inj Some) in E; subst b; eauto 10.
Qed.
Lemma decode_empty h o r x : decode_msg [h; o; r; x] = None.
Proof.
  unfold decode_msg, decode_core_response, decode_session_config_response, decode_session_control_response,
    decode_android_response, decode_notification.
  repeat match goal with |- context [if ?c then _ else _] =>
    lazymatch type of c with bool => destruct c end; try reflexivity end.
Qed.

Ltac wf_pieces :=
  repeat (rewrite wf_bytes_app || rewrite wf_bytes_cons); split_and?;
  auto using le_bytes_wf, wf_with_length, wf_bytes_one; try (by constructor); try done.
Lemma payload_wf m p : wf_msg m -> msg_payload m = Some p -> wf_bytes p.
Proof.
  intros W E.
  destruct m; cbn [wf_msg] in W; destruct_and?; cbn [msg_payload] in E.
  all: try (apply (inj Some) in E; subst p; wf_pieces; by destruct s).
  all: try (apply (inj Some) in E; subst p; wf_pieces; fail).
  all: try (apply (inj Some) in E; subst p; wf_pieces; lia).
  - rewrite enc_vec8_short in E by done. apply (inj Some) in E; subst p. wf_pieces.
  - rewrite (enc_tlv_short id byte) in E by done. apply (inj Some) in E; subst p. wf_pieces.
    apply wf_with_count; [done|]. eapply Forall_impl; [eassumption|].
    intros [t v] (? & ? & ?). unfold enc_pair. wf_pieces.
  - rewrite (enc_status_short id) in E by done. apply (inj Some) in E; subst p. wf_pieces.
    apply wf_with_count; [done|]. eapply Forall_impl; [eassumption|].
    intros [t v] (? & ?). unfold enc_pair. wf_pieces.
  - rewrite (enc_tlv_short id byte) in E by done. apply (inj Some) in E; subst p. wf_pieces.
    apply wf_with_count; [done|]. eapply Forall_impl; [eassumption|].
    intros [t v] (? & ? & ?). unfold enc_pair. wf_pieces.
  - rewrite (enc_status_short tlv_byte) in E by done. apply (inj Some) in E; subst p. wf_pieces.
    apply wf_with_count; [done|]. eapply Forall_impl; [eassumption|].
    intros [t v] (? & ?). unfold enc_pair. cbn [fst snd]. wf_pieces. by apply known_id_byte.
  - rewrite (enc_tlv_short tlv_byte known_id) in E by done. apply (inj Some) in E; subst p. wf_pieces.
    apply wf_with_count; [done|]. eapply Forall_impl; [eassumption|].
    intros [t v] (? & ? & ?). unfold enc_pair. cbn [fst snd] in *. wf_pieces. by apply known_id_byte.
  - rewrite enc_address_short in E by done. apply (inj Some) in E; subst p. wf_pieces.
    apply wf_with_count; [done|]. eapply Forall_impl; [eassumption|].
    intros [t v] (? & ? & L8). unfold enc_pair. cbn [fst snd] in *. wf_pieces. lia.
  - rewrite enc_address_short in E by done. apply (inj Some) in E; subst p. wf_pieces.
    apply wf_with_count; [done|]. eapply Forall_impl; [eassumption|].
    intros [t v] (? & ? & L8). unfold enc_pair. cbn [fst snd] in *. wf_pieces. lia.
  - erewrite (enc_counted_short _ enc_measurement wf_measurement) in E by done.
    apply (inj Some) in E; subst p. wf_pieces. apply wf_with_count; [done|].
    eapply Forall_impl; [eassumption|]. apply wf_enc_measurement.
  - unfold enc_vec16 in E.
    match goal with H : N.of_nat (length data) <= 65535 |- _ => rewrite (proj2 (N.leb_le _ _) H) in E end.
    apply (inj Some) in E; subst p. wf_pieces.
Qed.

Lemma reserved_group_lt gid : reserved_group gid = true -> gid < 16.
Proof. intros H. apply existsb_In in H. cbn [In] in H. lia. Qed.
Lemma wire_wf m b : wf_msg m -> wire m = Some b -> wf_bytes b /\ (4 < length b)%nat /\ pkt_mt b < 4.
Proof.
  intros W E. assert (exists p, msg_payload m = Some p) as [p Ep].
  { unfold wire in E. destruct (msg_payload m); [eauto|discriminate]. }
  pose proof (payload_wf _ _ W Ep) as Wp.
  assert (p <> []) as Np.
  { intros ->. destruct (wire_decode _ W) as (b' & E' & D).
    destruct (wire_payload _ _ E') as (h & o & r & x & p & -> & P). rewrite P in Ep. injection Ep as ->.
    rewrite decode_empty in D. discriminate. }
  destruct (wire_payload _ _ E) as (h & o & r & x & p' & -> & P). rewrite P in Ep. injection Ep as ->.
  unfold wire in E. rewrite P in E. cbn [mbind option_bind] in E. apply (inj Some) in E.
  assert (h < 128 /\ o < 256 /\ r < 256 /\ x < 256) as (Hh & Ho & Hr & Hx).
  { destruct m; cbn [msg_header app] in E;
      try (assert (h < 128) by (apply (f_equal (hd 0)) in E; cbn [hd] in E; rewrite <- E; done);
           injection E as _ <- <- <-; done).
    - cbn [wf_msg] in W. destruct_and!. injection E as <- <- <- <-. split_and!; try done.
      apply N.ltb_lt. apply (small_byte_sweep _ (fun gid => mk_hdr (mt_code MtResponse) gid <? 128)); [reflexivity|done].
    - cbn [wf_msg] in W. destruct_and!. injection E as <- <- <- <-. split_and!; try done.
      apply N.ltb_lt. apply (small_byte_sweep _ (fun gid => mk_hdr (mt_code MtResponse) gid <? 128)); [reflexivity|].
      by apply reserved_group_lt. }
  split_and!.
  - rewrite !wf_bytes_cons. split_and!; [lia|done..].
  - cbn [length]. destruct p; [done|cbn; lia].
  - unfold pkt_mt. cbn [hd]. apply N.div_lt_upper_bound; lia.
Qed.

Lemma py_sees_messages ms bs s : Forall wf_msg ms -> mapM wire ms = Some bs -> write_stream bs = Some s ->
  Forall2 (fun m p => host_view <$> decode_msg p = Some (host_view m)) ms (py_read_stream s).
Proof.
  intros W M S. apply mapM_Some in M.
  assert (Forall (fun m => wf_bytes m /\ (4 < length m)%nat /\ pkt_mt m < 4) bs) as F.
  { clear S. induction M; inversion W; subst; constructor; eauto using wire_wf. }
  pose proof (py_read_written _ _ F S) as R. clear S.
  revert bs M F R. generalize (py_read_stream s) as ps. induction W as [|m ms Wm W IH]; intros ps bs M F R.
  - inversion M; subst. inversion R; subst. constructor.
  - inversion M as [|? b ? bs' Hb M']; subst. inversion R as [|? p ? ps' Hp R']; subst.
    inversion F as [|? ? (_ & L & _) F']; subst. constructor; [|eauto].
    rewrite (decode_msg_ext b p) by (done || lia).
    destruct (wire_decode _ Wm) as (b' & Eb & D). rewrite Eb in Hb. injection Hb as ->. by rewrite D.
Qed.
