(** The exact bytes of every message and command (C06, C07). *)
From Verif Require Import Base Uci MacAddress Codec BaseFacts CodecSpec CodecFacts LayoutSpec.

Lemma le16_le n : le_bytes 2 n = le16 n.
Proof. reflexivity. Qed.
Lemma le32_le n : le_bytes 4 n = le32 n.
Proof. cbn. unfold le32. rewrite !N.div_div by discriminate. reflexivity. Qed.
Lemma le64_le n : le_bytes 8 n = le64 n.
Proof. cbn. unfold le64, le32. rewrite !N.div_div by discriminate. reflexivity. Qed.
Lemma device_state_ok s : ds_code s = device_state_byte s.
Proof. by destruct s. Qed.
Lemma session_state_ok s : ss_code s = session_state_byte s.
Proof. by destruct s. Qed.
Lemma action_ok a : action_code a = action_byte a.
Proof. by destruct a. Qed.
Lemma config_id_ok id : tlv_byte id = config_id_byte id.
Proof. by destruct id. Qed.
Lemma enc_vec8_ok v : short_list v -> enc_vec8 v = Some (length_then v).
Proof. unfold short_list, enc_vec8. intros L. by rewrite (proj2 (Nat.leb_le _ _) L). Qed.
Lemma enc_counted_ok {A} (enc : A -> option bytes) f l : short_list l -> Forall (fun x => enc x = Some (f x)) l ->
  enc_counted enc l = Some (count_then f l).
Proof.
  unfold short_list, enc_counted. intros L F. rewrite (proj2 (Nat.leb_le _ _) L).
  assert (mapM enc l = Some (map f l)) as ->; [|done]. clear L. induction F as [|x l E F IH]; [done|]. cbn. rewrite E. cbn. by rewrite IH.
Qed.
Lemma measurement_ok m : enc_measurement m = measurement_layout m.
Proof. reflexivity. Qed.

(** ** C06, continued: the messages have the layout of the tables of the specification, byte for byte. *)
Theorem C06_layout : forall m : msg, wf_msg m -> wire m = Some (layout m).
Proof.
  intros m W. unfold wire. destruct m; cbn [msg_payload msg_header wf_msg mbind option_bind] in *;
    rewrite ?device_state_ok, ?session_state_ok, ?le32_le, ?le16_le; try reflexivity.
  - destruct W as (_ & _ & _ & _ & _ & L & _). by rewrite enc_vec8_ok.
  - destruct W as (_ & L & F). rewrite (enc_counted_ok _ (fun tv => tv.1 :: length_then tv.2)); [reflexivity|done|].
    eapply Forall_impl; [exact F|]. intros tv (_ & X & _). by rewrite enc_vec8_ok.
  - destruct W as (_ & L & F). by rewrite (enc_counted_ok _ (fun p => [p.1; p.2])); [|done|by apply Forall_true].
  - destruct W as (_ & L & F). rewrite (enc_counted_ok _ (fun tv => tv.1 :: length_then tv.2)); [reflexivity|done|].
    eapply Forall_impl; [exact F|]. intros tv (_ & X & _). by rewrite enc_vec8_ok.
  - destruct W as (_ & L & F). rewrite (enc_counted_ok _ (fun p => [config_id_byte p.1; p.2])); [reflexivity|done|].
    apply Forall_true. intros p. by rewrite config_id_ok.
  - destruct W as (_ & L & F). rewrite (enc_counted_ok _ (fun tv => config_id_byte tv.1 :: length_then tv.2)); [reflexivity|done|].
    eapply Forall_impl; [exact F|]. intros tv (_ & X & _). by rewrite enc_vec8_ok, config_id_ok.
  - destruct W as (_ & L & F). by rewrite (enc_counted_ok _ (fun p => p.1 ++ [p.2])); [|done|by apply Forall_true].
  - destruct W as (_ & L & F). by rewrite (enc_counted_ok _ (fun p => p.1 ++ [p.2])); [|done|by apply Forall_true].
  - destruct W as (_ & _ & _ & _ & L & _). by rewrite (enc_counted_ok _ measurement_layout); [|done|by apply Forall_true].
  - destruct W as (G & _). unfold layout. assert (mk_hdr (mt_code MtResponse) gid = 0x40 + gid) as ->; [|reflexivity]. apply N.eqb_eq.
    apply (small_byte_sweep gid (fun g => mk_hdr (mt_code MtResponse) g =? 0x40 + g)); [vm_compute; reflexivity|done].
  - destruct W as (G & _). unfold layout. assert (mk_hdr (mt_code MtResponse) gid = 0x40 + gid) as ->; [|reflexivity].
    unfold reserved_group in G. apply existsb_exists in G as (g & I & E). apply N.eqb_eq in E. subst g. repeat (destruct I as [<-|I]; [reflexivity|]). destruct I.
  - destruct W as (_ & _ & _ & _ & L & _). unfold enc_vec16. rewrite (proj2 (N.leb_le _ _) L). cbn [mbind option_bind]. by rewrite le64_le.
Qed.
Print Assumptions C06_layout.
Example C06_layout_example : let m := SessionStatusNtf 0x01020304 SsIdle 0x33 in wf_msg m
  /\ layout m = [0x61; 2; 0; 0; 4; 3; 2; 1; 3; 0x33].
Proof. split; [cbn; unfold word32, byte; lia|reflexivity]. Qed.

(** ** C07, continued: the device takes a packet for a command exactly if it has its layout (it ignores the reserved bits
    and the length). *)
Lemma args_ok c : (cmd_gid c, cmd_oid c, cmd_args c) = command_layout c.
Proof.
  assert (forall l : list tlv_id, map (fun i => [tlv_byte i]) l = map (fun i => [config_id_byte i]) l) as A by (intros l; apply map_ext; intros i; by rewrite config_id_ok).
  assert (forall l : list (tlv_id * bytes), map (fun p => tlv_byte p.1 :: with_length p.2) l = map (fun p => config_id_byte p.1 :: length_then p.2) l) as B
    by (intros l; apply map_ext; intros i; by rewrite config_id_ok).
  destruct c; cbn [cmd_gid cmd_oid cmd_args command_layout]; rewrite ?le32_le, ?action_ok; try reflexivity; unfold with_count, count_then; by rewrite ?A, ?B.
Qed.
Theorem C07_layout : forall (c : command) (packet : bytes), wf_bytes packet ->
  ((exists cp, decode_control_packet packet = Some cp /\ cp_mt cp = MtCommand
     /\ specialize_command (cp_gid cp) (cp_payload cp) = SpCommand c)
   <-> wf_cmd c /\ exists h o r1 r2 args, packet = h :: o :: r1 :: r2 :: args
       /\ h / 32 = 1 /\ (h mod 16, o mod 64, args) = command_layout c).
Proof.
  intros c packet W. rewrite (decode_command_iff c packet W), <- args_ok. unfold encodes. split.
  - intros (Wc & h & o & r1 & r2 & -> & A & B & C). split; [done|]. exists h, o, r1, r2, (cmd_args c). by rewrite B, C.
  - intros (Wc & h & o & r1 & r2 & args & -> & A & E). injection E as B C D. split; [done|]. exists h, o, r1, r2. by rewrite D.
Qed.
Print Assumptions C07_layout.
Example C07_layout_example : exists cp, decode_control_packet [0x21; 0x07; 0; 0x0C; 4; 3; 2; 1; 1; 1; 0xAA; 0xBB; 0; 0; 0; 0] = Some cp
  /\ specialize_command (cp_gid cp) (cp_payload cp) = SpCommand (CmdMulticast 0x01020304 RemoveControlee [1; 0xAA; 0xBB; 0; 0; 0; 0]).
Proof. eexists. split; [reflexivity|vm_compute; reflexivity]. Qed.
(** A data message of the host. *)
Theorem C07_data_layout : forall handle dst seq data packet, wf_bytes packet -> (exists h, hd_error packet = Some h /\ h / 32 = 0) ->
  (decode_data_packet packet = DdPacket (DataMessageSnd handle dst seq data) <->
   word32 handle /\ word64 dst /\ word16 seq /\ N.of_nat (length data) <= 65535 /\ wf_bytes data
   /\ exists h r1 r2 r3, h / 32 = 0 /\ h mod 16 = 1
      /\ packet = [h; r1; r2; r3] ++ le32 handle ++ le64 dst ++ le16 seq ++ le16 (N.of_nat (length data)) ++ data).
Proof.
  intros handle dst seq data packet W H. rewrite (decode_data_snd_iff handle dst seq data packet W H). unfold encodes_data_snd. rewrite le32_le, le64_le, !le16_le.
  split; intros (A & B & C & D & E & h & r1 & r2 & r3 & F); (repeat (split; [assumption|])); exists h, r1, r2, r3; tauto.
Qed.
Print Assumptions C07_data_layout.
(** The controlees of a multicast update: 2 octets of address, 4 of the sub-session, then the key, of 0, 16 or 32 octets. *)
Theorem C07_controlees_layout : forall (key_size : nat) (payload : bytes) (l : list (bytes * N)), wf_bytes payload ->
  (decode_controlees key_size payload = Some l <->
   exists keys : list bytes, length keys = length l /\ short_list l
     /\ Forall (fun c => exists a b, c.1 = [a; b] /\ word32 c.2) l /\ Forall (fun k => length k = key_size) keys
     /\ payload = count_then (fun ck => ck.1.1 ++ le32 ck.1.2 ++ ck.2) (zip l keys)).
Proof.
  intros k b l W. split.
  - intros D. apply decode_controlees_sound in D as (l' & -> & S & F & ->); [|done]. exists (map snd l'). split; [by rewrite !map_length|].
    split; [by unfold short_list in *; rewrite map_length|]. split; [|split].
    + apply Forall_map. eapply Forall_impl; [exact F|]. intros [[a n] key] (La & _ & Ln & _). cbn in *.
      destruct a as [|x [|y [|z a]]]; try discriminate. by exists x, y.
    + apply Forall_map. eapply Forall_impl; [exact F|]. by intros [[a n] key] (_ & _ & _ & Lk & _).
    + assert (zip (map fst l') (map snd l') = l') as -> by (clear; induction l' as [|[c k] l' IH]; [done|cbn; by rewrite IH]).
      unfold count_then, with_count. f_equal. f_equal. apply map_ext. intros c. unfold controlee_bytes. by rewrite le32_le.
  - intros (keys & Lk & S & Fl & Fk & ->).
    assert (map fst (zip l keys) = l) as E by (clear - Lk; revert keys Lk; induction l as [|c l IH]; intros [|k keys] H; try discriminate; [done|cbn; f_equal; apply IH; by injection H]).
    rewrite <- E at 2. assert (count_then (fun ck => ck.1.1 ++ le32 ck.1.2 ++ ck.2) (zip l keys) = with_count controlee_bytes (zip l keys)) as Eb.
    { unfold count_then, with_count. f_equal. f_equal. apply map_ext. intros c. unfold controlee_bytes. by rewrite le32_le. }
    rewrite Eb in *. apply (decode_controlees_spec k (zip l keys)).
    + unfold short_list in *. by rewrite <- (map_length fst), E.
    + assert (wf_bytes (concat (map controlee_bytes (zip l keys)))) as Wc by (unfold with_count in W; by inversion W).
      clear - Lk Fl Fk Wc. revert keys Lk Fl Fk Wc. induction l as [|c l IH]; intros [|key keys] Lk Fl Fk Wc; try discriminate; [constructor|].
      cbn in *. apply Forall_app in Wc as [W1 W2]. inversion Fl as [|? ? (x & y & Ec & Wn) Fl']; inversion Fk as [|? ? Lk' Fk']; subst.
      constructor; [|apply IH; [by injection Lk|done|done|done]]. destruct c as [ad n]; cbn in *. subst ad. unfold controlee_bytes in W1. cbn [fst snd] in W1.
      apply Forall_app in W1 as [Wa W1]. apply (Forall_app is_byte (le_bytes 4 n) key) in W1 as [_ Wk]. by repeat split.
Qed.
Print Assumptions C07_controlees_layout.
Example C07_controlees_layout_example : decode_controlees 0 [2; 0xAA; 0xBB; 4; 3; 2; 1; 0xCC; 0xDD; 0; 0; 0; 0] = Some [([0xAA; 0xBB], 0x01020304); ([0xCC; 0xDD], 0)].
Proof. vm_compute. reflexivity. Qed.
