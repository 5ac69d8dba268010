(** Proofs about Transport.v. *)
From Verif Require Import Base Uci Codec BaseFacts Transport TransportSpec.

Lemma hdr_mt_div b : b < 256 -> hdr_mt b = b / 32.
Proof.
  intros H. apply N.eqb_eq.
  apply (forall_bytes (fun b => hdr_mt b =? b / 32)); [vm_compute; reflexivity|exact H].
Qed.
Lemma hdr_pbf_div b : b < 256 -> hdr_pbf b = (b / 16) mod 2.
Proof.
  intros H. apply N.eqb_eq.
  apply (forall_bytes (fun b => hdr_pbf b =? (b / 16) mod 2)); [vm_compute; reflexivity|exact H].
Qed.
Lemma hdr_low_mod b : b < 256 -> hdr_low b = b mod 16.
Proof.
  intros H. apply N.eqb_eq.
  apply (forall_bytes (fun b => hdr_low b =? b mod 16)); [vm_compute; reflexivity|exact H].
Qed.

Definition patch0 (pbf h : N) : N := N.lor (N.land h 0xEF) (N.shiftl pbf 4).
Lemma patch0_spec pbf h : pbf < 2 -> h < 256 ->
  patch0 pbf h < 256 /\ patch0 pbf h / 32 = h / 32 /\ (patch0 pbf h / 16) mod 2 = pbf
  /\ patch0 pbf h mod 16 = h mod 16.
Proof.
  intros Hp Hh.
  assert (pbf = 0 \/ pbf = 1) as [-> | ->] by lia.
  - pose proof (forall_bytes (fun h => (patch0 0 h <? 256) && (patch0 0 h / 32 =? h / 32)
        && ((patch0 0 h / 16) mod 2 =? 0) && (patch0 0 h mod 16 =? h mod 16))
      ltac:(vm_compute; reflexivity) h Hh) as E. cbv beta in E. lia.
  - pose proof (forall_bytes (fun h => (patch0 1 h <? 256) && (patch0 1 h / 32 =? h / 32)
        && ((patch0 1 h / 16) mod 2 =? 1) && (patch0 1 h mod 16 =? h mod 16))
      ltac:(vm_compute; reflexivity) h Hh) as E. cbv beta in E. lia.
Qed.

Lemma parse_message_type_data h : h < 256 -> (parse_message_type h = MtData <-> h / 32 = 0).
Proof.
  intros H. unfold parse_message_type.
  change (N.land (N.shiftr h 5) 7) with (hdr_mt h). rewrite hdr_mt_div by done.
  pose proof (mt_of_code_is (h / 32)) as E.
  destruct (mt_of_code (h / 32)) as [mt|].
  - split; [intros ->; by apply E|intros F; apply E in F; by inversion F].
  - split; [done|intros F; apply E in F; done].
Qed.

Lemma read_payload_spec header rest n p r :
  read_payload header rest n = Some (p, r) <->
  p ++ r = header ++ rest /\ (length header <= length p)%nat
  /\ N.of_nat (length p - length header) = n.
Proof.
  unfold read_payload. case_match eqn:E.
  - split; [done|]. intros (H1 & H2 & H3). apply (f_equal length) in H1.
    rewrite !app_length in H1. lia.
  - split.
    + intros [= <- <-]. rewrite <- app_assoc, take_drop, app_length, take_length. split_and!; [done|lia|lia].
    + intros (H1 & H2 & H3).
      assert (N.to_nat n = length p - length header)%nat as -> by lia.
      assert (take (length p) (p ++ r) = take (length p) (header ++ rest)) as Ht by congruence.
      assert (drop (length p) (p ++ r) = drop (length p) (header ++ rest)) as Hd by congruence.
      rewrite take_app_alt, take_app_ge in Ht by lia.
      rewrite drop_app_alt, drop_app_ge in Hd by lia.
      f_equal. by rewrite <- Hd, <- Ht.
Qed.

Lemma payload_cons4 a b c d l : payload (a :: b :: c :: d :: l) = l.
Proof. reflexivity. Qed.
Lemma length4_inv {A} (l : list A) : (4 <= length l)%nat ->
  exists a b c d r, l = a :: b :: c :: d :: r.
Proof. destruct l as [|a [|b [|c [|d r]]]]; simpl; intros; try lia. eauto 10. Qed.

(** *** Framing *)

Lemma read_length_field h0 h1 h2 h3 : h0 < 256 -> h0 / 32 < 4 -> forall rest,
  read (h0 :: h1 :: h2 :: h3 :: rest)
  = read_payload [h0; h1; h2; h3] rest (if h0 / 32 =? 0 then h2 + 256 * h3 else h3).
Proof.
  intros H H4 rest. cbn [read]. rewrite hdr_mt_div by done.
  unfold mt_of_code. destruct (h0 / 32 =? 0) eqn:E0.
  - f_equal. cbn [le_nat]. lia.
  - destruct (h0 / 32 =? 1) eqn:E1; [done|]. destruct (h0 / 32 =? 2) eqn:E2; [done|].
    destruct (h0 / 32 =? 3) eqn:E3; [done|]. lia.
Qed.

Lemma read_spec stream p r : wf_bytes stream ->
  (read stream = Some (p, r) <-> stream = p ++ r /\ frame p).
Proof.
  intros Hwf. split.
  - intros H. destruct stream as [|h0 [|h1 [|h2 [|h3 rest]]]]; try done.
    assert (h0 < 256) by (by inversion Hwf).
    assert (h0 / 32 < 4) as H4.
    { cbn [read] in H. rewrite hdr_mt_div in H by done. unfold mt_of_code in H.
      repeat case_match; try done; lia. }
    rewrite read_length_field in H by done.
    apply read_payload_spec in H as (H1 & H2 & H3). simpl in H2.
    split; [done|].
    destruct (length4_inv p H2) as (a & b & c & d & q & ->). simpl in H1. inversion H1; subst.
    unfold frame, length_field, is_data, pkt_mt. rewrite payload_cons4. simpl in *.
    split_and!; [lia|done|lia].
  - intros [-> (H1 & H2 & H3)].
    destruct (length4_inv p H1) as (a & b & c & d & q & ->). simpl app.
    unfold pkt_mt in H2. simpl in H2.
    rewrite read_length_field; [|by inversion Hwf|done].
    apply read_payload_spec. simpl. split_and!; [done|lia|].
    unfold length_field, is_data, pkt_mt in H3. rewrite payload_cons4 in H3. simpl in H3. lia.
Qed.

Lemma read_None_frame stream : wf_bytes stream ->
  read stream = None <-> forall p r, stream = p ++ r -> ~ frame p.
Proof.
  intros Hwf. split.
  - intros H p r -> Hf. assert (read (p ++ r) = Some (p, r)) by (by apply read_spec). congruence.
  - intros H. destruct (read stream) as [[p r]|] eqn:E; [|done].
    apply read_spec in E as [E F]; [|done]. by destruct (H _ _ E).
Qed.

(** Streams are split at most one way: prefixes that are frames are unique. *)
Lemma frame_prefix_unique p r p' r' : wf_bytes (p ++ r) ->
  frame p -> frame p' -> p ++ r = p' ++ r' -> p = p' /\ r = r'.
Proof.
  intros Hwf F F' E.
  assert (read (p ++ r) = Some (p, r)) as H by (by apply read_spec).
  assert (read (p' ++ r') = Some (p', r')) as H' by (apply read_spec; [by rewrite <- E|done]).
  rewrite E in H. rewrite H in H'. by inversion H'.
Qed.

Lemma read_fuel_frames fuel stream : wf_bytes stream -> (length stream <= fuel)%nat ->
  exists l rest, read_fuel fuel stream = l /\ stream = concat l ++ rest
    /\ Forall frame l /\ (forall p r, rest = p ++ r -> ~ frame p).
Proof.
  revert stream; induction fuel as [|fuel IH]; intros stream Hwf Hl.
  - destruct stream; [|simpl in Hl; lia]. exists [], []. split_and!; try done.
    intros p r E [F _]. destruct p; [simpl in F; lia|done].
  - simpl. destruct (read stream) as [[p r]|] eqn:E.
    + apply read_spec in E as [-> F]; [|done].
      apply wf_bytes_app in Hwf as [Hp Hr].
      destruct (IH r Hr) as (l & rest & El & Er & Hf & Hn).
      { destruct F as [F _]. rewrite app_length in Hl. lia. }
      exists (p :: l), rest. rewrite El. split_and!; try done.
      * simpl. rewrite <- app_assoc. by f_equal.
      * by constructor.
    + exists [], stream. split_and!; try done. by apply read_None_frame.
Qed.

Lemma read_stream_concat l rest : wf_bytes (concat l ++ rest) ->
  Forall frame l -> (forall p r, rest = p ++ r -> ~ frame p) ->
  read_stream (concat l ++ rest) = l.
Proof.
  intros Hwf Hl Hr. unfold read_stream.
  remember (length (concat l ++ rest)) as fuel eqn:Hfuel.
  assert (length (concat l ++ rest) <= fuel)%nat as Hle by lia. clear Hfuel.
  revert fuel Hle Hwf. induction Hl as [|p l F Hl IH]; intros fuel Hle Hwf; simpl in *.
  - destruct fuel as [|fuel]; [done|]. simpl.
    destruct (read rest) as [[p r]|] eqn:E; [|done].
    apply read_spec in E as [E F]; [|done]. by destruct (Hr _ _ E).
  - rewrite <- app_assoc in *.
    destruct fuel as [|fuel].
    { destruct F as [F _]. rewrite app_length in Hle. lia. }
    simpl. rewrite (proj2 (read_spec _ p (concat l ++ rest) Hwf)) by done.
    f_equal. apply IH.
    + destruct F as [F _]. rewrite app_length in Hle. lia.
    + apply wf_bytes_app in Hwf as [_ ?]; done.
Qed.

(** *** Segmentation *)

Lemma patch_header_shape mt pbf n h0 h1 h2 h3 :
  exists a b, patch_header mt pbf n [h0; h1; h2; h3] = [patch0 pbf h0; h1; a; b]
  /\ (mt = MtData -> N.of_nat n < 65536 -> a + 256 * b = N.of_nat n)
  /\ (mt <> MtData -> N.of_nat n < 256 -> b = N.of_nat n)
  /\ (h2 < 256 -> a < 256) /\ b < 256.
Proof.
  assert (N.of_nat n mod 256 < 256) by (apply N.mod_lt; lia).
  assert (N.of_nat n / 256 mod 256 < 256) by (apply N.mod_lt; lia).
  destruct mt.
  - exists (N.of_nat n mod 256), (N.of_nat n / 256 mod 256).
    split_and!; try done. intros _ Hn.
    rewrite (N.mod_small (N.of_nat n / 256)).
    + pose proof (N.div_mod (N.of_nat n) 256). lia.
    + apply N.div_lt_upper_bound; lia.
  - exists h2, (N.of_nat n mod 256). split_and!; try done. intros _ Hn. by rewrite N.mod_small.
  - exists h2, (N.of_nat n mod 256). split_and!; try done. intros _ Hn. by rewrite N.mod_small.
  - exists h2, (N.of_nat n mod 256). split_and!; try done. intros _ Hn. by rewrite N.mod_small.
Qed.

Definition max_payload (mt : message_type) : nat :=
  match mt with MtData => MAX_DATA_PACKET_PAYLOAD_SIZE | _ => MAX_CTRL_PACKET_PAYLOAD_SIZE end.
Lemma max_payload_pos mt : (1 <= max_payload mt)%nat.
Proof. destruct mt; unfold max_payload, MAX_DATA_PACKET_PAYLOAD_SIZE, MAX_CTRL_PACKET_PAYLOAD_SIZE; lia. Qed.

(** Everything about the packets of one message. *)
Definition segments_ok (mt : message_type) (h0 h1 : N) (rest : bytes) (l : list bytes) : Prop :=
  concat (map payload l) = rest
  /\ Forall (fun p => payload p <> [] /\ (length (payload p) <= max_payload mt)%nat) l
  /\ Forall (fun p => (4 <= length p)%nat /\ pkt_mt p = h0 / 32 /\ pkt_low p = h0 mod 16 /\ pkt_byte1 p = h1
                      /\ length_field p = N.of_nat (length (payload p))) l
  /\ boundary_flags l.

Lemma segments_ok_nil mt h0 h1 : segments_ok mt h0 h1 [] [].
Proof. unfold segments_ok. split_and!; constructor. Qed.

Lemma segment_loop_ok fuel mt h0 h1 h2 h3 rest :
  h0 < 256 -> h2 < 256 -> (mt = MtData <-> h0 / 32 = 0) ->
  (length rest <= fuel)%nat ->
  segments_ok mt h0 h1 rest (segment_loop fuel mt [h0; h1; h2; h3] rest).
Proof.
  intros Hh0 Hh2 Hmt. revert rest; induction fuel as [|fuel IH]; intros rest Hl.
  - destruct rest; [|simpl in Hl; lia]. apply segments_ok_nil.
  - destruct rest as [|b rest']; [apply segments_ok_nil|]. remember (b :: rest') as rest eqn:Er.
    assert (rest <> []) as Hne by (by subst).
    assert (1 <= length rest)%nat as Hlen by (subst; simpl; lia).
    replace (segment_loop (S fuel) mt [h0; h1; h2; h3] rest) with
      (let n := Nat.min (length rest) (max_payload mt) in
       (patch_header mt (if Nat.eqb n (length rest) then PBF_COMPLETE else PBF_NOT_COMPLETE) n [h0; h1; h2; h3]
          ++ take n rest) :: segment_loop fuel mt [h0; h1; h2; h3] (drop n rest))
      by (subst rest; reflexivity).
    cbv zeta. set (n := Nat.min (length rest) (max_payload mt)).
    pose proof (max_payload_pos mt) as Hmax.
    set (pbf := if Nat.eqb n (length rest) then PBF_COMPLETE else PBF_NOT_COMPLETE).
    assert (pbf < 2) as Hpbf by (unfold pbf, PBF_COMPLETE, PBF_NOT_COMPLETE; case_match; lia).
    destruct (patch_header_shape mt pbf n h0 h1 h2 h3) as (x & y & -> & Hx & Hy & _ & _).
    destruct (patch0_spec pbf h0 Hpbf Hh0) as (P1 & P2 & P3 & P4).
    assert (length (take n rest) = n) as Ltake by (rewrite take_length; lia).
    assert (1 <= n)%nat by lia.
    destruct (IH (drop n rest)) as (I1 & I2 & I3 & I4).
    { rewrite drop_length. lia. }
    simpl app. unfold segments_ok. split_and!.
    + cbn [map concat]. rewrite payload_cons4, I1. apply take_drop.
    + constructor; [|done]. rewrite payload_cons4. split; [|lia].
      intros E. rewrite E in Ltake. simpl in Ltake. lia.
    + constructor; [|done]. rewrite payload_cons4.
      unfold pkt_mt, pkt_low, pkt_byte1, length_field, is_data, pkt_mt. simpl nth. simpl hd.
      rewrite P2, P4, Ltake. split_and!; try done; [simpl; lia|].
      destruct (h0 / 32 =? 0) eqn:E.
      * apply Hx; [apply Hmt; lia|].
        assert (mt = MtData) as -> by (apply Hmt; lia).
        unfold n, max_payload, MAX_DATA_PACKET_PAYLOAD_SIZE. lia.
      * assert (mt <> MtData) by (intros F; apply Hmt in F; lia).
        apply Hy; [done|]. unfold n, max_payload.
        destruct mt; try done; unfold MAX_CTRL_PACKET_PAYLOAD_SIZE; lia.
    + destruct (segment_loop fuel mt [h0; h1; h2; h3] (drop n rest)) as [|q l] eqn:Eq.
      * simpl in I1. assert (n = length rest) as En.
        { apply (f_equal length) in I1. rewrite drop_length in I1. simpl in I1. lia. }
        unfold boundary_flags, pkt_more. simpl hd. rewrite P3. unfold pbf.
        by rewrite En, Nat.eqb_refl.
      * change (pkt_more (patch0 pbf h0 :: h1 :: x :: y :: take n rest) = 1 /\ boundary_flags (q :: l)).
        split; [|done]. unfold pkt_more. simpl hd. rewrite P3. unfold pbf.
        destruct (Nat.eqb_spec n (length rest)) as [En|]; [|done].
        exfalso. apply Forall_cons in I2 as [[I2 _] _].
        simpl in I1. rewrite En, drop_all in I1. destruct (payload q); done.
Qed.

Lemma segment_ok m : wf_bytes m -> m <> [] ->
  exists l, segment m = Some l
  /\ segments_ok (parse_message_type (hd 0 m)) (hd 0 m) (nth 1 m 0) (payload m) l.
Proof.
  intros Hwf Hne. destruct m as [|h0 m]; [done|].
  assert (h0 < 256) as Hh0 by (by inversion Hwf).
  eexists; split; [reflexivity|].
  destruct m as [|h1 [|h2 [|h3 rest]]]; try apply segments_ok_nil.
  change (take HEADER_SIZE (h0 :: h1 :: h2 :: h3 :: rest)) with [h0; h1; h2; h3].
  change (drop HEADER_SIZE (h0 :: h1 :: h2 :: h3 :: rest)) with rest.
  simpl hd. simpl nth. rewrite payload_cons4.
  apply segment_loop_ok; [done| |by apply parse_message_type_data|simpl; lia].
  rewrite !wf_bytes_cons in Hwf. tauto.
Qed.

(** *** Reassembly *)

(** One packet of a control message. *)
Lemma read_routine_control c p : wf_bytes p -> (4 <= length p)%nat -> 0 < pkt_mt p < 4 ->
  read_routine_packet c p =
    let m := match c with Some c => c ++ payload p | None => p end in
    if pkt_more p =? 0 then RDeliver m else RMore m.
Proof.
  intros Hwf Hl Hmt. destruct (length4_inv p Hl) as (a & b & x & y & q & ->).
  apply wf_bytes_cons in Hwf as [Ha _].
  unfold read_routine_packet, pkt_more, pkt_mt in *. simpl hd in *.
  rewrite hdr_mt_div, hdr_pbf_div by done.
  assert (exists mt, mt_of_code (a / 32) = Some mt /\ mt <> MtData) as (mt & -> & Hd).
  { unfold mt_of_code. repeat case_match; eauto; lia. }
  rewrite (bool_decide_false (mt = MtData)) by done. rewrite orb_false_r.
  destruct c; reflexivity.
Qed.

Lemma read_routine_data c p : wf_bytes p -> (4 <= length p)%nat -> is_data p = true ->
  read_routine_packet c p = RDeliver (match c with Some c => c ++ payload p | None => p end).
Proof.
  intros Hwf Hl Hd. destruct (length4_inv p Hl) as (a & b & x & y & q & ->).
  apply wf_bytes_cons in Hwf as [Ha _].
  unfold is_data, pkt_mt in Hd. simpl hd in Hd.
  unfold read_routine_packet. rewrite hdr_mt_div by done.
  assert (a / 32 = 0) as -> by lia. change (mt_of_code 0) with (Some MtData).
  cbv iota zeta. rewrite (bool_decide_true (MtData = MtData)) by done. rewrite orb_true_r. destruct c; reflexivity.
Qed.

Lemma read_routine_fragments c l rest :
  boundary_flags l -> l <> [] ->
  Forall (fun p => (4 <= length p)%nat /\ 0 < pkt_mt p < 4) l -> Forall wf_bytes l ->
  read_routine (Some c) (l ++ rest)
  = let '(d, e) := read_routine None rest in ((c ++ concat (map payload l)) :: d, e).
Proof.
  intros Hb Hne Hf Hw. revert c. induction l as [|p l IH]; intros c; [done|].
  apply Forall_cons in Hf as [[Hl Hmt] Hf]. apply Forall_cons in Hw as [Hp Hw].
  cbn [app read_routine]. rewrite read_routine_control by done. cbv zeta.
  destruct l as [|q l].
  - simpl in Hb. rewrite Hb. simpl. rewrite app_nil_r. reflexivity.
  - destruct Hb as [Hb1 Hb]. rewrite Hb1. simpl (1 =? 0). cbv iota.
    rewrite IH by done. destruct (read_routine None rest).
    cbn [map concat]. by rewrite <- !app_assoc.
Qed.

Lemma read_routine_items l : Forall item_ok l -> Forall wf_bytes (concat (map item_packets l)) ->
  read_routine None (concat (map item_packets l)) = (map item_message l, EndOfStream).
Proof.
  induction 1 as [|i l Hi Hl IH]; intros Hw; [reflexivity|].
  cbn [map concat] in *. apply Forall_app in Hw as [Hwi Hw]. specialize (IH Hw).
  destruct i as [frags|p]; cbn [item_packets item_message item_ok] in *.
  - destruct Hi as (Hne & Hb & Hf). destruct frags as [|p frags]; [done|].
    apply Forall_cons in Hf as [[Hl1 Hmt] Hf]. apply Forall_cons in Hwi as [Hp Hwi].
    cbn [app read_routine]. rewrite read_routine_control by done. cbv zeta.
    destruct frags as [|q frags].
    + simpl in Hb. rewrite Hb. simpl. rewrite IH, app_nil_r. reflexivity.
    + destruct Hb as [Hb1 Hb]. rewrite Hb1. simpl (1 =? 0). cbv iota.
      rewrite read_routine_fragments by done. rewrite IH. reflexivity.
  - destruct Hi as [Hl1 Hd]. apply Forall_cons in Hwi as [Hp _].
    cbn [app read_routine]. rewrite read_routine_data by done. rewrite IH. reflexivity.
Qed.

(** *** The Python host *)

Lemma py_read_packet_segments mt h0 h1 rest l : segments_ok mt h0 h1 rest l -> l <> [] ->
  h0 / 32 < 4 -> Forall wf_bytes l ->
  forall fuel complete tail, (length l <= fuel)%nat ->
  exists h, (4 <= length h)%nat /\ pkt_mt h = h0 / 32 /\ pkt_low h = h0 mod 16 /\ pkt_byte1 h = h1
   /\ length h = 4%nat
   /\ py_read_packet fuel complete (concat l ++ tail) = Some (h ++ complete ++ rest, tail).
Proof.
  intros (S1 & S2 & S3 & S4) Hne H4. revert rest S1 S2 S3 S4 Hne.
  induction l as [|p l IH]; intros rest S1 S2 S3 S4 Hne Hw fuel complete tail Hfuel; [done|].
  destruct fuel as [|fuel]; [simpl in Hfuel; lia|].
  apply Forall_cons in S2 as [S2p S2]. apply Forall_cons in S3 as [(L & Hmt & Hlow & Hb1 & Hlf) S3].
  apply Forall_cons in Hw as [Hp Hw].
  destruct (length4_inv p L) as (a & b & x & y & q & ->).
  assert (a < 256) as Ha by (apply wf_bytes_cons in Hp; tauto).
  rewrite payload_cons4 in *. unfold length_field, is_data, pkt_mt, pkt_low, pkt_byte1 in *.
  simpl hd in *. simpl nth in *.
  cbn [concat app py_read_packet]. rewrite hdr_mt_div, hdr_pbf_div by done.
  assert (exists mt', mt_of_code (a / 32) = Some mt'
     /\ (match mt' with MtData => le_nat [x; y] | _ => y end = N.of_nat (length q))) as (mt' & -> & ->).
  { unfold mt_of_code. rewrite <- Hlf. cbn [le_nat].
    destruct (a / 32 =? 0) eqn:E0; [eexists; split; [reflexivity|cbv iota; lia]|].
    destruct (a / 32 =? 1) eqn:E1; [eexists; split; [reflexivity|done]|].
    destruct (a / 32 =? 2) eqn:E2; [eexists; split; [reflexivity|done]|].
    destruct (a / 32 =? 3) eqn:E3; [eexists; split; [reflexivity|done]|]. lia. }
  rewrite <- app_assoc.
  replace (N.of_nat (length (q ++ concat l ++ tail)) <? N.of_nat (length q)) with false
    by (rewrite app_length; lia).
  rewrite Nat2N.id, take_app, drop_app.
  destruct l as [|p' l].
  - simpl in S4. unfold pkt_more in S4. simpl hd in S4. rewrite S4. change (0 =? PBF_COMPLETE) with true.
    cbv iota. exists [a; b; x; y]. cbn [map concat] in S1. rewrite payload_cons4, app_nil_r in S1. subst rest.
    split_and!; try done.
  - destruct S4 as [S41 S4]. unfold pkt_more in S41. simpl hd in S41. rewrite S41.
    change (1 =? PBF_COMPLETE) with false. cbv iota.
    destruct (IH (concat (map payload (p' :: l))) eq_refl S2 S3 S4 ltac:(done) Hw fuel (complete ++ q) tail)
      as (h & Hh & Hh1 & Hh2 & Hh3 & Hh4 & ->). { simpl in *; lia. }
    exists h. split_and!; try done.
    rewrite <- app_assoc. by rewrite <- S1.
Qed.

Lemma patch_header_wf mt pbf n h0 h1 h2 h3 : pbf < 2 -> wf_bytes [h0; h1; h2; h3] ->
  wf_bytes (patch_header mt pbf n [h0; h1; h2; h3]).
Proof.
  intros Hp Hw. destruct (patch_header_shape mt pbf n h0 h1 h2 h3) as (a & b & -> & _ & _ & Ha & Hb).
  rewrite !wf_bytes_cons in *. destruct Hw as (H0 & H1 & H2 & H3 & _).
  destruct (patch0_spec pbf h0 Hp H0) as (P & _). split_and!; auto. constructor.
Qed.

Lemma segment_loop_wf fuel mt h0 h1 h2 h3 rest :
  wf_bytes [h0; h1; h2; h3] -> wf_bytes rest ->
  Forall wf_bytes (segment_loop fuel mt [h0; h1; h2; h3] rest).
Proof.
  intros Hh. revert rest; induction fuel as [|fuel IH]; intros rest Hr; [constructor|].
  destruct rest as [|b rest]; [constructor|].
  cbn [segment_loop]. constructor.
  - apply wf_bytes_app. split; [apply patch_header_wf; [case_match; reflexivity|done]|by apply wf_bytes_take].
  - apply IH. by apply wf_bytes_drop.
Qed.

Lemma segment_wf m l : wf_bytes m -> segment m = Some l -> Forall wf_bytes l.
Proof.
  intros Hw. destruct m as [|h0 m]; [done|]. unfold segment. intros H. apply (inj Some) in H. subst l.
  destruct m as [|h1 [|h2 [|h3 rest]]]; try constructor.
  change (take HEADER_SIZE (h0 :: h1 :: h2 :: h3 :: rest)) with [h0; h1; h2; h3].
  change (drop HEADER_SIZE (h0 :: h1 :: h2 :: h3 :: rest)) with rest.
  rewrite !wf_bytes_cons in Hw. apply segment_loop_wf; rewrite ?wf_bytes_cons; try tauto.
  split_and!; try tauto. constructor.
Qed.

Lemma concat_length_ge {A} (l : list (list A)) : Forall (fun p => (1 <= length p)%nat) l ->
  (length l <= length (concat l))%nat.
Proof. induction 1; simpl; rewrite ?app_length; lia. Qed.

(** The host reads back what was written. *)
Lemma py_read_fuel_written ms : forall l fuel,
  Forall (fun m => wf_bytes m /\ (4 < length m)%nat /\ pkt_mt m < 4) ms ->
  mapM segment ms = Some l -> (length (concat (concat l)) <= fuel)%nat ->
  Forall2 received_as ms (py_read_fuel fuel (concat (concat l))).
Proof.
  induction ms as [|m ms IH]; intros l fuel Hms Hl Hfuel.
  - inversion Hl; subst l. destruct fuel; constructor.
  - apply Forall_cons in Hms as [(Hw & Hlen & Hmt) Hms].
    assert (m <> []) as Hne by (by destruct m).
    destruct (segment_ok m Hw Hne) as (segs & Hs & Hok).
    simpl in Hl. rewrite Hs in Hl. simpl in Hl.
    destruct (mapM segment ms) as [l'|] eqn:El; [|done]. inversion Hl; subst l.
    cbn [concat] in *. rewrite concat_app in *.
    assert (segs <> []) as Hsne.
    { intros ->. destruct Hok as (E & _). simpl in E.
      destruct (length4_inv m) as (? & ? & ? & ? & r & ->); [lia|]. rewrite payload_cons4 in E. subst r. simpl in Hlen. lia. }
    assert (Forall (fun p => (1 <= length p)%nat) segs) as Hpos.
    { destruct Hok as (_ & _ & H3 & _). eapply Forall_impl; [exact H3|]. intros p (H & _). lia. }
    pose proof (concat_length_ge _ Hpos) as Hcl.
    rewrite app_length in Hfuel.
    assert (1 <= length segs)%nat by (destruct segs; [done|simpl; lia]).
    destruct fuel as [|fuel]; [lia|]. cbn [py_read_fuel].
    destruct (py_read_packet_segments _ _ _ _ _ Hok Hsne Hmt (segment_wf _ _ Hw Hs)
      (length (concat segs ++ concat (concat l'))) [] (concat (concat l')))
      as (h & H1 & H2 & H3 & H4 & H5 & ->). { rewrite app_length; lia. }
    constructor.
    + unfold received_as, same_kind. simpl app. rewrite app_length.
      destruct (length4_inv h H1) as (a & b & x & y & q & ->). destruct q; [|simpl in H5; lia].
      split_and!; try done. simpl; lia.
    + apply IH; [done|done|lia].
Qed.

Lemma py_read_written ms s :
  Forall (fun m => wf_bytes m /\ (4 < length m)%nat /\ pkt_mt m < 4) ms ->
  write_stream ms = Some s -> Forall2 received_as ms (py_read_stream s).
Proof.
  intros H Hs. unfold write_stream in Hs. destruct (mapM segment ms) as [l|] eqn:E; [|done].
  inversion Hs; subst. by apply py_read_fuel_written.
Qed.

Lemma write_stream_defined ms : Forall (fun m => m <> []) ms -> is_Some (write_stream ms).
Proof.
  intros H. unfold write_stream. apply fmap_is_Some.
  apply mapM_is_Some_2. eapply Forall_impl; [exact H|]. intros m Hm. destruct m; [done|]. eauto.
Qed.

(** The device receives what the host sends. *)
Lemma py_send_control_frame p b : wf_bytes p -> py_send_control p = Some b -> 0 < pkt_mt p < 4 ->
  frame b /\ wf_bytes b /\ received_as p b /\ pkt_more b = pkt_more p.
Proof.
  intros Hw H Hmt. destruct p as [|h0 [|h1 [|h2 [|h3 rest]]]]; try done.
  cbn [py_send_control] in H. destruct (Nat.leb_spec (length rest) 255); [|done]. inversion H; subst b.
  rewrite !wf_bytes_cons in *.
  unfold frame, received_as, same_kind, length_field, is_data, pkt_mt, pkt_low, pkt_byte1, pkt_more in *.
  rewrite !payload_cons4 in *. simpl in *.
  destruct (h0 / 32 =? 0) eqn:E; [lia|]. split_and!; try done; try lia; tauto.
Qed.

Lemma py_send_data_frame p b : wf_bytes p -> py_send_data p = Some b -> is_data p = true ->
  frame b /\ wf_bytes b /\ received_as p b /\ pkt_more b = pkt_more p.
Proof.
  intros Hw H Hmt. destruct p as [|h0 [|h1 [|h2 [|h3 rest]]]]; try done.
  cbn [py_send_data] in H. destruct (N.ltb_spec (N.of_nat (length rest)) 65536) as [Hl|]; [|done].
  inversion H; subst b. cbn [le_bytes app].
  rewrite !wf_bytes_cons in *.
  unfold frame, received_as, same_kind, length_field, is_data, pkt_mt, pkt_low, pkt_byte1, pkt_more in *.
  rewrite !payload_cons4 in *. cbn [length hd nth] in *. rewrite Hmt.
  assert (N.of_nat (length rest) mod 256 < 256) by (apply N.mod_lt; lia).
  assert (N.of_nat (length rest) / 256 < 256) by (apply N.div_lt_upper_bound; lia).
  rewrite (N.mod_small (N.of_nat (length rest) / 256)) by done.
  pose proof (N.div_mod (N.of_nat (length rest)) 256).
  split_and!; try done; try lia; tauto.
Qed.

Lemma no_packet_spec s : wf_bytes s -> (no_packet s <-> forall p r, s = p ++ r -> ~ frame p).
Proof.
  intros Hwf. rewrite <- read_None_frame by done. unfold no_packet.
  destruct s as [|h0 [|h1 [|h2 [|h3 rest]]]]; simpl length;
    try (split; [done|intros _; left; lia]).
  assert (h0 < 256) as Hh by (by inversion Hwf).
  unfold pkt_mt, length_field, is_data, pkt_mt. rewrite payload_cons4. cbn [hd nth].
  destruct (N.le_gt_cases 4 (h0 / 32)) as [H4|H4].
  - split; [intros _|auto]. cbn [read]. rewrite hdr_mt_div by done.
    destruct (mt_of_code (h0 / 32)) as [mt|] eqn:E; [|done].
    apply mt_of_code_inv in E. destruct mt; simpl in E; lia.
  - rewrite (read_length_field h0 h1 h2 h3) by done. unfold read_payload.
    set (n := if h0 / 32 =? 0 then h2 + 256 * h3 else h3).
    destruct (N.ltb_spec (N.of_nat (length rest)) n) as [E|E]; split; intros F; try done.
    + right; right; exact E.
    + exfalso. destruct F as [F|[F|F]]; lia.
Qed.

(** A data packet between two fragments is glued to the first one. *)
Lemma read_routine_interleaved f1 d l :
  wf_bytes f1 -> wf_bytes d -> (4 <= length f1)%nat -> (4 <= length d)%nat ->
  0 < pkt_mt f1 < 4 -> pkt_more f1 = 1 -> is_data d = true ->
  (read_routine None (f1 :: d :: l)).1 = (f1 ++ payload d) :: (read_routine None l).1.
Proof.
  intros W1 W2 L1 L2 M1 P1 D. cbn [read_routine].
  rewrite read_routine_control by done. cbv zeta. rewrite P1. change (1 =? 0) with false. cbv iota.
  cbn [read_routine]. rewrite read_routine_data by done. cbv iota.
  destruct (read_routine None l). reflexivity.
Qed.

Definition py_send (h : host_send) : option bytes :=
  match h with HControl p => py_send_control p | HData p => py_send_data p end.

Lemma py_send_frames l frames : Forall host_send_ok l -> mapM py_send l = Some frames ->
  Forall frame frames /\ Forall wf_bytes frames /\
  Forall2 received_as (map host_bytes l) frames /\
  Forall (fun p => is_data p = true \/ 0 < pkt_mt p < 4 /\ pkt_more p = 0) frames.
Proof.
  intros Hl. revert frames. induction Hl as [|h l Hh Hl IH]; intros frames H.
  - simpl in H. apply (inj Some) in H; subst. split_and!; constructor.
  - cbn [mapM] in H. apply bind_Some in H as (b & Hb & H). apply bind_Some in H as (bs & Hbs & H).
    apply (inj Some) in H; subst frames. destruct (IH bs Hbs) as (I1 & I2 & I3 & I4).
    assert (frame b /\ wf_bytes b /\ received_as (host_bytes h) b /\
            (is_data b = true \/ 0 < pkt_mt b < 4 /\ pkt_more b = 0)) as (J1 & J2 & J3 & J4).
    { destruct h as [p|p]; cbn [host_send_ok host_bytes py_send] in *.
      - destruct Hh as (W & M & P). destruct (py_send_control_frame p b W Hb M) as (A & B & C & D).
        split_and!; try done. right. destruct C as ((E & _) & _). rewrite <- E, D. done.
      - destruct Hh as (W & M). destruct (py_send_data_frame p b W Hb M) as (A & B & C & D).
        split_and!; try done. left. destruct C as ((E & _) & _). unfold is_data in *. by rewrite <- E. }
    split_and!; constructor; done.
Qed.

Lemma py_send_delivered l frames : Forall host_send_ok l -> mapM py_send l = Some frames ->
  read_routine None (read_stream (concat frames)) = (frames, EndOfStream).
Proof.
  intros Hl H. destruct (py_send_frames l frames Hl H) as (I1 & I2 & I3 & I4).
  assert (wf_bytes (concat frames)) as W.
  { clear -I2. induction I2; [constructor|]. simpl. by apply wf_bytes_app. }
  rewrite <- (app_nil_r (concat frames)).
  rewrite read_stream_concat; [|by rewrite app_nil_r|done|].
  2:{ intros p r E [F _]. destruct p; [simpl in F; lia|done]. }
  clear H W I3. induction I4 as [|p l' Hp I4 IH]; [reflexivity|].
  apply Forall_cons in I1 as [F1 I1]. apply Forall_cons in I2 as [W1 I2].
  cbn [read_routine]. destruct Hp as [Hd|[Hm Hp]].
  - rewrite read_routine_data by (try done; apply F1). by rewrite IH.
  - rewrite read_routine_control by (try done; apply F1). cbv zeta. rewrite Hp.
    change (0 =? 0) with true. cbv iota. by rewrite IH.
Qed.
Lemma py_send_received l frames : Forall host_send_ok l -> mapM py_send l = Some frames ->
  exists delivered, read_routine None (read_stream (concat frames)) = (delivered, EndOfStream)
  /\ Forall2 received_as (map host_bytes l) delivered.
Proof.
  intros Hl H. exists frames. split; [by eapply py_send_delivered|]. by destruct (py_send_frames l frames Hl H) as (_ & _ & ? & _).
Qed.

(** *** Statements of the properties *)

Lemma is_data_parse m : wf_bytes m -> m <> [] ->
  is_data m = bool_decide (parse_message_type (hd 0 m) = MtData).
Proof.
  intros W Hne. destruct m as [|h m]; [done|]. apply wf_bytes_cons in W as [Hh _].
  unfold is_data, pkt_mt. cbn [hd]. pose proof (parse_message_type_data h Hh) as E.
  case_bool_decide as F.
  - apply E in F. rewrite F. reflexivity.
  - destruct (N.eqb_spec (h / 32) 0) as [G|G]; [|done]. apply E in G. done.
Qed.

Lemma segment_lossless m : wf_bytes m -> m <> [] ->
  exists packets, segment m = Some packets
  /\ concat (map payload packets) = payload m
  /\ Forall (fun p => payload p <> []
       /\ N.of_nat (length (payload p)) <= (if is_data m then 1024 else 255)) packets.
Proof.
  intros W Hne. destruct (segment_ok m W Hne) as (l & Hl & S1 & S2 & _).
  exists l. split_and!; try done. eapply Forall_impl; [exact S2|].
  intros p [P1 P2]. split; [done|].
  rewrite is_data_parse by done. unfold max_payload in P2.
  destruct (parse_message_type (hd 0 m)); cbv iota in P2;
    [rewrite bool_decide_true by done|rewrite bool_decide_false by done..];
    unfold MAX_DATA_PACKET_PAYLOAD_SIZE, MAX_CTRL_PACKET_PAYLOAD_SIZE in P2; lia.
Qed.

Lemma segment_headers m l : wf_bytes m -> segment m = Some l ->
  Forall (fun p => same_kind m p /\ (4 <= length p)%nat
                   /\ length_field p = N.of_nat (length (payload p))) l
  /\ boundary_flags l /\ Forall wf_bytes l.
Proof.
  intros W Hl. assert (m <> []) as Hne by (by intros ->).
  destruct (segment_ok m W Hne) as (l' & Hl' & _ & _ & S3 & S4).
  rewrite Hl in Hl'. apply (inj Some) in Hl'; subst l'.
  split_and!; [|done|by eapply segment_wf].
  eapply Forall_impl; [exact S3|]. intros p (P1 & P2 & P3 & P4 & P5).
  split_and!; [|done|done]. unfold same_kind, pkt_mt, pkt_low, pkt_byte1 in *.
  split_and!; congruence.
Qed.

Lemma read_None_no_packet s : wf_bytes s -> (read s = None <-> no_packet s).
Proof. intros W. rewrite no_packet_spec by done. by apply read_None_frame. Qed.

Lemma read_stream_sound s : wf_bytes s ->
  exists rest, s = concat (read_stream s) ++ rest /\ Forall frame (read_stream s) /\ no_packet rest.
Proof.
  intros W. destruct (read_fuel_frames (length s) s W) as (l & rest & E & Es & F & G); [lia|].
  exists rest. unfold read_stream. rewrite E. split_and!; try done.
  apply no_packet_spec; [|done]. rewrite Es in W. by apply wf_bytes_app in W as [_ ?].
Qed.

Lemma read_stream_complete l rest : wf_bytes (concat l ++ rest) -> Forall frame l -> no_packet rest ->
  read_stream (concat l ++ rest) = l.
Proof.
  intros W F N. apply read_stream_concat; [done..|]. apply no_packet_spec; [|done].
  by apply wf_bytes_app in W as [_ ?].
Qed.
