(** Proofs about capture files. *)
From Verif Require Import Base Uci Codec Transport BaseFacts Pcapng PcapngSpec.

Lemma u32_at_le k a n b : length a = k -> n < 2 ^ 32 -> u32_at k (a ++ le_bytes 4 n ++ b) = n.
Proof.
  intros L Hn. unfold u32_at. rewrite drop_app_alt by done. rewrite take_app_alt by (by rewrite le_bytes_length). by apply le_nat_bytes.
Qed.
Lemma u32_at_le_end k a n : length a = k -> n < 2 ^ 32 -> u32_at k (a ++ le_bytes 4 n) = n.
Proof. intros L Hn. rewrite <- (app_nil_r (le_bytes 4 n)). by apply u32_at_le. Qed.

Definition block (t : N) (body : bytes) : bytes :=
  let total := N.of_nat (length body) + 12 in le_bytes 4 t ++ le_bytes 4 total ++ body ++ le_bytes 4 total.
Definition block_ok (t : N) (body : bytes) : Prop :=
  t < 2 ^ 32 /\ N.of_nat (length body) + 12 < 2 ^ 32 /\ N.of_nat (length body) mod 4 = 0.
Lemma block_length t body : length (block t body) = (length body + 12)%nat.
Proof. unfold block. rewrite !app_length, !le_bytes_length. lia. Qed.

Lemma total_at t body rest : N.of_nat (length body) + 12 < 2 ^ 32 -> u32_at 4 (block t body ++ rest) = N.of_nat (length body) + 12.
Proof.
  intros L. unfold block. cbv zeta. rewrite <- !app_assoc. rewrite u32_at_le; [done|by rewrite le_bytes_length|done].
Qed.
Lemma read_block_ok t body rest : block_ok t body -> read_block (block t body ++ rest) = Some ((t, body), rest).
Proof.
  intros (Ht & L & M). unfold read_block. rewrite total_at by done. rewrite app_length, block_length.
  replace (_ || _ || _ || _) with false by lia.
  replace (N.to_nat (N.of_nat (length body) + 12)) with (length body + 12)%nat by lia.
  assert (u32_at (length body + 12 - 4) (block t body ++ rest) = N.of_nat (length body) + 12) as ->.
  { unfold block. cbv zeta. rewrite <- !app_assoc. rewrite !(app_assoc _ body). rewrite app_assoc. apply u32_at_le; [|done].
    rewrite !app_length, !le_bytes_length. lia. }
  rewrite N.eqb_refl. f_equal. f_equal; [f_equal|].
  - unfold block. cbv zeta. rewrite <- !app_assoc. apply (u32_at_le 0 []); done.
  - unfold block. cbv zeta. rewrite <- !app_assoc. rewrite app_assoc. rewrite drop_app_alt by (by rewrite !app_length, !le_bytes_length).
    apply take_app_alt. lia.
  - rewrite drop_app_alt; [done|]. by rewrite block_length.
Qed.
Lemma read_block_short t body rest k : block_ok t body -> (k < length body + 12)%nat -> read_block (take k (block t body ++ rest)) = None.
Proof.
  intros (Ht & L & M) K. unfold read_block. rewrite take_length, app_length, block_length.
  destruct (Nat.ltb_spec k 12) as [S|S].
  - replace (_ || _ || _ || _) with true by lia. done.
  - assert (u32_at 4 (take k (block t body ++ rest)) = N.of_nat (length body) + 12) as ->.
    { rewrite <- (total_at t body rest) by done. unfold u32_at. f_equal. rewrite !take_drop_commute, take_take. do 2 f_equal. lia. }
    replace (_ || _ || _ || _) with true by lia. done.
Qed.

Lemma read_blocks_fuel_ok l rest fuel : Forall (fun x => block_ok (fst x) (snd x)) l -> (length l <= fuel)%nat ->
  read_block rest = None -> read_blocks_fuel fuel (concat (map (fun x => block (fst x) (snd x)) l) ++ rest) = (l, rest).
Proof.
  revert fuel. induction l as [|[t b] l IH]; intros fuel F Le R.
  - cbn. destruct fuel; [done|]. cbn. by rewrite R.
  - inversion F; subst. destruct fuel as [|fuel]; [cbn in Le; lia|]. cbn [map concat read_blocks_fuel fst snd]. rewrite <- app_assoc, read_block_ok by done.
    rewrite IH; [done|done|cbn in Le; lia|done].
Qed.
Lemma blocks_length l : (length l <= length (concat (map (fun x : N * bytes => block (fst x) (snd x)) l)))%nat.
Proof. induction l as [|x l IH]; [done|]. cbn [map concat length]. rewrite app_length, block_length. lia. Qed.
Lemma read_blocks_ok l rest : Forall (fun x => block_ok (fst x) (snd x)) l -> read_block rest = None ->
  read_blocks (concat (map (fun x => block (fst x) (snd x)) l) ++ rest) = (l, rest).
Proof. intros F R. apply read_blocks_fuel_ok; [done| |done]. rewrite app_length. pose proof (blocks_length l). lia. Qed.

(** The blocks of a prefix of the bytes. *)
Lemma read_blocks_take l k : Forall (fun x => block_ok (fst x) (snd x)) l ->
  exists j, fst (read_blocks (take k (concat (map (fun x => block (fst x) (snd x)) l)))) = take j l
    /\ forall i, (i <= length l)%nat -> (length (concat (map (fun x => block (fst x) (snd x)) (take i l))) <= k)%nat <-> (i <= j)%nat.
Proof.
  intros F.
  assert (exists j r, (j <= length l)%nat /\ take k (concat (map (fun x => block (fst x) (snd x)) l)) = concat (map (fun x => block (fst x) (snd x)) (take j l)) ++ r
    /\ read_block r = None /\ forall i, (i <= length l)%nat -> (length (concat (map (fun x => block (fst x) (snd x)) (take i l))) <= k)%nat <-> (i <= j)%nat) as (j & r & Lj & E & R & I).
  { revert k. induction F as [|[t b] l Fx F IH]; intros k.
    - exists 0%nat, []. cbn. rewrite take_nil. split_and!; try done. intros i Hi. rewrite take_nil. cbn. lia.
    - cbn [map concat fst snd] in *. destruct (Nat.ltb_spec k (length b + 12)) as [Hk|Hk].
      + exists 0%nat, (take k (block t b ++ concat (map (fun x => block (fst x) (snd x)) l))). split; [lia|]. split; [done|]. split; [by apply read_block_short|].
        intros [|i] Hi; [cbn; lia|]. cbn [take map concat fst snd]. rewrite app_length, block_length. lia.
      + destruct (IH (k - (length b + 12))%nat) as (j & r & Lj & E & R & I). exists (S j), r. split; [cbn; lia|]. split; [|split; [done|]].
        * rewrite take_app_ge by (rewrite block_length; lia). rewrite block_length, E. cbn [take map concat fst snd]. by rewrite app_assoc.
        * intros [|i] Hi; [cbn; lia|]. cbn [take map concat fst snd]. rewrite app_length, block_length. cbn in Hi. specialize (I i). lia. }
  exists j. split; [|done]. rewrite E, read_blocks_ok; [done| |done]. by apply Forall_take.
Qed.

(** ** The blocks of pcapng.rs *)
Definition header_body : bytes := le_bytes 4 0x1A2B3C4D ++ le_bytes 2 1 ++ le_bytes 2 0 ++ le_bytes 8 0xFFFFFFFFFFFFFFFF.
Definition interface_body : bytes := le_bytes 2 293 ++ le_bytes 2 0 ++ le_bytes 4 0.
Definition padding (p : bytes) : nat := N.to_nat (4 - N.of_nat (length p) mod 4).
Definition packet_body (ts : N) (p : bytes) : bytes :=
  le_bytes 4 0 ++ le_bytes 4 (as_u32 (N.shiftr ts 32)) ++ le_bytes 4 (as_u32 ts) ++ le_bytes 4 (N.of_nat (length p)) ++ le_bytes 4 (N.of_nat (length p))
  ++ p ++ repeat 0 (padding p).
(** The packets that can be recorded. *)
Definition recordable (p : bytes) : Prop := N.of_nat (length p) + (4 - N.of_nat (length p) mod 4) + 32 < 2 ^ 32.

Lemma create_blocks : concat create_writes = block 0x0A0D0D0A header_body ++ block 1 interface_body.
Proof. vm_compute. reflexivity. Qed.
Lemma packet_body_length ts p : N.of_nat (length (packet_body ts p)) + 12 = N.of_nat (length p) + (4 - N.of_nat (length p) mod 4) + 32.
Proof. unfold packet_body, padding. rewrite !app_length, !le_bytes_length, repeat_length. lia. Qed.
Lemma packet_block ts p : recordable p -> exists w, packet_writes ts p = Some w /\ concat w = block 6 (packet_body ts p).
Proof.
  intros R. unfold recordable in R. unfold packet_writes. cbv zeta.
  assert (as_u32 (N.of_nat (length p)) = N.of_nat (length p)) as -> by (apply N.mod_small; lia).
  assert (as_u32 (4 - N.of_nat (length p) mod 4) = 4 - N.of_nat (length p) mod 4) as -> by (apply N.mod_small; lia).
  destruct (N.leb_spec (2 ^ 32) (N.of_nat (length p) + (4 - N.of_nat (length p) mod 4) + 32)) as [X|_]; [lia|].
  eexists. split; [reflexivity|]. unfold block. cbv zeta. rewrite packet_body_length. unfold packet_body, padding. cbn [concat]. rewrite app_nil_r. by rewrite <- !app_assoc.
Qed.
Lemma packet_panic ts p : N.of_nat (length p) < 2 ^ 32 -> packet_writes ts p = None <-> ~ recordable p.
Proof.
  intros L. split.
  - intros E R. destruct (packet_block ts p R) as (w & E' & _). congruence.
  - intros R. unfold recordable in R. unfold packet_writes. cbv zeta.
    assert (as_u32 (N.of_nat (length p)) = N.of_nat (length p)) as -> by (by apply N.mod_small).
    assert (as_u32 (4 - N.of_nat (length p) mod 4) = 4 - N.of_nat (length p) mod 4) as -> by (apply N.mod_small; lia).
    destruct (N.leb_spec (2 ^ 32) (N.of_nat (length p) + (4 - N.of_nat (length p) mod 4) + 32)) as [X|X]; [done|lia].
Qed.
Lemma packet_block_ok ts p : recordable p -> block_ok 6 (packet_body ts p).
Proof.
  intros R. unfold recordable in R. split; [done|]. pose proof (packet_body_length ts p). split; [lia|]. lia.
Qed.

Lemma take_at {A} k (a b : list A) : length a = k -> take k (a ++ b) = a.
Proof. intros <-. apply take_app. Qed.
Lemma drop_at {A} k (a b : list A) : length a = k -> drop k (a ++ b) = b.
Proof. intros <-. apply drop_app. Qed.

Lemma drop_zeros (n k : nat) : drop k (repeat 0 n) = repeat 0 (n - k).
Proof. revert k. induction n as [|n IH]; intros [|k]; try done. cbn. apply IH. Qed.

Definition record_of (x : N * bytes) : packet_record :=
  PacketRecord 293 (fst x mod 2 ^ 64) (N.of_nat (length (snd x))) (snd x).
Lemma tail_options p : valid_options (repeat 0 (padding p - N.to_nat (padded (N.of_nat (length p)) - N.of_nat (length p)))%nat) = true.
Proof.
  set (n := (padding p - _)%nat). assert (n = 0 \/ n = 4)%nat as [-> | ->]; [|done|done].
  subst n. unfold padding, padded. lia.
Qed.
Lemma timestamp_halves ts : 2 ^ 32 * as_u32 (N.shiftr ts 32) + as_u32 ts = ts mod 2 ^ 64.
Proof.
  unfold as_u32. rewrite N.shiftr_div_pow2. change (2 ^ 64) with (2 ^ 32 * 2 ^ 32). rewrite N.mod_mul_r by done. lia.
Qed.
Lemma read_packet_ok ts p : recordable p -> read_packet [Interface 293 0] (6, packet_body ts p) = Some (record_of (ts, p)).
Proof.
  intros R. pose proof (packet_body_length ts p) as L. unfold recordable in R. unfold read_packet. 
  assert (as_u32 (N.shiftr ts 32) < 2 ^ 32 /\ as_u32 ts < 2 ^ 32) as [T1 T2] by (split; by apply N.mod_lt).
  assert (N.of_nat (length p) < 2 ^ 32) as Lp by lia.
  replace (negb (6 =? 6) || (N.of_nat (length (packet_body ts p)) <? 20)) with false by (cbn; lia).
  set (f0 := le_bytes 4 0). set (f1 := le_bytes 4 (as_u32 (N.shiftr ts 32))). set (f2 := le_bytes 4 (as_u32 ts)). set (f3 := le_bytes 4 (N.of_nat (length p))).
  assert (length f0 = 4%nat /\ length f1 = 4%nat /\ length f2 = 4%nat /\ length f3 = 4%nat) as (L0 & L1 & L2 & L3) by (unfold f0, f1, f2, f3; by rewrite !le_bytes_length).
  assert (packet_body ts p = f0 ++ f1 ++ f2 ++ f3 ++ f3 ++ p ++ repeat 0 (padding p)) as E by done.
  assert (u32_at 0 (packet_body ts p) = 0) as -> by (rewrite E; apply (u32_at_le 0 []); done).
  cbn [N.to_nat lookup list_lookup]. change (N.to_nat 0) with 0%nat. cbn [lookup list_lookup if_snaplen if_linktype].
  assert (u32_at 4 (packet_body ts p) = as_u32 (N.shiftr ts 32)) as -> by (rewrite E; apply u32_at_le; done).
  assert (u32_at 8 (packet_body ts p) = as_u32 ts) as -> by (rewrite E, app_assoc; apply u32_at_le; [rewrite app_length; lia|done]).
  assert (u32_at 12 (packet_body ts p) = N.of_nat (length p)) as -> by (rewrite E, !app_assoc, <- !app_assoc, (app_assoc f0), (app_assoc (f0 ++ f1)); apply u32_at_le; [rewrite !app_length; lia|done]).
  assert (u32_at 16 (packet_body ts p) = N.of_nat (length p)) as ->.
  { rewrite E, (app_assoc f0), (app_assoc (f0 ++ f1)), (app_assoc ((f0 ++ f1) ++ f2)). apply u32_at_le; [rewrite !app_length; lia|done]. }
  assert (drop 20 (packet_body ts p) = p ++ repeat 0 (padding p)) as D20.
  { rewrite E, (app_assoc f0), (app_assoc (f0 ++ f1)), (app_assoc ((f0 ++ f1) ++ f2)), (app_assoc (((f0 ++ f1) ++ f2) ++ f3)). apply drop_at. rewrite !app_length. lia. }
  assert (drop (N.to_nat (20 + padded (N.of_nat (length p)))) (packet_body ts p) = repeat 0 (padding p - N.to_nat (padded (N.of_nat (length p)) - N.of_nat (length p)))) as ->.
  { replace (N.to_nat (20 + padded (N.of_nat (length p)))) with (20 + (length p + N.to_nat (padded (N.of_nat (length p)) - N.of_nat (length p))))%nat by (unfold padded; lia).
    rewrite <- drop_drop, D20, <- drop_drop, drop_app. apply drop_zeros. }
  rewrite tail_options. rewrite D20. rewrite timestamp_halves.
  replace (_ || _ || _ || _) with false.
  - unfold record_of. cbn [fst snd]. do 2 f_equal. rewrite take_at; [done|lia].
  - cbn [negb N.eqb andb]. unfold padded. lia.
Qed.

(** ** Whole files *)
Definition file_blocks (l : list (N * bytes)) : list (N * bytes) :=
  (0x0A0D0D0A, header_body) :: (1, interface_body) :: map (fun x => (6, packet_body (fst x) (snd x))) l.
Definition file_of (l : list (N * bytes)) : bytes := concat (map (fun x => block (fst x) (snd x)) (file_blocks l)).
Lemma packets_writes_ok l : Forall (fun x => recordable (snd x)) l ->
  exists w, packets_writes l = Some w /\ concat w = concat (map (fun x => block 6 (packet_body (fst x) (snd x))) l).
Proof.
  induction 1 as [|[ts p] l R F (w & E & C)]; [by exists []|]. destruct (packet_block ts p R) as (w0 & E0 & C0). cbn [packets_writes].
  rewrite E0. cbn [mbind option_bind]. rewrite E. cbn [mbind option_bind]. eexists. split; [reflexivity|]. rewrite concat_app, C0, C. done.
Qed.
Lemma file_writes_ok l : Forall (fun x => recordable (snd x)) l -> exists w, file_writes l = Some w /\ concat w = file_of l.
Proof.
  intros F. destruct (packets_writes_ok l F) as (w & E & C). unfold file_writes. rewrite E. cbn [mbind option_bind].
  eexists. split; [reflexivity|]. rewrite concat_app, create_blocks, C. unfold file_of, file_blocks. cbn [map concat fst snd].
  rewrite map_map, app_assoc. done.
Qed.
Lemma file_of_snoc l ts p : file_of (l ++ [(ts, p)]) = file_of l ++ block 6 (packet_body ts p).
Proof. unfold file_of, file_blocks. cbn [map concat]. rewrite !map_map, map_app, concat_app. cbn [map concat fst snd]. rewrite app_nil_r. by rewrite !app_assoc. Qed.
Lemma file_blocks_ok l : Forall (fun x => recordable (snd x)) l -> Forall (fun x => block_ok (fst x) (snd x)) (file_blocks l).
Proof.
  intros F. constructor; [by vm_compute|]. constructor; [by vm_compute|]. induction F as [|x l R F IH]; [constructor|]. constructor; [by apply packet_block_ok|done].
Qed.
Lemma header_ok : is_section_header (0x0A0D0D0A, header_body) = true.
Proof. vm_compute. reflexivity. Qed.
Lemma read_section_packets l : Forall (fun x => recordable (snd x)) l ->
  read_section [Interface 293 0] (map (fun x => (6, packet_body (fst x) (snd x))) l) = Some (map record_of l).
Proof.
  induction 1 as [|[ts p] l R F IH]; [done|]. cbn [map read_section fst snd]. unfold read_interface. change (6 =? 1) with false. cbn [andb].
  rewrite read_packet_ok by done. cbn [mbind option_bind]. by rewrite IH.
Qed.
Lemma read_section_file l : Forall (fun x => recordable (snd x)) l ->
  read_section [] ((1, interface_body) :: map (fun x => (6, packet_body (fst x) (snd x))) l) = Some (map record_of l).
Proof.
  intros F. cbn [read_section]. change (read_interface (1, interface_body)) with (Some (Interface 293 0)). cbn [app]. by apply read_section_packets.
Qed.
Lemma read_file l : Forall (fun x => recordable (snd x)) l -> read_capture (file_of l) = Some (map record_of l).
Proof.
  intros F. unfold read_capture. rewrite <- (app_nil_r (file_of l)). unfold file_of. rewrite read_blocks_ok; [|by apply file_blocks_ok|done].
  unfold file_blocks. rewrite header_ok. by apply read_section_file.
Qed.
Lemma file_of_length_mod l : Forall (fun x => recordable (snd x)) l -> N.of_nat (length (file_of l)) mod 4 = 0.
Proof.
  intros F. apply file_blocks_ok in F. unfold file_of. induction F as [|[t b] bs (_ & _ & M) F IH]; [done|]. cbn [map concat fst snd] in *.
  rewrite app_length, block_length. lia.
Qed.

(** A file cut at any place: the complete blocks are read. *)
Lemma read_cut l k : Forall (fun x => recordable (snd x)) l ->
  exists j, read_truncated_capture (take k (file_of l)) = Some (map record_of (take j l))
    /\ forall i, (i <= length l)%nat -> (length (file_of (take i l)) <= k)%nat -> (i <= j)%nat.
Proof.
  intros F. destruct (read_blocks_take (file_blocks l) k (file_blocks_ok l F)) as (j & E & I). unfold read_truncated_capture, file_of. rewrite E.
  exists (j - 2)%nat. split.
  - destruct j as [|[|j]]; [done|vm_compute; reflexivity|]. unfold file_blocks. cbn [take]. rewrite header_ok.
    replace (S (S j) - 2)%nat with j by lia. rewrite firstn_map. apply read_section_file. by apply Forall_take.
  - intros i Hi Li. specialize (I (S (S i))). unfold file_blocks in I at 1. cbn [length] in I. rewrite map_length in I. specialize (I ltac:(lia)).
    unfold file_of in Li. assert (take (S (S i)) (file_blocks l) = file_blocks (take i l)) as Et.
    { unfold file_blocks. cbn [take]. by rewrite firstn_map. }
    rewrite Et in I. lia.
Qed.

(** ** The capture of a connection *)
Lemma il_snoc_left {A} (l1 l2 l : list A) x : interleaving l1 l2 l -> interleaving (l1 ++ [x]) l2 (l ++ [x]).
Proof. induction 1; cbn; by repeat constructor. Qed.
Lemma il_snoc_right {A} (l1 l2 l : list A) x : interleaving l1 l2 l -> interleaving l1 (l2 ++ [x]) (l ++ [x]).
Proof. induction 1; cbn; by repeat constructor. Qed.

Definition captured (c : conn_state) : Prop :=
  exists l, cs_file c = file_of l /\ Forall (fun x => recordable (snd x)) l /\ interleaving (cs_read c) (cs_sent c) (map snd l).
Lemma packet_writes_recordable ts p w : N.of_nat (length p) < 2 ^ 32 -> packet_writes ts p = Some w -> recordable p /\ concat w = block 6 (packet_body ts p).
Proof.
  intros L E. assert (recordable p) as R.
  { destruct (decide (recordable p)) as [R|R]; [done|]. apply (packet_panic ts p L) in R. congruence. }
  split; [done|]. destruct (packet_block ts p R) as (w' & E' & C). congruence.
Qed.
Definition small (p : bytes) : Prop := N.of_nat (length p) + 36 < 2 ^ 32.
Definition event_small (ev : conn_event) : Prop := match ev with CeRead _ p => small p | _ => True end.
Lemma small_recordable p : small p -> recordable p.
Proof. unfold small, recordable. lia. Qed.
Lemma segment_loop_small fuel mt header rest : length header = 4%nat -> Forall small (segment_loop fuel mt header rest).
Proof.
  intros L. revert rest. induction fuel as [|fuel IH]; intros rest; [constructor|]. cbn [segment_loop]. destruct rest as [|b rest]; [constructor|].
  constructor; [|apply IH]. unfold small. rewrite app_length, take_length.
  assert (length (patch_header mt (if Nat.eqb (Nat.min (length (b :: rest)) match mt with MtData => MAX_DATA_PACKET_PAYLOAD_SIZE | _ => MAX_CTRL_PACKET_PAYLOAD_SIZE end) (length (b :: rest)) then PBF_COMPLETE else PBF_NOT_COMPLETE)
     (Nat.min (length (b :: rest)) match mt with MtData => MAX_DATA_PACKET_PAYLOAD_SIZE | _ => MAX_CTRL_PACKET_PAYLOAD_SIZE end) header) = 4%nat) as ->.
  { destruct header as [|h0 [|h1 [|h2 [|h3 [|]]]]]; try discriminate L. unfold patch_header. destruct mt; try reflexivity. }
  assert (match mt with MtData => MAX_DATA_PACKET_PAYLOAD_SIZE | _ => MAX_CTRL_PACKET_PAYLOAD_SIZE end <= N.to_nat 1024)%nat by (unfold MAX_CTRL_PACKET_PAYLOAD_SIZE, MAX_DATA_PACKET_PAYLOAD_SIZE; destruct mt; lia).
  lia.
Qed.
Lemma segment_small m l : segment m = Some l -> Forall small l.
Proof.
  intros E. unfold segment in E. destruct m as [|h0 m]; [discriminate|]. apply (inj Some) in E. subst l.
  destruct (Nat.ltb_spec (length (h0 :: m)) 4) as [S|S].
  - rewrite (drop_ge (h0 :: m)) by (unfold HEADER_SIZE; lia). constructor.
  - apply segment_loop_small. rewrite take_length. unfold HEADER_SIZE. lia.
Qed.

Lemma conn_step_captured c ev c' : event_small ev -> Forall small (cs_pending c) -> captured c -> conn_step c ev = Some c' ->
  Forall small (cs_pending c') /\ captured c'.
Proof.
  intros Sm P (l & F & R & I) S. unfold conn_step in S. destruct (cs_ended c); [discriminate|]. destruct ev as [ts p|m|ts].
  - destruct p as [|h p]; [injection S as <-; split; [done|by exists l]|]. destruct (mt_of_code _); [|injection S as <-; split; [done|by exists l]].
    destruct (packet_block ts (h :: p) (small_recordable _ Sm)) as (w & Ew & Cw). rewrite Ew in S. cbn [mbind option_bind] in S.
    assert (cs_file c ++ concat w = file_of (l ++ [(ts, h :: p)])) as Ef by (by rewrite file_of_snoc, F, Cw).
    assert (Forall (fun x => recordable (snd x)) (l ++ [(ts, h :: p)])) as Rf by (apply Forall_app; split; [done|]; constructor; [by apply small_recordable|done]).
    assert (interleaving (cs_read c ++ [h :: p]) (cs_sent c) (map snd (l ++ [(ts, h :: p)]))) as If by (rewrite map_app; by apply il_snoc_left).
    destruct (read_routine_packet _ _); injection S as <-; (split; [done|by exists (l ++ [(ts, h :: p)])]).
  - destruct (cs_pending c); [|discriminate]. destruct (segment m) eqn:E; injection S as <-; (split; [|by exists l]); [by eapply segment_small|done].
  - destruct (cs_pending c) as [|p ps]; [discriminate|]. inversion P as [|? ? Sp Sps]; subst.
    destruct (packet_block ts p (small_recordable _ Sp)) as (w & Ew & Cw). rewrite Ew in S. cbn [mbind option_bind] in S. injection S as <-.
    split; [done|]. exists (l ++ [(ts, p)]). cbn [cs_file cs_read cs_sent]. rewrite file_of_snoc, <- F, Cw. split; [done|]. split; [|rewrite map_app; by apply il_snoc_right].
    apply Forall_app; split; [done|]; constructor; [by apply small_recordable|done].
Qed.
Lemma conn_run_captured evs c : Forall event_small evs -> conn_run conn_new evs = Some c -> captured c.
Proof.
  intros F R.
  assert (forall c0, Forall small (cs_pending c0) -> captured c0 -> conn_run c0 evs = Some c -> captured c) as G.
  { clear R. induction F as [|ev evs Fe F IH]; intros c0 P C R; cbn in R; [by injection R as <-|].
    destruct (conn_step c0 ev) as [c1|] eqn:S; [|discriminate]. destruct (conn_step_captured _ _ _ Fe P C S) as [P' C']. by apply (IH c1). }
  apply (G conn_new); [constructor| |done]. exists []. split; [|split; constructor]. cbn [cs_file conn_new]. rewrite create_blocks. unfold file_of, file_blocks. cbn [map concat fst snd]. by rewrite app_nil_r.
Qed.
(** Recording never panics nor blocks on such packets. *)
Lemma conn_step_defined c ev : event_small ev -> Forall small (cs_pending c) -> cs_ended c = false ->
  match ev with CeRead _ _ => True | CeRecv _ => cs_pending c = [] | CeSend _ => cs_pending c <> [] end -> is_Some (conn_step c ev).
Proof.
  intros Sm P E H. unfold conn_step. rewrite E. destruct ev as [ts p|m|ts].
  - destruct p as [|h p]; [by eexists|]. destruct (mt_of_code _); [|by eexists].
    destruct (packet_block ts (h :: p) (small_recordable _ Sm)) as (w & Ew & Cw). rewrite Ew. cbn [mbind option_bind]. destruct (read_routine_packet _ _); by eexists.
  - rewrite H. destruct (segment m); by eexists.
  - destruct (cs_pending c) as [|p ps]; [done|]. inversion P as [|? ? Sp Sps]; subst.
    destruct (packet_block ts p (small_recordable _ Sp)) as (w & Ew & Cw). rewrite Ew. by eexists.
Qed.

(** What was delivered and sent is what the routines of the transport make of what was read and received. *)
Definition received_of (evs : list conn_event) : list bytes := concat (map (fun ev => match ev with CeRecv m => [m] | _ => [] end) evs).
Definition read_of (evs : list conn_event) : list bytes := concat (map (fun ev => match ev with CeRead _ p => [p] | _ => [] end) evs).

Record conn_inv (evs : list conn_event) (c : conn_state) : Prop := {
  ki_delivered : fst (read_routine None (cs_read c)) = cs_delivered c;
  ki_live : cs_ended c = false ->
    (forall l, fst (read_routine None (cs_read c ++ l)) = cs_delivered c ++ fst (read_routine (cs_partial c) l))
    /\ cs_read c = read_of evs /\ exists ls, mapM segment (received_of evs) = Some ls /\ cs_sent c ++ cs_pending c = concat ls }.
Lemma mapM_snoc {A B} (f : A -> option B) l x ls y : mapM f l = Some ls -> f x = Some y -> mapM f (l ++ [x]) = Some (ls ++ [y]).
Proof. intros H E. apply mapM_Some in H. apply mapM_Some. apply Forall2_app; [done|]. by constructor. Qed.
Lemma conn_step_inv evs c ev c' : conn_inv evs c -> conn_step c ev = Some c' -> conn_inv (evs ++ [ev]) c'.
Proof.
  intros [D L] S. unfold conn_step in S. destruct (cs_ended c) eqn:En; [discriminate|]. destruct (L eq_refl) as (Ll & Lr & ls & Lm & Ls). clear L.
  assert (read_of (evs ++ [ev]) = read_of evs ++ match ev with CeRead _ p => [p] | _ => [] end) as Er by (unfold read_of; rewrite map_app, concat_app; cbn [map concat]; by rewrite app_nil_r).
  assert (received_of (evs ++ [ev]) = received_of evs ++ match ev with CeRecv m => [m] | _ => [] end) as Ev by (unfold received_of; rewrite map_app, concat_app; cbn [map concat]; by rewrite app_nil_r).
  destruct ev as [ts p|m|ts].
  - destruct p as [|h p]; [injection S as <-; by split|]. destruct (mt_of_code _); [|injection S as <-; by split].
    destruct (packet_writes ts (h :: p)) as [w|]; [|discriminate]. cbn [mbind option_bind] in S.
    pose proof (Ll [h :: p]) as E1. cbn [read_routine] in E1.
    destruct (read_routine_packet (cs_partial c) (h :: p)) as [q|q| |] eqn:Q; injection S as <-; cbn [cs_read cs_delivered cs_ended cs_partial cs_sent cs_pending]; rewrite ?app_nil_r in *; cbn [fst] in *; rewrite ?app_nil_r in E1.
    + split; [done|]. intros _. split; [|split; [by rewrite Er, Lr|exists ls; by rewrite Ev]].
      intros l. cbn [cs_read cs_delivered cs_partial]. rewrite <- app_assoc, Ll. cbn [app read_routine]. by rewrite Q.
    + split; [done|]. intros _. split; [|split; [by rewrite Er, Lr|exists ls; by rewrite Ev]].
      intros l. cbn [cs_read cs_delivered cs_partial]. rewrite <- app_assoc, Ll. cbn [app read_routine]. rewrite Q. destruct (read_routine None l). cbn [fst]. by rewrite <- app_assoc.
    + split; [done|discriminate].
    + split; [done|discriminate].
  - destruct (cs_pending c) eqn:Pe; [|discriminate]. destruct (segment m) as [l|] eqn:E; injection S as <-; cbn; (split; [done|]); [|discriminate].
    intros _. rewrite app_nil_r in *. split; [done|]. split; [by rewrite Er|]. exists (ls ++ [l]). rewrite Ev. split.
    + by apply mapM_snoc.
    + rewrite concat_app. cbn. by rewrite app_nil_r, Ls.
  - destruct (cs_pending c) as [|p ps] eqn:Pe; [discriminate|]. destruct (packet_writes ts p); [|discriminate]. cbn [mbind option_bind] in S. injection S as <-.
    split; [done|]. intros _. rewrite app_nil_r in *. split; [done|]. split; [by rewrite Er|]. exists ls. rewrite Ev. split; [done|]. cbn [cs_sent cs_pending]. rewrite <- app_assoc. exact Ls.
Qed.
Lemma conn_run_inv evs c : conn_run conn_new evs = Some c -> conn_inv evs c.
Proof.
  assert (forall evs evs0 c0, conn_inv evs0 c0 -> conn_run c0 evs = Some c -> conn_inv (evs0 ++ evs) c) as G.
  { clear. induction evs as [|ev evs IH]; intros evs0 c0 I R; cbn in R; [injection R as <-; by rewrite app_nil_r|].
    destruct (conn_step c0 ev) as [c1|] eqn:S; [|discriminate]. apply (conn_step_inv _ _ _ _ I) in S. apply (IH _ _ S) in R. by rewrite <- app_assoc in R. }
  apply (G evs [] conn_new). split; [done|]. intros _. split; [done|]. split; [done|]. by exists [].
Qed.
