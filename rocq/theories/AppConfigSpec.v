(** Specification of the application configuration parameters: a table, independent of
    the implementation, of the identifiers and of the values they accept
    ([UCI] Table 45 and uci_packets.pdl:170-452). *)
From Verif Require Import Base.

Inductive shape : Set :=
  | Size (k : nat)            (* any value of exactly k bytes *)
  | OneOf (l : list N)        (* a single byte, among those declared *)
  | AnySize                   (* any value *)
  | SizeIn (l : list nat)     (* a value of one of these sizes *)
  | Address                   (* one MAC address of the current address mode *)
  | AddressList.              (* NUMBER_OF_CONTROLEES MAC addresses *)

Definition parameters : list (N * shape) := [
  (0x00, OneOf [0; 1]);                     (* DEVICE_TYPE *)
  (0x01, OneOf [1; 2; 3; 4; 5; 6; 7; 8]);   (* RANGING_ROUND_USAGE *)
  (0x02, OneOf [0; 1; 2; 3; 4]);            (* STS_CONFIG *)
  (0x03, OneOf [0; 1]);                     (* MULTI_NODE_MODE *)
  (0x04, OneOf [5; 6; 8; 9; 10; 12; 13; 14]); (* CHANNEL_NUMBER *)
  (0x05, Size 1);                           (* NUMBER_OF_CONTROLEES *)
  (0x06, Address);                          (* DEVICE_MAC_ADDRESS *)
  (0x07, AddressList);                      (* DST_MAC_ADDRESS *)
  (0x08, Size 2);                           (* SLOT_DURATION *)
  (0x09, Size 4);                           (* RANGING_DURATION *)
  (0x0A, Size 4);                           (* STS_INDEX *)
  (0x0B, OneOf [0; 1]);                     (* MAC_FCS_TYPE *)
  (0x0C, Size 1);                           (* RANGING_ROUND_CONTROL *)
  (0x0D, OneOf [0; 1; 2; 3]);               (* AOA_RESULT_REQ *)
  (0x0E, OneOf [0; 1; 2; 3; 4; 5; 6; 7]);   (* SESSION_INFO_NTF_CONFIG *)
  (0x0F, Size 2);                           (* NEAR_PROXIMITY_CONFIG *)
  (0x10, Size 2);                           (* FAR_PROXIMITY_CONFIG *)
  (0x11, OneOf [0; 1; 5; 6; 7; 8]);         (* DEVICE_ROLE *)
  (0x12, OneOf [0; 1; 3]);                  (* RFRAME_CONFIG *)
  (0x13, OneOf [0; 1]);                     (* RSSI_REPORTING *)
  (0x14, Size 1);                           (* PREAMBLE_CODE_INDEX *)
  (0x15, Size 1);                           (* SFD_ID *)
  (0x16, OneOf [0; 1; 2; 3]);               (* PSDU_DATA_RATE *)
  (0x17, OneOf [0; 1]);                     (* PREAMBLE_DURATION *)
  (0x18, OneOf [0]);                        (* LINK_LAYER_MODE *)
  (0x19, Size 1);                           (* DATA_REPETITION_COUNT *)
  (0x1A, OneOf [1]);                        (* RANGING_TIME_STRUCT *)
  (0x1B, Size 1);                           (* SLOTS_PER_RR *)
  (0x1D, Size 8);                           (* AOA_BOUND_CONFIG *)
  (0x1F, OneOf [0; 1; 2]);                  (* PRF_MODE *)
  (0x20, Size 2);                           (* CAP_SIZE_RANGE *)
  (0x21, Size 1);                           (* TX_JITTER_WINDOW_SIZE *)
  (0x22, OneOf [0; 1]);                     (* SCHEDULE_MODE *)
  (0x23, OneOf [0; 1]);                     (* KEY_ROTATION *)
  (0x24, Size 1);                           (* KEY_ROTATION_RATE *)
  (0x25, Size 1);                           (* SESSION_PRIORITY *)
  (0x26, OneOf [0; 1; 2]);                  (* MAC_ADDRESS_MODE *)
  (0x27, Size 2);                           (* VENDOR_ID *)
  (0x28, Size 6);                           (* STATIC_STS_IV *)
  (0x29, Size 1);                           (* NUMBER_OF_STS_SEGMENTS *)
  (0x2A, Size 2);                           (* MAX_RR_RETRY *)
  (0x2B, SizeIn [4; 8]%nat);                (* UWB_INITIATION_TIME *)
  (0x2C, OneOf [0; 1]);                     (* HOPPING_MODE *)
  (0x2D, Size 1);                           (* BLOCK_STRIDE_LENGTH *)
  (0x2E, Size 1);                           (* RESULT_REPORT_CONFIG *)
  (0x2F, Size 1);                           (* IN_BAND_TERMINATION_ATTEMPT_COUNT *)
  (0x30, Size 4);                           (* SUB_SESSION_ID *)
  (0x31, OneOf [0; 1]);                     (* BPRF_PHR_DATA_RATE *)
  (0x32, Size 2);                           (* MAX_NUMBER_OF_MEASUREMENTS *)
  (0x35, OneOf [0; 1; 2]);                  (* STS_LENGTH *)
  (0x3A, Size 1);                           (* MIN_FRAMES_PER_RR *)
  (0x3B, Size 2);                           (* MTU_SIZE *)
  (0x3C, Size 1);                           (* INTER_FRAME_INTERVAL *)
  (0x45, AnySize);                          (* SESSION_KEY *)
  (0x46, SizeIn [16; 32]%nat);              (* SUB_SESSION_KEY *)
  (0x47, OneOf [0; 1]);                     (* SESSION_DATA_TRANSFER_STATUS_NTF_CONFIG *)
  (0x48, Size 9);                           (* SESSION_TIME_BASE *)
  (0x4C, Size 1) ].                         (* APPLICATION_DATA_ENDPOINT *)

(** Size of an address in each MAC_ADDRESS_MODE; mode 1 is not supported. *)
Definition address_size (mode : N) : option nat :=
  if mode =? 0 then Some 2%nat else if mode =? 2 then Some 8%nat else None.

(** A value is acceptable for a shape, given the current MAC_ADDRESS_MODE and
    NUMBER_OF_CONTROLEES. *)
Definition acceptable (mode controlees : N) (s : shape) (v : bytes) : Prop :=
  match s with
  | Size k => length v = k
  | OneOf l => exists b, v = [b] /\ In b l
  | AnySize => True
  | SizeIn l => In (length v) l
  | Address => address_size mode = Some (length v)
  | AddressList => exists k, address_size mode = Some k /\ length v = (N.to_nat controlees * k)%nat
  end.
