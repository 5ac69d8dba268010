(** Specification of what a host reads of the configuration of a session, after any history: only the commands of the host
    and the answers which it received are used. *)
From Verif Require Import Base Uci MacAddress AppConfig Codec Session Device Pica CodecSpec ContextSpec HistorySpec.

(** The host of [h] sends the command [c]. *)
Definition asks (h : N) (c : command) (o : op) : Prop :=
  exists packet, o = UciPacket h packet /\ wf_cmd c /\ encodes c packet.
(** The session [id] is created: also by the answer ERROR_SESSION_DUPLICATE (C22). *)
Definition created (h id : N) (x : op * list out) : Prop :=
  exists ty status, asks h (CmdSessionInit id ty) x.1 /\ sent h x.2 = [SessionInitRsp status] /\ (status = 0x00 (* OK *) \/ status = 0x12).
(** It is deleted: the host disconnects, resets the device or deletes the session. *)
Definition deleted (h id : N) (x : op * list out) : Prop :=
  x.1 = Disconnect h \/ asks h (CmdDeviceReset 0) x.1
  \/ asks h (CmdSessionDeinit id) x.1 /\ sent h x.2 = [SessionDeinitRsp 0x00].
(** The parameter [i] is set to [v], and this is accepted. *)
Definition accepted (h id : N) (i : tlv_id) (v : bytes) (x : op * list out) : Prop :=
  exists l1 l2, asks h (CmdSetAppConfig id (l1 ++ (i, v) :: l2)) x.1 /\ i ∉ l2.*1 /\ sent h x.2 = [SessionSetAppConfigRsp 0x00 []].
(** The list of controlees is updated: the answer is not ERROR_SESSION_NOT_EXIST, REJECTED or SYNTAX_ERROR. *)
Definition list_updated (h id : N) (x : op * list out) : Prop :=
  exists a payload status l, asks h (CmdMulticast id a payload) x.1
    /\ sent h x.2 = [SessionUpdateControllerMulticastListRsp status l] /\ status <> 0x11 /\ status <> 0x01 /\ status <> 0x03.
(** NUMBER_OF_CONTROLEES and DST_MAC_ADDRESS *)
Definition of_list (i : tlv_id) : Prop := tlv_byte i = 0x05 \/ tlv_byte i = 0x07.

(** The values which a new session has; the other parameters have none. *)
Definition initial_values : list (N * bytes) := [
  (0x02, [0]); (0x04, [9]); (0x05, [1]); (0x07, []); (0x08, [0x60; 0x09]); (0x09, [200; 0; 0; 0]); (0x0A, [0; 0; 0; 0]);
  (0x0B, [0]); (0x0C, [6]); (0x0D, [1]); (0x0E, [1]); (0x0F, [0; 0]); (0x10, [0x20; 0x4E]); (0x12, [3]); (0x13, [0]);
  (0x14, [10]); (0x15, [2]); (0x16, [0]); (0x17, [1]); (0x18, [0]); (0x19, [0]); (0x1A, [1]); (0x1B, [25]);
  (0x1D, [0; 0; 0; 0; 0; 0; 0; 0]); (0x1F, [0]); (0x20, [0x18; 0x05]); (0x21, [0]); (0x23, [0]); (0x24, [0]);
  (0x25, [50]); (0x26, [0]); (0x27, [0; 0]); (0x28, [0; 0; 0; 0; 0; 0]); (0x29, [1]); (0x2A, [0; 0]);
  (0x2B, [0; 0; 0; 0; 0; 0; 0; 0]); (0x2C, [0]); (0x2D, [0]); (0x2E, [1]); (0x2F, [1]); (0x30, [0; 0; 0; 0]); (0x31, [0]);
  (0x32, [0; 0]); (0x35, [1]); (0x3A, [4]); (0x3B, [0; 0]); (0x3C, [1]); (0x45, []); (0x46, []); (0x47, [0]);
  (0x48, [0; 0; 0; 0; 0; 0; 0; 0; 0]); (0x4C, [0]) ].
(** UWB_INITIATION_TIME may be given in 4 bytes; it is read in 8. *)
Definition as_read (i : tlv_id) (v : bytes) : bytes :=
  if (tlv_byte i =? 0x2B) && Nat.eqb (length v) 4 then v ++ [0; 0; 0; 0] else v.

(** [holds h id i tr v]: after the history [tr], the parameter [i] of the session [id] of [h] was last given the value [v]. *)
Inductive holds (h id : N) (i : tlv_id) : list (op * list out) -> bytes -> Prop :=
  | HoldsInitial tr x v : created h id x -> (tlv_byte i, v) ∈ initial_values -> holds h id i (tr ++ [x]) v
  | HoldsSet tr x v : accepted h id i v x -> holds h id i (tr ++ [x]) (as_read i v)
  | HoldsStill tr x v : holds h id i tr v -> ~ created h id x -> ~ deleted h id x -> (forall w, ~ accepted h id i w x) ->
      ~ (of_list i /\ list_updated h id x) -> holds h id i (tr ++ [x]) v.
(** The session exists. *)
Inductive exists_after (h id : N) : list (op * list out) -> Prop :=
  | ExistsNew tr x : created h id x -> exists_after h id (tr ++ [x])
  | ExistsStill tr x : exists_after h id tr -> ~ deleted h id x -> exists_after h id (tr ++ [x]).
