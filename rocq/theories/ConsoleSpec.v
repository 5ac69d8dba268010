(** Specification of the interactive console: what each command asks a device or the web server. *)
From Coq Require Import Strings.String.
From Verif Require Import Base Uci MacAddress Codec CodecSpec MulticastSpec RangingSpec Pica Http Console.

(** [means k c]: the command [k] of the console, with arguments that fit, stands for the UCI command [c]. *)
Inductive means : console_command -> command -> Prop :=
  | MReset : means KDeviceReset (CmdDeviceReset 0)
  | MGetDeviceInfo : means KGetDeviceInfo CmdGetDeviceInfo
  | MGetCapsInfo : means KGetCapsInfo CmdGetCapsInfo
  | MSetConfig mode : byte mode -> means (KSetConfig (Z.of_N mode)) (CmdSetConfig [(1, [mode])])
  | MGetConfig : means KGetConfig (CmdGetConfig [1; 0])
  | MSessionInit id : word32 id -> means (KSessionInit (Z.of_N id)) (CmdSessionInit id 1)
  | MSessionDeinit id : word32 id -> means (KSessionDeinit (Z.of_N id)) (CmdSessionDeinit id)
  (* short addresses of two bytes: mode 0, the interval in four bytes, their number, the addresses one after the other *)
  | MSetAppConfig id interval dst : word32 id -> word32 interval -> (length dst <= 8)%nat ->
      Forall (fun a => length a = 2%nat /\ wf_bytes a) dst ->
      means (KSetAppConfig (Z.of_N id) (Z.of_N interval) dst)
        (CmdSetAppConfig id [(T_MAC_ADDRESS_MODE, [0]); (T_RANGING_DURATION, le_bytes 4 interval);
                             (T_NUMBER_OF_CONTROLEES, [N.of_nat (length dst)]); (T_DST_MAC_ADDRESS, concat dst)])
  | MGetAppConfig id : word32 id -> means (KGetAppConfig (Z.of_N id)) (CmdGetAppConfig id [T_RANGING_DURATION])
  | MGetCount : means KGetCount CmdGetCount
  | MGetState id : word32 id -> means (KGetState (Z.of_N id)) (CmdGetState id)
  (* one controlee *)
  | MAdd id mac sub payload : word32 id -> word16 mac -> word32 sub -> controlees AddControlee [(le_bytes 2 mac, sub, [])] payload ->
      means (KMulticast (Z.of_N id) (Some true) (Z.of_N mac) (Z.of_N sub)) (CmdMulticast id AddControlee payload)
  | MRemove id mac sub payload : word32 id -> word16 mac -> word32 sub -> controlees RemoveControlee [(le_bytes 2 mac, sub, [])] payload ->
      means (KMulticast (Z.of_N id) (Some false) (Z.of_N mac) (Z.of_N sub)) (CmdMulticast id RemoveControlee payload)
  | MStart id : word32 id -> means (KStart (Z.of_N id)) (CmdStart id)
  | MStop id : word32 id -> means (KStop (Z.of_N id)) (CmdStop id)
  | MGetRangingCount id : word32 id -> means (KGetRangingCount (Z.of_N id)) (CmdGetRangingCount id).

(** The commands which use a name that the library does not define. *)
Definition misnamed (k : console_command) : bool :=
  match k with
  | KDeviceReset | KGetDeviceInfo | KGetCapsInfo | KSetConfig _ | KGetConfig | KSetAppConfig _ _ _ => true
  | _ => false
  end.
(** An argument is negative, or an address does not fit in two bytes. (Nothing of the kind ends a data transfer, nor a
    multicast update whose action is neither add nor remove.) *)
Definition bad_argument (k : console_command) : Prop :=
  match k with
  | KSessionInit id | KSessionDeinit id | KGetAppConfig id | KGetState id | KStart id | KStop id | KGetRangingCount id => (id < 0)%Z
  | KMulticast id (Some _) mac sub => (id < 0)%Z \/ (mac < 0)%Z \/ (65536 <= mac)%Z \/ (sub < 0)%Z
  | _ => False
  end.
(** The files read from disk and the addresses typed are made of bytes. *)
Definition wf_console (k : console_command) : Prop :=
  match k with KDataTransfer dst file _ => wf_bytes dst /\ (forall b, file = Some b -> wf_bytes b) | _ => True end.

(** What an unusable device answers: CORE_DEVICE_STATUS_NTF(ERROR) to a command, REJECTED (status 4) to data. *)
Definition rejection (m : msg) : Prop :=
  m = CoreDeviceStatusNtf DsError \/ exists id, m = SessionDataTransferStatusNtf id 0 4 1.

(** The position of a request of the console, and what is done with it. *)
Definition fits (x y z yaw pitch roll : Z) : Prop :=
  (-32768 <= x <= 32767 /\ -32768 <= y <= 32767 /\ -32768 <= z <= 32767 /\
   -32768 <= yaw <= 32767 /\ -128 <= pitch <= 127 /\ -32768 <= roll <= 32767)%Z.
