(** Model of the programs of tests/helper.py, tests/ranging.py and tests/data_transfer.py, which use the Python library. *)
From Verif Require Import Base Uci Codec Transport PyHost PyReaderSpec.

Global Instance measurement_eq_dec : EqDecision measurement.
Proof. solve_decision. Defined.
Global Instance msg_eq_dec : EqDecision msg.
Proof. solve_decision. Defined.
Global Instance py_packet_eq_dec : EqDecision py_packet.
Proof. solve_decision. Defined.

(** One statement of a program. *)
Inductive action : Set :=
  | Send (c : command)    (* host.send_control(..) *)
  | SendData (pbf handle dst seq : N) (data : bytes)   (* host.send_data(uci.DataMessageSnd(..)) *)
  | Expect (m : msg)      (* await host.expect_control(<object>) *)
  | ExpectInfo            (* await host.expect_control(uci.ShortMacTwoWaySessionInfoNtf) *)
  | ExpectData (m : msg). (* await host.expect_data(<object>) *)
Inductive outcome : Set :=
  | Finished
  | Blocked   (* in expect_control or expect_data, no packet being in the queue; the timeouts are not modelled *)
  | Raised.   (* an exception *)
Global Instance outcome_eq_dec : EqDecision outcome.
Proof. solve_decision. Defined.

(** __init__.py:129-142 [expect_control], 167-171 [expect_data]: the comparisons with the packet received. *)
Definition py_expected (m : msg) (packet : bytes) : bool := bool_decide (py_parse_control packet = Some (PyMsg m)).
Definition py_expected_info (packet : bytes) : bool :=
  match py_parse_control packet with Some (PyMsg (SessionInfoNtf _ _ _ _ _ _)) => true | _ => false end.
Definition py_expected_data (m : msg) (packet : bytes) : bool := bool_decide (py_parse_data packet = Some (PyMsg m)).

(** What the program has sent, and where it is, when the control packets [queue] and the data packets [data] have been
    received in all. *)
Fixpoint py_run (prog : list action) (queue data : list bytes) : list bytes * outcome :=
  match prog with
  | [] => ([], Finished)
  | Send c :: prog =>
      match py_send_command c with
      | Some frame => let '(l, o) := py_run prog queue data in (frame :: l, o)
      | None => ([], Raised)
      end
  | SendData pbf handle dst seq section :: prog =>
      match py_send_data_message pbf handle dst seq section with
      | Some frame => let '(l, o) := py_run prog queue data in (frame :: l, o)
      | None => ([], Raised)
      end
  | Expect m :: prog =>
      match queue with
      | [] => ([], Blocked)
      | packet :: queue => if py_expected m packet then py_run prog queue data else ([], Raised)
      end
  | ExpectInfo :: prog =>
      match queue with
      | [] => ([], Blocked)
      | packet :: queue => if py_expected_info packet then py_run prog queue data else ([], Raised)
      end
  | ExpectData m :: prog =>
      match data with
      | [] => ([], Blocked)
      | packet :: data => if py_expected_data m packet then py_run prog queue data else ([], Raised)
      end
  end.
(** The same when the reader task has read [packets]. *)
Definition py_program (prog : list action) (packets : list bytes) : list bytes * outcome :=
  py_run prog (control_packets packets) (data_packets packets).

(** tests/helper.py:19-30 *)
Definition init_program : list action :=
  [ Expect (CoreDeviceStatusNtf DsReady);
    Send (CmdDeviceReset 0);
    Expect (CoreDeviceResetRsp 0x00);
    Expect (CoreDeviceStatusNtf DsReady) ].
(** tests/ranging.py:30-103: for any session identifier, session type and parameters. *)
Definition set_up_program (id ty : N) (config : list (tlv_id * bytes)) : list action :=
  init_program ++
  [ Send (CmdSessionInit id ty);
    Expect (SessionInitRsp 0x00);
    Expect (SessionStatusNtf id SsInit 0x00);
    Send (CmdSetAppConfig id config);
    Expect (SessionSetAppConfigRsp 0x00 []);
    Expect (SessionStatusNtf id SsIdle 0x00) ].
(** tests/ranging.py:105-147, tests/data_transfer.py:109-152 and 235-285: [before] what is done before the session is
    started, [data] the data messages expected once it is, for any number [n] of notifications. *)
Definition session_program (id ty : N) (config : list (tlv_id * bytes)) (before : list action) (data : list msg) (n : nat) : list action :=
  set_up_program id ty config ++ before ++
  [ Send (CmdStart id);
    Expect (SessionStartRsp 0x00);
    Expect (SessionStatusNtf id SsActive 0x00);
    Expect (CoreDeviceStatusNtf DsActive) ] ++
  map ExpectData data ++ repeat ExpectInfo n ++
  [ Send (CmdStop id);
    Expect (SessionStopRsp 0x00);
    Expect (SessionStatusNtf id SsIdle 0x00);
    Expect (CoreDeviceStatusNtf DsReady);
    Send (CmdSessionDeinit id);
    Expect (SessionDeinitRsp 0x00) ].
(** tests/ranging.py *)
Definition ranging_program (id ty : N) (config : list (tlv_id * bytes)) (n : nat) : list action := session_program id ty config [] [] n.
(** tests/data_transfer.py:288-349 [data_transfer]: each message is followed by the credit notification. The program
    catches the exceptions and goes on; here it stops as [Raised]. The loop [for i in range(0, len(b), MAX)], [rest] being
    [b[i:]]; [CONSOLE_MAX] is also the value of data_transfer.py:25. *)
Fixpoint transfer_loop (fuel : nat) (handle dst seq : N) (rest : bytes) : list action :=
  match fuel with
  | O => []
  | S fuel =>
      match rest with
      | [] => []
      | _ =>
          let pbf := if Nat.leb (length rest) CONSOLE_MAX then PBF_COMPLETE else PBF_NOT_COMPLETE in
          SendData pbf handle dst seq (take CONSOLE_MAX rest) :: Expect (SessionDataCreditNtf handle CREDIT_AVAILABLE)
          :: (let seq := seq + 1 in
              let seq := if 65535 <=? seq then 0 else seq in
              transfer_loop fuel handle dst seq (drop CONSOLE_MAX rest))
      end
  end.
Definition data_transfer (handle dst : N) (file : bytes) : list action :=
  if Nat.ltb CONSOLE_MAX (length file)
  then transfer_loop (length file) handle dst 0 file
  else [SendData PBF_COMPLETE handle dst 0 file; Expect (SessionDataCreditNtf handle CREDIT_AVAILABLE)].
(** tests/data_transfer.py:28-152 [controller]: the destination is the address read as a big-endian integer. *)
Definition sender_program (id ty : N) (config : list (tlv_id * bytes)) (dst : N) (file : bytes) (n : nat) : list action :=
  session_program id ty config (data_transfer id dst file) [] n.
(** tests/data_transfer.py:155-285 [controlee]: [source] is the address of the controller read as a little-endian integer. *)
Definition receiver_program (id ty : N) (config : list (tlv_id * bytes)) (source : N) (file : bytes) (n : nat) : list action :=
  session_program id ty config [] [DataMessageRcv id 0x00 source 0x01 file] n.
(** tests/ranging.py:49-88, 186-225: the parameters; [role] and [kind] are 1 and 1 for the controller, 0 and 0 for the
    controlee. The duration is 1000 ms, in 4 bytes. *)
Definition ranging_config (role kind : N) (mac peer : bytes) : list (tlv_id * bytes) :=
  [ (T_DEVICE_ROLE, [role]); (T_DEVICE_TYPE, [kind]); (T_DEVICE_MAC_ADDRESS, mac); (T_MAC_ADDRESS_MODE, [0]);
    (T_MULTI_NODE_MODE, [0]); (T_SCHEDULE_MODE, [0]); (T_RANGING_ROUND_USAGE, [6]);
    (T_RANGING_DURATION, [232; 3; 0; 0]); (T_NUMBER_OF_CONTROLEES, [1]); (T_DST_MAC_ADDRESS, peer) ].
