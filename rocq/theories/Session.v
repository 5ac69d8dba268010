(** Model of src/session.rs. *)
From Verif Require Import Base Uci MacAddress AppConfig Codec.

(** What a synchronous handler asks the runtime to do besides updating the state.
    The relative order of effects is the program order. *)
Inductive eff : Set :=
  (** [tx.send(packet)] on the unbounded channel to the host writer. *)
  | Send (m : msg)
  (** [tokio::spawn(async { sleep(ms); tx.send(packet).unwrap() })]: a detached task. *)
  | After (ms : N) (m : msg)
  (** device.rs:818-830: the ranging task of a session, sending
      [PicaCommand::Ranging] every [interval] milliseconds. *)
  | SpawnRanging (id interval : N)
  (** [JoinHandle::abort] of the ranging task of a session. *)
  | AbortRanging (id : N)
  (** device.rs:728-737: task sending [count] times [PicaCommand::StopRanging]. *)
  | SpawnStop (address : mac_address) (id count : N).

(** session.rs:30-44 [struct Session].
    [ranging_task : Option<JoinHandle>] is represented by its [is_some].
    [tx] and [device_handle] are those of the owning device and are omitted. *)
Record session : Set := Session {
  s_state : session_state;
  s_id : N;
  s_data : bytes;
  s_type : N;
  s_seq : N;           (* sequence_number *)
  s_cfg : app_config;
  s_task : bool }.     (* ranging_task.is_some() *)

Definition s_set_state (v : session_state) (s : session) : session :=
  Session v (s_id s) (s_data s) (s_type s) (s_seq s) (s_cfg s) (s_task s).
Definition s_set_data (v : bytes) (s : session) : session :=
  Session (s_state s) (s_id s) v (s_type s) (s_seq s) (s_cfg s) (s_task s).
Definition s_set_seq (v : N) (s : session) : session :=
  Session (s_state s) (s_id s) (s_data s) (s_type s) v (s_cfg s) (s_task s).
Definition s_set_cfg (v : app_config) (s : session) : session :=
  Session (s_state s) (s_id s) (s_data s) (s_type s) (s_seq s) v (s_task s).
Definition s_set_task (v : bool) (s : session) : session :=
  Session (s_state s) (s_id s) (s_data s) (s_type s) (s_seq s) (s_cfg s) v.

(** session.rs:46-63 [Session::new]. *)
Definition session_new (id ty : N) : session := {|
  s_state := SsDeinit;
  s_id := id;
  s_data := [];
  s_type := ty;
  s_seq := 0;
  s_cfg := default_app_config;
  s_task := false |}.

(** session.rs:65-88 [Session::set_state]. *)
Definition session_set_state (st : session_state) (reason : N) (s : session) : session * list eff :=
  if bool_decide (st = s_state s) then (s, [])
  else (s_set_state st s, [After 1 (SessionStatusNtf (s_id s) st reason)]).

(** session.rs:120-125 [Session::init]. *)
Definition session_init_state (s : session) : session * list eff :=
  session_set_state SsInit REASON_STATE_CHANGE_WITH_SESSION_MANAGEMENT_COMMANDS s.

(** session.rs:94-96 [is_session_info_ntf_enabled]. *)
Definition SESSION_INFO_NTF_DISABLE : N := 0x00. (* pdl:334 *)
Definition is_session_info_ntf_enabled (s : session) : bool :=
  negb (session_info_ntf_config (s_cfg s) =? SESSION_INFO_NTF_DISABLE).

(** session.rs:127-132 [stop_ranging_task]. *)
Definition stop_ranging_task (s : session) : session * list eff :=
  if s_task s then (s_set_task false s, [AbortRanging (s_id s)]) else (s, []).

(** session.rs:108-110 [clear_data]. *)
Definition clear_data (s : session) : session := s_set_data [] s.

(** session.rs:134-160 [Session::data_message_snd]; the response is the message
    returned as a [ControlPacket]. The destination address is not used. *)
Definition session_data_message_snd (handle seq : N) (data : bytes) (s : session)
    : outcome (session * msg) :=
  let uci_sequence_number := seq mod 256 in
  if negb (s_type s =? FIRA_RANGING_AND_IN_BAND_DATA_SESSION) then
    Ret (s, SessionDataTransferStatusNtf handle uci_sequence_number
              DATA_TRANSFER_STATUS_SESSION_TYPE_NOT_SUPPORTED 1)
  else if negb (s_id s =? handle) then Crash AssertSessionId
  else
    Ret (s_set_data (s_data s ++ data) s, SessionDataCreditNtf handle CREDIT_AVAILABLE).

(** session.rs:163-174 [Drop for Session]. *)
Definition session_drop (s : session) : list eff :=
  let '(s, e1) := stop_ranging_task s in
  let '(_, e2) := session_set_state SsDeinit REASON_STATE_CHANGE_WITH_SESSION_MANAGEMENT_COMMANDS s in
  e1 ++ e2.
