(** Specification of the lines typed at the interactive console. *)
From Coq Require Import Strings.String.
From Verif Require Import Base Uci MacAddress MacSpec Http Json JsonSpec Console ConsoleLine.

(** ** The form of a line
    The name of a command, then words: a value, or the name of a parameter, "=" and a value. There
    are one or more blanks before each word, and there may be some at the end. *)
Inductive word : Set := Plain (t : bytes) | Keyed (key value : bytes).
Definition word_text (w : word) : bytes := match w with Plain t => t | Keyed key value => key ++ 61 :: value end.
(** Printable characters of ASCII other than the blank and "=". *)
Definition clean (t : bytes) : Prop := Forall (fun c => 33 <= c /\ c <= 126 /\ c <> 61) t.
Definition wf_word (w : word) : Prop := match w with Plain t => clean t /\ t <> [] | Keyed key value => clean key /\ clean value end.
Inductive typed_words : list word -> bytes -> Prop :=
  | TEnd n : typed_words [] (repeat 32 n)
  | TWord n w ws l : wf_word w -> typed_words ws l -> typed_words (w :: ws) (32 :: repeat 32 n ++ word_text w ++ l).
Definition typed (name : bytes) (ws : list word) (l : bytes) : Prop :=
  clean name /\ name <> [] /\ exists l', l = name ++ l' /\ typed_words ws l'.
Definition plain (ws : list word) : list bytes := omap (fun w => match w with Plain t => Some t | Keyed _ _ => None end) ws.
Definition keyed (ws : list word) : list (bytes * bytes) := omap (fun w => match w with Plain _ => None | Keyed key value => Some (key, value) end) ws.

(** ** The commands and their parameters, with the defaults *)
Definition opt (name value : string) : bytes * option bytes := (str name, Some (str value)).
Definition req (name : string) : bytes * option bytes := (str name, None).
Definition entry (name : string) (l : list (bytes * option bytes)) : bytes * list (bytes * option bytes) := (str name, l).
Definition placement : list (bytes * option bytes) :=
  [opt "mac_address" "00:00"; opt "x" "0"; opt "y" "0"; opt "z" "0"; opt "yaw" "0"; opt "pitch" "0"; opt "roll" "0"].
Definition manual : list (bytes * list (bytes * option bytes)) :=
  [entry "pica_get_state" []; entry "pica_init_uci_device" placement; entry "pica_create_anchor" placement;
   entry "pica_destroy_anchor" [opt "mac_address" "00:00"]; entry "pica_set_position" placement;
   entry "device_reset" []; entry "get_device_info" []; entry "get_config" [];
   entry "set_config" [opt "low_power_mode" "0"]; entry "get_caps_info" [];
   entry "session_init" [opt "session_id" "0"]; entry "session_deinit" [opt "session_id" "0"];
   entry "session_set_app_config" [opt "session_id" "0"; opt "ranging_interval" "200"; opt "dst_mac_addresses" ""];
   entry "session_get_app_config" [opt "session_id" "0"]; entry "session_get_count" [];
   entry "session_get_state" [opt "session_id" "0"];
   entry "session_update_controller_multicast_list"
     [opt "session_id" "0"; opt "action" "add"; opt "mac_address" "0"; opt "subsession_id" "0"];
   entry "range_start" [opt "session_id" "0"]; entry "range_stop" [opt "session_id" "0"];
   entry "data_transfer" [req "dst_mac_address"; req "file_name"; opt "session_id" "0"];
   entry "get_ranging_count" [opt "session_id" "0"]].

(** The values of the parameters: the first ones are the plain words, in this order; the others are those of the words
    with their name, or the defaults. No parameter is given twice, and every name is one of a parameter. *)
Definition supplied (params : list (bytes * option bytes)) (ws : list word) (vs : list bytes) : Prop :=
  length vs = length params /\ (length (plain ws) <= length params)%nat
  /\ NoDup (keyed ws).*1 /\ (forall key, key ∈ (keyed ws).*1 -> key ∈ params.*1)
  /\ (forall i p, (i < length (plain ws))%nat -> params !! i = Some p -> p.1 ∉ (keyed ws).*1)
  /\ forall i v, vs !! i = Some v -> plain ws !! i = Some v
     \/ (length (plain ws) <= i)%nat /\ exists name value, params !! i = Some (name, value) /\ ((name, v) ∈ keyed ws \/ name ∉ (keyed ws).*1 /\ value = Some v).

(** ** What the values mean. Numbers are decimal ([integer_value], JsonSpec.v); the bytes of an address are hexadecimal,
    with ":" between them ([printed], MacSpec.v); addresses are separated by ",". *)
Definition addresses (dst : list bytes) (t : bytes) : Prop := exists ts, Forall2 printed dst ts /\ t = commas ts.
Section Stands.
Context (file : bytes -> option bytes).
Inductive stands : string -> list bytes -> action -> Prop :=
  | SGetState : stands "pica_get_state" [] (UseWeb WGetState)
  | SInitDevice mac tx ty tz tyaw tpitch troll x y z yaw pitch roll :
      integer_value tx x -> integer_value ty y -> integer_value tz z -> integer_value tyaw yaw -> integer_value tpitch pitch -> integer_value troll roll ->
      stands "pica_init_uci_device" [mac; tx; ty; tz; tyaw; tpitch; troll] (UseWeb (WInitUciDevice mac x y z yaw pitch roll))
  | SCreateAnchor mac tx ty tz tyaw tpitch troll x y z yaw pitch roll :
      integer_value tx x -> integer_value ty y -> integer_value tz z -> integer_value tyaw yaw -> integer_value tpitch pitch -> integer_value troll roll ->
      stands "pica_create_anchor" [mac; tx; ty; tz; tyaw; tpitch; troll] (UseWeb (WCreateAnchor mac x y z yaw pitch roll))
  | SDestroyAnchor mac : stands "pica_destroy_anchor" [mac] (UseWeb (WDestroyAnchor mac))
  | SSetPosition mac tx ty tz tyaw tpitch troll x y z yaw pitch roll :
      integer_value tx x -> integer_value ty y -> integer_value tz z -> integer_value tyaw yaw -> integer_value tpitch pitch -> integer_value troll roll ->
      stands "pica_set_position" [mac; tx; ty; tz; tyaw; tpitch; troll] (UseWeb (Console.WSetPosition mac x y z yaw pitch roll))
  | SReset : stands "device_reset" [] (UseDevice KDeviceReset)
  | SGetDeviceInfo : stands "get_device_info" [] (UseDevice KGetDeviceInfo)
  | SGetConfig : stands "get_config" [] (UseDevice KGetConfig)
  | SSetConfig t mode : integer_value t mode -> stands "set_config" [t] (UseDevice (KSetConfig mode))
  | SGetCapsInfo : stands "get_caps_info" [] (UseDevice KGetCapsInfo)
  | SInit t id : integer_value t id -> stands "session_init" [t] (UseDevice (KSessionInit id))
  | SDeinit t id : integer_value t id -> stands "session_deinit" [t] (UseDevice (KSessionDeinit id))
  | SSetAppConfig t tinterval taddresses id interval dst : integer_value t id -> integer_value tinterval interval -> addresses dst taddresses ->
      stands "session_set_app_config" [t; tinterval; taddresses] (UseDevice (KSetAppConfig id interval dst))
  | SGetAppConfig t id : integer_value t id -> stands "session_get_app_config" [t] (UseDevice (KGetAppConfig id))
  | SGetCount : stands "session_get_count" [] (UseDevice KGetCount)
  | SSessionState t id : integer_value t id -> stands "session_get_state" [t] (UseDevice (KGetState id))
  | SAdd t tmac tsub id mac sub : integer_value t id -> integer_value tmac mac -> integer_value tsub sub ->
      stands "session_update_controller_multicast_list" [t; str "add"; tmac; tsub] (UseDevice (KMulticast id (Some true) mac sub))
  | SRemove t tmac tsub id mac sub : integer_value t id -> integer_value tmac mac -> integer_value tsub sub ->
      stands "session_update_controller_multicast_list" [t; str "remove"; tmac; tsub] (UseDevice (KMulticast id (Some false) mac sub))
  | SStart t id : integer_value t id -> stands "range_start" [t] (UseDevice (KStart id))
  | SStop t id : integer_value t id -> stands "range_stop" [t] (UseDevice (KStop id))
  | SData tdst name t dst b id : printed dst tdst -> file name = Some b -> integer_value t id ->
      stands "data_transfer" [tdst; name; t] (UseDevice (KDataTransfer dst (Some b) id))
  | SRangingCount t id : integer_value t id -> stands "get_ranging_count" [t] (UseDevice (KGetRangingCount id)).
End Stands.
