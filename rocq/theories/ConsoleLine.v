(** Model of what the interactive console does with a typed line: py/pica/console.py, the loop of
    [command_line] (471-491), the binding of the arguments to the parameters of the commands, and
    their conversion. What the commands then do is in Console.v.
    Simplified: a line is made of ASCII characters; [int] has no limit of length (CPython raises
    over 4300 digits); that a request cannot be made (no server) is left out. *)
From Coq Require Import Strings.String.
From Verif Require Import Base Uci MacAddress Http PyHost Console.

(** [str.isspace] of an ASCII character. *)
Definition is_space (c : N) : bool := ((9 <=? c) && (c <=? 13)) || ((28 <=? c) && (c <=? 32)).
Fixpoint skip_spaces (l : bytes) : bytes :=
  match l with [] => [] | c :: t => if is_space c then skip_spaces t else l end.
(** [str.rstrip()], [str.strip()] *)
Definition rstrip (l : bytes) : bytes := rev (skip_spaces (rev l)).
Definition strip (l : bytes) : bytes := rstrip (skip_spaces l).
(** [str.split(sep)]: always at least one piece. *)
Fixpoint split_at (sep : N) (l : bytes) : list bytes :=
  match l with
  | [] => [[]]
  | c :: t =>
      if c =? sep then [] :: split_at sep t
      else match split_at sep t with piece :: ps => (c :: piece) :: ps | [] => [[c]] end
  end.

(** [int(text, base)]: an optional sign, digits with single underscores between them; in base 16
    an optional prefix 0x. Spaces around it are ignored. [None] is [ValueError]. *)
Fixpoint py_digits (base acc : N) (fresh : bool) (l : bytes) : option N :=
  match l with
  | [] => if fresh then None else Some acc
  | c :: t =>
      if c =? 95 then if fresh then None else py_digits base acc true t
      else match hex_val c with
           | Some d => if d <? base then py_digits base (base * acc + d) false t else None
           | None => None
           end
  end.
Definition py_prefix (base : N) (l : bytes) : bytes :=
  if base =? 16 then
    match l with
    | 48 :: 120 :: 95 :: t | 48 :: 88 :: 95 :: t => t
    | 48 :: 120 :: t | 48 :: 88 :: t => t
    | _ => l
    end
  else l.
Definition py_int (base : N) (l : bytes) : option Z :=
  match strip l with
  | 45 :: t => n ← py_digits base 0 true (py_prefix base t); Some (- Z.of_N n)%Z
  | 43 :: t => n ← py_digits base 0 true (py_prefix base t); Some (Z.of_N n)
  | t => n ← py_digits base 0 true (py_prefix base t); Some (Z.of_N n)
  end.
(** console.py:44-46 [parse_mac_address] *)
Definition parse_mac_address (l : bytes) : option bytes :=
  mapM (fun b => z ← py_int 16 b; n ← py_unsigned z; if n <? 256 then Some n else None) (split_at CH_COLON l).

(** ** Parameters
    The names and the defaults of the parameters of a command; whether it has [**kargs]. *)
Record signature : Type := Signature { sg_params : list (bytes * option bytes); sg_kargs : bool }.
Definition param (name value : string) : bytes * option bytes := (str name, Some (str value)).
Definition position_params : list (bytes * option bytes) :=
  [param "mac_address" "00:00"; param "x" "0"; param "y" "0"; param "z" "0"; param "yaw" "0"; param "pitch" "0"; param "roll" "0"].
(** console.py:406-428 [commands], with the declarations of the methods. *)
Definition signatures : list (bytes * signature) :=
  [(str "pica_get_state", Signature [] true);                                                  (* 54 *)
   (str "pica_init_uci_device", Signature position_params true);                               (* 60 *)
   (str "pica_create_anchor", Signature position_params true);                                 (* 87 *)
   (str "pica_destroy_anchor", Signature [param "mac_address" "00:00"] true);                  (* 114 *)
   (str "pica_set_position", Signature position_params true);                                  (* 119 *)
   (str "device_reset", Signature [] true);                                                    (* 146 *)
   (str "get_device_info", Signature [] true);                                                 (* 152 *)
   (str "get_config", Signature [] true);                                                      (* 173 *)
   (str "set_config", Signature [param "low_power_mode" "0"] true);                            (* 160 *)
   (str "get_caps_info", Signature [] true);                                                   (* 156 *)
   (str "session_init", Signature [param "session_id" "0"] true);                              (* 184 *)
   (str "session_deinit", Signature [param "session_id" "0"] true);                            (* 193 *)
   (str "session_set_app_config",                                                              (* 197 *)
      Signature [param "session_id" "0"; param "ranging_interval" "200"; param "dst_mac_addresses" ""] true);
   (str "session_get_app_config", Signature [param "session_id" "0"] true);                    (* 244 *)
   (str "session_get_count", Signature [] true);                                               (* 250 *)
   (str "session_get_state", Signature [param "session_id" "0"] true);                         (* 254 *)
   (str "session_update_controller_multicast_list",                                            (* 258 *)
      Signature [param "session_id" "0"; param "action" "add"; param "mac_address" "0"; param "subsession_id" "0"] true);
   (str "range_start", Signature [param "session_id" "0"] true);                               (* 291 *)
   (str "range_stop", Signature [param "session_id" "0"] true);                                (* 295 *)
   (str "data_transfer",                                                                       (* 305 *)
      Signature [(str "dst_mac_address", None); (str "file_name", None); param "session_id" "0"] false);
   (str "get_ranging_count", Signature [param "session_id" "0"] true)].                        (* 299 *)
Definition assoc {A} (k : bytes) (l : list (bytes * A)) : option A :=
  head (omap (fun x => if bool_decide (x.1 = k) then Some x.2 else None) l).

(** The call [f(..args, ..kargs)] of Python: the value of each parameter, or [None] ([TypeError]).
    [kargs] is a dictionary: the last value of a key counts. *)
Fixpoint bind_params (params : list (bytes * option bytes)) (args : list bytes) (kargs : list (bytes * bytes)) : option (list bytes) :=
  match params, args with
  | [], [] => Some []
  | [], _ :: _ => None
  | (name, _) :: params, a :: args =>
      match assoc name kargs with
      | Some _ => None
      | None => vs ← bind_params params args kargs; Some (a :: vs)
      end
  | (name, value) :: params, [] =>
      v ← match assoc name (rev kargs) with Some v => Some v | None => value end;
      vs ← bind_params params [] kargs; Some (v :: vs)
  end.
Definition bind (sg : signature) (args : list bytes) (kargs : list (bytes * bytes)) : option (list bytes) :=
  match assoc (str "self") kargs with
  | Some _ => None
  | None =>
      if sg_kargs sg || forallb (fun kv => bool_decide (kv.1 ∈ (sg_params sg).*1)) kargs
      then bind_params (sg_params sg) args kargs else None
  end.

(** ** Commands *)
Definition named (name : bytes) (s : string) : bool := bool_decide (name = str s).
Inductive action : Type :=
  | Leave                            (* quit *)
  | Undefined                        (* Undefined command *)
  | UseDevice (k : console_command)
  | UseWeb (k : web_command).

Section Line.
(** What [open(name, "rb").read()] gives. *)
Context (file : bytes -> option bytes).

(** The conversion of the values: see the lines cited in [signatures]. *)
Definition invoke (name : bytes) (vs : list bytes) : option action :=
  let one (k : Z -> console_command) := match vs with [id] => z ← py_int 10 id; Some (UseDevice (k z)) | _ => None end in
  let place (k : bytes -> Z -> Z -> Z -> Z -> Z -> Z -> web_command) :=
    match vs with
    | [mac; x; y; z; yaw; pitch; roll] =>
        x ← py_int 10 x; y ← py_int 10 y; z ← py_int 10 z; yaw ← py_int 10 yaw; pitch ← py_int 10 pitch; roll ← py_int 10 roll;
        Some (UseWeb (k mac x y z yaw pitch roll))
    | _ => None
    end in
  if named name "pica_get_state" then Some (UseWeb WGetState)
  else if named name "pica_init_uci_device" then place WInitUciDevice
  else if named name "pica_create_anchor" then place WCreateAnchor
  else if named name "pica_destroy_anchor" then match vs with [mac] => Some (UseWeb (WDestroyAnchor mac)) | _ => None end
  else if named name "pica_set_position" then place Console.WSetPosition
  else if named name "device_reset" then Some (UseDevice KDeviceReset)
  else if named name "get_device_info" then Some (UseDevice KGetDeviceInfo)
  else if named name "get_config" then Some (UseDevice KGetConfig)
  else if named name "set_config" then one KSetConfig
  else if named name "get_caps_info" then Some (UseDevice KGetCapsInfo)
  else if named name "session_init" then one KSessionInit
  else if named name "session_deinit" then one KSessionDeinit
  else if named name "session_set_app_config" then
    match vs with
    | [id; interval; dst] =>
        dst ← mapM parse_mac_address (List.filter (fun a => negb (bool_decide (a = []))) (split_at 44 dst));
        id ← py_int 10 id; interval ← py_int 10 interval; Some (UseDevice (KSetAppConfig id interval dst))
    | _ => None
    end
  else if named name "session_get_app_config" then one KGetAppConfig
  else if named name "session_get_count" then Some (UseDevice KGetCount)
  else if named name "session_get_state" then one KGetState
  else if named name "session_update_controller_multicast_list" then
    match vs with
    | [id; act; mac; sub] =>
        if bool_decide (act = str "add") || bool_decide (act = str "remove") then
          id ← py_int 10 id; mac ← py_int 10 mac; sub ← py_int 10 sub;
          Some (UseDevice (KMulticast id (Some (bool_decide (act = str "add"))) mac sub))
        else Some (UseDevice (KMulticast 0 None 0 0))
    | _ => None
    end
  else if named name "range_start" then one KStart
  else if named name "range_stop" then one KStop
  else if named name "data_transfer" then
    match vs with
    | [dst; name; id] =>
        (* console.py:357: any exception is printed *)
        Some (UseDevice (match file name, parse_mac_address dst, py_int 10 id with
                         | Some b, Some dst, Some id => KDataTransfer dst (Some b) id
                         | _, _, _ => KDataTransfer [] None 0
                         end))
    | _ => None
    end
  else if named name "get_ranging_count" then one KGetRangingCount
  else None.

(** console.py:473-483: the words of the line. [None]: [ValueError], more than one "=" in a word. *)
Fixpoint arguments (params : list bytes) : option (list bytes * list (bytes * bytes)) :=
  match params with
  | [] => Some ([], [])
  | p :: params =>
      if bool_decide (p = []) then arguments params
      else match split_at 61 p with
           | [_] => '(args, kargs) ← arguments params; Some (p :: args, kargs)
           | [key; value] => '(args, kargs) ← arguments params; Some (args, (key, value) :: kargs)
           | _ => None
           end
  end.
(** console.py:471-491: one line. [None]: an exception, which is not caught: the console ends. *)
Definition line (l : bytes) : option action :=
  match split_at 32 (rstrip l) with
  | [] => None (* never *)
  | cmd :: params =>
      '(args, kargs) ← arguments params;
      if bool_decide (cmd = str "quit") || bool_decide (cmd = str "q") then Some Leave
      else match assoc cmd signatures with
           | None => Some Undefined
           | Some sg => vs ← bind sg args kargs; invoke cmd vs
           end
  end.
End Line.
