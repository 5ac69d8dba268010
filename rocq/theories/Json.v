(** Model of the texts of the web interface: the JSON of the events and of the state (serde_json 1.0.107, derived
    [Serialize] of serde 1.0.189), the server-sent events, and the deserialisation of the body of a request
    ([serde_json::from_slice::<PositionBody>], derived [Deserialize]). serde_json itself is not in /repo: its functions
    are modelled from its published source, named in the comments. *)
From Coq Require Import Strings.String Strings.Ascii.
From Verif Require Import Base Uci MacAddress Pica Http.

(** ** Writing *)

(** serde_json ser.rs [format_escaped_str_contents], table [ESCAPE]. *)
Definition hex_lower (n : N) : N := if n <? 10 then 48 + n else 87 + n.
Definition escape (c : N) : bytes :=
  if c =? 34 then [92; 34]
  else if c =? 92 then [92; 92]
  else if c =? 8 then [92; 98]
  else if c =? 9 then [92; 116]
  else if c =? 10 then [92; 110]
  else if c =? 12 then [92; 102]
  else if c =? 13 then [92; 114]
  else if c <? 32 then [92; 117; 48; 48; hex_lower (c / 16); hex_lower (c mod 16)]
  else [c].
Definition quote (s : bytes) : bytes := 34 :: concat (map escape s) ++ [34].

(** itoa: decimal digits, without leading zeros. *)
Fixpoint decimal_from (fuel : nat) (n : N) : bytes :=
  match fuel with
  | O => []
  | S fuel => if n <? 10 then [48 + n] else decimal_from fuel (n / 10) ++ [48 + n mod 10]
  end.
Definition decimal (n : N) : bytes := decimal_from (S (N.size_nat n)) n.
Definition integer (z : Z) : bytes := if (z <? 0)%Z then 45 :: decimal (Z.abs_N z) else decimal (Z.abs_N z).

(** serde_json ser.rs [CompactFormatter]: a map (or structure) with its members, a sequence. *)
Fixpoint commas (l : list bytes) : bytes :=
  match l with
  | [] => []
  | [x] => x
  | x :: l => x ++ 44 :: commas l
  end.
Definition object (l : list (bytes * bytes)) : bytes := 123 :: commas (map (fun kv => quote kv.1 ++ 58 :: kv.2) l) ++ [125].
Definition array (l : list bytes) : bytes := 91 :: commas l ++ [93].

(** lib.rs:146-150: a variant without fields is its name. *)
Definition category_text (c : category) : bytes := quote (match c with CategoryUci => str "Uci" | CategoryAnchor => str "Anchor" end).
(** mac_address.rs:34 [serde(into = "String")] *)
Definition mac_text (m : mac_address) : bytes := quote (mac_to_string m).

Section Write.
Context {P : Type} (fields : P -> Z * Z * Z * Z * Z * Z).

(** position.rs:42-59 [Serialize for Position], flattened into its owner. *)
Definition position_members (p : P) : list (bytes * bytes) :=
  let '(x, y, z, yaw, pitch, roll) := fields p in
  [(str "x", integer x); (str "y", integer y); (str "z", integer z);
   (str "yaw", integer yaw); (str "pitch", integer pitch); (str "roll", integer roll)].

(** main.rs:78-107 [enum Event], untagged. *)
Definition event_text (ev : event P) : bytes :=
  match ev with
  | DeviceAdded c m p | DeviceUpdated c m p =>
      object ([(str "category", category_text c); (str "mac_address", mac_text m)] ++ position_members p)
  | DeviceRemoved c m => object [(str "category", category_text c); (str "mac_address", mac_text m)]
  | NeighborUpdated sc sm dc dm distance azimuth elevation =>
      object [(str "source_category", category_text sc); (str "source_mac_address", mac_text sm);
              (str "destination_category", category_text dc); (str "destination_mac_address", mac_text dm);
              (str "distance", integer (Z.of_N distance)); (str "azimuth", integer azimuth); (str "elevation", integer elevation)]
  end.
(** main.rs:414-423 [Event::name] *)
Definition event_name (ev : event P) : bytes :=
  match ev with
  | DeviceAdded _ _ _ => str "device-added"
  | DeviceRemoved _ _ => str "device-removed"
  | DeviceUpdated _ _ _ => str "device-updated"
  | NeighborUpdated _ _ _ _ _ _ _ => str "neighbor-updated"
  end.
(** main.rs:171-185 [http_events]: one item of the stream. *)
Definition frame (ev : event P) : bytes :=
  str "event: " ++ event_name ev ++ [10] ++ str "data: " ++ event_text ev ++ [10; 10].
(** main.rs:69-76 [DeviceInformation]; main.rs:334-351 [http_get_state] *)
Definition device_text (i : device_information P) : bytes :=
  object ([(str "category", category_text (di_category i)); (str "mac_address", mac_text (di_mac i))] ++ position_members (di_position i)).
Definition state_text (l : list (device_information P)) : bytes := object [(str "devices", array (map device_text l))].
End Write.

(** index.html:116-137 [set_position]: [JSON.stringify] of the six numbers; they are integers here (Page.v). *)
Definition stringify (x y z yaw pitch roll : Z) : bytes :=
  object [(str "x", integer x); (str "y", integer y); (str "z", integer z);
          (str "yaw", integer yaw); (str "pitch", integer pitch); (str "roll", integer roll)].

(** ** Reading. An error is of the category [Eof] (the text ends too early) or of another one ([Bad]):
    main.rs:389 distinguishes only these. *)
Inductive res (A : Type) : Type :=
  | Got (a : A) (rest : bytes)
  | Eof
  | Bad.
Arguments Got {A}. Arguments Eof {A}. Arguments Bad {A}.
Definition and_then {A B} (r : res A) (f : A -> bytes -> res B) : res B :=
  match r with Got a rest => f a rest | Eof => Eof | Bad => Bad end.

(** serde_json de.rs [parse_whitespace], then [peek]. *)
Definition is_space (c : N) : bool := (c =? 32) || (c =? 10) || (c =? 9) || (c =? 13).
Fixpoint skip_spaces (t : bytes) : bytes :=
  match t with c :: u => if is_space c then skip_spaces u else t | [] => [] end.
(** de.rs [parse_ident] *)
Fixpoint parse_ident (expected t : bytes) : res unit :=
  match expected with
  | [] => Got tt t
  | e :: expected => match t with [] => Eof | c :: t => if c =? e then parse_ident expected t else Bad end
  end.

(** Numbers: de.rs [parse_integer], [parse_number], [parse_decimal], [parse_exponent], [parse_long_integer]. The value
    of a number with a fraction or an exponent, and of -0, is a float: [None]. Integers are not bounded here; those
    which do not fit in 64 bits are floats in serde_json, and out of the range of every field in both cases. A float out
    of range is an error of serde_json and a float here; neither is accepted for a field, and both errors are [Bad]. *)
Definition is_digit (c : N) : bool := (48 <=? c) && (c <=? 57).
Fixpoint skip_digits (t : bytes) : bytes :=
  match t with c :: u => if is_digit c then skip_digits u else t | [] => [] end.
Fixpoint digits_value (v : N) (t : bytes) : N :=
  match t with c :: u => if is_digit c then digits_value (v * 10 + (c - 48)) u else v | [] => v end.
Definition is_exponent (c : N) : bool := (c =? 101) || (c =? 69).
Definition parse_exponent (t : bytes) : res (option Z) :=
  let digits t := match t with [] => Eof | c :: u => if is_digit c then Got None (skip_digits u) else Bad end in
  match t with
  | c :: u => if (c =? 43) || (c =? 45) then digits u else digits t
  | [] => Eof
  end.
Definition parse_decimal (t : bytes) : res (option Z) :=
  match t with
  | [] => Eof
  | c :: u =>
      if is_digit c then
        match skip_digits u with
        | e :: v => if is_exponent e then parse_exponent v else Got None (e :: v)
        | [] => Got None []
        end
      else Bad
  end.
Definition parse_number (positive : bool) (significand : N) (t : bytes) : res (option Z) :=
  let value := if positive then Some (Z.of_N significand) else if significand =? 0 then None else Some (- Z.of_N significand)%Z in
  match t with
  | c :: u => if c =? 46 then parse_decimal u else if is_exponent c then parse_exponent u else Got value t
  | [] => Got value []
  end.
Definition parse_integer (positive : bool) (t : bytes) : res (option Z) :=
  match t with
  | [] => Eof
  | c :: u =>
      if c =? 48 then
        match u with
        | d :: _ => if is_digit d then Bad else parse_number positive 0 u
        | [] => parse_number positive 0 u
        end
      else if is_digit c then parse_number positive (digits_value (c - 48) u) (skip_digits u)
      else Bad
  end.

(** Strings: read.rs [SliceRead::parse_str], [parse_escape], [decode_hex_escape]; the opening quote has been read. *)
Definition simple_escape (c : N) : option N :=
  if c =? 34 then Some 34 else if c =? 92 then Some 92 else if c =? 47 then Some 47
  else if c =? 98 then Some 8 else if c =? 102 then Some 12 else if c =? 110 then Some 10
  else if c =? 114 then Some 13 else if c =? 116 then Some 9 else None.
Definition hex4 (a b c d : N) : option N :=
  a ← hex_val a; b ← hex_val b; c ← hex_val c; d ← hex_val d; Some (4096 * a + 256 * b + 16 * c + d).
(** [char::encode_utf8] *)
Definition utf8 (c : N) : bytes :=
  if c <? 128 then [c]
  else if c <? 2048 then [192 + c / 64; 128 + c mod 64]
  else if c <? 65536 then [224 + c / 4096; 128 + c / 64 mod 64; 128 + c mod 64]
  else [240 + c / 262144; 128 + c / 4096 mod 64; 128 + c / 64 mod 64; 128 + c mod 64].
Definition low_surrogate (n : N) : bool := (56320 <=? n) && (n <=? 57343).
Definition high_surrogate (n : N) : bool := (55296 <=? n) && (n <=? 56319).
Definition prepend (s : bytes) (r : res bytes) : res bytes := and_then r (fun s' rest => Got (s ++ s') rest).
Fixpoint parse_chars (t : bytes) : res bytes :=
  match t with
  | [] => Eof
  | c :: t =>
      if c =? 34 then Got [] t
      else if c =? 92 then
        match t with
        | [] => Eof
        | e :: t =>
            match simple_escape e with
            | Some d => prepend [d] (parse_chars t)
            | None =>
                if e =? 117 then
                  match t with
                  | h1 :: h2 :: h3 :: h4 :: t =>
                      match hex4 h1 h2 h3 h4 with
                      | None => Bad
                      | Some n =>
                          if low_surrogate n then Bad
                          else if high_surrogate n then
                            match t with
                            | [] => Eof
                            | b :: t =>
                                if b =? 92 then
                                  match t with
                                  | [] => Eof
                                  | e :: t =>
                                      if e =? 117 then
                                        match t with
                                        | h1 :: h2 :: h3 :: h4 :: t =>
                                            match hex4 h1 h2 h3 h4 with
                                            | None => Bad
                                            | Some n2 =>
                                                if low_surrogate n2 then prepend (utf8 (65536 + (n - 55296) * 1024 + (n2 - 56320))) (parse_chars t) else Bad
                                            end
                                        | _ => Eof
                                        end
                                      else Bad
                                  end
                                else Bad
                            end
                          else prepend (utf8 n) (parse_chars t)
                      end
                  | _ => Eof
                  end
                else Bad
            end
        end
      else if c <? 32 then Bad
      else prepend [c] (parse_chars t)
  end.
(** [str::from_utf8] *)
Definition within (lo hi c : N) : bool := (lo <=? c) && (c <=? hi).
Fixpoint utf8_valid (s : bytes) : bool :=
  match s with
  | [] => true
  | a :: s =>
      if a <? 128 then utf8_valid s
      else match s with
      | [] => false
      | b :: s =>
          if within 194 223 a then within 128 191 b && utf8_valid s
          else match s with
          | [] => false
          | c :: s =>
              if within 224 239 a then
                (if a =? 224 then within 160 191 b else if a =? 237 then within 128 159 b else within 128 191 b)
                && within 128 191 c && utf8_valid s
              else match s with
              | [] => false
              | d :: s =>
                  within 240 244 a
                  && (if a =? 240 then within 144 191 b else if a =? 244 then within 128 143 b else within 128 191 b)
                  && within 128 191 c && within 128 191 d && utf8_valid s
              end
          end
      end
  end.
Definition parse_str (t : bytes) : res bytes :=
  and_then (parse_chars t) (fun s rest => if utf8_valid s then Got s rest else Bad).

(** de.rs [peek_invalid_type]: always an error, but the value is read first unless it is a list or an object. *)
Definition invalid_type {A} (t : bytes) : res A :=
  match t with
  | [] => Bad
  | c :: u =>
      if c =? 110 then and_then (parse_ident (str "ull") u) (fun _ _ => Bad)
      else if c =? 116 then and_then (parse_ident (str "rue") u) (fun _ _ => Bad)
      else if c =? 102 then and_then (parse_ident (str "alse") u) (fun _ _ => Bad)
      else if c =? 45 then and_then (parse_integer false u) (fun _ _ => Bad)
      else if is_digit c then and_then (parse_integer true t) (fun _ _ => Bad)
      else if c =? 34 then and_then (parse_str u) (fun _ _ => Bad)
      else Bad
  end.

(** de.rs [deserialize_number], serde's visitors of [i16] and [i8]: a number between [lo] and [hi]. *)
Definition deserialize_int (range : Z * Z) (t : bytes) : res Z :=
  let fit n rest :=
    match n with
    | Some z => if (range.1 <=? z)%Z && (z <=? range.2)%Z then Got z rest else Bad
    | None => Bad
    end in
  match skip_spaces t with
  | [] => Eof
  | c :: u =>
      if c =? 45 then and_then (parse_integer false u) fit
      else if is_digit c then and_then (parse_integer true (c :: u)) fit
      else invalid_type (c :: u)
  end.

(** de.rs [ignore_value], [ignore_integer], [ignore_decimal], [ignore_exponent], read.rs [ignore_str]: the value of an
    unknown member is skipped, here one byte at a time. The stack has the open lists ([false]) and objects ([true]). *)
Inductive skipping : Set :=
  | SkValue                    (* at the start of a value *)
  | SkIdent (rest : bytes)     (* in null, true or false *)
  | SkSign | SkZero | SkInt    (* after '-'; after a leading 0; in an integer *)
  | SkDot | SkFraction         (* after '.'; after a digit of the fraction *)
  | SkE | SkESign | SkExponent (* after e; after its sign; after a digit of the exponent *)
  | SkString (key : bool) | SkEscape (key : bool) | SkHex (key : bool) (k : nat) (valid : bool) (* in a string *)
  | SkOpened                   (* after '[' or '{' *)
  | SkAfter                    (* after a value in a list or object *)
  | SkKey | SkColon.           (* before a name; before ':' *)
Inductive skipped : Set :=
  | SkGo (s : skipping) (stack : list bool)
  | SkDone                     (* the value has ended with this byte *)
  | SkDoneBefore               (* the value has ended before this byte *)
  | SkBad.
(** The value which ends with this byte. *)
Definition sk_end (stack : list bool) : skipped := match stack with [] => SkDone | _ => SkGo SkAfter stack end.
Definition sk_value (c : N) (stack : list bool) : skipped :=
  if c =? 110 then SkGo (SkIdent (str "ull")) stack
  else if c =? 116 then SkGo (SkIdent (str "rue")) stack
  else if c =? 102 then SkGo (SkIdent (str "alse")) stack
  else if c =? 45 then SkGo SkSign stack
  else if c =? 48 then SkGo SkZero stack
  else if is_digit c then SkGo SkInt stack
  else if c =? 34 then SkGo (SkString false) stack
  else if c =? 91 then SkGo SkOpened (false :: stack)
  else if c =? 123 then SkGo SkOpened (true :: stack)
  else SkBad.
Definition sk_key (c : N) (stack : list bool) : skipped := if c =? 34 then SkGo (SkString true) stack else SkBad.
Definition sk_after (c : N) (stack : list bool) : skipped :=
  match stack with
  | [] => SkDoneBefore
  | object :: outer =>
      if is_space c then SkGo SkAfter stack
      else if c =? 44 then SkGo (if object : bool then SkKey else SkValue) stack
      else if c =? (if object then 125 else 93) then sk_end outer
      else SkBad
  end.
(** After the digits of a number. *)
Definition sk_number (fraction : bool) (c : N) (stack : list bool) : skipped :=
  if fraction && (c =? 46) then SkGo SkDot stack
  else if is_exponent c then SkGo SkE stack
  else sk_after c stack.
Definition skip_step (s : skipping) (stack : list bool) (c : N) : skipped :=
  match s with
  | SkValue => if is_space c then SkGo SkValue stack else sk_value c stack
  | SkIdent [] => sk_after c stack
  | SkIdent (e :: rest) =>
      if c =? e then match rest with [] => sk_end stack | _ => SkGo (SkIdent rest) stack end else SkBad
  | SkSign => if c =? 48 then SkGo SkZero stack else if is_digit c then SkGo SkInt stack else SkBad
  | SkZero => if is_digit c then SkBad else sk_number true c stack
  | SkInt => if is_digit c then SkGo SkInt stack else sk_number true c stack
  | SkDot => if is_digit c then SkGo SkFraction stack else SkBad
  | SkFraction => if is_digit c then SkGo SkFraction stack else sk_number false c stack
  | SkE => if (c =? 43) || (c =? 45) then SkGo SkESign stack else if is_digit c then SkGo SkExponent stack else SkBad
  | SkESign => if is_digit c then SkGo SkExponent stack else SkBad
  | SkExponent => if is_digit c then SkGo SkExponent stack else sk_after c stack
  | SkString key =>
      if c =? 34 then (if key : bool then SkGo SkColon stack else sk_end stack)
      else if c =? 92 then SkGo (SkEscape key) stack
      else if c <? 32 then SkBad
      else SkGo (SkString key) stack
  | SkEscape key =>
      match simple_escape c with
      | Some _ => SkGo (SkString key) stack
      | None => if c =? 117 then SkGo (SkHex key 4 true) stack else SkBad
      end
  | SkHex key k valid =>
      let valid := valid && match hex_val c with Some _ => true | None => false end in
      match k with
      | S (S k) => SkGo (SkHex key (S k) valid) stack
      | _ => if valid then SkGo (SkString key) stack else SkBad
      end
  | SkOpened =>
      match stack with
      | object :: outer =>
          if is_space c then SkGo SkOpened stack
          else if c =? (if object : bool then 125 else 93) then sk_end outer
          else if object then sk_key c stack else sk_value c stack
      | [] => SkBad
      end
  | SkAfter => sk_after c stack
  | SkKey => if is_space c then SkGo SkKey stack else sk_key c stack
  | SkColon => if is_space c then SkGo SkColon stack else if c =? 58 then SkGo SkValue stack else SkBad
  end.
(** At the end of the text. de.rs [next_char_or_null], [peek_or_null]: a number cut after its sign, point or [e] is an
    invalid number, not an early end. *)
Definition skip_eof (s : skipping) (stack : list bool) : res unit :=
  match s with
  | SkSign | SkDot | SkE | SkESign => Bad
  | SkZero | SkInt | SkFraction | SkExponent => match stack with [] => Got tt [] | _ => Eof end
  | _ => Eof
  end.
Fixpoint ignore_value (s : skipping) (stack : list bool) (t : bytes) : res unit :=
  match t with
  | [] => skip_eof s stack
  | c :: u =>
      match skip_step s stack c with
      | SkGo s stack => ignore_value s stack u
      | SkDone => Got tt u
      | SkDoneBefore => Got tt t
      | SkBad => Bad
      end
  end.

(** main.rs:372-380 [struct PositionBody]: the names and ranges of its fields. *)
Definition I16 : Z * Z := (-32768, 32767)%Z.
Definition I8 : Z * Z := (-128, 127)%Z.
Definition field_names : list (bytes * (Z * Z)) :=
  [(str "x", I16); (str "y", I16); (str "z", I16); (str "yaw", I16); (str "pitch", I8); (str "roll", I16)].
Definition position_fields : Type := list (option Z).
(** The index and range of a field. *)
Fixpoint field_index (l : list (bytes * (Z * Z))) (key : bytes) : option (nat * (Z * Z)) :=
  match l with
  | [] => None
  | (name, range) :: l =>
      if bool_decide (name = key) then Some (0%nat, range) else '(i, r) ← field_index l key; Some (S i, r)
  end.

(** The derived [visit_map], with de.rs [MapAccess::next_key_seed], [next_value_seed], [parse_object_colon], and [end_map].
    [fuel] bounds the number of members; it is at least the length of the text. *)
Fixpoint visit_map (fuel : nat) (first : bool) (acc : position_fields) (t : bytes) : res position_fields :=
  match fuel with
  | O => Bad
  | S fuel =>
      let key t :=
        match t with
        | [] => Eof
        | c :: u =>
            if c =? 34 then
              and_then (parse_str u) (fun name u =>
              let value := fun (read : bytes -> res position_fields) =>
                match skip_spaces u with
                | [] => Eof
                | c :: u => if c =? 58 then and_then (read u) (visit_map fuel false) else Bad
                end in
              match field_index field_names name with
              | Some (i, range) =>
                  match acc !! i with
                  | Some (Some _) => Bad (* duplicate field *)
                  | _ => value (fun u => and_then (deserialize_int range u) (fun z => Got (<[i := Some z]> acc)))
                  end
              | None => value (fun u => and_then (ignore_value SkValue [] u) (fun _ => Got acc))
              end)
            else Bad
        end in
      match skip_spaces t with
      | [] => Eof
      | c :: u =>
          if c =? 125 then Got acc u
          else if first then key (c :: u)
          else if c =? 44 then key (skip_spaces u)
          else Bad
      end
  end.
(** The derived [visit_seq], with de.rs [SeqAccess::next_element_seed] and [end_seq]. *)
Fixpoint visit_seq (first : bool) (ranges : list (Z * Z)) (t : bytes) : res (list Z) :=
  match ranges with
  | [] =>
      match skip_spaces t with
      | [] => Eof
      | c :: u => if c =? 93 then Got [] u else Bad
      end
  | range :: ranges =>
      let element t :=
        match t with
        | [] => Eof
        | c :: _ =>
            if c =? 93 then Bad
            else and_then (deserialize_int range t) (fun z u => and_then (visit_seq false ranges u) (fun l => Got (z :: l)))
        end in
      match skip_spaces t with
      | [] => Eof
      | c :: u =>
          if c =? 93 then Bad (* invalid length *)
          else if first then element (c :: u)
          else if c =? 44 then element (skip_spaces u)
          else Bad
      end
  end.
(** de.rs [deserialize_struct]: the six fields. A missing field is an error. *)
Definition deserialize_struct (t : bytes) : res (list Z) :=
  match skip_spaces t with
  | [] => Eof
  | c :: u =>
      if c =? 91 then visit_seq true (map snd field_names) u
      else if c =? 123 then
        and_then (visit_map (S (length u)) true (replicate 6 None) u) (fun acc rest =>
          match mapM (M := option) (fun x => x) acc with Some l => Got l rest | None => Bad end)
      else invalid_type (c :: u)
  end.

Section Read.
Context {P : Type} (position_new : Z -> Z -> Z -> Z -> Z -> Z -> P).
(** main.rs:382-400 [position!]: [serde_json::from_slice], which refuses trailing characters, then [Position::new]. *)
Definition body_of (t : bytes) : body P :=
  match and_then (deserialize_struct t) (fun l rest => match skip_spaces rest with [] => Got l [] | _ => Bad end) with
  | Got [x; y; z; yaw; pitch; roll] _ => BodyPosition (position_new x y z yaw pitch roll)
  | Got _ _ => BodyInvalid (* there are always six *)
  | Eof => BodyEof
  | Bad => BodyInvalid
  end.
End Read.
