(** Vocabulary of the properties of the texts of the web interface: JSON (RFC 8259), event streams (the EventSource
    section of the HTML standard), and what the texts of pica are to say. *)
From Coq Require Import Strings.String Strings.Ascii.
From Verif Require Import Base Uci MacAddress Pica Http.

(** ** JSON. A number is kept as it is written; a string is a list of UTF-16 code units, as in JavaScript. *)
Inductive json : Type :=
  | JNull
  | JBool (b : bool)
  | JNumber (t : bytes)
  | JString (u : list N)
  | JArray (l : list json)
  | JObject (l : list (list N * json)).

(** RFC 8259, 2: ws *)
Definition spaces (w : bytes) : Prop := Forall (fun c => c = 32 \/ c = 9 \/ c = 10 \/ c = 13) w.
(** 6: number = [ minus ] int [ frac ] [ exp ] *)
Definition digits (t : bytes) : Prop := Forall (fun c => 48 <= c <= 57) t.
Definition number (t : bytes) : Prop := exists minus int frac exp,
  t = minus ++ int ++ frac ++ exp /\
  (minus = [] \/ minus = [45]) /\
  (int = [48] \/ exists c ds, int = c :: ds /\ 49 <= c <= 57 /\ digits ds) /\
  (frac = [] \/ exists c ds, frac = 46 :: c :: ds /\ digits (c :: ds)) /\
  (exp = [] \/ exists e sign c ds, exp = e :: sign ++ c :: ds /\ (e = 101 \/ e = 69) /\
               (sign = [] \/ sign = [43] \/ sign = [45]) /\ digits (c :: ds)).
(** Unicode: scalar values, UTF-16, UTF-8 (RFC 3629, 3). *)
Definition scalar (c : N) : Prop := c < 55296 \/ 57344 <= c <= 1114111.
Inductive utf16_of : N -> list N -> Prop :=
  | utf16_1 c : c < 65536 -> utf16_of c [c]
  | utf16_2 a b : a < 1024 -> b < 1024 -> utf16_of (65536 + 1024 * a + b) [55296 + a; 56320 + b].
Inductive utf8_of : N -> bytes -> Prop :=
  | utf8_1 c : c < 128 -> utf8_of c [c]
  | utf8_2 a b : b < 64 -> 128 <= 64 * a + b < 2048 -> utf8_of (64 * a + b) [192 + a; 128 + b]
  | utf8_3 a b c : b < 64 -> c < 64 -> 2048 <= 4096 * a + 64 * b + c < 65536 ->
      utf8_of (4096 * a + 64 * b + c) [224 + a; 128 + b; 128 + c]
  | utf8_4 a b c d : b < 64 -> c < 64 -> d < 64 -> 65536 <= 262144 * a + 4096 * b + 64 * c + d < 2097152 ->
      utf8_of (262144 * a + 4096 * b + 64 * c + d) [240 + a; 128 + b; 128 + c; 128 + d].
(** 7: char. The one letter escapes (quotation mark, reverse solidus, solidus, b, f, n, r, t) and \uXXXX. *)
Definition escapes : list (N * N) := [(34, 34); (92, 92); (47, 47); (98, 8); (102, 12); (110, 10); (114, 13); (116, 9)].
Definition hex_digits : list (N * N) :=
  [(48, 0); (49, 1); (50, 2); (51, 3); (52, 4); (53, 5); (54, 6); (55, 7); (56, 8); (57, 9);
   (65, 10); (66, 11); (67, 12); (68, 13); (69, 14); (70, 15); (97, 10); (98, 11); (99, 12); (100, 13); (101, 14); (102, 15)].
Inductive chars : list N -> bytes -> Prop :=
  | chars_nil : chars [] []
  | chars_plain c s b u t : scalar c -> 32 <= c -> c <> 34 -> c <> 92 -> utf16_of c s -> utf8_of c b ->
      chars u t -> chars (s ++ u) (b ++ t)
  | chars_escape e c u t : (e, c) ∈ escapes -> chars u t -> chars (c :: u) (92 :: e :: t)
  | chars_unicode h1 h2 h3 h4 v1 v2 v3 v4 u t :
      (h1, v1) ∈ hex_digits -> (h2, v2) ∈ hex_digits -> (h3, v3) ∈ hex_digits -> (h4, v4) ∈ hex_digits ->
      chars u t -> chars (4096 * v1 + 256 * v2 + 16 * v3 + v4 :: u) (92 :: 117 :: h1 :: h2 :: h3 :: h4 :: t).
(** 3, 4, 5: value, object, array *)
Inductive value : json -> bytes -> Prop :=
  | value_null : value JNull (str "null")
  | value_true : value (JBool true) (str "true")
  | value_false : value (JBool false) (str "false")
  | value_number t : number t -> value (JNumber t) t
  | value_string u t : chars u t -> value (JString u) (34 :: t ++ [34])
  | value_array_empty w : spaces w -> value (JArray []) (91 :: w ++ [93])
  | value_array l t : elements l t -> value (JArray l) (91 :: t ++ [93])
  | value_object_empty w : spaces w -> value (JObject []) (123 :: w ++ [125])
  | value_object l t : members l t -> value (JObject l) (123 :: t ++ [125])
with elements : list json -> bytes -> Prop :=
  | elements_one v w t w' : spaces w -> value v t -> spaces w' -> elements [v] (w ++ t ++ w')
  | elements_more v w t w' l s : spaces w -> value v t -> spaces w' -> elements l s -> elements (v :: l) (w ++ t ++ w' ++ 44 :: s)
with members : list (list N * json) -> bytes -> Prop :=
  | members_one k v w t s : spaces w -> member k v t -> spaces s -> members [(k, v)] (w ++ t ++ s)
  | members_more k v w t s l r : spaces w -> member k v t -> spaces s -> members l r -> members ((k, v) :: l) (w ++ t ++ s ++ 44 :: r)
with member : list N -> json -> bytes -> Prop :=
  | member_intro k tk w w' v t : chars k tk -> spaces w -> spaces w' -> value v t ->
      member k v (34 :: tk ++ 34 :: w ++ 58 :: w' ++ t).
(** JSON-text = ws value ws *)
Definition json_text (v : json) (t : bytes) : Prop := exists w s w', spaces w /\ value v s /\ spaces w' /\ t = w ++ s ++ w'.

(** The integer which a number without fraction and exponent denotes. *)
Definition digits_to_N (ds : bytes) : N := fold_left (fun v c => 10 * v + (c - 48)) ds 0.
Definition integer_value (t : bytes) (z : Z) : Prop := exists ds, digits ds /\ ds <> [] /\
  (t = ds /\ z = Z.of_N (digits_to_N ds) \/ t = 45 :: ds /\ z = (- Z.of_N (digits_to_N ds))%Z).

(** ** Event streams. Lines end with CR LF, LF or CR; a line without an end is not a line. *)
Fixpoint stream_lines (t : bytes) : list bytes :=
  match t with
  | [] => []
  | 10 :: t => [] :: stream_lines t
  | 13 :: t => [] :: match t with 10 :: t => stream_lines t | _ => stream_lines t end
  | c :: t => match stream_lines t with l :: ls => (c :: l) :: ls | [] => [] end
  end.
(** A line "field: value": the field, and the value without one leading space. *)
Fixpoint field_value (l : bytes) : bytes * bytes :=
  match l with
  | [] => ([], [])
  | 58 :: l => ([], match l with 32 :: l => l | _ => l end)
  | c :: l => let '(f, v) := field_value l in (c :: f, v)
  end.
(** The type and data buffers; an empty line dispatches an event, unless it has no data. The fields "id" and "retry", and
    comments (an empty field name), have no effect on the events. *)
Definition default_type (type : bytes) : bytes := match type with [] => str "message" | _ => type end.
Fixpoint dispatched (type data : bytes) (ls : list bytes) : list (bytes * bytes) :=
  match ls with
  | [] => []
  | [] :: ls =>
      match data with [] => dispatched [] [] ls | _ => (default_type type, removelast data) :: dispatched [] [] ls end
  | l :: ls =>
      let '(f, v) := field_value l in
      if bool_decide (f = str "event") then dispatched v data ls
      else if bool_decide (f = str "data") then dispatched type (data ++ v ++ [10]) ls
      else dispatched type data ls
  end.
(** The events (type and data) which a browser gets from a stream. (The byte order mark is left out: no stream here has one.) *)
Definition event_stream (t : bytes) : list (bytes * bytes) := dispatched [] [] (stream_lines t).

(** ** What the texts say. *)
Definition is_text (s : bytes) (v : json) : Prop := v = JString s.
Definition is_integer (z : Z) (v : json) : Prop := exists t, v = JNumber t /\ integer_value t z.
Definition is_object (l : list (string * (json -> Prop))) (v : json) : Prop :=
  exists ms, v = JObject ms /\ Forall2 (fun m d => m.1 = str d.1 /\ d.2 m.2) ms l.
Definition is_category (c : category) : json -> Prop :=
  is_text (match c with CategoryUci => str "Uci" | CategoryAnchor => str "Anchor" end).
Definition is_address (m : mac_address) : json -> Prop := is_text (mac_to_string m).
Section Spec.
Context {P : Type} (fields : P -> Z * Z * Z * Z * Z * Z).
Definition place_members (p : P) : list (string * (json -> Prop)) :=
  let '(x, y, z, yaw, pitch, roll) := fields p in
  [("x", is_integer x); ("y", is_integer y); ("z", is_integer z);
   ("yaw", is_integer yaw); ("pitch", is_integer pitch); ("roll", is_integer roll)]%string.
Definition says_event (ev : event P) : json -> Prop :=
  match ev with
  | DeviceAdded c m p | DeviceUpdated c m p =>
      is_object ([("category", is_category c); ("mac_address", is_address m)]%string ++ place_members p)
  | DeviceRemoved c m => is_object [("category", is_category c); ("mac_address", is_address m)]%string
  | NeighborUpdated sc sm dc dm distance azimuth elevation =>
      is_object [("source_category", is_category sc); ("source_mac_address", is_address sm);
                 ("destination_category", is_category dc); ("destination_mac_address", is_address dm);
                 ("distance", is_integer (Z.of_N distance)); ("azimuth", is_integer azimuth); ("elevation", is_integer elevation)]%string
  end.
Definition type_of (ev : event P) : bytes :=
  match ev with
  | DeviceAdded _ _ _ => str "device-added"
  | DeviceRemoved _ _ => str "device-removed"
  | DeviceUpdated _ _ _ => str "device-updated"
  | NeighborUpdated _ _ _ _ _ _ _ => str "neighbor-updated"
  end.
Definition says_device (i : device_information P) : json -> Prop :=
  is_object ([("category", is_category (di_category i)); ("mac_address", is_address (di_mac i))]%string ++ place_members (di_position i)).
(** What a browser got, an event by its type and the JSON text of its data, tells the event. *)
Definition tells (got : bytes * bytes) (ev : event P) : Prop :=
  got.1 = type_of ev /\ exists v, json_text v got.2 /\ says_event ev v.
(** Two events which differ at most in what is not told of their positions. *)
Definition alike (ev ev' : event P) : Prop :=
  match ev, ev' with
  | DeviceAdded c m p, DeviceAdded c' m' p' | DeviceUpdated c m p, DeviceUpdated c' m' p' => c = c' /\ m = m' /\ fields p = fields p'
  | DeviceRemoved _ _, DeviceRemoved _ _ | NeighborUpdated _ _ _ _ _ _ _, NeighborUpdated _ _ _ _ _ _ _ => ev = ev'
  | _, _ => False
  end.
End Spec.

(** ** Bodies: what a position is. No lone surrogates: *)
Inductive unicode : list N -> Prop :=
  | unicode_nil : unicode []
  | unicode_char c s u : scalar c -> utf16_of c s -> unicode u -> unicode (s ++ u).
(** An integer between [lo] and [hi], not written -0. *)
Definition integer_in (lo hi z : Z) (v : json) : Prop :=
  exists t, v = JNumber t /\ integer_value t z /\ t <> str "-0" /\ (lo <= z <= hi)%Z.
Definition int16 := integer_in (-32768) 32767.
Definition int8 := integer_in (-128) 127.
(** Exactly one member has the name, and its value satisfies [P]. *)
Definition one_member (ms : list (list N * json)) (name : string) (P : json -> Prop) : Prop :=
  exists v, filter (fun m => m.1 = str name) ms = [(str name, v)] /\ P v.
(** An object with the six members, and perhaps others, or a list of the six numbers. *)
Definition is_position (v : json) (x y z yaw pitch roll : Z) : Prop :=
  (exists ms, v = JObject ms /\ (forall k u, (k, u) ∈ ms -> unicode k) /\
     one_member ms "x" (int16 x) /\ one_member ms "y" (int16 y) /\ one_member ms "z" (int16 z) /\
     one_member ms "yaw" (int16 yaw) /\ one_member ms "pitch" (int8 pitch) /\ one_member ms "roll" (int16 roll)) \/
  (exists v1 v2 v3 v4 v5 v6, v = JArray [v1; v2; v3; v4; v5; v6] /\
     int16 x v1 /\ int16 y v2 /\ int16 z v3 /\ int16 yaw v4 /\ int8 pitch v5 /\ int16 roll v6).
(** A text in UTF-8. *)
Inductive utf8_text : bytes -> Prop :=
  | utf8_text_nil : utf8_text []
  | utf8_text_char c s t : scalar c -> utf8_of c s -> utf8_text t -> utf8_text (s ++ t).
