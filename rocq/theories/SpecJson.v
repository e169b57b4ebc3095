(** The grammar of JSON texts (RFC 8259), written as a relation; nothing here comes from the
    decoder but the type of its results, in which numbers and strings stay as they are written. *)
From Coq Require Import ZArith NArith List Bool String Ascii.
From Coq Require Import DecimalString.
From Verif Require Import GoTime Text SpecText JsonRead.
Import ListNotations.
Local Open Scope string_scope.

(** Section 2: white space is space, tab, line feed and carriage return. *)
Inductive blank : string -> Prop :=
| blank_nil : blank ""
| blank_cons c w : In c [" "; "009"; "010"; "013"]%char -> blank w -> blank (String c w).
Definition digit_char (c : ascii) : Prop := In c (list_ascii_of_string "0123456789").
Definition hex_char (c : ascii) : Prop := In c (list_ascii_of_string "0123456789abcdefABCDEF").
Inductive digit_chars : string -> Prop :=
| digit_chars_nil : digit_chars ""
| digit_chars_cons c s : digit_char c -> digit_chars s -> digit_chars (String c s).
(** Section 6 *)
Inductive int_part : string -> Prop :=
| int_zero : int_part "0"
| int_more c s : digit_char c -> c <> "0"%char -> digit_chars s -> int_part (String c s).
Inductive frac_part : string -> Prop :=
| frac_none : frac_part ""
| frac_some c s : digit_char c -> digit_chars s -> frac_part (String "." (String c s)).
Inductive exp_part : string -> Prop :=
| exp_none : exp_part ""
| exp_some e g c s : In e ["e"; "E"]%char -> In g [""; "+"; "-"] -> digit_char c -> digit_chars s -> exp_part (String e (g ++ String c s)).
Inductive number : string -> Prop :=
| number_intro m i f e : In m [""; "-"] -> int_part i -> frac_part f -> exp_part e -> number (m ++ i ++ f ++ e).
(** Section 7, between the quotes *)
Inductive chars : string -> Prop :=
| chars_nil : chars ""
| chars_plain c s : c <> quote -> c <> "\"%char -> (32 <= N_of_ascii c)%N -> chars s -> chars (String c s)
| chars_short e s : In e [quote; "\"; "/"; "b"; "f"; "n"; "r"; "t"]%char -> chars s -> chars (String "\" (String e s))
| chars_hex a b c d s : hex_char a -> hex_char b -> hex_char c -> hex_char d -> chars s ->
    chars (String "\" (String "u" (String a (String b (String c (String d s)))))).
Definition in_quotes (s : string) : string := String quote (s ++ String quote "").
(** Sections 3 to 5 *)
Inductive spells : value -> string -> Prop :=
| spells_null : spells VNull "null"
| spells_true : spells (VBool true) "true"
| spells_false : spells (VBool false) "false"
| spells_num s : number s -> spells (VNum s) s
| spells_str s : chars s -> spells (VStr s) (in_quotes s)
| spells_arr0 w : blank w -> spells (VArr []) ("[" ++ w ++ "]")
| spells_arr l t : items l t -> spells (VArr l) ("[" ++ t ++ "]")
| spells_obj0 w : blank w -> spells (VObj []) ("{" ++ w ++ "}")
| spells_obj l t : pairs l t -> spells (VObj l) ("{" ++ t ++ "}")
with items : list value -> string -> Prop :=
| items_one v w t w' : blank w -> spells v t -> blank w' -> items [v] (w ++ t ++ w')
| items_more v w t w' l u : blank w -> spells v t -> blank w' -> items l u -> items (v :: l) (w ++ t ++ w' ++ "," ++ u)
with pairs : list (string * value) -> string -> Prop :=
| pairs_one k v w1 w2 w3 t w4 : blank w1 -> chars k -> blank w2 -> blank w3 -> spells v t -> blank w4 ->
    pairs [(k, v)] (w1 ++ in_quotes k ++ w2 ++ ":" ++ w3 ++ t ++ w4)
| pairs_more k v w1 w2 w3 t w4 l u : blank w1 -> chars k -> blank w2 -> blank w3 -> spells v t -> blank w4 -> pairs l u ->
    pairs ((k, v) :: l) (w1 ++ in_quotes k ++ w2 ++ ":" ++ w3 ++ t ++ w4 ++ "," ++ u).
Definition json_text (v : value) (s : string) : Prop :=
  exists w t w', blank w /\ spells v t /\ blank w' /\ s = w ++ t ++ w'.

(** ** What the values mean *)
(** RFC 3629: the bytes of a code point. *)
Definition bytes (l : list N) : string := string_of_list_ascii (map ascii_of_N l).
Inductive utf8_bytes : N -> list N -> Prop :=
| utf8_1 a : (a < 128)%N -> utf8_bytes a [a]
| utf8_2 n a b : (n = a * 64 + b -> 128 <= n < 2048 -> b < 64 -> utf8_bytes n [192 + a; 128 + b])%N
| utf8_3 n a b c : (n = (a * 64 + b) * 64 + c -> 2048 <= n < 65536 -> b < 64 -> c < 64 -> utf8_bytes n [224 + a; 128 + b; 128 + c])%N
| utf8_4 n a b c d : (n = ((a * 64 + b) * 64 + c) * 64 + d -> 65536 <= n -> b < 64 -> c < 64 -> d < 64 -> utf8_bytes n [240 + a; 128 + b; 128 + c; 128 + d])%N.
Definition hex_digit_of (c : ascii) (d : N) : Prop :=
  nth_error (list_ascii_of_string "0123456789abcdef") (N.to_nat d) = Some c \/ nth_error (list_ascii_of_string "0123456789ABCDEF") (N.to_nat d) = Some c.
(** \uXXXX for the number [n] *)
Inductive unit_escape : string -> N -> Prop :=
| unit_escape_intro c3 c2 c1 c0 d3 d2 d1 d0 : hex_digit_of c3 d3 -> hex_digit_of c2 d2 -> hex_digit_of c1 d1 -> hex_digit_of c0 d0 ->
    unit_escape (String "\" (String "u" (String c3 (String c2 (String c1 (String c0 "")))))) (d3 * 4096 + d2 * 256 + d1 * 16 + d0).
Definition short_escapes : list (ascii * ascii) :=
  [(quote, quote); ("\", "\"); ("/", "/"); ("b", "008"); ("f", "012"); ("n", "010"); ("r", "013"); ("t", "009")]%char.
(** The second half of a pair of surrogates *)
Definition low_half (v : string) : Prop := exists k, (k < 1024)%N /\ unit_escape v (56320 + k).
(** A string as written and the bytes it stands for; half a pair without the other half stands for U+FFFD. *)
Inductive string_means : string -> string -> Prop :=
| means_nil : string_means "" ""
| means_plain c r s : c <> "\"%char -> string_means r s -> string_means (String c r) (String c s)
| means_short e c r s : In (e, c) short_escapes -> string_means r s -> string_means (String "\" (String e r)) (String c s)
| means_unit u n l r s : unit_escape u n -> (n < 55296 \/ 57344 <= n)%N -> utf8_bytes n l -> string_means r s -> string_means (u ++ r) (bytes l ++ s)
| means_pair u v h k n l r s : unit_escape u (55296 + h) -> unit_escape v (56320 + k) -> (h < 1024)%N -> (k < 1024)%N -> (n = 65536 + h * 1024 + k)%N -> utf8_bytes n l ->
    string_means r s -> string_means (u ++ v ++ r) (bytes l ++ s)
| means_lone u n r s : unit_escape u n -> (55296 <= n < 57344)%N -> ((n < 56320)%N -> forall v r', low_half v -> r <> v ++ r') ->
    string_means r s -> string_means (u ++ r) (bytes [239; 191; 189]%N ++ s).
(** A number written without fraction or exponent *)
Definition integer_means (raw : string) (z : Z) : Prop :=
  exists i, DecimalString.NilZero.int_of_string raw = Some i /\ Z.of_int i = z.
(** A value and the tree it stands for. *)
Inductive value_means : value -> json -> Prop :=
| value_int raw z : integer_means raw z -> value_means (VNum raw) (JInt z)
| value_bool b : value_means (VBool b) (JBool b)
| value_str raw s : string_means raw s -> value_means (VStr raw) (JStr s)
| value_arr l l' : Forall2 value_means l l' -> value_means (VArr l) (JArr l')
| value_obj l l' : Forall2 (fun p q => string_means (fst p) (fst q) /\ value_means (snd p) (snd q)) l l' -> value_means (VObj l) (JObj l').

(** RFC 3339: a date, a time of day with a fraction of up to nine digits, and an offset; the
    instant in nanoseconds. *)
Inductive fraction_means : string -> Z -> Prop :=
| no_fraction : fraction_means "" 0
| some_fraction d n : digit_chars d -> (1 <= String.length d <= 9)%nat -> integer_means d n ->
    fraction_means (String "." d) (n * 10 ^ (9 - Z.of_nat (String.length d))).
Inductive offset_means : string -> Z -> Prop :=
| offset_utc : offset_means "Z" 0
| offset_east h m : (0 <= h <= 99)%Z -> (0 <= m <= 99)%Z -> offset_means ("+" ++ padded 2 h ++ ":" ++ padded 2 m) ((h * 60 + m) * 60)
| offset_west h m : (0 <= h <= 99)%Z -> (0 <= m <= 99)%Z -> offset_means ("-" ++ padded 2 h ++ ":" ++ padded 2 m) (- ((h * 60 + m) * 60)).
Inductive time_means : string -> time -> Prop :=
| time_intro y mo d h mi s f ns z off : (0 <= y <= 9999)%Z -> civil_date y mo d -> (0 <= h < 24)%Z -> (0 <= mi < 60)%Z -> (0 <= s < 60)%Z ->
    fraction_means f ns -> offset_means z off ->
    time_means (iso_date y mo d ++ "T" ++ padded 2 h ++ ":" ++ padded 2 mi ++ ":" ++ padded 2 s ++ f ++ z)
      (mkTime ((((day_number y mo d * 24 + h) * 60 + mi) * 60 + s - off) * second_ns + ns)%Z off).

(** ** Structures *)
(** A key is that of a field if it is the same without regard to case; the long s and the sign for kelvin count as s and k. *)
Inductive key_of : string -> string -> Prop :=
| key_nil : key_of "" ""
| key_same c k f : key_of k f -> key_of (String c k) (String c f)
| key_upper a b k f : In (a, b) (combine (list_ascii_of_string "ABCDEFGHIJKLMNOPQRSTUVWXYZ") (list_ascii_of_string "abcdefghijklmnopqrstuvwxyz")) ->
    key_of k f -> key_of (String a k) (String b f)
| key_lower a b k f : In (a, b) (combine (list_ascii_of_string "abcdefghijklmnopqrstuvwxyz") (list_ascii_of_string "ABCDEFGHIJKLMNOPQRSTUVWXYZ")) ->
    key_of k f -> key_of (String a k) (String b f)
| key_long_s b k f : In b ["s"; "S"]%char -> key_of k f -> key_of (String "197" (String "191" k)) (String b f)
| key_kelvin b k f : In b ["k"; "K"]%char -> key_of k f -> key_of (String "226" (String "132" (String "170" k))) (String b f).
(** In the following [R] relates a string as written to the string it stands for; the theorems have [string_means]. *)
(** The member of an object that gives a field its value: the last of that name that is not null, if any. *)
Definition named (R : string -> string -> Prop) (f : string) (p : string * value) : Prop := exists k, R (fst p) k /\ key_of k f.
Definition given (R : string -> string -> Prop) (f : string) (l : list (string * value)) (o : option value) : Prop :=
  match o with
  | None => Forall (fun p => named R f p -> snd p = VNull) l
  | Some v => v <> VNull /\ exists l1 k l2, l = (l1 ++ (k, v) :: l2)%list /\ named R f (k, v) /\ Forall (fun p => named R f p -> snd p = VNull) l2
  end.
(** Values of the types of Go. *)
Definition bool_value (v : value) (b : bool) : Prop := v = VBool b.
Definition string_value (R : string -> string -> Prop) (v : value) (s : string) : Prop := exists raw, v = VStr raw /\ R raw s.
Definition int64_value (v : value) (z : Z) : Prop := exists raw, v = VNum raw /\ integer_means raw z /\ (- 2 ^ 63 <= z < 2 ^ 63)%Z.
Definition time_value (v : value) (t : time) : Prop := exists raw, v = VStr raw /\ time_means raw t.
(** A field of the object [l], which is left at [zero] if not given. *)
Definition field (R : string -> string -> Prop) {A} (zero : A) (is_value : value -> A -> Prop) (f : string) (l : list (string * value)) (x : A) : Prop :=
  (given R f l None /\ x = zero) \/ exists v, given R f l (Some v) /\ is_value v x.
(** aeris_moon.go:9-14: a record; null stands for the zero record. *)
Definition record_value (R : string -> string -> Prop) (v : value) (r : AerisRecord) : Prop :=
  (v = VNull /\ r = mkAerisRecord 0 (mkTime 0 0) 0 "") \/
  exists l, v = VObj l /\ field R 0%Z int64_value "timestamp" l (r_Timestamp r) /\ field R (mkTime 0 0) time_value "dateTimeISO" l (r_DateTimeISO r) /\
    field R 0%Z int64_value "code" l (r_Code r) /\ field R "" (string_value R) "name" l (r_Name r).
(** The last of that name, null or not. *)
Definition last_given (R : string -> string -> Prop) (f : string) (l : list (string * value)) (o : option value) : Prop :=
  match o with
  | None => Forall (fun p => ~ named R f p) l
  | Some v => exists l1 k l2, l = (l1 ++ (k, v) :: l2)%list /\ named R f (k, v) /\ Forall (fun p => ~ named R f p) l2
  end.
(** The members of all objects given for a field, which go into the same structure one after the other. *)
Inductive merged (R : string -> string -> Prop) (f : string) : list (string * value) -> list (string * value) -> Prop :=
| merged_nil : merged R f [] []
| merged_other p l m : ~ named R f p \/ snd p = VNull -> merged R f l m -> merged R f (p :: l) m
| merged_object k x l m : named R f (k, VObj x) -> merged R f l m -> merged R f ((k, VObj x) :: l) (x ++ m)%list.
(** aeris_moon.go:16-25: a response. *)
Definition response_value (R : string -> string -> Prop) (v : value) (p : AerisResp) : Prop :=
  (v = VNull /\ p = mkAerisResp false ("", "") []) \/
  exists l e, v = VObj l /\ field R false bool_value "success" l (p_Success p) /\
    merged R "error" l e /\ field R "" (string_value R) "code" e (fst (p_Error p)) /\ field R "" (string_value R) "description" e (snd (p_Error p)) /\
    ((last_given R "Response" l None \/ last_given R "Response" l (Some VNull)) /\ p_Response p = [] \/
     exists vs, last_given R "Response" l (Some (VArr vs)) /\ Forall2 (record_value R) vs (p_Response p)).
(** What is accepted: every member that names a field is null or of its type. *)
Definition fits (R : string -> string -> Prop) {A} (f : string) (is_value : value -> A -> Prop) (p : string * value) : Prop :=
  named R f p -> snd p = VNull \/ exists x, is_value (snd p) x.
Definition record_fits (R : string -> string -> Prop) (v : value) : Prop :=
  v = VNull \/ exists l, v = VObj l /\ Forall (fun p => fits R "timestamp" int64_value p /\ fits R "dateTimeISO" time_value p /\ fits R "code" int64_value p /\ fits R "name" (string_value R) p) l.
Definition error_fits (R : string -> string -> Prop) (v : value) : Prop :=
  v = VNull \/ exists l, v = VObj l /\ Forall (fun p => fits R "code" (string_value R) p /\ fits R "description" (string_value R) p) l.
Definition response_fits (R : string -> string -> Prop) (v : value) : Prop :=
  v = VNull \/ exists l, v = VObj l /\ Forall (fun p => fits R "success" bool_value p /\ (named R "error" p -> error_fits R (snd p)) /\
    (named R "Response" p -> snd p = VNull \/ exists vs, snd p = VArr vs /\ Forall (record_fits R) vs)) l.
