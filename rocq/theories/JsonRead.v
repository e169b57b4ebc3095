(** Go's encoding/json reading one response of the service: [json.Unmarshal(data, &resp)]
    (astro_moon.go:65) into the types of aeris_moon.go:9-25.  The package is not in /repo; written
    from its documentation.  Any error makes the caller panic, so errors are not told apart.
    Not modelled: the limit on nesting; the replacement of invalid UTF-8 (of the strings the code
    uses only whether error.code is empty); elements of an earlier array showing through
    when an object has the key "response" twice. *)
From Coq Require Import ZArith NArith List Bool String Ascii.
From Verif Require Import GoTime Text AstroMoon.
Import ListNotations.
Local Open Scope string_scope.

(** ** Syntax.  Numbers and strings are kept as they are written. *)
Inductive value :=
| VNull | VBool (b : bool) | VNum (raw : string) | VStr (raw : string)
| VArr (l : list value) | VObj (l : list (string * value)).

Definition is_space (c : ascii) : bool := Ascii.eqb c " " || Ascii.eqb c "010" || Ascii.eqb c "013" || Ascii.eqb c "009".
Fixpoint skip_space (s : string) : string :=
  match s with String c s' => if is_space c then skip_space s' else s | "" => "" end.
Definition between (lo hi : N) (c : ascii) : bool := ((lo <=? N_of_ascii c) && (N_of_ascii c <=? hi))%N.
Definition is_dig (c : ascii) : bool := between 48 57 c.
Definition is_hex (c : ascii) : bool := is_dig c || between 97 102 c || between 65 70 c.
(** The longest run of digits, and the rest. *)
Fixpoint run_of_digits (s : string) : string * string :=
  match s with
  | String c s' => if is_dig c then let '(d, r) := run_of_digits s' in (String c d, r) else ("", s)
  | "" => ("", "")
  end.
(** Bytes below 32. *)
Definition is_control (c : ascii) : bool := match c with Ascii _ _ _ _ _ b5 b6 b7 => negb (b5 || b6 || b7) end.
(** A string after its opening quote: what is between the quotes, and the rest. *)
Fixpoint quoted (s : string) : option (string * string) :=
  match s with
  | "" => None
  | String c s1 =>
      if Ascii.eqb c quote then Some ("", s1)
      else if Ascii.eqb c "\" then
        match s1 with
        | String "u" (String h1 (String h2 (String h3 (String h4 s2)))) =>
            if is_hex h1 && is_hex h2 && is_hex h3 && is_hex h4 then
              match quoted s2 with
              | Some (r, rest) => Some (String c (String "u" (String h1 (String h2 (String h3 (String h4 r))))), rest)
              | None => None
              end
            else None
        | String e s2 =>
            if Ascii.eqb e quote || existsb (Ascii.eqb e) ["\"; "/"; "b"; "f"; "n"; "r"; "t"]%char then
              match quoted s2 with Some (r, rest) => Some (String c (String e r), rest) | None => None end
            else None
        | "" => None
        end
      else if is_control c then None
      else match quoted s1 with Some (r, rest) => Some (String c r, rest) | None => None end
  end.
(** A number: sign, integer without leading zeros, fraction, exponent. *)
Definition sign (s : string) : string * string :=
  match s with String c s' => if Ascii.eqb c "-" then ("-", s') else ("", s) | "" => ("", "") end.
Definition integer (s : string) : option (string * string) :=
  match s with
  | String c s' => if Ascii.eqb c "0" then Some ("0", s')
                   else if is_dig c then Some (run_of_digits s) else None
  | "" => None
  end.
Definition frac (s : string) : option (string * string) :=
  match s with
  | String c s' => if Ascii.eqb c "." then let '(d, r) := run_of_digits s' in if String.eqb d "" then None else Some (String c d, r)
                   else Some ("", s)
  | "" => Some ("", "")
  end.
Definition exponent (s : string) : option (string * string) :=
  match s with
  | String c s1 =>
      if Ascii.eqb c "e" || Ascii.eqb c "E" then
        let '(sg, s2) := match s1 with
                         | String c1 s2 => if Ascii.eqb c1 "+" || Ascii.eqb c1 "-" then (String c1 "", s2) else ("", s1)
                         | "" => ("", "")
                         end in
        let '(d, r) := run_of_digits s2 in if String.eqb d "" then None else Some (String c (sg ++ d), r)
      else Some ("", s)
  | "" => Some ("", "")
  end.
Definition read_number (s : string) : option (string * string) :=
  let '(m, s1) := sign s in
  match integer s1 with
  | None => None
  | Some (i, s2) => match frac s2 with
                    | None => None
                    | Some (f, s3) => match exponent s3 with None => None | Some (e, s4) => Some (m ++ i ++ f ++ e, s4) end
                    end
  end.
(** [s] without the prefix [p]. *)
Fixpoint strip (p s : string) : option string :=
  match p, s with
  | "", _ => Some s
  | String a p', String b s' => if Ascii.eqb a b then strip p' s' else None
  | String _ _, "" => None
  end.
Definition literal (p : string) (v : value) (s : string) : option (value * string) := option_map (fun r => (v, r)) (strip p s).
(** One value, after white space; the rest of an array or object whose opening bracket was read,
    a member being expected next.  Every step takes a character, so the length of the text is fuel enough. *)
Fixpoint read_value (n : nat) (s : string) : option (value * string) :=
  match n with
  | O => None
  | S n' =>
      match skip_space s with
      | "" => None
      | String c s1 =>
          if Ascii.eqb c "{" then
            match skip_space s1 with
            | String "}" s2 => Some (VObj [], s2)
            | s2 => option_map (fun p => (VObj (fst p), snd p)) (read_members n' s2)
            end
          else if Ascii.eqb c "[" then
            match skip_space s1 with
            | String "]" s2 => Some (VArr [], s2)
            | s2 => option_map (fun p => (VArr (fst p), snd p)) (read_elements n' s2)
            end
          else if Ascii.eqb c quote then option_map (fun p => (VStr (fst p), snd p)) (quoted s1)
          else if Ascii.eqb c "t" then literal "rue" (VBool true) s1
          else if Ascii.eqb c "f" then literal "alse" (VBool false) s1
          else if Ascii.eqb c "n" then literal "ull" VNull s1
          else option_map (fun p => (VNum (fst p), snd p)) (read_number (String c s1))
      end
  end
with read_elements (n : nat) (s : string) : option (list value * string) :=
  match n with
  | O => None
  | S n' =>
      match read_value n' s with
      | None => None
      | Some (v, s1) =>
          match skip_space s1 with
          | String "," s2 => option_map (fun p => (v :: fst p, snd p)) (read_elements n' s2)
          | String "]" s2 => Some ([v], s2)
          | _ => None
          end
      end
  end
with read_members (n : nat) (s : string) : option (list (string * value) * string) :=
  match n with
  | O => None
  | S n' =>
      match skip_space s with
      | String c s1 =>
          if Ascii.eqb c quote then
            match quoted s1 with
            | None => None
            | Some (k, s2) =>
                match skip_space s2 with
                | String ":" s3 =>
                    match read_value n' s3 with
                    | None => None
                    | Some (v, s4) =>
                        match skip_space s4 with
                        | String "," s5 => option_map (fun p => ((k, v) :: fst p, snd p)) (read_members n' s5)
                        | String "}" s5 => Some ([(k, v)], s5)
                        | _ => None
                        end
                    end
                | _ => None
                end
            end
          else None
      | "" => None
      end
  end.
(** A whole text: one value and nothing after it but white space. *)
Definition read_json (s : string) : option value :=
  match read_value (S (String.length s)) s with
  | Some (v, r) => if String.eqb (skip_space r) "" then Some v else None
  | None => None
  end.

(** ** Strings *)
Definition hex_value (c : ascii) : N :=
  let n := N_of_ascii c in
  (if is_dig c then n - 48 else if between 97 102 c then n - 87 else n - 55)%N.
Definition char_of (n : N) (s : string) : string := String (ascii_of_N n) s.
(** UTF-8 *)
Definition utf8 (n : N) (s : string) : string :=
  (if n <? 128 then char_of n s
   else if n <? 2048 then char_of (192 + n / 64) (char_of (128 + n mod 64) s)
   else if n <? 65536 then char_of (224 + n / 4096) (char_of (128 + n / 64 mod 64) (char_of (128 + n mod 64) s))
   else char_of (240 + n / 262144) (char_of (128 + n / 4096 mod 64) (char_of (128 + n / 64 mod 64) (char_of (128 + n mod 64) s))))%N.
Definition escaped (e : ascii) : ascii :=
  if Ascii.eqb e "b" then "008" else if Ascii.eqb e "f" then "012" else if Ascii.eqb e "n" then "010"
  else if Ascii.eqb e "r" then "013" else if Ascii.eqb e "t" then "009" else e.
(** The string meant: [high] is the first half of a pair of surrogates waiting for the second; what is not
    followed by its other half becomes U+FFFD. *)
Definition lone (high : option N) (s : string) : string := match high with None => s | Some _ => utf8 65533 s end.
Fixpoint unquote (high : option N) (s : string) : string :=
  match s with
  | "" => lone high ""
  | String c s1 =>
      if Ascii.eqb c "\" then
        match s1 with
        | String "u" (String h1 (String h2 (String h3 (String h4 s2)))) =>
            let n := (((hex_value h1 * 16 + hex_value h2) * 16 + hex_value h3) * 16 + hex_value h4)%N in
            if ((55296 <=? n) && (n <? 56320))%N then lone high (unquote (Some n) s2)
            else if ((56320 <=? n) && (n <? 57344))%N then
              match high with
              | Some h => utf8 (65536 + (h - 55296) * 1024 + (n - 56320))%N (unquote None s2)
              | None => utf8 65533 (unquote None s2)
              end
            else lone high (utf8 n (unquote None s2))
        | String e s2 => lone high (String (escaped e) (unquote None s2))
        | "" => lone high ""
        end
      else lone high (String c (unquote None s1))
  end.

(** ** Matching a key: without regard to case, where U+017F and U+212A count as s and k. *)
Definition lower (c : ascii) : ascii :=
  match c with
  | Ascii b0 b1 b2 b3 b4 false true false => if between 65 90 c then Ascii b0 b1 b2 b3 b4 true true false else c
  | _ => c
  end.
Fixpoint folded (s : string) : string :=
  match s with
  | String "197" (String "191" s') => String "s" (folded s')
  | String "226" (String "132" (String "170" s')) => String "k" (folded s')
  | String c s' => String (lower c) (folded s')
  | "" => ""
  end.
Definition matches (key name : string) : bool := String.eqb (folded key) (folded name).

(** ** Values into variables, which keep their value when it is null *)
Definition into_bool (old : bool) (v : value) : option bool := match v with VNull => Some old | VBool b => Some b | _ => None end.
Definition into_string (old : string) (v : value) : option string :=
  match v with VNull => Some old | VStr raw => Some (unquote None raw) | _ => None end.
(** [strconv.ParseInt(raw, 10, 64)] for what can be a JSON number (Go also takes a plus sign). *)
Fixpoint decimal (acc : Z) (s : string) : option Z :=
  match s with
  | "" => Some acc
  | String c s' => if is_dig c then decimal (10 * acc + (Z.of_N (N_of_ascii c) - 48))%Z s' else None
  end.
Definition int64_of (raw : string) : option Z :=
  let '(m, d) := sign raw in
  match (if String.eqb d "" then None else decimal 0 d) with
  | Some n => let z := if String.eqb m "" then n else (- n)%Z in
              if ((- 2 ^ 63 <=? z) && (z <? 2 ^ 63))%Z then Some z else None
  | None => None
  end.
Definition into_int (old : Z) (v : value) : option Z := match v with VNull => Some old | VNum raw => int64_of raw | _ => None end.
(** [Time.UnmarshalJSON]: RFC 3339, taken from the text as it is written.  Simplified: a fraction has at most
    9 digits and follows a point, the hour has two digits (Go also takes one); the hours and minutes of an
    offset are any two digits, as in Go before 1.20, later versions bound them. *)
Definition two_digits (a b : ascii) : option Z :=
  if is_digit a && is_digit b then Some (digit_value a * 10 + digit_value b)%Z else None.
Definition zone (s : string) : option Z :=
  match s with
  | String g "" => if Ascii.eqb g "Z" then Some 0%Z else None
  | String g (String h1 (String h0 (String c (String m1 (String m0 ""))))) =>
      match two_digits h1 h0, two_digits m1 m0 with
      | Some h, Some m => if negb (Ascii.eqb c ":") then None
                          else if Ascii.eqb g "+" then Some (h * 3600 + m * 60)%Z
                          else if Ascii.eqb g "-" then Some (- (h * 3600 + m * 60))%Z else None
      | _, _ => None
      end
  | _ => None
  end.
Fixpoint scale (n : nat) (z : Z) : Z := match n with O => z | S n' => scale n' (10 * z) end.
Definition nanoseconds (s : string) : option (Z * string) :=
  match s with
  | String c s1 =>
      if Ascii.eqb c "." then
        let '(d, r) := run_of_digits s1 in
        if String.eqb d "" || Nat.ltb 9 (String.length d) then None
        else match decimal 0 d with Some n => Some (scale (9 - String.length d) n, r) | None => None end
      else Some (0%Z, s)
  | "" => Some (0%Z, s)
  end.
Definition read_time (s : string) : option time :=
  match s with
  | String a (String b (String c (String d (String e (String f (String g (String h (String i (String j
     (String t (String h1 (String h0 (String c1 (String m1 (String m0 (String c2 (String s1 (String s0 r)))))))))))))))))) =>
      let date := String a (String b (String c (String d (String e (String f (String g (String h (String i (String j ""))))))))) in
      match parse_date date, two_digits h1 h0, two_digits m1 m0, two_digits s1 s0, nanoseconds r with
      | Some day, Some hh, Some mm, Some ss, Some (ns, z) =>
          match zone z with
          | Some off =>
              if Ascii.eqb t "T" && Ascii.eqb c1 ":" && Ascii.eqb c2 ":" && ((hh <? 24) && (mm <? 60) && (ss <? 60))%Z then
                Some (mkTime (t_ns day + ((hh * 60 + mm) * 60 + ss - off) * second_ns + ns) off)%Z
              else None
          | None => None
          end
      | _, _, _, _, _ => None
      end
  | _ => None
  end.
Definition into_time (old : time) (v : value) : option time := match v with VNull => Some old | VStr raw => read_time raw | _ => None end.

(** A structure: the members in turn, [set] giving the new state or an error; keys that match no
    field are ignored. *)
Fixpoint fields {A} (set : string -> value -> A -> option A) (l : list (string * value)) (a : A) : option A :=
  match l with
  | [] => Some a
  | (k, v) :: l' => match set (unquote None k) v a with Some a' => fields set l' a' | None => None end
  end.
Definition into_struct {A} (set : string -> value -> A -> option A) (old : A) (v : value) : option A :=
  match v with VNull => Some old | VObj l => fields set l old | _ => None end.
(** aeris_moon.go:9-14 *)
Record AerisRecord := mkAerisRecord { r_Timestamp : Z; r_DateTimeISO : time; r_Code : Z; r_Name : string }.
Definition set_record (k : string) (v : value) (m : AerisRecord) : option AerisRecord :=
  if matches k "timestamp" then option_map (fun x => mkAerisRecord x (r_DateTimeISO m) (r_Code m) (r_Name m)) (into_int (r_Timestamp m) v)
  else if matches k "dateTimeISO" then option_map (fun x => mkAerisRecord (r_Timestamp m) x (r_Code m) (r_Name m)) (into_time (r_DateTimeISO m) v)
  else if matches k "code" then option_map (fun x => mkAerisRecord (r_Timestamp m) (r_DateTimeISO m) x (r_Name m)) (into_int (r_Code m) v)
  else if matches k "name" then option_map (fun x => mkAerisRecord (r_Timestamp m) (r_DateTimeISO m) (r_Code m) x) (into_string (r_Name m) v)
  else Some m.
Definition zero_record : AerisRecord := mkAerisRecord 0 zero_time 0 "".
Definition into_records (old : list AerisRecord) (v : value) : option (list AerisRecord) :=
  match v with
  | VNull => Some []
  | VArr l => all_some (map (into_struct set_record zero_record) l)
  | _ => None
  end.
(** aeris_moon.go:16-19 *)
Definition set_error (k : string) (v : value) (e : string * string) : option (string * string) :=
  if matches k "code" then option_map (fun x => (x, snd e)) (into_string (fst e) v)
  else if matches k "description" then option_map (fun x => (fst e, x)) (into_string (snd e) v)
  else Some e.
(** aeris_moon.go:21-25; [Response] has no tag, so it is matched by its own name. *)
Record AerisResp := mkAerisResp { p_Success : bool; p_Error : string * string; p_Response : list AerisRecord }.
Definition set_resp (k : string) (v : value) (p : AerisResp) : option AerisResp :=
  if matches k "success" then option_map (fun x => mkAerisResp x (p_Error p) (p_Response p)) (into_bool (p_Success p) v)
  else if matches k "error" then option_map (fun x => mkAerisResp (p_Success p) x (p_Response p)) (into_struct set_error (p_Error p) v)
  else if matches k "Response" then option_map (fun x => mkAerisResp (p_Success p) (p_Error p) x) (into_records (p_Response p) v)
  else Some p.
Definition unmarshal (data : string) : option AerisResp :=
  match read_json data with
  | None => None
  | Some v => into_struct set_resp (mkAerisResp false ("", "") []) v
  end.
(** astro_moon.go:57-68, the part of the response the rest of the code reads. *)
Definition aeris_moon (m : AerisRecord) : AerisMoon := mkAerisMoon (r_Code m) (r_DateTimeISO m).
Definition fetched (data : string) : fetch :=
  match unmarshal data with
  | None => BadJson
  | Some p => Decoded (p_Success p) (fst (p_Error p)) (map aeris_moon (p_Response p))
  end.
