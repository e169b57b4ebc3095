(** Model of the text the library and its command line produce: [fmt]'s %d, [strings.Title],
    the [String] methods, [time.Parse]/[Format] of dates and the JSON of [encoding/json].
    Go strings are byte strings.  These Go packages are not in /repo; the definitions give
    their documented behaviour on the strings the code uses. *)
From Coq Require Import ZArith List Bool String Ascii DecimalString.
From Verif Require Import GoTime SuriyaYear Helpers UposathaMoon CalDay.
Import ListNotations.
Open Scope Z_scope.
Local Open Scope string_scope.

(** [fmt.Sprintf("%d", z)] *)
Definition fmt_d (z : Z) : string := NilZero.string_of_int (Z.to_int z).

(** [strings.Title] on ASCII; bytes from 128 on are taken as letters and left alone, which
    is simpler than Go (it title-cases non-ASCII letters too).  The code applies it to the
    phases new, waxing, full and waning. *)
Definition is_lower (c : ascii) : bool := let n := nat_of_ascii c in Nat.leb 97 n && Nat.leb n 122.
Definition is_upper (c : ascii) : bool := let n := nat_of_ascii c in Nat.leb 65 n && Nat.leb n 90.
Definition is_digit (c : ascii) : bool := let n := nat_of_ascii c in Nat.leb 48 n && Nat.leb n 57.
Definition is_separator (c : ascii) : bool :=
  negb (is_lower c || is_upper c || is_digit c || Nat.eqb (nat_of_ascii c) 95 || Nat.leb 128 (nat_of_ascii c)).
Definition upper (c : ascii) : ascii := if is_lower c then ascii_of_nat (nat_of_ascii c - 32) else c.
Fixpoint title_from (word_start : bool) (s : string) : string :=
  match s with
  | "" => ""
  | String c s' => String (if word_start then upper c else c) (title_from (is_separator c) s')
  end.
Definition title (s : string) : string := title_from true s.

(** uposatha_moon.go:175-180 *)
Definition uposatha_string (u : UposathaMoon) : string :=
  if String.eqb (u_Phase u) "" then ""
  else title (u_Phase u) ++ " Moon - " ++ fmt_d (u_U_Days u) ++ " day " ++ season_name (u_LunarSeason u)
       ++ " " ++ fmt_d (u_S_Number u) ++ "/" ++ fmt_d (u_S_Total u).
(** half_moon.go:15-20 and astro_moon.go:34-39 *)
Definition moon_string (phase : string) : string :=
  if String.eqb phase "" then "" else title phase ++ " Moon".
(** The [String] method of each CalendarEvent; major_event.go:30-32, event.go:30-32. *)
Definition ev_string (e : CalendarEvent) : string :=
  match e with
  | EvUposatha u => uposatha_string u
  | EvHalf h => moon_string (h_Phase h)
  | EvAstro a => moon_string (a_Phase a)
  | EvMajor m => e_Summary m
  | EvEvent e => e_Summary e
  end.
(** cal_day.go:81-85 *)
Definition calday_string (d : CalDay) : string :=
  uposatha_string (get_uposatha d) ++ ", " ++ moon_string (a_Phase (get_astro d)) ++ ", " ++ moon_string (h_Phase (get_half d)).

(** ** Dates *)
Definition digit (z : Z) : ascii := ascii_of_nat (48 + Z.to_nat z).
Definition digit_value (c : ascii) : Z := Z.of_nat (nat_of_ascii c) - 48.
(** Zero-padded decimals, for 0 <= z < 100 and 0 <= z < 10000. *)
Definition two (z : Z) : string := String (digit (z / 10)) (String (digit (z mod 10)) "").
Definition four (z : Z) : string := two (z / 100) ++ two (z mod 100).

(** The last day of a month, Go's [daysIn]. *)
Definition days_in (m y : Z) : Z := days_before_month (is_leap y) (m + 1) - days_before_month (is_leap y) m.

(** [time.Parse("2006-01-02", s)] (suriya/suriya.go:26, 36): four digits, '-', two digits, '-',
    two digits and nothing else; month 1..12 and day within the month. *)
Definition parse_date (s : string) : option time :=
  match s with
  | String y3 (String y2 (String y1 (String y0 (String h1 (String m1 (String m0 (String h2 (String d1 (String d0 ""))))))))) =>
      if forallb is_digit [y3; y2; y1; y0; m1; m0; d1; d0] && Ascii.eqb h1 "-" && Ascii.eqb h2 "-" then
        let y := ((digit_value y3 * 10 + digit_value y2) * 10 + digit_value y1) * 10 + digit_value y0 in
        let m := digit_value m1 * 10 + digit_value m0 in
        let d := digit_value d1 * 10 + digit_value d0 in
        if ((1 <=? m) && (m <=? 12) && (1 <=? d) && (d <=? days_in m y))%Z then Some (time_date y m d 0 0) else None
      else None
  | _ => None
  end.

(** [t.Format("2006-01-02")] for years 0..9999 (others are not formatted by the code modelled). *)
Definition format_date (t : time) : string :=
  four (time_year t) ++ "-" ++ two (time_month t) ++ "-" ++ two (time_mday t).

(** ** JSON *)
Inductive json :=
| JInt (z : Z) | JBool (b : bool) | JStr (s : string) | JArr (l : list json) | JObj (l : list (string * json)).

(** Escapes of [encoding/json] with HTML escaping on.  Not modelled: the replacement of
    invalid UTF-8 and of U+2028/2029, which no string of the library contains. *)
Definition hex_digit (n : nat) : ascii := ascii_of_nat (if Nat.ltb n 10 then 48 + n else 87 + n).
Definition quote : ascii := Ascii.ascii_of_nat 34.
Definition escape_char (c : ascii) : string :=
  let n := nat_of_ascii c in
  if Nat.eqb n 34 then String "\" (String quote "")
  else if Nat.eqb n 92 then "\\"
  else if Nat.eqb n 10 then "\n" else if Nat.eqb n 13 then "\r" else if Nat.eqb n 9 then "\t"
  else if Nat.ltb n 32 || Nat.eqb n 60 || Nat.eqb n 62 || Nat.eqb n 38 then
    "\u00" ++ String (hex_digit (Nat.div n 16)) (String (hex_digit (Nat.modulo n 16)) "")
  else String c "".
Fixpoint escape (s : string) : string :=
  match s with "" => "" | String c s' => escape_char c ++ escape s' end.
Definition print_string (s : string) : string := String quote (escape s ++ String quote "").
Fixpoint print_json (j : json) : string :=
  match j with
  | JInt z => fmt_d z
  | JBool b => if b then "true" else "false"
  | JStr s => print_string s
  | JArr l =>
      "[" ++ (fix go (l : list json) : string :=
                match l with [] => "" | [x] => print_json x | x :: l' => print_json x ++ "," ++ go l' end) l ++ "]"
  | JObj l =>
      "{" ++ (fix go (l : list (string * json)) : string :=
                match l with
                | [] => ""
                | [(k, x)] => print_string k ++ ":" ++ print_json x
                | (k, x) :: l' => print_string k ++ ":" ++ print_json x ++ "," ++ go l'
                end) l ++ "}"
  end.

(** [Time.MarshalJSON]: RFC 3339 with the fraction of the second if it is not zero; an error
    for years outside 0..9999.  Only UTC times are modelled (those of all calendar days). *)
Fixpoint digits (n : nat) (z : Z) : string :=
  match n with O => "" | S n' => digits n' (z / 10) ++ String (digit (z mod 10)) "" end.
Fixpoint trim_zeros (s : string) : string :=
  match s with
  | "" => ""
  | String c s' => match trim_zeros s' with
                   | "" => if Ascii.eqb c "0" then "" else String c ""
                   | t => String c t
                   end
  end.
Definition fraction (ns : Z) : string :=
  match trim_zeros (digits 9 ns) with "" => "" | s => "." ++ s end.
Definition clock_string (c : Z) : string :=
  let s := c / second_ns in
  two (s / 3600) ++ ":" ++ two (s / 60 mod 60) ++ ":" ++ two (s mod 60) ++ fraction (c mod second_ns).
Definition json_time (t : time) : option json :=
  if ((0 <=? time_year t) && (time_year t <=? 9999))%Z then
    Some (JStr (format_date t ++ "T" ++ clock_string (clock_ns t) ++ "Z"))
  else None.

(** The first error aborts the encoding. *)
Fixpoint all_some {A} (l : list (option A)) : option (list A) :=
  match l with
  | [] => Some []
  | Some x :: l' => option_map (cons x) (all_some l')
  | None :: _ => None
  end.
Definition json_list {A} (f : A -> option json) (l : list A) : option json := option_map JArr (all_some (map f l)).

(** Struct fields in declaration order; uposatha_moon.go:10-26. *)
Definition json_uposatha (u : UposathaMoon) : option json :=
  option_map (fun d => JObj [("Date", d); ("Calendar", JInt (u_Calendar u)); ("Status", JInt (u_Status u));
    ("Phase", JStr (u_Phase u)); ("Event", JStr (u_Event u)); ("S_Number", JInt (u_S_Number u)); ("S_Total", JInt (u_S_Total u));
    ("U_Days", JInt (u_U_Days u)); ("M_Days", JInt (u_M_Days u)); ("LunarMonth", JInt (u_LunarMonth u));
    ("LunarSeason", JInt (u_LunarSeason u)); ("LunarYear", JInt (u_LunarYear u)); ("HasAdhikavara", JBool (u_HasAdhikavara u));
    ("Source", JStr (u_Source u)); ("Comments", JStr (u_Comments u))]) (json_time (u_Date u)).
(** half_moon.go:10-13, astro_moon.go:19-22, event.go:13-18 *)
Definition json_half (h : HalfMoon) : option json :=
  option_map (fun d => JObj [("Date", d); ("Phase", JStr (h_Phase h))]) (json_time (h_Date h)).
Definition json_astro (a : AstroMoon) : option json :=
  option_map (fun d => JObj [("Phase", JStr (a_Phase a)); ("Date", d)]) (json_time (a_Date a)).
Definition json_event (e : Event) : option json :=
  option_map (fun d => JObj [("Date", d); ("Calendar", JInt (e_Calendar e)); ("Summary", JStr (e_Summary e));
    ("Description", JStr (e_Description e))]) (json_time (e_Date e)).
(** A field tagged [omitempty]. *)
Definition json_field {A} (name : string) (f : A -> option json) (l : list A) : option (list (string * json)) :=
  match l with [] => Some [] | _ => option_map (fun j => [(name, j)]) (json_list f l) end.
(** cal_day.go:13-20 *)
Definition json_calday (d : CalDay) : option json :=
  match json_time (cd_Date d), json_field "UposathaMoon" json_uposatha (cd_Uposatha d), json_field "HalfMoon" json_half (cd_Half d),
        json_field "AstroMoon" json_astro (cd_Astro d), json_field "MajorEvents" json_event (cd_Major d),
        json_field "Events" json_event (cd_Events d) with
  | Some t, Some u, Some h, Some a, Some m, Some e => Some (JObj (("Date", t) :: u ++ h ++ a ++ m ++ e)%list)
  | _, _, _, _, _, _ => None
  end.
