(** Model of the command line program suriya/suriya.go and of calendar_event.go.
    Flags and the default action are in Args.v.
    Here an iCalendar event is its DTSTART, DTEND and SUMMARY; IcalText.v has the text with UID and DTSTAMP. *)
From Coq Require Import ZArith List Bool String Ascii.
From Verif Require Import GoTime SuriyaYear Helpers UposathaMoon CalDay AstroMoon Text.
Import ListNotations.
Open Scope Z_scope.

(** suriya/suriya.go:20-46.  [""] is an absent flag; [None] is exit status 1.  Simplified: the program reads the
    clock once for each absent flag, here both readings are in the same year; Output.v has two. *)
Definition flag_date (s : string) (default : time) : option time :=
  if String.eqb s "" then Some default else parse_date s.
Definition cli_init (now_year : Z) (from to : string) : option (time * time) :=
  match flag_date from (time_date now_year 1 1 0 0) with
  | None => None
  | Some f => match flag_date to (time_date now_year 12 31 0 0) with None => None | Some t => Some (f, t) end
  end.

(** A Go map from strings, as an association list without duplicate keys. *)
Fixpoint map_append {A} (m : list (string * list A)) (k : string) (x : A) : list (string * list A) :=
  match m with
  | [] => [(k, [x])]
  | (k', l) :: m' => if String.eqb k k' then (k', l ++ [x]) :: m' else (k', l) :: map_append m' k x
  end.
(** suriya/suriya.go:51-60 *)
Definition group_key (d : CalDay) : string := fmt_d (time_year (cd_Date d)).
Definition days_by_year (l : list CalDay) : list (string * list CalDay) :=
  fold_left (fun m d => map_append m (group_key d) d) l [].

(** [json.Marshal] writes the keys of a map in increasing (byte) order. *)
Definition key_leb (a b : string) : bool := match String.compare a b with Gt => false | _ => true end.
Fixpoint insert_key {A} (p : string * A) (m : list (string * A)) : list (string * A) :=
  match m with
  | [] => [p]
  | q :: m' => if key_leb (fst p) (fst q) then p :: m else q :: insert_key p m'
  end.
Definition sort_keys {A} (m : list (string * A)) : list (string * A) := fold_right insert_key [] m.
Definition json_group (p : string * list CalDay) : option (string * json) :=
  option_map (fun j => (fst p, j)) (json_list json_calday (snd p)).
Definition json_of_days (l : list CalDay) : option json :=
  option_map JObj (all_some (map json_group (sort_keys (days_by_year l)))).

(** What a command does: print, exit with status 1 after an error, or panic. *)
Inductive outcome := Printed (s : string) | Failed | Panicked.

(** suriya/suriya.go:48-87 without --output (with it: Output.v).  [None] would be non-termination. *)
Definition caldays_command (cfg : config) (fs : Z -> fetch) (now_year : Z) (from to : string) : option outcome :=
  match cli_init now_year from to with
  | None => Some Failed
  | Some (f, t) =>
      match get_cal_days cfg fs f t with
      | None => None
      | Some Panic => Some Panicked
      | Some (Ok l) =>
          match json_of_days l with
          | None => Some Failed
          | Some j => Some (Printed (print_json j ++ String (ascii_of_nat 10) "")%string)
          end
      end
  end.

(** calendar_event.go:16-28; AllDay is always true. *)
Record VEvent := mkVEvent { v_start : time; v_end : time; v_summary : string }.
Definition ical_event (e : CalendarEvent) : VEvent :=
  mkVEvent (ev_date e) (time_add (ev_date e) (24 * hour_ns)) (ev_string e).
(** suriya/suriya.go:138-166 *)
Definition ical_day (d : CalDay) : list VEvent :=
  match cd_Uposatha d with [] => [] | u :: _ => [ical_event (EvUposatha u)] end
  ++ match cd_Half d with [] => [] | h :: _ => [ical_event (EvHalf h)] end
  ++ map (fun m => ical_event (EvMajor m)) (cd_Major d)
  ++ map (fun e => ical_event (EvEvent e)) (cd_Events d).
Definition ical_events (l : list CalDay) : list VEvent := flat_map ical_day l.
