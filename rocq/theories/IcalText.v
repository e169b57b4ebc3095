(** Model of the text the ical command writes (suriya/suriya.go:111-170): [Encode] of the package
    github.com/soh335/ical.  The package is not in /repo; the order and form of the lines are those of the
    recorded suriya/testdata/mahanikaya-from-2013-01-01-to-2017-12-31.ical.  All dates are UTC and all
    events last whole days, so neither a TZID nor a time of day is written.  Simplified: a text is
    written as it is, which is what the recording shows for texts without special characters. *)
From Coq Require Import ZArith List Bool String Ascii.
From Verif Require Import GoTime Text Cli.
Import ListNotations.
Local Open Scope string_scope.

Definition ical_line (name value : string) : string := name ++ ":" ++ value ++ String "013" (String "010" "").
(** [t.Format("20060102")] for years 0..9999 *)
Definition compact_date (t : time) : string := four (time_year t) ++ two (time_month t) ++ two (time_mday t).
(** [t.UTC().Format("20060102T150405Z")] for years 0..9999 *)
Definition compact_time (t : time) : string :=
  let u := time_utc t in let s := (clock_ns u / second_ns)%Z in
  compact_date u ++ "T" ++ two (s / 3600) ++ two (s / 60 mod 60) ++ two (s mod 60) ++ "Z".

(** calendar_event.go:18-26: the event has the UID and the time of writing of [id]. *)
Definition ical_vevent (id : string * time) (v : VEvent) : string :=
  ical_line "BEGIN" "VEVENT" ++ ical_line "DTSTAMP" (compact_time (snd id)) ++ ical_line "UID" (fst id)
  ++ ical_line "SUMMARY" (v_summary v) ++ ical_line "DTSTART;VALUE=DATE" (compact_date (v_start v))
  ++ ical_line "DTEND;VALUE=DATE" (compact_date (v_end v)) ++ ical_line "END" "VEVENT".
(** suriya/suriya.go:138-166: one after the other; [ids n] is what the [n]-th call of [icalEvent] draws. *)
Fixpoint ical_vevents (ids : nat -> string * time) (n : nat) (l : list VEvent) : string :=
  match l with [] => "" | v :: l' => ical_vevent (ids n) v ++ ical_vevents ids (S n) l' end.
(** suriya/suriya.go:111-136 *)
Definition calendar_name : string := "Uposatha Moondays (Mahānikāya)".
Definition ical_header : string :=
  ical_line "VERSION" "2.0" ++ ical_line "PRODID" "Uposatha Moondays Mahānikāya EN"
  ++ ical_line "URL" "http://splendidmoons.github.io/ical/mahanikaya.ical" ++ ical_line "NAME" calendar_name
  ++ ical_line "X-WR-CALNAME" calendar_name ++ ical_line "DESCRIPTION" calendar_name ++ ical_line "X-WR-CALDESC" calendar_name
  ++ ical_line "REFRESH-INTERVAL;VALUE=DURATION" "PT12H" ++ ical_line "X-PUBLISHED-TTL" "PT12H"
  ++ ical_line "COLOR" "244:196:48" ++ ical_line "CALSCALE" "GREGORIAN" ++ ical_line "METHOD" "PUBLISH".
(** suriya/suriya.go:168-170 *)
Definition ical_text (ids : nat -> string * time) (l : list VEvent) : string :=
  ical_line "BEGIN" "VCALENDAR" ++ ical_header ++ ical_vevents ids 0 l ++ ical_line "END" "VCALENDAR".
