(** Vocabulary for the calendar theorems: what is read off a list of events. *)
From Coq Require Import ZArith List Bool String.
From Verif Require Import GoTime SuriyaYear Helpers UposathaMoon CalDay.
Import ListNotations.
Open Scope Z_scope.

(** The uposatha moons, half moons and major events in a list of events, in order. *)
Fixpoint uposathas_of (l : list CalendarEvent) : list UposathaMoon :=
  match l with [] => [] | EvUposatha u :: l' => u :: uposathas_of l' | _ :: l' => uposathas_of l' end.
Fixpoint halves_of (l : list CalendarEvent) : list HalfMoon :=
  match l with [] => [] | EvHalf h :: l' => h :: halves_of l' | _ :: l' => halves_of l' end.
Fixpoint majors_of (l : list CalendarEvent) : list MajorEvent :=
  match l with [] => [] | EvMajor m :: l' => m :: majors_of l' | _ :: l' => majors_of l' end.

(** The events GenerateSolarYear returns (it always returns, C26). *)
Definition events_of_year (cfg : config) (y : Z) : list CalendarEvent :=
  match generate_solar_year cfg y with Some evs => evs | None => [] end.

(** The same moon with Status "confirmed". *)
Definition confirmed (u : UposathaMoon) : UposathaMoon :=
  mkUposatha (u_Date u) (u_Calendar u) 2 (u_Phase u) (u_Event u) (u_S_Number u) (u_S_Total u)
    (u_U_Days u) (u_M_Days u) (u_LunarMonth u) (u_LunarSeason u) (u_LunarYear u)
    (u_HasAdhikavara u) (u_Source u) (u_Comments u).

(** The years y, y+1, ..., y+n-1. *)
Fixpoint years (y : Z) (n : nat) : list Z :=
  match n with O => [] | S n' => y :: years (y + 1) n' end.

(** The moon GenerateSolarYear starts from. *)
Definition kattika_moon (k : time) : UposathaMoon :=
  mkUposatha k 0 0 "full" "" 8 8 15 29 12 3 (time_year k + 543) false "" "".

(** 1 January of a year, UTC midnight. *)
Definition january_first (y : Z) : time := time_date y 1 1 0 0.

(** The Kattika moon on which GenerateSolarYear(y) starts lies between [lo] and [hi] days
    before 1 January of [y]. *)
Definition kattika_within (cfg : config) (lo hi y : Z) : Prop :=
  exists k n, previous_kattika cfg y = Some k /\ time_add k (n * (24 * hour_ns)) = january_first y /\ lo <= n <= hi.

(** No year is both adhikamasa and adhikavara (C09; only an edited exceptions table breaks it). *)
Definition exclusive (cfg : config) (y : Z) : Prop :=
  is_adhikamasa (su_init y) && is_adhikavara cfg (su_init y) = false.

(** The [i]-th moon after [u], and the moons number i, i+1, ..., i+n-1 after [u]. *)
Definition nth_moon (cfg : config) (u : UposathaMoon) (i : nat) : UposathaMoon :=
  Nat.iter i (next_uposatha cfg) u.
Definition chain (cfg : config) (u : UposathaMoon) (i n : nat) : list UposathaMoon :=
  map (nth_moon cfg u) (seq i n).

(** The traditional lunar year: its months, their lengths and its seasons.  [a] says
    whether it has the extra month 13 (2nd Asalha), [v] whether month 8 has an extra day. *)
Definition lunar_months (a : bool) : list Z :=
  [1; 2; 3; 4; 5; 6; 7; 8] ++ (if a then [13] else []) ++ [9; 10; 11; 12].
Definition month_days (v : bool) (m : Z) : Z :=
  if (m =? 8) && v then 30 else if Z.odd m then 30 else 29.
Fixpoint numbered (season total : Z) (from : Z) (n : nat) : list (Z * Z * Z) :=
  match n with O => [] | S n' => (from, total, season) :: numbered season total (from + 1) n' end.
Definition season_numbers (a : bool) : list (Z * Z * Z) :=
  numbered 1 8 1 8 ++ (if a then numbered 2 10 1 10 else numbered 2 8 1 8) ++ numbered 3 8 1 8.

(** The half moon eight days after an uposatha. *)
Definition eighth_day (u : UposathaMoon) : time := time_add (u_Date u) (8 * (24 * hour_ns)).
Definition half_moon_after (u : UposathaMoon) : HalfMoon :=
  mkHalfMoon (eighth_day u) (if String.eqb (u_Phase u) "new" then "waxing" else "waning").

(** ** Days (C27-C29, C40-C43) *)

(** The UTC civil day an instant falls on. *)
Definition utc_day (t : time) : Z := t_ns t / (24 * hour_ns).
Fixpoint astros_of (l : list CalendarEvent) : list AstroMoon :=
  match l with [] => [] | EvAstro a :: l' => a :: astros_of l' | _ :: l' => astros_of l' end.
Fixpoint plain_events_of (l : list CalendarEvent) : list Event :=
  match l with [] => [] | EvEvent e :: l' => e :: plain_events_of l' | _ :: l' => plain_events_of l' end.

(** The last element of a list, as a list of at most one element. *)
Fixpoint last_of {A} (l : list A) : list A :=
  match l with [] => [] | [x] => [x] | _ :: l' => last_of l' end.

(** The entry for a day on which the given events fall: the last moon of each kind, and all
    major and other events in order; the date is that of the last event. *)
Definition entry_of (evs : list CalendarEvent) : CalDay :=
  mkCalDay (match last_of evs with e :: _ => ev_date e | [] => zero_time end)
    (last_of (uposathas_of evs)) (last_of (halves_of evs)) (last_of (astros_of evs))
    (majors_of evs) (plain_events_of evs).

(** The events of the calendar years touched by [from, to] that lie in the range. *)
Definition generated (cfg : config) (from to : time) : list CalendarEvent :=
  filter (fun e => (t_ns from <=? t_ns (ev_date e)) && (t_ns (ev_date e) <=? t_ns to))
    (flat_map (events_of_year cfg) (years (time_year from) (Z.to_nat (time_year to - time_year from + 1)))).

(** The events of a list falling on a UTC day, and the entries of a list of days for it. *)
Definition events_on (d : Z) (evs : list CalendarEvent) : list CalendarEvent :=
  filter (fun e => utc_day (ev_date e) =? d) evs.
Definition entries_on (d : Z) (l : list CalDay) : list CalDay :=
  filter (fun c => utc_day (cd_Date c) =? d) l.
