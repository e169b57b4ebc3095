(** Model of cal_day.go, event.go, major_event.go, half_moon.go and the value
    types of astro_moon.go, with Go values as immutable Coq values.  (Sharing of
    slice storage between copies is the subject of CalDayHeap.v.) *)
From Coq Require Import ZArith List Bool String.
From Verif Require Import GoTime SuriyaYear Helpers UposathaMoon.
Import ListNotations.
Open Scope Z_scope.

(** half_moon.go:10-13 *)
Record HalfMoon := mkHalfMoon { h_Date : time; h_Phase : string }.
(** astro_moon.go:19-22 *)
Record AstroMoon := mkAstroMoon { a_Phase : string; a_Date : time }.
(** event.go:13-18 *)
Record Event := mkEvent { e_Date : time; e_Calendar : Z; e_Summary : string; e_Description : string }.
(** major_event.go:18: [type MajorEvent Event]; the two uses are told apart by the
    constructor of [CalendarEvent] below and by the field of [CalDay]. *)
Definition MajorEvent := Event.

(** The implementations of the interface calendar_event.go:9-13. *)
Inductive CalendarEvent :=
| EvUposatha (u : UposathaMoon)
| EvHalf (h : HalfMoon)
| EvAstro (a : AstroMoon)
| EvMajor (m : MajorEvent)
| EvEvent (e : Event).

(** [GetDate] of each type: uposatha_moon.go:171, half_moon.go:28, astro_moon.go:30,
    major_event.go:26, event.go:26. *)
Definition ev_date (e : CalendarEvent) : time :=
  match e with
  | EvUposatha u => u_Date u | EvHalf h => h_Date h | EvAstro a => a_Date a
  | EvMajor m => e_Date m | EvEvent e => e_Date e
  end.

(** cal_day.go:13-20 *)
Record CalDay := mkCalDay {
  cd_Date : time;
  cd_Uposatha : list UposathaMoon; cd_Half : list HalfMoon; cd_Astro : list AstroMoon;
  cd_Major : list MajorEvent; cd_Events : list Event
}.
Definition zero_calday : CalDay := mkCalDay zero_time [] [] [] [] [].

(** cal_day.go:27-79: the three getters and setters share this shape.
    [x[0] = m] on a non-empty slice, [append] on an empty one. *)
Definition set_single {A} (l : list A) (m : A) : list A :=
  match l with [] => [m] | _ :: rest => m :: rest end.
Definition get_single {A} (zero : A) (l : list A) : A :=
  match l with [] => zero | m :: _ => m end.

Definition set_date (d : CalDay) (t : time) : CalDay :=
  mkCalDay t (cd_Uposatha d) (cd_Half d) (cd_Astro d) (cd_Major d) (cd_Events d).
Definition set_uposatha (d : CalDay) (m : UposathaMoon) : CalDay :=
  mkCalDay (cd_Date d) (set_single (cd_Uposatha d) m) (cd_Half d) (cd_Astro d) (cd_Major d) (cd_Events d).
Definition set_half (d : CalDay) (m : HalfMoon) : CalDay :=
  mkCalDay (cd_Date d) (cd_Uposatha d) (set_single (cd_Half d) m) (cd_Astro d) (cd_Major d) (cd_Events d).
Definition set_astro (d : CalDay) (m : AstroMoon) : CalDay :=
  mkCalDay (cd_Date d) (cd_Uposatha d) (cd_Half d) (set_single (cd_Astro d) m) (cd_Major d) (cd_Events d).
Definition get_uposatha (d : CalDay) : UposathaMoon := get_single zero_uposatha (cd_Uposatha d).
Definition get_half (d : CalDay) : HalfMoon := get_single (mkHalfMoon zero_time "") (cd_Half d).
Definition get_astro (d : CalDay) : AstroMoon := get_single (mkAstroMoon "" zero_time) (cd_Astro d).

(** [AddToDay] of each type: uposatha_moon.go:165-169, half_moon.go:22-26,
    astro_moon.go:24-28, major_event.go:20-24, event.go:20-24. *)
Definition add_to_day (e : CalendarEvent) (d : CalDay) : CalDay :=
  let d := set_date d (ev_date e) in
  match e with
  | EvUposatha u => set_uposatha d u
  | EvHalf h => set_half d h
  | EvAstro a => set_astro d a
  | EvMajor m => mkCalDay (cd_Date d) (cd_Uposatha d) (cd_Half d) (cd_Astro d) (cd_Major d ++ [m]) (cd_Events d)
  | EvEvent e => mkCalDay (cd_Date d) (cd_Uposatha d) (cd_Half d) (cd_Astro d) (cd_Major d) (cd_Events d ++ [e])
  end.

(** cal_day.go:100, 102: local midnight of a time, [time.Date(y, m, d, 0, 0, 0, 0, loc)]. *)
Definition day_start (t : time) : time :=
  time_date (time_year t) (time_month t) (time_mday t) 0 (t_off t).

(** cal_day.go:99-108: index of the first entry on the same day, if any. *)
Fixpoint find_cal_day (l : list CalDay) (date : time) : option nat :=
  match l with
  | [] => None
  | d :: rest =>
      if time_equal (day_start (cd_Date d)) (day_start date) then Some O
      else option_map S (find_cal_day rest date)
  end.

(** Update of the element the pointer of [findCalDay] refers to. *)
Fixpoint update_nth {A} (l : list A) (k : nat) (f : A -> A) : list A :=
  match l, k with
  | [], _ => []
  | x :: rest, O => f x :: rest
  | x :: rest, S k' => x :: update_nth rest k' f
  end.

(** cal_day.go:148-158 *)
Definition merge_into_cal_days (l : list CalDay) (e : CalendarEvent) : list CalDay :=
  match find_cal_day l (ev_date e) with
  | None => l ++ [add_to_day e zero_calday]
  | Some k => update_nth l k (add_to_day e)
  end.

(** cal_day.go:110-146 *)
Definition half_moon_day (d : CalDay) : option CalDay :=
  match cd_Uposatha d with
  | [] => None
  | _ :: _ =>
      let eighth := set_date zero_calday (time_add_date (cd_Date d) 0 0 8) in
      let p := u_Phase (get_uposatha d) in
      if String.eqb p "new" then
        Some (add_to_day (EvHalf (mkHalfMoon (cd_Date eighth) "waxing")) eighth)
      else if String.eqb p "full" then
        Some (add_to_day (EvHalf (mkHalfMoon (cd_Date eighth) "waning")) eighth)
      else None
  end.
Fixpoint filter_map {A B} (f : A -> option B) (l : list A) : list B :=
  match l with
  | [] => []
  | x :: rest => match f x with Some y => y :: filter_map f rest | None => filter_map f rest end
  end.
Definition add_half_moon_days (l : list CalDay) : list CalDay :=
  l ++ filter_map half_moon_day l.

(** cal_day.go:189-200: the Kattika moon the generator starts from. *)
Definition kattika_seed (date : time) : UposathaMoon :=
  mkUposatha date 0 0 "full" "" 8 8 15 29 12 3 (time_year date + BEdiff) false "" "".

(** cal_day.go:210 *)
Definition set_status (u : UposathaMoon) (s : Z) : UposathaMoon :=
  mkUposatha (u_Date u) (u_Calendar u) s (u_Phase u) (u_Event u) (u_S_Number u) (u_S_Total u)
    (u_U_Days u) (u_M_Days u) (u_LunarMonth u) (u_LunarSeason u) (u_LunarYear u)
    (u_HasAdhikavara u) (u_Source u) (u_Comments u).

(** cal_day.go:237-298 *)
Definition major_events (u : UposathaMoon) : list CalendarEvent :=
  let ev d s := EvMajor (mkEvent d (u_Calendar u) s s) in
  (if String.eqb (u_Event u) "magha" then [ev (u_Date u) "Māgha Pūjā"%string] else [])
  ++ (if String.eqb (u_Event u) "vesakha" then [ev (u_Date u) "Vesākha Pūjā"%string] else [])
  ++ (if String.eqb (u_Event u) "asalha" then
        [ev (u_Date u) "Āsāḷha Pūjā"%string;
         ev (time_add_date (u_Date u) 0 0 1) "First day of Vassa"%string] else [])
  ++ (if String.eqb (u_Event u) "pavarana" then
        [ev (u_Date u) "Pavāraṇā Day"%string; ev (u_Date u) "Last day of Vassa"%string] else []).

(** cal_day.go:218-224 *)
Definition half_phase (p : string) : string :=
  if String.eqb p "new" then "waxing" else if String.eqb p "full" then "waning" else "".

(** cal_day.go:207-298, one iteration's events; [u0] is the moon just computed. *)
Definition uposatha_events (solar_year : Z) (u0 : UposathaMoon) : list CalendarEvent :=
  let u := set_status u0 2 in
  let in_year := time_year (u_Date u) =? solar_year in
  let half := mkHalfMoon (time_add_date (u_Date u) 0 0 8) (half_phase (u_Phase u)) in
  (if in_year then [EvUposatha u] else [])
  ++ (if time_year (h_Date half) =? solar_year then [EvHalf half] else [])
  ++ (if in_year then major_events u else []).

(** cal_day.go:202-299, the loop.  [None] is out of fuel, proved impossible. *)
Fixpoint generate_loop (cfg : config) (fuel : nat) (solar_year : Z) (last : UposathaMoon)
  : option (list CalendarEvent) :=
  if time_year (u_Date last) <=? solar_year then
    match fuel with
    | O => None
    | S fuel' =>
        let u := next_uposatha cfg last in
        match generate_loop cfg fuel' solar_year u with
        | Some evs => Some (uposatha_events solar_year u ++ evs)
        | None => None
        end
    end
  else Some [].

(** Enough fuel: every step advances at least 14 days. *)
Definition generate_fuel (solar_year : Z) (date : time) : nat :=
  Z.to_nat ((days_before_year (solar_year + 1) - local_day date) / 14 + 2).

(** cal_day.go:181-302 *)
Definition generate_solar_year (cfg : config) (solar_year : Z) : option (list CalendarEvent) :=
  match previous_kattika cfg solar_year with
  | None => None
  | Some date => generate_loop cfg (generate_fuel solar_year date) solar_year (kattika_seed date)
  end.

(** cal_day.go:169 *)
Definition in_range (from to : time) (e : CalendarEvent) : bool :=
  negb (time_before (ev_date e) from || time_after (ev_date e) to).

(** cal_day.go:167-175.  [n] counts the years still to do. *)
Fixpoint merge_years (cfg : config) (from to : time) (n : nat) (year : Z) (l : list CalDay)
  : option (list CalDay) :=
  match n with
  | O => Some l
  | S n' =>
      match generate_solar_year cfg year with
      | None => None
      | Some evs =>
          merge_years cfg from to n' (year + 1)
            (fold_left merge_into_cal_days (filter (in_range from to) evs) l)
      end
  end.

(** Number of iterations of [for year := from.Year(); year <= to.Year(); year++]. *)
Definition year_count (from to : time) : nat := Z.to_nat (time_year to - time_year from + 1).

(** cal_day.go:95-97: [Less]. *)
Definition cal_day_less (a b : CalDay) : bool := time_after (cd_Date b) (cd_Date a).

(** [sort.Sort] is modelled by insertion sort; P_CalDays.v proves that every
    sorted permutation is the same list, so the algorithm does not matter. *)
Fixpoint insert_day (d : CalDay) (l : list CalDay) : list CalDay :=
  match l with
  | [] => [d]
  | x :: rest => if cal_day_less d x then d :: l else x :: insert_day d rest
  end.
Definition sort_days (l : list CalDay) : list CalDay := fold_right insert_day [] l.
