(** Model of the day handling of cal_day.go and calendar_event.go for times in a zone
    with daylight saving, where GoTime.v only has fixed offsets.

    A [time] of GoTime.v is an instant with the offset in force at it, so [Year],
    [Month], [Day] and the comparisons are those of GoTime.v; only [time.Date],
    [Time.AddDate] and [Time.Add] ask the zone for an offset.

    Simplifications: the days and events handled together are in one zone;
    seconds are unbounded integers counted from 0001-01-01T00:00:00Z, where Go's
    [lookup] counts from 1970. *)
From Coq Require Import ZArith List Bool String.
From Verif Require Import GoTime UposathaMoon CalDay.
Import ListNotations.
Open Scope Z_scope.

(** What [Location.lookup] returns for a second: the offset and the period during which
    it is in force, from [z_start] (included) to [z_end] (excluded), [None] when unlimited. *)
Record zone := mkZone { z_off : Z; z_start : option Z; z_end : option Z }.
Definition location := Z -> zone.

Definition before_zone (z : zone) (s : Z) : bool :=
  match z_start z with Some a => s <? a | None => false end.
Definition after_zone (z : zone) (s : Z) : bool :=
  match z_end z with Some b => b <=? s | None => false end.

(** The instant [ns] read in a location. *)
Definition time_in (loc : location) (ns : Z) : time :=
  mkTime ns (z_off (loc (ns / second_ns))).

(** How [time.Date] finds the instant at which the clocks of [loc] show [w] seconds, in
    Go since version 1.18 ... *)
Definition date_sec (loc : location) (w : Z) : Z :=
  let z := loc w in
  if z_off z =? 0 then w
  else
    let utc := w - z_off z in
    if before_zone z utc || after_zone z utc then w - z_off (loc utc) else utc.
(** ... and before, at the time /repo was written. *)
Definition date_sec_old (loc : location) (w : Z) : Z :=
  let z := loc w in
  if z_off z =? 0 then w
  else
    let utc := w - z_off z in
    if before_zone z utc then
      match z_start z with Some a => w - z_off (loc (a - 1)) | None => utc end
    else if after_zone z utc then
      match z_end z with Some b => w - z_off (loc b) | None => utc end
    else utc.

(** [time.Date(y, m, d, ..., loc)] with the clock given as nanoseconds of day; [rule] is
    one of the two above. *)
Definition date_in (rule : location -> Z -> Z) (loc : location) (y m d clock : Z) : time :=
  let w := day_number y m d * 86400 + clock / second_ns in
  time_in loc (rule loc w * second_ns + clock mod second_ns).

(** [Time.AddDate] and [Time.Add] in a location. *)
Definition add_date_in (rule : location -> Z -> Z) (loc : location) (t : time) (dy dm dd : Z) : time :=
  date_in rule loc (time_year t + dy) (time_month t + dm) (time_mday t + dd) (clock_ns t).
Definition add_in (loc : location) (t : time) (d : Z) : time := time_in loc (t_ns t + d).

(** cal_day.go:100, 102 *)
Definition day_start_in (rule : location -> Z -> Z) (loc : location) (t : time) : time :=
  date_in rule loc (time_year t) (time_month t) (time_mday t) 0.

(** cal_day.go:99-108 *)
Fixpoint find_cal_day_in (rule : location -> Z -> Z) (loc : location) (l : list CalDay) (date : time) : option nat :=
  match l with
  | [] => None
  | d :: rest =>
      if time_equal (day_start_in rule loc (cd_Date d)) (day_start_in rule loc date) then Some O
      else option_map S (find_cal_day_in rule loc rest date)
  end.

(** cal_day.go:148-158 *)
Definition merge_in (rule : location -> Z -> Z) (loc : location) (l : list CalDay) (e : CalendarEvent) : list CalDay :=
  match find_cal_day_in rule loc l (ev_date e) with
  | None => l ++ [add_to_day e zero_calday]
  | Some k => update_nth l k (add_to_day e)
  end.

(** cal_day.go:110-146: the day added for one day, and the whole. *)
Definition half_moon_day_in (rule : location -> Z -> Z) (loc : location) (d : CalDay) : option CalDay :=
  match cd_Uposatha d with
  | [] => None
  | _ :: _ =>
      let eighth := set_date zero_calday (add_date_in rule loc (cd_Date d) 0 0 8) in
      let p := u_Phase (get_uposatha d) in
      if String.eqb p "new" then
        Some (add_to_day (EvHalf (mkHalfMoon (cd_Date eighth) "waxing")) eighth)
      else if String.eqb p "full" then
        Some (add_to_day (EvHalf (mkHalfMoon (cd_Date eighth) "waning")) eighth)
      else None
  end.
Definition add_half_moon_days_in (rule : location -> Z -> Z) (loc : location) (l : list CalDay) : list CalDay :=
  l ++ filter_map (half_moon_day_in rule loc) l.

(** calendar_event.go:21-22: the first day of an all-day event and the day after its last. *)
Definition ical_start (e : CalendarEvent) : time := ev_date e.
Definition ical_end_in (loc : location) (e : CalendarEvent) : time :=
  add_in loc (ev_date e) (24 * hour_ns).
