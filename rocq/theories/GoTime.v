(** Model of the part of Go's [time] package the code relies on.  The package is
    not in /repo; this is its documented behaviour (proleptic Gregorian
    calendar, no leap seconds).

    Simplifications, also listed in DESIGN.md:
    - an instant is an unbounded integer number of nanoseconds since
      0001-01-01T00:00:00Z (Go's zero [Time]); Go's int64 seconds overflow only
      beyond year 2.9e11;
    - a [Location] is a fixed offset in seconds east of UTC.  All times that the
      library itself creates are UTC; the offset is there for times passed in
      by callers. *)
From Coq Require Import ZArith Lia Bool.
Open Scope Z_scope.

(** ** Gregorian calendar over day numbers (0 = 0001-01-01) *)

Definition is_leap (y : Z) : bool :=
  (y mod 4 =? 0) && (negb (y mod 100 =? 0) || (y mod 400 =? 0)).

(** Days from 0001-01-01 to January 1 of year [y]. *)
Definition days_before_year (y : Z) : Z :=
  365 * (y - 1) + (y - 1) / 4 - (y - 1) / 100 + (y - 1) / 400.

Definition year_of_day (n : Z) : Z :=
  let e := (400 * n) / 146097 + 1 in
  if n <? days_before_year e then e - 1
  else if days_before_year (e + 1) <=? n then e + 1
  else e.

(** Days before the first of month [m] (1..12); 13 gives the year length. *)
Definition days_before_month (leap : bool) (m : Z) : Z :=
  let l := if leap then 1 else 0 in
  if m <=? 1 then 0 else if m =? 2 then 31 else if m =? 3 then 59 + l
  else if m =? 4 then 90 + l else if m =? 5 then 120 + l else if m =? 6 then 151 + l
  else if m =? 7 then 181 + l else if m =? 8 then 212 + l else if m =? 9 then 243 + l
  else if m =? 10 then 273 + l else if m =? 11 then 304 + l else if m =? 12 then 334 + l
  else 365 + l.

(** Month of the 0-based day of the year. *)
Definition month_of_yday (leap : bool) (d : Z) : Z :=
  if d <? days_before_month leap 2 then 1 else if d <? days_before_month leap 3 then 2
  else if d <? days_before_month leap 4 then 3 else if d <? days_before_month leap 5 then 4
  else if d <? days_before_month leap 6 then 5 else if d <? days_before_month leap 7 then 6
  else if d <? days_before_month leap 8 then 7 else if d <? days_before_month leap 9 then 8
  else if d <? days_before_month leap 10 then 9 else if d <? days_before_month leap 11 then 10
  else if d <? days_before_month leap 12 then 11 else 12.

Definition month_of_day (n : Z) : Z :=
  let y := year_of_day n in month_of_yday (is_leap y) (n - days_before_year y).
Definition mday_of_day (n : Z) : Z :=
  let y := year_of_day n in
  n - days_before_year y - days_before_month (is_leap y) (month_of_day n) + 1.

(** [time.Date]'s normalisation: the month is carried into the year, the day is
    added linearly. *)
Definition day_number (y m d : Z) : Z :=
  let y' := y + (m - 1) / 12 in
  let m' := (m - 1) mod 12 + 1 in
  days_before_year y' + days_before_month (is_leap y') m' + (d - 1).

(** ** Instants *)

Record time := mkTime { t_ns : Z; t_off : Z }.

Definition second_ns : Z := 1000000000.
Definition hour_ns : Z := 3600000000000.
Definition day_ns : Z := 86400000000000.

(** The zero value [time.Time{}]. *)
Definition zero_time : time := mkTime 0 0.

Definition local_ns (t : time) : Z := t_ns t + t_off t * second_ns.
Definition local_day (t : time) : Z := local_ns t / day_ns.
Definition clock_ns (t : time) : Z := local_ns t mod day_ns.

(** [Time.Year], [Time.Month], [Time.Day] *)
Definition time_year (t : time) : Z := year_of_day (local_day t).
Definition time_month (t : time) : Z := month_of_day (local_day t).
Definition time_mday (t : time) : Z := mday_of_day (local_day t).

(** [time.Date(y, m, d, ..., loc)] with the clock given as nanoseconds of day. *)
Definition time_date (y m d clock off : Z) : time :=
  mkTime (day_number y m d * day_ns + clock - off * second_ns) off.

(** [Time.Add] *)
Definition time_add (t : time) (d : Z) : time := mkTime (t_ns t + d) (t_off t).

(** [Time.AddDate] *)
Definition time_add_date (t : time) (dy dm dd : Z) : time :=
  time_date (time_year t + dy) (time_month t + dm) (time_mday t + dd) (clock_ns t) (t_off t).

(** [Time.Before], [Time.After], [Time.Equal] compare instants. *)
Definition time_before (a b : time) : bool := t_ns a <? t_ns b.
Definition time_after (a b : time) : bool := t_ns b <? t_ns a.
Definition time_equal (a b : time) : bool := t_ns a =? t_ns b.

(** [Time.UTC] *)
Definition time_utc (t : time) : time := mkTime (t_ns t) 0.

(** UTC midnight of a day number, what [time.Parse("2006-01-02", ...)] yields. *)
Definition midnight (n : Z) : time := mkTime (n * day_ns) 0.
