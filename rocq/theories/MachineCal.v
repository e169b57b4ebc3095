(** The calendar functions of SuriyaYear.v, Helpers.v, UposathaMoon.v, CalDay.v and
    AstroMoon.v transcribed with Go's int64 arithmetic: every sum, difference and
    product of the source wraps, [SuriyaYear.Init] is the float64 version of
    Machine.v, and [Time.Add] works on int64 seconds.  Prop_MachineCal.v proves them equal
    to the versions over unbounded integers.  Parts of the source without
    arithmetic (comparisons, the events of a moon, merging and sorting of days) are those
    of the other files.  [Year], [AddDate] and [time.Date] are as in GoTime.v. *)
From Coq Require Import ZArith List Bool String.
From Verif Require Import GoInt GoTime SuriyaYear Machine Helpers UposathaMoon CalDay AstroMoon.
Import ListNotations.
Open Scope Z_scope.

(** [Time.Add]: the seconds since year 1 are an int64, the nanoseconds within the second are kept apart. *)
Definition time_add_m (t : time) (d : Z) : time :=
  let dsec := Z.quot d second_ns in
  let nsec := t_ns t mod second_ns + Z.rem d second_ns in
  let '(dsec, nsec) :=
    if second_ns <=? nsec then (iadd dsec 1, nsec - second_ns)
    else if nsec <? 0 then (isub dsec 1, nsec + second_ns)
    else (dsec, nsec) in
  mkTime (iadd (t_ns t / second_ns) dsec * second_ns + nsec) (t_off t).

(** suriya_year.go:23-28 *)
Definition is_adhikamasa_m (su : SuriyaYear) : bool :=
  let su_next := su_init_m (iadd (sy_Year su) 1) in
  negb (would_be_adhikamasa su_next) && would_be_adhikamasa su.

(** suriya_year.go:129-133 *)
Definition has_carried_adhikavara_m (su : SuriyaYear) : bool :=
  let last_year := su_init_m (isub (sy_Year su) 1) in
  is_adhikamasa_m last_year && would_be_adhikavara last_year.

(** suriya_year.go:36-51 *)
Definition is_adhikavara_m (cfg : config) (su : SuriyaYear) : bool :=
  let pure :=
    if is_adhikamasa_m su then false
    else if has_carried_adhikavara_m su then true
    else would_be_adhikavara su in
  if UseExceptions cfg then
    match AdhikavaraExceptions cfg (sy_Year su) with Some b => b | None => pure end
  else pure.

(** suriya_year.go:146-175 *)
Fixpoint delta_loop_m (test : SuriyaYear -> bool) (limit y0 : Z) (fuel : nat) (year : Z) : option Z :=
  match fuel with
  | O => None
  | S fuel' =>
      let check := su_init_m year in
      if test check then Some (isub y0 (sy_Year check))
      else if limit <? isub y0 (sy_Year check) then Some (-1)
      else delta_loop_m test limit y0 fuel' (isub year 1)
  end.
Definition delta_adhikamasa_m (su : SuriyaYear) : option Z :=
  delta_loop_m is_adhikamasa_m 6 (sy_Year su) 20 (isub (sy_Year su) 1).
Definition delta_adhikavara_m (cfg : config) (su : SuriyaYear) : option Z :=
  delta_loop_m (is_adhikavara_m cfg) 12 (sy_Year su) 20 (isub (sy_Year su) 1).

(** suriya_year.go:178-189 *)
Definition year_length_m (cfg : config) (su : SuriyaYear) : Z :=
  let days := 6 * (30 + 29) in
  if is_adhikamasa_m su then iadd days 30
  else if is_adhikavara_m cfg su then iadd days 1
  else days.

(** helpers.go:91-106 *)
Definition kattika_step_days_m (cfg : config) (direction y : Z) : Z :=
  let su_year := if direction =? 1 then su_init_m (iadd y 1) else su_init_m y in
  let n := 6 * 29 + 6 * 30 in
  if is_adhikamasa_m su_year then iadd n 30
  else if is_adhikavara_m cfg su_year then iadd n 1
  else n.
Fixpoint kattika_loop_m (cfg : config) (fuel : nat) (direction target y : Z) (date : time) : option time :=
  if y =? target then Some date
  else
    match fuel with
    | O => None
    | S fuel' =>
        let n := kattika_step_days_m cfg direction y in
        kattika_loop_m cfg fuel' direction target (iadd y direction)
          (time_add_m date (hours24 (imul n direction)))
    end.

(** helpers.go:75-109 *)
Definition previous_kattika_m (cfg : config) (solar_year : Z) : option time :=
  let y0 := time_year kattika_epoch in
  let direction :=
    if y0 <? isub solar_year 1 then 1 else if isub solar_year 1 <? y0 then -1 else 0 in
  kattika_loop_m cfg (Z.to_nat (Z.abs (solar_year - 1 - y0))) direction
    (isub solar_year 1) y0 kattika_epoch.

(** suriya_year.go:192-206 *)
Definition asalha_puja_m (cfg : config) (su : SuriyaYear) : option time :=
  let days := 4 * (29 + 30) in
  let days :=
    if is_adhikamasa_m su then iadd days 30
    else if is_adhikavara_m cfg su then iadd days 1
    else days in
  match previous_kattika_m cfg (sy_Year su) with
  | Some k => Some (time_add_m k (hours24 days))
  | None => None
  end.

(** uposatha_moon.go:99-107 *)
Definition next_month_m (is_adhikamasa_year : bool) (month : Z) : Z :=
  if month =? 13 then 9
  else if (month =? 8) && is_adhikamasa_year then 13
  else if month =? 12 then 1
  else iadd month 1.

(** uposatha_moon.go:28-163 *)
Definition next_uposatha_m (cfg : config) (lu : UposathaMoon) : UposathaMoon :=
  let su_year := su_init_m (time_year (u_Date lu)) in
  let is_adhikamasa_year := is_adhikamasa_m su_year in
  let is_adhikavara_year := is_adhikavara_m cfg su_year in
  if String.eqb (u_Phase lu) "new" then
    mkUposatha (time_add_m (u_Date lu) (hours24 15)) 0 0 "full"
      (full_moon_event is_adhikamasa_year (u_LunarMonth lu))
      (iadd (u_S_Number lu) 1) (u_S_Total lu) 15 (u_M_Days lu) (u_LunarMonth lu)
      (u_LunarSeason lu) (u_LunarYear lu) false "" ""
  else
    let month := next_month_m is_adhikamasa_year (u_LunarMonth lu) in
    let adhikavara_month := is_adhikavara_year && (month =? 8) in
    let m_days :=
      if adhikavara_month then 30 else if imod month 2 =? 1 then 30 else 29 in
    let u_days := if m_days =? 29 then 14 else 15 in
    let s_total :=
      if is_adhikamasa_year && (((5 <=? month) && (month <=? 8)) || (month =? 13))
      then 10 else 8 in
    let '(s_number, season, year) :=
      if u_S_Number lu <? u_S_Total lu
      then (iadd (u_S_Number lu) 1, u_LunarSeason lu, u_LunarYear lu)
      else if u_LunarMonth lu =? 12
           then (1, 1, iadd (u_LunarYear lu) 1)
           else (1, iadd (u_LunarSeason lu) 1, u_LunarYear lu) in
    mkUposatha (time_add_m (u_Date lu) (hours24 u_days)) 0 0 "new" ""
      s_number s_total u_days m_days month season year adhikavara_month "" "".

(** cal_day.go:202-299 *)
Fixpoint generate_loop_m (cfg : config) (fuel : nat) (solar_year : Z) (last : UposathaMoon)
  : option (list CalendarEvent) :=
  if time_year (u_Date last) <=? solar_year then
    match fuel with
    | O => None
    | S fuel' =>
        let u := next_uposatha_m cfg last in
        match generate_loop_m cfg fuel' solar_year u with
        | Some evs => Some (uposatha_events solar_year u ++ evs)
        | None => None
        end
    end
  else Some [].

(** cal_day.go:181-302 *)
Definition generate_solar_year_m (cfg : config) (solar_year : Z) : option (list CalendarEvent) :=
  match previous_kattika_m cfg solar_year with
  | None => None
  | Some date =>
      generate_loop_m cfg (generate_fuel solar_year date) solar_year
        (mkUposatha date 0 0 "full" "" 8 8 15 29 12 3 (iadd (time_year date) BEdiff) false "" "")
  end.

(** cal_day.go:167-175.  Here the loop condition is evaluated, so that a year that wraps is noticed. *)
Fixpoint merge_years_m (cfg : config) (from to : time) (fuel : nat) (year : Z) (l : list CalDay)
  : option (list CalDay) :=
  if year <=? time_year to then
    match fuel with
    | O => None
    | S fuel' =>
        match generate_solar_year_m cfg year with
        | None => None
        | Some evs =>
            merge_years_m cfg from to fuel' (iadd year 1)
              (fold_left merge_into_cal_days (filter (in_range from to) evs) l)
        end
    end
  else Some l.

(** astro_moon.go:48-105.  [None] is out of fuel. *)
Fixpoint astro_years_m (fs : Z -> fetch) (from to : time) (fuel : nat) (year : Z)
  : option (result (list AstroMoon)) :=
  if year <=? time_year to then
    match fuel with
    | O => None
    | S fuel' =>
        match fs year with
        | Missing => Some (Ok [])
        | BadJson => Some Panic
        | Decoded success error_code response =>
            if negb success then astro_years_m fs from to fuel' (iadd year 1)
            else if negb (String.eqb error_code "") then astro_years_m fs from to fuel' (iadd year 1)
            else
              match astro_of_response from to response with
              | Panic => Some Panic
              | Ok ms =>
                  match astro_years_m fs from to fuel' (iadd year 1) with
                  | Some (Ok rest) => Some (Ok (ms ++ rest))
                  | r => r
                  end
              end
        end
    end
  else Some (Ok []).

(** cal_day.go:160-179 *)
Definition get_cal_days_m (cfg : config) (fs : Z -> fetch) (from to : time)
  : option (result (list CalDay)) :=
  match astro_years_m fs from to (year_count from to) (time_year from) with
  | None => None
  | Some Panic => Some Panic
  | Some (Ok moons) =>
      let l := fold_left merge_into_cal_days (map EvAstro moons) [] in
      match merge_years_m cfg from to (year_count from to) (time_year from) l with
      | None => None
      | Some l => Some (Ok (sort_days l))
      end
  end.
