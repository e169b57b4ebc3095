(** Model of uposatha_moon.go:10-163. *)
From Coq Require Import ZArith List Bool String.
From Verif Require Import GoTime SuriyaYear.
Open Scope Z_scope.

(** uposatha_moon.go:10-26 *)
Record UposathaMoon := mkUposatha {
  u_Date : time; u_Calendar : Z; u_Status : Z; u_Phase : string; u_Event : string;
  u_S_Number : Z; u_S_Total : Z; u_U_Days : Z; u_M_Days : Z; u_LunarMonth : Z;
  u_LunarSeason : Z; u_LunarYear : Z; u_HasAdhikavara : bool;
  u_Source : string; u_Comments : string
}.

(** The zero value [UposathaMoon{}]. *)
Definition zero_uposatha : UposathaMoon :=
  mkUposatha zero_time 0 0 "" "" 0 0 0 0 0 0 0 false "" "".

(** uposatha_moon.go:66-93: the event of a full moon. *)
Definition full_moon_event (is_adhikamasa_year : bool) (month : Z) : string :=
  if is_adhikamasa_year then
    if month =? 4 then "magha" else if month =? 7 then "vesakha"
    else if month =? 13 then "asalha" else if month =? 11 then "pavarana" else ""
  else
    if month =? 3 then "magha" else if month =? 6 then "vesakha"
    else if month =? 8 then "asalha" else if month =? 11 then "pavarana" else "".

(** uposatha_moon.go:99-107: the month begun by a new moon. *)
Definition next_month (is_adhikamasa_year : bool) (month : Z) : Z :=
  if month =? 13 then 9
  else if (month =? 8) && is_adhikamasa_year then 13
  else if month =? 12 then 1
  else month + 1.

(** uposatha_moon.go:28-163.  [nu.LunarMonth%2 == 1] is Go's truncating [%]. *)
Definition next_uposatha (cfg : config) (lu : UposathaMoon) : UposathaMoon :=
  let su_year := su_init (time_year (u_Date lu)) in
  let is_adhikamasa_year := is_adhikamasa su_year in
  let is_adhikavara_year := is_adhikavara cfg su_year in
  if String.eqb (u_Phase lu) "new" then
    (* the next one is a full moon: 50-93 *)
    mkUposatha (time_add (u_Date lu) (15 * hour_ns * 24)) 0 0 "full"
      (full_moon_event is_adhikamasa_year (u_LunarMonth lu))
      (u_S_Number lu + 1) (u_S_Total lu) 15 (u_M_Days lu) (u_LunarMonth lu)
      (u_LunarSeason lu) (u_LunarYear lu) false "" ""
  else
    (* the next one is a new moon: 95-158 *)
    let month := next_month is_adhikamasa_year (u_LunarMonth lu) in
    let adhikavara_month := is_adhikavara_year && (month =? 8) in
    let m_days :=
      if adhikavara_month then 30 else if Z.rem month 2 =? 1 then 30 else 29 in
    let u_days := if m_days =? 29 then 14 else 15 in
    let s_total :=
      if is_adhikamasa_year && (((5 <=? month) && (month <=? 8)) || (month =? 13))
      then 10 else 8 in
    let '(s_number, season, year) :=
      if u_S_Number lu <? u_S_Total lu
      then (u_S_Number lu + 1, u_LunarSeason lu, u_LunarYear lu)
      else if u_LunarMonth lu =? 12
           then (1, 1, u_LunarYear lu + 1)
           else (1, u_LunarSeason lu + 1, u_LunarYear lu) in
    mkUposatha (time_add (u_Date lu) (u_days * hour_ns * 24)) 0 0 "new" ""
      s_number s_total u_days m_days month season year adhikavara_month "" "".
