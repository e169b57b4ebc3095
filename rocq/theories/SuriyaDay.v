(** Model of the integer part of suriya_day.go over unbounded integers. *)
From Coq Require Import ZArith.
From Verif Require Import SuriyaYear.
Open Scope Z_scope.

(** The integer fields of suriya_day.go:8-19 ([Date] is never assigned and left out). *)
Record SuriyaDayInts := mkSuriyaDayInts {
  sd_Year : Z; sd_BE_Year : Z; sd_CS_Year : Z; sd_Day : Z;
  sd_Horakhun : Z; sd_Kammacubala : Z; sd_Uccabala : Z;
  sd_Avoman : Z; sd_Masaken : Z; sd_Tithi : Z
}.

(** suriya_day.go:31-64 *)
Definition sd_ints (ce_year lunar_year_day : Z) : SuriyaDayInts :=
  let suYear := su_init ce_year in
  let cs := ce_year - CSdiff in
  let elapsed := lunar_year_day - sy_Tithi suYear in
  let horakhun := sy_Horakhun suYear + elapsed in
  let kammacubala :=
    KammacubalaDaily - Z.rem (cs * EraDays + EraHorakhun) EraYears + elapsed * KammacubalaDaily in
  let uccabala := Z.rem (horakhun + EraUccabala) 3232 in
  let ai := horakhun * CycleDaily + EraAvoman in
  let avoman := Z.rem ai CycleSolar in
  let bi := ai / CycleSolar + EraMasaken + horakhun in
  mkSuriyaDayInts ce_year (ce_year + BEdiff) cs lunar_year_day horakhun kammacubala uccabala
    avoman (Z.quot bi MonthLength) (Z.rem bi MonthLength).
