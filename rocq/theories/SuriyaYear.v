(** Model of suriya.go and suriya_year.go over unbounded integers.
    The float64 detours of the source ([math.Floor(float64(...))]) are replaced
    by their exact value here; Machine.v transcribes the same functions
    with int64 and binary64 arithmetic, and P_Machine.v proves the two equal in
    the stated range. *)
From Coq Require Import ZArith List Bool.
From Verif Require Import GoTime.
Open Scope Z_scope.

(** suriya.go:5-18 *)
Definition EraDays : Z := 292207.
Definition EraYears : Z := 800.
Definition EraHorakhun : Z := 373.
Definition EraUccabala : Z := 2611.
Definition EraAvoman : Z := 650.
Definition EraMasaken : Z := 0.
Definition MonthLength : Z := 30.
Definition CycleSolar : Z := 692.
Definition CycleDaily : Z := 11.
Definition KammacubalaDaily : Z := 800.
Definition CSdiff : Z := 638.
Definition BEdiff : Z := 543.

(** suriya.go:31-36.  The two package variables are read at every call; the model
    passes them explicitly.  [AdhikavaraExceptions] is exported and a caller may
    edit it, so it is an arbitrary partial map. *)
Record config := mkConfig {
  UseExceptions : bool;
  AdhikavaraExceptions : Z -> option bool
}.

Definition shipped_exceptions (y : Z) : option bool :=
  if y =? 1994 then Some false else if y =? 1997 then Some true else None.

(** The two settings a user gets without editing the table. *)
Definition cfg_default : config := mkConfig false shipped_exceptions.
Definition cfg_exceptions : config := mkConfig true shipped_exceptions.

(** suriya_year.go:10-21.  [FirstDay] is never assigned and is left out. *)
Record SuriyaYear := mkSuriyaYear {
  sy_Year : Z; sy_BE_Year : Z; sy_CS_Year : Z;
  sy_Horakhun : Z; sy_Kammacubala : Z; sy_Uccabala : Z;
  sy_Avoman : Z; sy_Masaken : Z; sy_Tithi : Z
}.

(** suriya_year.go:58-90.  Go's [/] and [%] truncate ([Z.quot], [Z.rem]);
    [math.Floor(float64(a) / CycleSolar)] is the floor ([Z.div]). *)
Definition su_init (ce_year : Z) : SuriyaYear :=
  let be := ce_year + BEdiff in
  let cs := ce_year - CSdiff in
  let a := cs * EraDays + EraHorakhun in
  let horakhun := Z.quot a KammacubalaDaily + 1 in
  let kammacubala := KammacubalaDaily - Z.rem a KammacubalaDaily in
  let uccabala := Z.rem (horakhun + EraUccabala) 3232 in
  let a := horakhun * CycleDaily + EraAvoman in
  let avoman := Z.rem a CycleSolar in
  let b := a / CycleSolar in
  let masaken := Z.quot (b + EraMasaken + horakhun) MonthLength in
  let tithi := Z.rem (b + horakhun) MonthLength in
  mkSuriyaYear ce_year be cs horakhun kammacubala uccabala avoman masaken tithi.

(** suriya_year.go:30-34 *)
Definition would_be_adhikamasa (su : SuriyaYear) : bool :=
  let t := sy_Tithi su in
  ((24 <=? t) && (t <=? 29)) || ((0 <=? t) && (t <=? 5)).

(** suriya_year.go:23-28 *)
Definition is_adhikamasa (su : SuriyaYear) : bool :=
  let su_next := su_init (sy_Year su + 1) in
  negb (would_be_adhikamasa su_next) && would_be_adhikamasa su.

(** suriya_year.go:107-109 *)
Definition is_suriya_leap (su : SuriyaYear) : bool := sy_Kammacubala su <=? 207.

(** suriya_year.go:119-127 *)
Definition would_be_adhikavara (su : SuriyaYear) : bool :=
  if is_suriya_leap su then sy_Avoman su <=? 126 else sy_Avoman su <? 137.

(** suriya_year.go:129-133 *)
Definition has_carried_adhikavara (su : SuriyaYear) : bool :=
  let last_year := su_init (sy_Year su - 1) in
  is_adhikamasa last_year && would_be_adhikavara last_year.

(** suriya_year.go:43-50, the part of [Is_Adhikavara] below the exceptions. *)
Definition is_adhikavara_pure (su : SuriyaYear) : bool :=
  if is_adhikamasa su then false
  else if has_carried_adhikavara su then true
  else would_be_adhikavara su.

(** suriya_year.go:36-51 *)
Definition is_adhikavara (cfg : config) (su : SuriyaYear) : bool :=
  if UseExceptions cfg then
    match AdhikavaraExceptions cfg (sy_Year su) with
    | Some b => b
    | None => is_adhikavara_pure su
    end
  else is_adhikavara_pure su.

(** suriya_year.go:136-138, 141-143; [math.Abs] of an integer difference is exact. *)
Definition adhikavara_cycle_pos (su : SuriyaYear) : Z :=
  Z.rem (Z.abs (1984 - 57 * 10 - sy_Year su)) 57 + 1.
Definition adhikamasa_cycle_pos (su : SuriyaYear) : Z :=
  Z.rem (Z.abs (1984 - 19 * 10 - sy_Year su)) 19 + 1.

(** suriya_year.go:146-159 and 162-175: the backwards search loop.  [limit] is 6
    resp. 12.  [fuel] only makes the recursion structural; [None] means out of
    fuel and is proved impossible (P_Counts.v). *)
Fixpoint delta_loop (test : SuriyaYear -> bool) (limit y0 : Z) (fuel : nat) (year : Z)
  : option Z :=
  match fuel with
  | O => None
  | S fuel' =>
      let check := su_init year in
      if test check then Some (y0 - sy_Year check)
      else if limit <? y0 - sy_Year check then Some (-1)
      else delta_loop test limit y0 fuel' (year - 1)
  end.

Definition delta_adhikamasa (su : SuriyaYear) : option Z :=
  delta_loop is_adhikamasa 6 (sy_Year su) 20 (sy_Year su - 1).
Definition delta_adhikavara (cfg : config) (su : SuriyaYear) : option Z :=
  delta_loop (is_adhikavara cfg) 12 (sy_Year su) 20 (sy_Year su - 1).

(** suriya_year.go:178-189 *)
Definition year_length (cfg : config) (su : SuriyaYear) : Z :=
  let days := 6 * (30 + 29) in
  if is_adhikamasa su then days + 30
  else if is_adhikavara cfg su then days + 1
  else days.
