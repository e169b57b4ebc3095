(** The same functions as SuriyaYear.v / SuriyaDay.v, transcribed with Go's int64
    and float64 arithmetic, and the float-only helpers of helpers.go. *)
From Coq Require Import ZArith Bool.
From Flocq Require Import IEEE754.BinarySingleNaN.
From Verif Require Import GoInt GoFloat GoTime SuriyaYear SuriyaDay.
Open Scope Z_scope.

(** suriya_year.go:58-90.  Untyped constants take the type of the other operand:
    int in lines 66-90 except in [float64(a) / CycleSolar]. *)
Definition su_init_m (ce_year : Z) : SuriyaYear :=
  let be := iadd ce_year BEdiff in
  let cs := isub ce_year CSdiff in
  let a := iadd (imul cs EraDays) EraHorakhun in
  let horakhun := int_of_f (ffloor (f_of_int (iadd (idiv a KammacubalaDaily) 1))) in
  let kammacubala := isub KammacubalaDaily (imod a KammacubalaDaily) in
  let uccabala := imod (iadd horakhun EraUccabala) 3232 in
  let a := iadd (imul horakhun CycleDaily) EraAvoman in
  let avoman := imod a CycleSolar in
  let b := int_of_f (ffloor (fdiv (f_of_int a) (f_of_int CycleSolar))) in
  let masaken := int_of_f (ffloor (f_of_int (idiv (iadd (iadd b EraMasaken) horakhun) MonthLength))) in
  let tithi := imod (iadd b horakhun) MonthLength in
  mkSuriyaYear ce_year be cs horakhun kammacubala uccabala avoman masaken tithi.

(** suriya_year.go:136-138, 141-143 *)
Definition adhikavara_cycle_pos_m (su : SuriyaYear) : Z :=
  iadd (imod (int_of_f (fabs (f_of_int (isub (1984 - 57 * 10) (sy_Year su))))) 57) 1.
Definition adhikamasa_cycle_pos_m (su : SuriyaYear) : Z :=
  iadd (imod (int_of_f (fabs (f_of_int (isub (1984 - 19 * 10) (sy_Year su))))) 19) 1.

(** helpers.go:11-23 *)
Definition degree_to_ral (degree : float64) : Z * Z * Z :=
  let x := int_of_f (ffloor (fdiv degree (f_of_int 30))) in
  let y := imod (int_of_f (ffloor degree)) 30 in
  let z := int_of_f (ffloor (fmul (fsub degree (ffloor degree)) (f_of_int 60))) in
  (x, y, z).

(** helpers.go:30-34 *)
Definition ral_to_degree (x y z : Z) : float64 :=
  fdiv (ffloor (fadd (fmul (f_of_int (iadd (imul 30 x) y)) (f_of_int 10000))
                     (fdiv (f_of_int (imul z 10000)) (f_of_int 60))))
       (f_of_int 10000).

(** helpers.go:37-42 *)
Definition normalize_degree (deg : float64) : float64 :=
  if fle deg (f_of_int 360) then deg
  else fsub deg (fmul (ffloor (fdiv deg (f_of_int 360))) (f_of_int 360)).

(** suriya_day.go:106, [math.Pi / 180]: a constant expression, evaluated exactly and
    rounded to 0x3f91df46a2529d39. *)
Definition radconv : float64 := fmake 5030569068109113 (-58).

(** suriya_day.go:8-25 *)
Record SuriyaDay := mkSuriyaDay {
  sd_ints_of : SuriyaDayInts;
  sd_MeanSun : float64; sd_TrueSun : float64;
  sd_MeanMoon : float64; sd_TrueMoon : float64; sd_Raek : float64
}.

(** suriya_day.go:31-64 *)
Definition sd_ints_m (ce_year lunar_year_day : Z) : SuriyaDayInts :=
  let suYear := su_init_m ce_year in
  let be := iadd ce_year BEdiff in
  let cs := isub ce_year CSdiff in
  let elapsed := isub lunar_year_day (sy_Tithi suYear) in
  let horakhun := iadd (sy_Horakhun suYear) elapsed in
  let kammacubala :=
    iadd (isub KammacubalaDaily (imod (iadd (imul cs EraDays) EraHorakhun) EraYears))
         (imul elapsed KammacubalaDaily) in
  let uccabala := imod (iadd horakhun EraUccabala) 3232 in
  let ai := iadd (imul horakhun CycleDaily) EraAvoman in
  let avoman := imod ai CycleSolar in
  let bi := iadd (iadd (int_of_f (ffloor (fdiv (f_of_int ai) (f_of_int CycleSolar)))) EraMasaken) horakhun in
  let masaken := int_of_f (ffloor (f_of_int (idiv bi MonthLength))) in
  mkSuriyaDayInts ce_year be cs lunar_year_day horakhun kammacubala uccabala
    avoman masaken (imod bi MonthLength).

(** suriya_day.go:82-85 *)
Definition mean_sun_degree (elapsed kammacubala : Z) : float64 :=
  let a := f_of_int (iadd (imul elapsed EraYears) kammacubala) in
  fmul (fdiv a (f_of_int EraDays)) (f_of_int 360).

(** suriya_day.go:82-97 *)
Definition mean_sun (elapsed kammacubala : Z) : float64 :=
  let '(x, y, z) := degree_to_ral (mean_sun_degree elapsed kammacubala) in
  ral_to_degree x y (isub z 3).

(** suriya_day.go:103-112; [sin] is Go's [math.Sin]. *)
Definition true_sun (sin : float64 -> float64) (meanSun : float64) : float64 :=
  let a := fabs (fsub meanSun (f_of_int 80)) in
  let b := ffloor (fmul (f_of_int 134) (sin (fmul a radconv))) in
  fdiv (ffloor (fadd (fmul meanSun (f_of_int 10000))
                     (fdiv (fmul b (f_of_int 10000)) (f_of_int 60))))
       (f_of_int 10000).

(** suriya_day.go:120-133 *)
Definition mean_moon (trueSun : float64) (avoman tithi : Z) : float64 :=
  let a := fdiv (fadd (f_of_int avoman) (ffloor (fdiv (f_of_int avoman) (f_of_int 25)))) (f_of_int 60) in
  normalize_degree
    (fsub (fadd (fadd trueSun a) (fmul (f_of_int tithi) (f_of_int 12))) (ral_to_degree 0 0 40)).

(** suriya_day.go:142 *)
Definition mean_uccabala (uccabala elapsed : Z) : float64 :=
  let f := f_of_int (iadd uccabala elapsed) in
  fdiv (fadd (fmul (fdiv (fmul (fmul f (f_of_int 3)) (f_of_int 30)) (f_of_int 808)) (f_of_int 60))
             (f_of_int 2))
       (f_of_int 60).

(** suriya_day.go:172-186 *)
Definition true_moon (sin : float64 -> float64) (meanMoon meanUccabala : float64) : float64 :=
  let a := fsub meanMoon meanUccabala in
  let b := fdiv (fmul (f_of_int 296) (sin (fmul a radconv))) (f_of_int 60) in
  fdiv (ffloor (fmul (fsub meanMoon b) (f_of_int 10000))) (f_of_int 10000).

(** suriya_day.go:191-193 *)
Definition raek (trueMoon : float64) : float64 :=
  fadd (fdiv trueMoon (ral_to_degree 0 13 20)) (f_of_int 1).

(** suriya_day.go:31-193 *)
Definition suriya_day (sin : float64 -> float64) (ce_year lunar_year_day : Z) : SuriyaDay :=
  let suYear := su_init_m ce_year in
  let ints := sd_ints_m ce_year lunar_year_day in
  let elapsed := isub lunar_year_day (sy_Tithi suYear) in
  let meanSun := mean_sun elapsed (sy_Kammacubala suYear) in
  let trueSun := true_sun sin meanSun in
  let meanMoon := mean_moon trueSun (sd_Avoman ints) (sd_Tithi ints) in
  let meanUccabala := mean_uccabala (sy_Uccabala suYear) elapsed in
  let trueMoon := true_moon sin meanMoon meanUccabala in
  mkSuriyaDay ints meanSun trueSun meanMoon trueMoon (raek trueMoon).

(** helpers.go:44-69.  The reference is 1963-07-05T23:59:59Z (suriya.go:22-23 and
    helpers.go:48).  [time.Duration(n) * time.Hour * 24] is int64 arithmetic in
    nanoseconds.  [fuel] only makes the recursion structural; [None] is out of fuel,
    excluded by P_Machine.v. *)
Definition horakhun_ref : Z := 484049.
Definition step_days : Z := 290 * 356.
Definition hours24 (n : Z) : Z := imul (imul n hour_ns) 24.

Fixpoint horakhun_loop (fuel : nat) (direction delta : Z) (date : time) : option (Z * time) :=
  if fgt (fabs (f_of_int delta)) (f_of_int step_days) then
    match fuel with
    | O => None
    | S fuel' =>
        horakhun_loop fuel' direction
          (iadd delta (imul (imul direction (-1)) step_days))
          (time_add date (hours24 (imul direction step_days)))
    end
  else Some (delta, date).

Definition horakhun_to_date (horakhun : Z) : option time :=
  let date := time_add (time_date 1963 7 5 0 0) (23 * hour_ns + 59 * 60 * second_ns + 59 * second_ns) in
  let delta := isub horakhun horakhun_ref in
  let direction := if delta <? 0 then -1 else 1 in
  match horakhun_loop (Z.to_nat (Z.abs delta / step_days + 1)) direction delta date with
  | Some (delta, date) => Some (time_add date (hours24 delta))
  | None => None
  end.
