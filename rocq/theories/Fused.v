(** The floating-point expressions of suriya_day.go, helpers.go and math/sin.go when the compiler fuses products with
    the sums they are part of.  The Go specification allows [x*y + z] to be rounded once, even if the product is first assigned
    to a variable, unless it is explicitly converted; gc does so on arm64, ppc64, riscv64 and s390x, not on amd64.

    [fuse] says at which places it is done.  With [fun _ => false] these are the definitions of Machine.v and GoSin.v
    (Prop_Fused.v).  Simplifications: a place of a function is fused in all its calls or in none; the product [a*radconv], passed
    to [math.Sin], is rounded (fusing it would take inlining [math.Sin], which is too large for gc). *)
From Coq Require Import ZArith Bool.
From Flocq Require Import IEEE754.BinarySingleNaN.
From Verif Require Import GoInt GoFloat SuriyaYear SuriyaDay Machine GoSin.
Open Scope Z_scope.

(** [x*y + z] *)
Definition muladd (fused : bool) (x y z : float64) : float64 :=
  if fused then Bfma mode_NE x y z else fadd (fmul x y) z.
(** [z + x*y] *)
Definition addmul (fused : bool) (z x y : float64) : float64 :=
  if fused then Bfma mode_NE x y z else fadd z (fmul x y).
(** [z - x*y] *)
Definition submul (fused : bool) (z x y : float64) : float64 :=
  if fused then Bfma mode_NE (Bopp x) y z else fsub z (fmul x y).
(** [x*y - z] *)
Definition mulsub (fused : bool) (x y z : float64) : float64 :=
  if fused then Bfma mode_NE x y (Bopp z) else fsub (fmul x y) z.

(** helpers.go:30-34 *)
Definition ral_to_degree_f (fuse : nat -> bool) (x y z : Z) : float64 :=
  fdiv (ffloor (muladd (fuse 0%nat) (f_of_int (iadd (imul 30 x) y)) (f_of_int 10000)
                       (fdiv (f_of_int (imul z 10000)) (f_of_int 60))))
       (f_of_int 10000).
(** helpers.go:37-42 *)
Definition normalize_degree_f (fuse : nat -> bool) (deg : float64) : float64 :=
  if fle deg (f_of_int 360) then deg
  else submul (fuse 1%nat) deg (ffloor (fdiv deg (f_of_int 360))) (f_of_int 360).
(** suriya_day.go:82-97 and helpers.go:11-23 ([DegreeToRal]): place 15 is [degree - math.Floor(degree)], [degree] being the
    product of suriya_day.go:85. *)
Definition mean_sun_f (fuse : nat -> bool) (elapsed kammacubala : Z) : float64 :=
  let q := fdiv (f_of_int (iadd (imul elapsed EraYears) kammacubala)) (f_of_int EraDays) in
  let degree := fmul q (f_of_int 360) in
  let x := int_of_f (ffloor (fdiv degree (f_of_int 30))) in
  let y := imod (int_of_f (ffloor degree)) 30 in
  let z := int_of_f (ffloor (fmul (mulsub (fuse 15%nat) q (f_of_int 360) (ffloor degree)) (f_of_int 60))) in
  ral_to_degree_f fuse x y (isub z 3).
(** suriya_day.go:103-112 *)
Definition true_sun_f (fuse : nat -> bool) (sin : float64 -> float64) (meanSun : float64) : float64 :=
  let a := fabs (fsub meanSun (f_of_int 80)) in
  let b := ffloor (fmul (f_of_int 134) (sin (fmul a radconv))) in
  fdiv (ffloor (muladd (fuse 2%nat) meanSun (f_of_int 10000) (fdiv (fmul b (f_of_int 10000)) (f_of_int 60))))
       (f_of_int 10000).
(** suriya_day.go:120-133 *)
Definition mean_moon_f (fuse : nat -> bool) (trueSun : float64) (avoman tithi : Z) : float64 :=
  let a := fdiv (fadd (f_of_int avoman) (ffloor (fdiv (f_of_int avoman) (f_of_int 25)))) (f_of_int 60) in
  normalize_degree_f fuse
    (fsub (addmul (fuse 3%nat) (fadd trueSun a) (f_of_int tithi) (f_of_int 12)) (ral_to_degree_f fuse 0 0 40)).
(** suriya_day.go:142 *)
Definition mean_uccabala_f (fuse : nat -> bool) (uccabala elapsed : Z) : float64 :=
  let f := f_of_int (iadd uccabala elapsed) in
  fdiv (muladd (fuse 4%nat) (fdiv (fmul (fmul f (f_of_int 3)) (f_of_int 30)) (f_of_int 808)) (f_of_int 60) (f_of_int 2))
       (f_of_int 60).
(** suriya_day.go:191-193 *)
Definition raek_f (fuse : nat -> bool) (trueMoon : float64) : float64 :=
  fadd (fdiv trueMoon (ral_to_degree_f fuse 0 13 20)) (f_of_int 1).
(** suriya_day.go:31-193; suriya_day.go:172-186 ([true_moon]) has nothing to fuse. *)
Definition suriya_day_f (fuse : nat -> bool) (sin : float64 -> float64) (ce_year lunar_year_day : Z) : SuriyaDay :=
  let suYear := su_init_m ce_year in
  let ints := sd_ints_m ce_year lunar_year_day in
  let elapsed := isub lunar_year_day (sy_Tithi suYear) in
  let meanSun := mean_sun_f fuse elapsed (sy_Kammacubala suYear) in
  let trueSun := true_sun_f fuse sin meanSun in
  let meanMoon := mean_moon_f fuse trueSun (sd_Avoman ints) (sd_Tithi ints) in
  let meanUccabala := mean_uccabala_f fuse (sy_Uccabala suYear) elapsed in
  let trueMoon := true_moon sin meanMoon meanUccabala in
  mkSuriyaDay ints meanSun trueSun meanMoon trueMoon (raek_f fuse trueMoon).

(** math/sin.go, the polynomials: places 8 to 12 are the steps of Horner's scheme, 13 the last sum, 14 [1.0 - 0.5*zz]. *)
Definition sin_poly_f (fuse : nat -> bool) (z zz : float64) : float64 :=
  let step k t c := muladd (fuse k) t zz c in
  let p := step 12%nat (step 11%nat (step 10%nat (step 9%nat (step 8%nat sin_0 sin_1) sin_2) sin_3) sin_4) sin_5 in
  addmul (fuse 13%nat) z (fmul z zz) p.
Definition cos_poly_f (fuse : nat -> bool) (zz : float64) : float64 :=
  let step k t c := muladd (fuse k) t zz c in
  let p := step 12%nat (step 11%nat (step 10%nat (step 9%nat (step 8%nat cos_0 cos_1) cos_2) cos_3) cos_4) cos_5 in
  addmul (fuse 13%nat) (submul (fuse 14%nat) (f_of_int 1) (fmake 1 (-1)) zz) (fmul zz zz) p.
(** math/sin.go, [sin] below the threshold 2^29: places 5 to 7 are the reduction of the argument. *)
Definition go_sin_f (fuse : nat -> bool) (x : float64) : float64 :=
  match x with
  | B754_zero _ => x
  | B754_nan => x
  | B754_infinity _ => B754_nan
  | B754_finite s _ _ _ =>
      let x := fabs x in
      let j := int_of_f (fmul x m4pi) in
      let '(j, y) := if Z.odd j then (iadd j 1, fadd (f_of_int j) (f_of_int 1)) else (j, f_of_int j) in
      let j := Z.land j 7 in
      let '(s, j) := if 3 <? j then (negb s, j - 4) else (s, j) in
      let z := submul (fuse 7%nat) (submul (fuse 6%nat) (submul (fuse 5%nat) x y pi4a) y pi4b) y pi4c in
      let zz := fmul z z in
      let r := if (j =? 1) || (j =? 2) then cos_poly_f fuse zz else sin_poly_f fuse z zz in
      if s then Bopp r else r
  end.
