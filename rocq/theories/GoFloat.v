(** Go's float64: IEEE 754 binary64 with rounding to nearest even (Flocq's
    [binary_float 53 1024]; one NaN, as the code never looks at NaN payloads).

    Simplification: every operation is rounded separately.  The Go specification
    lets a compiler fuse [x*y + z]; gc does not on amd64. *)
From Coq Require Import ZArith Lia Bool.
From Flocq Require Import IEEE754.BinarySingleNaN.
From Verif Require Import GoInt.
Open Scope Z_scope.

Definition float64 : Type := binary_float 53 1024.

#[global] Instance prec53 : FLX.Prec_gt_0 53 := eq_refl.
#[global] Instance emax1024 : Prec_lt_emax 53 1024 := eq_refl.

Definition fadd (x y : float64) : float64 := Bplus mode_NE x y.
Definition fsub (x y : float64) : float64 := Bminus mode_NE x y.
Definition fmul (x y : float64) : float64 := Bmult mode_NE x y.
Definition fdiv (x y : float64) : float64 := Bdiv mode_NE x y.
Definition fabs (x : float64) : float64 := Babs x.
(** [x <= y], [x > y] *)
Definition fle (x y : float64) : bool := Bleb x y.
Definition fgt (x y : float64) : bool := Bltb y x.
(** [math.Floor] *)
Definition ffloor (x : float64) : float64 := Bnearbyint mode_DN x.

(** m * 2^e, rounded; used for constants and conversions. *)
Definition fmake (m e : Z) : float64 := binary_normalize 53 1024 _ _ mode_NE m e false.
(** [float64(n)] for an integer *)
Definition f_of_int (n : Z) : float64 := fmake n 0.
(** [int(x)]: truncation; the Go specification leaves an out-of-range conversion
    implementation-dependent, amd64 gives the smallest int64. *)
Definition int_of_f (x : float64) : Z :=
  let z := Btrunc x in
  if is_finite x && (- two63 <=? z) && (z <? two63) then z else - two63.
