(** Go's [math.Sin] on amd64: math/sin.go of the Go standard library (the Cephes routine), which
    suriya_day.go:107 and 180 call.  Not in /repo; transcribed from the Go source so that the values
    the code computes can be evaluated.  Theorems about positions assume of [math.Sin] only that it
    is bounded (C36, C38) or accurate to 10^-6 (C53); P_Sin.v and P_SinAcc.v prove both of this
    routine, the latter for arguments up to 100. *)
From Coq Require Import ZArith Bool.
From Flocq Require Import IEEE754.BinarySingleNaN.
From Verif Require Import GoInt GoFloat.
Open Scope Z_scope.

Definition sin_0 : float64 := fmake (6149556183080141) (-85). (* 0x3de5d8fd1fd19ccd *)
Definition sin_1 : float64 := fmake (-7571123942793053) (-78). (* 0xbe5ae5e5a9291f5d *)
Definition sin_2 : float64 := fmake (6506786710177953) (-71). (* 0x3ec71de3567d48a1 *)
Definition sin_3 : float64 := fmake (-7320136532877059) (-65). (* 0xbf2a01a019bfdf03 *)
Definition sin_4 : float64 := fmake (4803839602522064) (-59). (* 0x3f8111111110f7d0 *)
Definition sin_5 : float64 := fmake (-6004799503160648) (-55). (* 0xbfc5555555555548 *)
Definition cos_0 : float64 := fmake (-7030593573755547) (-89). (* 0xbda8fa49a0861a9b *)
Definition cos_1 : float64 := fmake (5047434750082821) (-81). (* 0x3e21ee9d7b4e3f05 *)
Definition cos_2 : float64 := fmake (-5205429473528774) (-74). (* 0xbe927e4f7eac4bc6 *)
Definition cos_3 : float64 := fmake (7320136533427445) (-68). (* 0x3efa01a019c844f5 *)
Definition cos_4 : float64 := fmake (-6405119470030737) (-62). (* 0xbf56c16c16c14f91 *)
Definition cos_5 : float64 := fmake (6004799503160651) (-57). (* 0x3fa555555555554b *)
Definition pi4a : float64 := fmake (7074237412016128) (-53). (* 0x3fe921fb40000000 *)
Definition pi4b : float64 := fmake (5704459598430208) (-77). (* 0x3e64442d00000000 *)
Definition pi4c : float64 := fmake (6833020653556080) (-101). (* 0x3ce8469898cc5170 *)
Definition m4pi : float64 := fmake (5734161139222659) (-52). (* 0x3ff45f306dc9c883 *)

Definition horner (zz t c : float64) : float64 := fadd (fmul t zz) c.
(** math/sin.go, the polynomials *)
Definition sin_poly (z zz : float64) : float64 :=
  let p := horner zz (horner zz (horner zz (horner zz (fadd (fmul sin_0 zz) sin_1) sin_2) sin_3) sin_4) sin_5 in
  fadd z (fmul (fmul z zz) p).
Definition cos_poly (zz : float64) : float64 :=
  let p := horner zz (horner zz (horner zz (horner zz (fadd (fmul cos_0 zz) cos_1) cos_2) cos_3) cos_4) cos_5 in
  fadd (fsub (f_of_int 1) (fmul (fmake 1 (-1)) zz)) (fmul (fmul zz zz) p).
(** math/sin.go, [sin] below the threshold 2^29 of the Payne-Hanek reduction *)
Definition go_sin (x : float64) : float64 :=
  match x with
  | B754_zero _ => x
  | B754_nan => x
  | B754_infinity _ => B754_nan
  | B754_finite s _ _ _ =>
      let x := fabs x in
      let j := int_of_f (fmul x m4pi) in
      let '(j, y) := if Z.odd j then (iadd j 1, fadd (f_of_int j) (f_of_int 1)) else (j, f_of_int j) in
      let j := Z.land j 7 in
      let '(s, j) := if 3 <? j then (negb s, j - 4) else (s, j) in
      let z := fsub (fsub (fsub x (fmul y pi4a)) (fmul y pi4b)) (fmul y pi4c) in
      let zz := fmul z z in
      let r := if (j =? 1) || (j =? 2) then cos_poly zz else sin_poly z zz in
      if s then Bopp r else r
  end.
