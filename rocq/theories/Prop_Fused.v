(** C75: the positions of a day when the compiler fuses products with the sums they are part of. *)
From Coq Require Import ZArith Reals Lia Lra Bool Psatz List.
From Flocq Require Import Core BinarySingleNaN.
From Verif Require Import GoInt GoFloat SuriyaYear SuriyaDay Machine GoSin Fused P_Year P_Float P_Machine P_Day P_Degree P_Approx P_Positions P_Sin P_SinAcc P_Equations P_Fused Prop_Sun Prop_Equations.
Import ListNotations.
Open Scope R_scope.

(** Fusing nowhere is the model of the other claims. *)
Lemma sin_poly_none z zz : sin_poly_f (fun _ => false) z zz = sin_poly z zz.
Proof. cbv beta iota zeta delta [sin_poly_f sin_poly muladd addmul horner]. reflexivity. Qed.
Lemma cos_poly_none zz : cos_poly_f (fun _ => false) zz = cos_poly zz.
Proof. cbv beta iota zeta delta [cos_poly_f cos_poly muladd addmul submul horner]. reflexivity. Qed.
Theorem C75_unfused sin y d x : suriya_day_f (fun _ => false) sin y d = suriya_day sin y d /\ go_sin_f (fun _ => false) x = go_sin x.
Proof.
  split.
  - cbv beta iota delta [suriya_day_f suriya_day mean_sun_f mean_sun mean_sun_degree degree_to_ral mulsub ral_to_degree_f ral_to_degree true_sun_f true_sun mean_moon_f mean_moon
      normalize_degree_f normalize_degree mean_uccabala_f mean_uccabala raek_f raek muladd addmul submul]. reflexivity.
  - destruct x; [reflexivity|reflexivity|reflexivity|]. cbv beta iota zeta delta [go_sin_f go_sin submul].
    generalize (int_of_f (fmul (fabs (B754_finite s m e e0)) m4pi)). intro j. generalize (fabs (B754_finite s m e e0)). intro x.
    destruct (Z.odd j); cbv beta iota;
      (match goal with |- context [(3 <? ?b)%Z] => destruct (3 <? b)%Z end); cbv beta iota;
      (match goal with |- context [orb ?b ?c] => destruct (orb b c) end);
      first [rewrite cos_poly_none|rewrite sin_poly_none]; reflexivity.
Qed.

(** Go's sine is accurate to 10^-9, wherever operations are fused in it. *)
Theorem C75_go_sin fuse (x : float64) : is_finite x = true -> Rabs (B2R x) <= 100 ->
  is_finite (go_sin_f fuse x) = true /\ Rabs (B2R (go_sin_f fuse x) - sin (B2R x)) <= / 1000000000.
Proof. apply go_sin_f_accurate. Qed.
Lemma go_sin_f_accurate_sin fuse : accurate_sin (go_sin_f fuse).
Proof. intros x F B. destruct (go_sin_f_accurate fuse x F B) as [H1 H2]. split; [exact H1|lra]. Qed.
(** The sine of 1 comes out the same, that of 7 differs in the last place. *)
Example C75_go_sin_example :
  map (fun fuse => map (fun n => B2SF (go_sin_f fuse (f_of_int n))) [1; 7]%Z) [fun _ => false; fun _ => true] =
  [map B2SF [fmake 7579296827247854 (-53); fmake 5917609202354696 (-53)]; map B2SF [fmake 7579296827247854 (-53); fmake 5917609202354697 (-53)]].
Proof. vm_compute. reflexivity. Qed.

Lemma day_parts_f fuse sin y d : (638 <= y <= 10 ^ 12)%Z -> (Z.abs d <= 10 ^ 12)%Z ->
  let p := suriya_day_f fuse sin y d in
  sd_ints_of p = sd_ints y d /\
  sd_MeanSun p = mean_sun_f fuse (d - T y) (K y) /\
  sd_TrueSun p = true_sun_f fuse sin (sd_MeanSun p) /\
  sd_MeanMoon p = mean_moon_f fuse (sd_TrueSun p) (sd_Avoman (sd_ints y d)) (sd_Tithi (sd_ints y d)) /\
  sd_TrueMoon p = true_moon sin (sd_MeanMoon p) (mean_uccabala_f fuse (sy_Uccabala (su_init y)) (d - T y)) /\
  sd_Raek p = raek_f fuse (sd_TrueMoon p).
Proof.
  intros Hy Hd p. destruct (NA_spec y ltac:(lia)) as (_ & Ht & _ & _).
  assert (E : isub d (sy_Tithi (su_init y)) = (d - T y)%Z) by (fold (T y); generalize dependent (T y); intros t Ht; unwrap; reflexivity).
  unfold p, suriya_day_f. rewrite (sd_ints_machine y d) by lia. rewrite (su_init_machine y) by lia. cbv zeta. rewrite E.
  cbn [sd_ints_of sd_MeanSun sd_TrueSun sd_MeanMoon sd_TrueMoon sd_Raek]. repeat split.
Qed.
Lemma day_ints_range y d : (638 <= y)%Z -> (0 <= d)%Z -> (0 <= sd_Avoman (sd_ints y d) <= 691)%Z /\ (0 <= sd_Tithi (sd_ints y d) <= 29)%Z.
Proof. intros Hy Hd. destruct (sd_moon y d (day_horakhun_nonneg y d Hy Hd)) as (_ & A & B & _). lia. Qed.
Lemma mean_sun_f_day fuse sin sin' y d : (638 <= y <= 10 ^ 12)%Z -> (0 <= d <= 900000)%Z ->
  sd_MeanSun (suriya_day_f fuse sin y d) = sd_MeanSun (suriya_day sin' y d).
Proof.
  intros Hy Hd. destruct (NA_spec y ltac:(lia)) as (_ & Ht & _ & _). destruct (HK_spec y ltac:(lia)) as (_ & Hk & _).
  destruct (day_parts_f fuse sin y d Hy ltac:(lia)) as (_ & -> & _). destruct (day_parts sin' y d Hy ltac:(lia)) as (_ & -> & _).
  apply mean_sun_same; lia.
Qed.

(** The integer fields and MeanSun are the same bit for bit, whatever the sines. *)
Theorem C75_mean fuse sin sin' y d : (638 <= y <= 10 ^ 12)%Z -> (0 <= d <= 900000)%Z ->
  sd_ints_of (suriya_day_f fuse sin y d) = sd_ints_of (suriya_day sin' y d) /\ sd_MeanSun (suriya_day_f fuse sin y d) = sd_MeanSun (suriya_day sin' y d).
Proof.
  intros Hy Hd. split; [|apply mean_sun_f_day; assumption].
  destruct (day_parts_f fuse sin y d Hy ltac:(lia)) as (-> & _). destruct (day_parts sin' y d Hy ltac:(lia)) as (-> & _). reflexivity.
Qed.
Example C75_mean_example : B2SF (sd_MeanSun (suriya_day_f (fun _ => true) (fun _ => B754_nan) 1963 103)) = B2SF (fdiv (f_of_int 794666) (f_of_int 10000)).
Proof. vm_compute. reflexivity. Qed.

(** The equations of C53 for TrueSun and TrueMoon hold, and the mean Moon and Raek follow from them as in C38. *)
Theorem C75_equations fuse f y d : accurate_sin f -> (638 <= y <= 10 ^ 12)%Z -> (0 <= d <= 400)%Z ->
  let p := suriya_day_f fuse f y d in let i := sd_ints_of p in
  let m := B2R (sd_MeanSun p) in let sun := m + 134 / 60 * sin (Rabs (m - 80) * (PI / 180)) in
  let n := B2R (sd_MeanMoon p) in let apogee := 360 * IZR (sd_Uccabala i) / 3232 + 2 / 60 in
  let moon := n - 296 / 60 * sin ((n - apogee) * (PI / 180)) in
  (is_finite (sd_MeanSun p) && is_finite (sd_TrueSun p) && is_finite (sd_MeanMoon p) && is_finite (sd_TrueMoon p) && is_finite (sd_Raek p))%bool = true /\
  sun - 1 / 60 - / 9700 <= B2R (sd_TrueSun p) <= sun + / 100000 /\
  (exists k, (0 <= k <= 4)%Z /\
     Rabs (n + 360 * IZR k - (B2R (sd_TrueSun p) + IZR (sd_Avoman i + sd_Avoman i / 25) / 60 + 12 * IZR (sd_Tithi i) - 6666 / 10000)) <= / 1000000000 /\
     n <= 360 /\ (k <> 0%Z -> 0 <= n)) /\
  moon - / 9000 <= B2R (sd_TrueMoon p) <= moon + / 100000 /\
  Rabs (B2R (sd_Raek p) - (B2R (sd_TrueMoon p) / (133333 / 10000) + 1)) <= / 1000000000.
Proof.
  intros A Hy Hd p i m sun n apogee moon. destruct (NA_spec y ltac:(lia)) as (_ & Ht & _ & _).
  destruct (day_range f y d A Hy Hd) as (F1 & _ & B1 & _). rewrite <- (mean_sun_f_day fuse f f y d Hy ltac:(lia)) in F1, B1. fold p in F1, B1. fold m in B1.
  destruct (day_parts_f fuse f y d Hy ltac:(lia)) as (E0 & _ & E2 & E3 & E4 & E5). fold p in E0, E2, E3, E4, E5. unfold i. rewrite E0.
  destruct (day_ints_range y d ltac:(lia) ltac:(lia)) as [IA IT].
  destruct (true_sun_eq_f fuse f (sd_MeanSun p) m A (conj F1 eq_refl) ltac:(lra)) as (ts & [F2 X2] & B2). rewrite <- E2 in F2, X2. unfold sind in B2. fold sun in B2.
  assert (Bs : -70 <= ts <= 400).
  { unfold sun in B2. pose proof (SIN_bound (Rabs (m - 80) * (PI / 180))). lra. }
  assert (E3' : sd_MeanMoon p = mean_moon (sd_TrueSun p) (sd_Avoman (sd_ints y d)) (sd_Tithi (sd_ints y d))).
  { rewrite E3. apply (mean_moon_same fuse (sd_TrueSun p) ts); [split; assumption|lra|exact IA|exact IT]. }
  destruct (mean_moon_near (sd_TrueSun p) ts _ _ (conj F2 X2) ltac:(lra) IA IT) as (mm & k & [F3 X3] & Hk3 & A3 & U3 & L3). rewrite <- E3' in F3, X3.
  assert (Av : 0 <= IZR (sd_Avoman (sd_ints y d) + sd_Avoman (sd_ints y d) / 25)).
  { apply IZR_le. assert (0 <= sd_Avoman (sd_ints y d) / 25)%Z by (apply Z.div_pos; lia). lia. }
  assert (Ti : 0 <= IZR (sd_Tithi (sd_ints y d))) by (apply IZR_le; lia).
  assert (B3 : -72 <= mm <= 360).
  { split; [|exact U3]. destruct (Z.eq_dec k 0) as [->|N]; [|specialize (L3 N); lra]. apply Rabs_le_inv in A3. lra. }
  pose proof (Z.mod_pos_bound (Hor y + 2611) 3232 ltac:(lia)) as U. rewrite <- (U_spec y ltac:(lia)) in U.
  set (a := (sy_Uccabala (su_init y) + (d - T y))%Z).
  assert (Ha : exists k, (a = sd_Uccabala (sd_ints y d) + 3232 * k)%Z /\ (-1 <= k <= 1)%Z).
  { pose proof (day_horakhun_nonneg y d ltac:(lia) ltac:(lia)) as H0. destruct (sd_moon y d H0) as (_ & _ & _ & _ & Ud). cbv zeta in Ud.
    rewrite sd_Horakhun_eq in Ud. assert (Em : (a mod 3232 = sd_Uccabala (sd_ints y d))%Z).
    { rewrite Ud. unfold a. rewrite (U_spec y ltac:(lia)). rewrite Z.add_mod_idemp_l by lia. f_equal. lia. }
    exists (a / 3232)%Z. pose proof (Z.div_mod a 3232 ltac:(lia)) as Dm. rewrite <- Em. split; [lia|].
    assert (Ra : (-30 <= a <= 3700)%Z) by (unfold a; lia). clearbody a. clear - Ra. Z.to_euclidean_division_equations. lia. }
  destruct Ha as (ka & Ek & Hka).
  pose proof (mean_uccabala_near_f fuse (sy_Uccabala (su_init y)) (d - T y) ltac:(lia) ltac:(lia)) as N. fold a in N.
  assert (Ea : IZR a * 90 / 808 + 2 / 60 = apogee + 360 * IZR ka) by (unfold apogee, i; rewrite Ek, E0, plus_IZR, mult_IZR; field).
  rewrite Ea in N. assert (Hu : -10 <= apogee + 360 * IZR ka <= 1000).
  { rewrite <- Ea. assert (-30 <= IZR a <= 3700) by (split; apply IZR_le; unfold a; lia). lra. }
  destruct (true_moon_eq f (sd_MeanMoon p) n _ _ A (conj F3 eq_refl) ltac:(unfold n; rewrite X3; lra) N Hu) as (tm & [F4 X4] & B4). fold (T y) in E4. rewrite <- E4 in F4, X4.
  rewrite (sind_turns n apogee ka Hka) in B4. fold moon in B4.
  assert (Bm : -80 <= tm <= 370).
  { unfold moon in B4. pose proof (SIN_bound ((n - apogee) * (PI / 180))). assert (-72 <= n <= 360) by (unfold n; rewrite X3; exact B3). lra. }
  destruct (raek_near (sd_TrueMoon p) tm (conj F4 X4) ltac:(lra)) as (rk & [F5 X5] & B5). rewrite <- (raek_same fuse), <- E5 in F5, X5.
  rewrite F1, F2, F3, F4, F5. split; [reflexivity|]. rewrite X2. split; [exact B2|].
  split; [exists k; unfold n; rewrite X3; auto|]. rewrite X4. split; [exact B4|]. rewrite X5. exact B5.
Qed.
(** Asalha of 1963, everything fused: as in suriya_test.go. *)
Example C75_equations_example : let p := suriya_day_f (fun _ => true) (go_sin_f (fun _ => true)) 1963 103 in
  map B2SF [sd_TrueSun p; sd_TrueMoon p] = map (fun n => B2SF (fdiv (f_of_int n) (f_of_int 10000))) [794832; 2476955]%Z.
Proof. vm_compute. reflexivity. Qed.

(** With the same sine, TrueSun and the mean Moon are the same bit for bit from New Year's day on. *)
Theorem C75_sun fuse f y d : accurate_sin f -> (638 <= y <= 10 ^ 12)%Z -> (sy_Tithi (su_init y) <= d <= 400)%Z ->
  sd_TrueSun (suriya_day_f fuse f y d) = sd_TrueSun (suriya_day f y d) /\ sd_MeanMoon (suriya_day_f fuse f y d) = sd_MeanMoon (suriya_day f y d).
Proof.
  intros A Hy Hd. fold (T y) in Hd. destruct (NA_spec y ltac:(lia)) as (_ & Ht & _ & _). destruct (HK_spec y ltac:(lia)) as (_ & Hk & _).
  destruct (day_parts_f fuse f y d Hy ltac:(lia)) as (_ & _ & E2 & E3 & _). destruct (day_parts f y d Hy ltac:(lia)) as (_ & G1 & G2 & G3 & _).
  assert (E : sd_TrueSun (suriya_day_f fuse f y d) = sd_TrueSun (suriya_day f y d)).
  { rewrite E2, (mean_sun_f_day fuse f f y d Hy ltac:(lia)), G2, G1. apply true_sun_same; [exact A|lia|lia|lia]. }
  split; [exact E|]. rewrite E3, E, G3. destruct (C38_positions f y d (accurate_bounded f A) Hy ltac:(lia)) as (F & B1 & B2 & _).
  destruct (day_ints_range y d ltac:(lia) ltac:(lia)) as [IA IT].
  apply (mean_moon_same fuse _ (B2R (sd_TrueSun (suriya_day f y d)))); [|lra|exact IA|exact IT].
  split; [|reflexivity]. destruct (is_finite (sd_MeanSun (suriya_day f y d))), (is_finite (sd_TrueSun (suriya_day f y d))); try discriminate F. reflexivity.
Qed.
(** Day 40 of 2000 is after New Year's day. *)
Example C75_sun_example : (0 < sy_Tithi (su_init 2000) <= 40)%Z /\
  B2SF (sd_TrueSun (suriya_day_f (fun _ => true) go_sin 2000 40)) = B2SF (sd_TrueSun (suriya_day go_sin 2000 40)).
Proof. vm_compute. repeat split; discriminate. Qed.

(** Another accurate sine, such as that of another platform, changes nothing in this unless 134 times the sine is close to an integer. *)
Theorem C75_sun_sines fuse f g y d : accurate_sin f -> accurate_sin g -> (638 <= y <= 10 ^ 12)%Z -> (sy_Tithi (su_init y) <= d <= 400)%Z ->
  (forall k, / 7000 < Rabs (134 * sin (Rabs (B2R (sd_MeanSun (suriya_day g y d)) - 80) * (PI / 180)) - IZR k)) ->
  sd_TrueSun (suriya_day_f fuse f y d) = sd_TrueSun (suriya_day g y d) /\ sd_MeanMoon (suriya_day_f fuse f y d) = sd_MeanMoon (suriya_day g y d).
Proof.
  intros Af Ag Hy Hd H. destruct (C75_sun fuse f y d Af Hy Hd) as [E1 E2]. fold (T y) in Hd. destruct (NA_spec y ltac:(lia)) as (_ & Ht & _ & _).
  destruct (day_parts f y d Hy ltac:(lia)) as (_ & G1 & G2 & G3 & _). destruct (day_parts g y d Hy ltac:(lia)) as (_ & K1 & K2 & K3 & _).
  destruct (day_range g y d Ag Hy ltac:(lia)) as (F1 & _ & B1 & _).
  assert (E : sd_TrueSun (suriya_day f y d) = sd_TrueSun (suriya_day g y d)).
  { rewrite G2, K2, G1, <- K1. apply true_sun_sines with (m := B2R (sd_MeanSun (suriya_day g y d))); [exact Af|exact Ag|split; [exact F1|reflexivity]|lra|exact H]. }
  rewrite E1, E2, G3, K3, E. split; reflexivity.
Qed.
(** Asalha of 1963: 134 sin 0.5334 is between 1.2 and 1.3. *)
Example C75_sun_sines_example : B2SF (sd_MeanSun (suriya_day go_sin 1963 103)) = B2SF (fdiv (f_of_int 794666) (f_of_int 10000)) /\
  forall k, / 7000 < Rabs (134 * sin (Rabs (794666 / 10000 - 80) * (PI / 180)) - IZR k).
Proof.
  split; [vm_compute; reflexivity|]. intro k. rewrite (Rabs_left (794666 / 10000 - 80)) by lra. pose proof pi_near as P. apply Rabs_le_inv in P.
  set (t := - (794666 / 10000 - 80) * (PI / 180)). assert (T : 9309 / 1000000 <= t <= 9310 / 1000000) by (unfold t; lra).
  pose proof (sin_lt_x t ltac:(lra)) as U. pose proof (sin_near t ltac:(apply Rabs_le; lra)) as C. apply Rabs_le_inv in C. unfold sin_taylor in C.
  assert (L : 9 / 1000 <= sin t).
  { assert (W : 0 <= t * t <= / 1000) by nra. set (w := t * t) in *. clearbody w. clearbody t. clear P U.
      assert (V : -1 <= (((- / 39916800 * w + / 362880) * w + - / 5040) * w + / 120) * w + - / 6 <= 1).
      { set (a := - / 39916800 * w + / 362880). assert (0 <= a <= 1) by (unfold a; lra). clearbody a.
        set (b := a * w + - / 5040). assert (-1 <= b <= 1) by (unfold b; nra). clearbody b.
        set (c := b * w + / 120). assert (-1 <= c <= 1) by (unfold c; nra). clearbody c. nra. }
      set (v := (((- / 39916800 * w + / 362880) * w + - / 5040) * w + / 120) * w + - / 6) in *. clearbody v. assert (0 <= t * w <= / 100000) by nra. nra. }
  destruct (Z_le_gt_dec k 1) as [H|H]; [apply IZR_le in H; rewrite Rabs_pos_eq; lra|].
  assert (2 <= IZR k) by (apply IZR_le; lia). rewrite Rabs_left; lra.
Qed.
(** TrueMoon is the same up to the last decimal wherever the mean Moon is. *)
Theorem C75_moon fuse f g y d : accurate_sin f -> accurate_sin g -> (638 <= y <= 10 ^ 12)%Z -> (0 <= d <= 400)%Z ->
  sd_MeanMoon (suriya_day_f fuse f y d) = sd_MeanMoon (suriya_day g y d) ->
  Rabs (B2R (sd_TrueMoon (suriya_day_f fuse f y d)) - B2R (sd_TrueMoon (suriya_day g y d))) <= / 8000.
Proof.
  intros Af Ag Hy Hd E. pose proof (C75_equations fuse f y d Af Hy Hd) as P. pose proof (C75_equations (fun _ => false) g y d Ag Hy Hd) as Q.
  rewrite (proj1 (C75_unfused g y d (f_of_int 0))) in Q. cbv zeta in P, Q. destruct P as (_ & _ & _ & P & _), Q as (_ & _ & _ & Q & _).
  rewrite E in P. rewrite (proj1 (C75_mean fuse f g y d Hy ltac:(lia))) in P. revert P Q. generalize (B2R (sd_TrueMoon (suriya_day_f fuse f y d))) (B2R (sd_TrueMoon (suriya_day g y d))).
  intros u v P Q. apply Rabs_le. lra.
Qed.
(** Asalha of 1963: no difference. *)
Example C75_moon_example : map B2SF [sd_TrueMoon (suriya_day_f (fun _ => true) (go_sin_f (fun _ => true)) 1963 103); sd_TrueMoon (suriya_day go_sin 1963 103)] =
  map (fun n => B2SF (fdiv (f_of_int n) (f_of_int 10000))) [2476955; 2476955]%Z.
Proof. vm_compute. reflexivity. Qed.

(** Before New Year's day it can differ by a ten-thousandth: -52.3834 and -52.3835 on day 2 of 1901. *)
Theorem C75_sun_before_refuted : exists y d, (1900 <= y <= 2000)%Z /\ (0 <= d < sy_Tithi (su_init y))%Z /\
  B2SF (sd_TrueSun (suriya_day go_sin y d)) = B2SF (fdiv (f_of_int (-523834)) (f_of_int 10000)) /\
  B2SF (sd_TrueSun (suriya_day_f (fun _ => true) (go_sin_f (fun _ => true)) y d)) = B2SF (fdiv (f_of_int (-523835)) (f_of_int 10000)) /\
  B2SF (sd_TrueMoon (suriya_day go_sin y d)) = B2SF (fdiv (f_of_int (-360580)) (f_of_int 10000)) /\
  B2SF (sd_TrueMoon (suriya_day_f (fun _ => true) (go_sin_f (fun _ => true)) y d)) = B2SF (fdiv (f_of_int (-360582)) (f_of_int 10000)).
Proof. exists 1901%Z, 2%Z. vm_compute. repeat split; intros; discriminate. Qed.
