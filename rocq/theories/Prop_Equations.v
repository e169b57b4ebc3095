(** C53: the equations the true positions of the Sun and the Moon follow. *)
From Coq Require Import ZArith Reals Lia Lra Bool Psatz List.
From Flocq Require Import Core BinarySingleNaN.
From Verif Require Import GoInt GoFloat SuriyaYear SuriyaDay Machine GoSin P_Year P_Float P_Machine P_Day P_Degree P_Approx P_Positions P_Sin P_SinAcc P_Equations Prop_Sun.
Import ListNotations.
Open Scope R_scope.

(** The constants of the routine (and 4/pi) are the doubles nearest to the decimal constants of Cephes: [c] / 10^k is nearest to [x]. *)
Definition nearest (x : float64) (c : Z) (k : Z) : Prop :=
  match B2SF x with
  | SpecFloat.S754_finite s m e => (2 ^ 52 <= Zpos m < 2 ^ 53 /\ e <= 0 /\ 2 * Z.abs ((if s then - Zpos m else Zpos m) * 10 ^ k - c * 2 ^ (- e)) <= 10 ^ k)%Z
  | _ => False
  end.
Theorem C53_constants :
  nearest sin_0 158962301576546568060 30 /\ nearest sin_1 (-250507477628578072866) 28 /\ nearest sin_2 275573136213857245213 26 /\
  nearest sin_3 (-198412698295895385996) 24 /\ nearest sin_4 833333333332211858878 23 /\ nearest sin_5 (-166666666666666307295) 21 /\
  nearest cos_0 (-113585365213876817300) 31 /\ nearest cos_1 208757008419747316778 29 /\ nearest cos_2 (-275573141792967388112) 27 /\
  nearest cos_3 248015872888517045348 25 /\ nearest cos_4 (-138888888888730564116) 23 /\ nearest cos_5 416666666666665929218 22 /\
  nearest pi4a 785398125648498535156 21 /\ nearest pi4b 377489470793079817668 28 /\ nearest pi4c 269515142907905952645 35 /\
  nearest m4pi 127323954473516268615107010698 29. (* 4/pi *)
Proof. vm_compute. repeat split; intros; discriminate. Qed.
(** Go's sine is accurate to 10^-9 (on amd64, where it is this routine). *)
Theorem C53_go_sin (x : float64) : is_finite x = true -> Rabs (B2R x) <= 100 ->
  is_finite (go_sin x) = true /\ Rabs (B2R (go_sin x) - sin (B2R x)) <= / 1000000000.
Proof. apply go_sin_accurate. Qed.
Lemma go_sin_accurate_sin : accurate_sin go_sin.
Proof. intros x F B. destruct (go_sin_accurate x F B) as [H1 H2]. split; [exact H1|lra]. Qed.
(** The sine of 30 degrees, as the code computes it, is a half up to 10^-9. *)
Example C53_go_sin_example : let h := B2R (go_sin (fmul (f_of_int 30) radconv)) in - / 1000000000 <= h - / 2 <= / 1000000000 /\
  B2SF (go_sin (fmul (f_of_int 30) radconv)) = B2SF (fmake 9007199254740991 (-54)).
Proof.
  assert (E : B2SF (go_sin (fmul (f_of_int 30) radconv)) = B2SF (fmake 9007199254740991 (-54))) by (vm_compute; reflexivity).
  split; [|exact E]. apply B2SF_inj in E. rewrite E. destruct (fmake_exact 9007199254740991 (-54) ltac:(vm_compute; reflexivity) ltac:(lia)) as [_ ->]. bp. lra.
Qed.

Lemma day_horakhun_nonneg y d : (638 <= y)%Z -> (0 <= d)%Z -> (0 <= sd_Horakhun (sd_ints y d))%Z.
Proof.
  intros Hy Hd. destruct (NA_spec y ltac:(lia)) as (_ & Ht & _ & _). rewrite sd_Horakhun_eq. assert (Y : y = 638%Z \/ (639 <= y)%Z) by lia. destruct Y as [Y|Ny]; [rewrite Y|].
  - assert (E638 : Hor 638 = 1%Z /\ T 638 = 1%Z) by (vm_compute; auto). lia.
  - destruct (HK_spec y ltac:(lia)) as (EH & Hk & _). lia.
Qed.
(** The mean positions are finite and bounded on every day of a year (from C38). *)
Lemma day_range f y d : accurate_sin f -> (638 <= y <= 10 ^ 12)%Z -> (0 <= d <= 400)%Z ->
  let p := suriya_day f y d in
  is_finite (sd_MeanSun p) = true /\ is_finite (sd_MeanMoon p) = true /\ -59 <= B2R (sd_MeanSun p) <= 396 /\ -70 <= B2R (sd_MeanMoon p) <= 360.
Proof.
  intros A Hy Hd p. destruct (C38_positions f y d (accurate_bounded f A) Hy Hd) as (F & B1 & B2 & (k & Hk & A3 & U3 & L3) & _). fold p in F, B1, B2, A3, U3, L3.
  assert (Ints : (0 <= sd_Avoman (sd_ints_of p) + sd_Avoman (sd_ints_of p) / 25)%Z /\ (0 <= sd_Tithi (sd_ints_of p))%Z).
  { destruct (day_parts f y d Hy ltac:(lia)) as (E0 & _). fold p in E0. rewrite E0. destruct (NA_spec y ltac:(lia)) as (_ & Ht & _ & _).
    pose proof (day_horakhun_nonneg y d ltac:(lia) ltac:(lia)) as H0.
    destruct (sd_moon y d H0) as (_ & B & C & _). assert (0 <= sd_Avoman (sd_ints y d) / 25)%Z by (apply Z.div_pos; lia). lia. }
  destruct Ints as [I1 I2]. apply IZR_le in I1, I2.
  destruct (is_finite (sd_MeanSun p)), (is_finite (sd_TrueSun p)), (is_finite (sd_MeanMoon p)); try discriminate F.
  split; [reflexivity|]. split; [reflexivity|]. split; [exact B1|]. split; [|exact U3].
  destruct (Z.eq_dec k 0) as [->|N]; [|specialize (L3 N); lra]. apply Rabs_le_inv in A3. lra.
Qed.

(** For every sine routine accurate to 10^-6: TrueSun is MeanSun plus 134 minutes times the sine of
    its distance from 80 degrees, rounded down to minutes and then to four decimals of a degree. *)
Theorem C53_true_sun f y d : accurate_sin f -> (638 <= y <= 10 ^ 12)%Z -> (0 <= d <= 400)%Z ->
  let p := suriya_day f y d in let m := B2R (sd_MeanSun p) in
  let equation := m + 134 / 60 * sin (Rabs (m - 80) * (PI / 180)) in
  equation - 1 / 60 - / 9700 <= B2R (sd_TrueSun p) <= equation + / 100000.
Proof.
  intros A Hy Hd p m equation. destruct (day_range f y d A Hy Hd) as (F1 & _ & B1 & _). fold p in F1, B1. fold m in B1.
  destruct (day_parts f y d Hy ltac:(lia)) as (_ & _ & E2 & _). fold p in E2.
  destruct (true_sun_eq f (sd_MeanSun p) m A (conj F1 eq_refl) ltac:(lra)) as (v & [F E] & B). rewrite E2, E. exact B.
Qed.
(** TrueMoon is MeanMoon less 296 minutes times the sine of its distance from the Moon's apogee, rounded
    down to four decimals; the apogee goes round in 3232 days and is 2 minutes past the day's Uccabala. *)
Lemma sin_turns x k : (-1 <= k <= 1)%Z -> sin (x + IZR k * (2 * PI)) = sin x.
Proof.
  intros Hk. assert (C : k = (-1)%Z \/ k = 0%Z \/ k = 1%Z) by lia. destruct C as [-> | [-> | ->]].
  - rewrite <- (sin_period (x + -1 * (2 * PI)) 1). f_equal. cbn [INR]. ring.
  - f_equal. ring.
  - rewrite <- (sin_period x 1). f_equal. cbn [INR]. ring.
Qed.
Lemma sind_turns m a k : (-1 <= k <= 1)%Z -> sind (m - (a + 360 * IZR k)) = sin ((m - a) * (PI / 180)).
Proof. intros Hk. unfold sind. rewrite <- (sin_turns ((m - (a + 360 * IZR k)) * (PI / 180)) k Hk). f_equal. field. Qed.
Theorem C53_true_moon f y d : accurate_sin f -> (638 <= y <= 10 ^ 12)%Z -> (0 <= d <= 400)%Z ->
  let p := suriya_day f y d in let m := B2R (sd_MeanMoon p) in
  let apogee := 360 * IZR (sd_Uccabala (sd_ints_of p)) / 3232 + 2 / 60 in
  let equation := m - 296 / 60 * sin ((m - apogee) * (PI / 180)) in
  equation - / 9000 <= B2R (sd_TrueMoon p) <= equation + / 100000.
Proof.
  intros A Hy Hd p m apogee equation. destruct (day_range f y d A Hy Hd) as (_ & F3 & _ & B3). fold p in F3, B3. fold m in B3.
  destruct (day_parts f y d Hy ltac:(lia)) as (E0 & _ & _ & _ & E4 & _). fold p in E0, E4. destruct (NA_spec y ltac:(lia)) as (_ & Ht & _ & _).
  pose proof (Z.mod_pos_bound (Hor y + 2611) 3232 ltac:(lia)) as U. rewrite <- (U_spec y ltac:(lia)) in U.
  set (a := (sy_Uccabala (su_init y) + (d - T y))%Z).
  assert (Ha : exists k, (a = sd_Uccabala (sd_ints y d) + 3232 * k)%Z /\ (-1 <= k <= 1)%Z).
  { pose proof (day_horakhun_nonneg y d ltac:(lia) ltac:(lia)) as H0. destruct (sd_moon y d H0) as (_ & _ & _ & _ & Ud). cbv zeta in Ud.
    rewrite sd_Horakhun_eq in Ud. assert (Em : (a mod 3232 = sd_Uccabala (sd_ints y d))%Z).
    { rewrite Ud. unfold a. rewrite (U_spec y ltac:(lia)). rewrite Z.add_mod_idemp_l by lia. f_equal. lia. }
    exists (a / 3232)%Z. pose proof (Z.div_mod a 3232 ltac:(lia)) as Dm. rewrite <- Em. split; [lia|].
    assert (Ra : (-30 <= a <= 3700)%Z) by (unfold a; lia). clearbody a. clear - Ra. Z.to_euclidean_division_equations. lia. }
  destruct Ha as (k & Ek & Hk).
  pose proof (mean_uccabala_near (sy_Uccabala (su_init y)) (d - T y) ltac:(lia) ltac:(lia)) as N. fold a in N.
  assert (Ea : IZR a * 90 / 808 + 2 / 60 = apogee + 360 * IZR k) by (unfold apogee; rewrite Ek, E0, plus_IZR, mult_IZR; field).
  rewrite Ea in N. assert (Hu : -10 <= apogee + 360 * IZR k <= 1000).
  { rewrite <- Ea. assert (-30 <= IZR a <= 3700) by (split; apply IZR_le; unfold a; lia). lra. }
  destruct (true_moon_eq f (sd_MeanMoon p) m _ _ A (conj F3 eq_refl) ltac:(lra) N Hu) as (v & [F E] & B). fold (T y) in E4. rewrite E4, E.
  rewrite (sind_turns m apogee k Hk) in B. exact B.
Qed.

(** So the Sun's correction is added on both sides of 80 degrees. The equation of the centre changes
    sign there: up to 80 degrees TrueSun agrees with it, beyond it is off by twice the correction. *)
Definition traditional_sun (m : R) : R := m - 134 / 60 * sin ((m - 80) * (PI / 180)).
Lemma sun_side m t : 
  m + 134 / 60 * sin (Rabs (m - 80) * (PI / 180)) - 1 / 60 - / 9700 <= t <= m + 134 / 60 * sin (Rabs (m - 80) * (PI / 180)) + / 100000 ->
  (m <= 80 -> traditional_sun m - 1 / 60 - / 9700 <= t <= traditional_sun m + / 100000) /\
  (80 <= m -> traditional_sun m + 2 * (134 / 60 * sin ((m - 80) * (PI / 180))) - 1 / 60 - / 9700 <= t <=
    traditional_sun m + 2 * (134 / 60 * sin ((m - 80) * (PI / 180))) + / 100000).
Proof.
  intros B. unfold traditional_sun. split; intros H.
  - rewrite (Rabs_left1 (m - 80)) in B by lra. replace (- (m - 80) * (PI / 180)) with (- ((m - 80) * (PI / 180))) in B by ring. rewrite sin_neg in B. lra.
  - rewrite (Rabs_pos_eq (m - 80)) in B by lra. lra.
Qed.
Theorem C53_sun_side f y d : accurate_sin f -> (638 <= y <= 10 ^ 12)%Z -> (0 <= d <= 400)%Z ->
  let p := suriya_day f y d in let m := B2R (sd_MeanSun p) in
  (m <= 80 -> traditional_sun m - 1 / 60 - / 9700 <= B2R (sd_TrueSun p) <= traditional_sun m + / 100000) /\
  (80 <= m -> traditional_sun m + 2 * (134 / 60 * sin ((m - 80) * (PI / 180))) - 1 / 60 - / 9700 <= B2R (sd_TrueSun p) <=
     traditional_sun m + 2 * (134 / 60 * sin ((m - 80) * (PI / 180))) + / 100000).
Proof. intros A Hy Hd p m. exact (sun_side m _ (C53_true_sun f y d A Hy Hd)). Qed.
(** Day 195 of 1963, a quarter turn after the apogee: TrueSun is over four degrees too far. *)
Example C53_sun_example : B2R (sd_MeanSun (suriya_day go_sin 1963 195)) = 5986620910914765 / 35184372088832 /\
  B2R (sd_TrueSun (suriya_day go_sin 1963 195)) = 6064610590086870 / 35184372088832.
Proof.
  assert (E : forall (x : float64) m, B2SF x = B2SF (fmake m (-45)) -> (Z.abs m < 2 ^ 53)%Z -> B2R x = IZR m / 35184372088832).
  { intros x m E H. apply B2SF_inj in E. rewrite E. destruct (fmake_exact m (-45) H ltac:(lia)) as [_ ->]. bp. reflexivity. }
  split; apply E; try (vm_compute; reflexivity); vm_compute; reflexivity.
Qed.
Theorem C53_traditional_refuted : exists y d, (1900 <= y <= 2040)%Z /\ (0 <= d <= 354)%Z /\
  traditional_sun (B2R (sd_MeanSun (suriya_day go_sin y d))) + 4 < B2R (sd_TrueSun (suriya_day go_sin y d)).
Proof.
  exists 1963%Z, 195%Z. split; [lia|]. split; [lia|]. destruct C53_sun_example as [Em Et].
  pose proof (C53_sun_side go_sin 1963 195 go_sin_accurate_sin ltac:(lia) ltac:(lia)) as [_ H]. cbv zeta in H. rewrite Em, Et in H. rewrite Em, Et.
  specialize (H ltac:(lra)). unfold traditional_sun in *. lra.
Qed.
(** Asalha of 1963: the mean Moon, the apogee and the true Moon as in suriya_test.go (TrueMoon 247.6955). *)
Example C53_true_moon_example :
  sd_Uccabala (sd_ints 1963 103) = 1860%Z /\
  B2SF (sd_TrueMoon (suriya_day go_sin 1963 103)) = B2SF (fdiv (f_of_int 2476955) (f_of_int 10000)).
Proof. vm_compute. auto. Qed.
