(** C36, C38: the positions of the Sun and the Moon computed by SuriyaDay.Init. *)
From Coq Require Import ZArith Reals Lia Lra Bool Psatz List.
From Flocq Require Import Core BinarySingleNaN.
From Verif Require Import GoInt GoFloat SuriyaYear SuriyaDay Machine GoSin P_Year P_Float P_Machine P_Day P_Degree P_Approx P_Positions P_Sin.
Import ListNotations.
Open Scope R_scope.

(** ** C36: the mean Sun *)
(** Exact mean longitude of the Sun at day count [h], in degrees from New Year of year [y]: a
    revolution in 292207/800 days, the first one beginning 373/800 of a day into the era. *)
Definition longitude (y h : Z) : R := 360 * (IZR (800 * h - 373) / 292207 - IZR (y - 638)).

Lemma longitude_eq y d : (638 <= y)%Z ->
  longitude y (sd_Horakhun (sd_ints y d)) = 360 * IZR (800 * (d - T y) + K y) / 292207.
Proof.
  intros Hy. destruct (HK_spec y Hy) as (E & _ & _). unfold longitude. rewrite sd_Horakhun_eq.
  replace (800 * (d - T y) + K y)%Z with (800 * (Hor y + (d - T y)) - 373 - 292207 * (y - 638))%Z by lia.
  rewrite (minus_IZR (800 * (Hor y + (d - T y)) - 373)), (mult_IZR 292207). field.
Qed.
Lemma day_parts sin y d : (638 <= y <= 10 ^ 12)%Z -> (Z.abs d <= 10 ^ 12)%Z ->
  sd_ints_of (suriya_day sin y d) = sd_ints y d /\
  sd_MeanSun (suriya_day sin y d) = mean_sun (d - T y) (K y) /\
  sd_TrueSun (suriya_day sin y d) = true_sun sin (sd_MeanSun (suriya_day sin y d)) /\
  sd_MeanMoon (suriya_day sin y d) = mean_moon (sd_TrueSun (suriya_day sin y d)) (sd_Avoman (sd_ints y d)) (sd_Tithi (sd_ints y d)) /\
  sd_TrueMoon (suriya_day sin y d) = true_moon sin (sd_MeanMoon (suriya_day sin y d)) (mean_uccabala (sy_Uccabala (su_init y)) (d - T y)) /\
  sd_Raek (suriya_day sin y d) = raek (sd_TrueMoon (suriya_day sin y d)).
Proof.
  intros Hy Hd. destruct (NA_spec y ltac:(lia)) as (_ & Ht & _ & _).
  assert (E : isub d (sy_Tithi (su_init y)) = (d - T y)%Z) by (fold (T y); generalize dependent (T y); intros t Ht; unwrap; reflexivity).
  unfold suriya_day. rewrite (sd_ints_machine y d) by lia. rewrite (su_init_machine y) by lia. cbv zeta. rewrite E.
  cbn [sd_ints_of sd_MeanSun sd_TrueSun sd_MeanMoon sd_TrueMoon sd_Raek]. repeat split.
Qed.

(** MeanSun is the longitude less three minutes, at most a minute and a ten-thousandth of a degree
    too low, as long as the longitude is not negative; that is from New Year's day on. *)
Theorem C36_after_new_year sin y d : (638 <= y <= 10 ^ 12)%Z -> (0 <= d <= 900000)%Z ->
  let p := suriya_day sin y d in
  let L := longitude y (sd_Horakhun (sd_ints_of p)) in
  0 <= L \/ (sy_Tithi (su_init y) <= d)%Z ->
  is_finite (sd_MeanSun p) = true /\ L - 3 / 60 - 1 / 60 - 1 / 10000 <= B2R (sd_MeanSun p) <= L - 3 / 60 + / 100000000.
Proof.
  intros Hy Hd p L HL. fold (T y) in HL. destruct (NA_spec y ltac:(lia)) as (_ & Ht & _ & _). destruct (HK_spec y ltac:(lia)) as (_ & Hk & _).
  destruct (day_parts sin y d Hy ltac:(lia)) as (E0 & E1 & _). fold p in E0, E1.
  assert (EL : L = 360 * IZR (800 * (d - T y) + K y) / 292207) by (unfold L; rewrite E0, longitude_eq by lia; reflexivity).
  assert (A0 : (0 <= 800 * (d - T y) + K y)%Z) by (destruct HL as [HL|HL]; [apply le_IZR; lra|lia]).
  destruct (Z.eq_dec (800 * (d - T y) + K y) 0) as [Z0|N0].
  - destruct (mean_sun_zero (d - T y) (K y) ltac:(lia) ltac:(lia) Z0) as (v & [F E] & B). rewrite E1, E. split; [exact F|]. rewrite EL, Z0. lra.
  - destruct (mean_sun_pos (d - T y) (K y) ltac:(lia) ltac:(lia) ltac:(lia)) as (v & [F E] & B). cbv zeta in B.
    rewrite E1, E. split; [exact F|]. rewrite EL. lra.
Qed.
(** When the longitude is negative, MeanSun is 30 degrees lower still. *)
Theorem C36_before_new_year sin y d : (638 <= y <= 10 ^ 12)%Z -> (0 <= d <= 900000)%Z ->
  let p := suriya_day sin y d in
  let L := longitude y (sd_Horakhun (sd_ints_of p)) in
  L < 0 ->
  is_finite (sd_MeanSun p) = true /\ L - 30 - 3 / 60 - 1 / 60 - 1 / 10000 <= B2R (sd_MeanSun p) <= L - 30 - 3 / 60 + / 100000000.
Proof.
  intros Hy Hd p L HL. destruct (NA_spec y ltac:(lia)) as (_ & Ht & _ & _). destruct (HK_spec y ltac:(lia)) as (_ & Hk & _).
  destruct (day_parts sin y d Hy ltac:(lia)) as (E0 & E1 & _). fold p in E0, E1.
  assert (EL : L = 360 * IZR (800 * (d - T y) + K y) / 292207) by (unfold L; rewrite E0, longitude_eq by lia; reflexivity).
  assert (A0 : (800 * (d - T y) + K y < 0)%Z) by (apply lt_IZR; lra).
  destruct (mean_sun_neg (d - T y) (K y) ltac:(lia) ltac:(lia) ltac:(lia)) as (v & [F E] & B). cbv zeta in B.
  rewrite E1, E. split; [exact F|]. rewrite EL. lra.
Qed.
(** 1963: New Year is day 23; on day 22 the mean Sun is at -30.3667 degrees, on day 103 (Asalha) at
    79.4666 (suriya_day.go:99). *)
Example C36_example :
  sy_Tithi (su_init 1963) = 23%Z /\
  map (fun d => B2SF (sd_MeanSun (suriya_day go_sin 1963 d))) [22; 23; 103]%Z =
  map (fun n => B2SF (fdiv (f_of_int n) (f_of_int 10000))) [-303667; 6166; 794666]%Z.
Proof. vm_compute. auto. Qed.

(** ** C38: the other positions, for every sine routine bounded by 1 + 10^-6 on [-100, 100] *)

(** Go's is. *)
Theorem C38_go_sin (x : float64) : is_finite x = true -> Rabs (B2R x) <= 100 ->
  is_finite (go_sin x) = true /\ Rabs (B2R (go_sin x)) <= 1 + / 1000000.
Proof. apply go_sin_bounded. Qed.
Example C38_go_sin_example : B2SF (go_sin (fmake 1 0)) = B2SF (fmake 7579296827247854 (-53)).
Proof. vm_compute. reflexivity. Qed.

(** On every day of every year: the true positions are near the mean ones, the mean Moon is the
    true Sun plus the elongation (mod 360), and Raek, which should be in 1..28, is between -4 and 28.4. *)
Theorem C38_positions sin y d : bounded_sin sin -> (638 <= y <= 10 ^ 12)%Z -> (0 <= d <= 400)%Z ->
  let p := suriya_day sin y d in
  let i := sd_ints_of p in
  (is_finite (sd_MeanSun p) && is_finite (sd_TrueSun p) && is_finite (sd_MeanMoon p) && is_finite (sd_TrueMoon p) && is_finite (sd_Raek p))%bool = true /\
  -59 <= B2R (sd_MeanSun p) <= 396 /\
  B2R (sd_MeanSun p) - 135 / 60 - / 9999 <= B2R (sd_TrueSun p) <= B2R (sd_MeanSun p) + 134 / 60 + / 1000000000 /\
  (exists k, (0 <= k <= 4)%Z /\
     Rabs (B2R (sd_MeanMoon p) + 360 * IZR k -
       (B2R (sd_TrueSun p) + IZR (sd_Avoman i + sd_Avoman i / 25) / 60 + 12 * IZR (sd_Tithi i) - 6666 / 10000)) <= / 1000000000 /\
     B2R (sd_MeanMoon p) <= 360 /\ (k <> 0%Z -> 0 <= B2R (sd_MeanMoon p))) /\
  Rabs (B2R (sd_TrueMoon p) - B2R (sd_MeanMoon p)) <= 297 / 60 /\
  Rabs (B2R (sd_Raek p) - (B2R (sd_TrueMoon p) / (133333 / 10000) + 1)) <= / 1000000000 /\
  - 42 / 10 <= B2R (sd_Raek p) <= 284 / 10.
Proof.
  intros S Hy Hd p i. destruct (NA_spec y ltac:(lia)) as (_ & Ht & _ & _). destruct (HK_spec y ltac:(lia)) as (_ & Hk & Hh).
  destruct (day_parts sin y d Hy ltac:(lia)) as (E0 & E1 & E2 & E3 & E4 & E5). fold p in E0, E1, E2, E3, E4, E5. unfold i. rewrite E0.
  assert (MS : is_finite (sd_MeanSun p) = true /\ -59 <= B2R (sd_MeanSun p) <= 396).
  { rewrite E1. set (a := (800 * (d - T y) + K y)%Z). assert (Ha : (-23200 <= a <= 320800)%Z) by (unfold a; lia).
    assert (Har : -23200 <= IZR a <= 320800) by (split; apply IZR_le; lia).
    destruct (Z_lt_le_dec a 0) as [N|N]; [|destruct (Z.eq_dec a 0) as [Z0|N0]].
    - destruct (mean_sun_neg (d - T y) (K y) ltac:(lia) ltac:(lia) ltac:(unfold a in *; lia)) as (v & [F E] & B). cbv zeta in B. fold a in B. rewrite E. split; [exact F|lra].
    - destruct (mean_sun_zero (d - T y) (K y) ltac:(lia) ltac:(lia) Z0) as (v & [F E] & B). rewrite E. split; [exact F|lra].
    - destruct (mean_sun_pos (d - T y) (K y) ltac:(lia) ltac:(lia) ltac:(unfold a in *; lia)) as (v & [F E] & B). cbv zeta in B. fold a in B. rewrite E. split; [exact F|lra]. }
  destruct MS as [F1 B1].
  destruct (true_sun_near sin (sd_MeanSun p) _ S (conj F1 eq_refl) ltac:(lra)) as (ts & [F2 X2] & B2). rewrite <- E2 in F2, X2.
  assert (Hho : (0 <= sd_Horakhun (sd_ints y d))%Z \/ (sd_Horakhun (sd_ints y d) < 0)%Z) by lia.
  assert (Ints : (0 <= sd_Avoman (sd_ints y d) <= 691)%Z /\ (0 <= sd_Tithi (sd_ints y d) <= 29)%Z).
  { destruct Hho as [H0|H0]; [destruct (sd_moon y d H0) as (_ & A & B & _); lia|]. exfalso. rewrite sd_Horakhun_eq in H0.
    assert (Y : y = 638%Z \/ (639 <= y)%Z) by lia. destruct Y as [Y|Ny]; [rewrite Y in H0|].
    - assert (E638 : Hor 638 = 1%Z /\ T 638 = 1%Z) by (vm_compute; auto). lia.
    - destruct (HK_spec y ltac:(lia)) as (EH & _ & _). lia. }
  destruct Ints as [IA IT].
  destruct (mean_moon_near (sd_TrueSun p) _ _ _ (conj F2 eq_refl) ltac:(lra) IA IT) as (mm & k & [F3 X3] & Hk3 & A3 & U3 & L3). rewrite <- E3 in F3, X3.
  assert (Av : 0 <= IZR (sd_Avoman (sd_ints y d) + sd_Avoman (sd_ints y d) / 25)).
  { apply IZR_le. assert (0 <= sd_Avoman (sd_ints y d) / 25)%Z by (apply Z.div_pos; lia). lia. }
  assert (Ti : 0 <= IZR (sd_Tithi (sd_ints y d))) by (apply IZR_le; lia).
  assert (B3 : -63 <= mm <= 360).
  { split; [|exact U3]. destruct (Z.eq_dec k 0) as [->|N]; [|specialize (L3 N); lra]. apply Rabs_le_inv in A3. lra. }
  assert (U : (0 <= sy_Uccabala (su_init y) <= 3231)%Z) by (rewrite U_spec by lia; pose proof (Z.mod_pos_bound (Hor y + 2611) 3232 ltac:(lia)); lia).
  assert (Hu : -10 <= IZR (sy_Uccabala (su_init y) + (d - T y)) * 90 / 808 + 2 / 60 <= 1000).
  { assert (-30 <= IZR (sy_Uccabala (su_init y) + (d - T y)) <= 3700) by (split; apply IZR_le; lia). lra. }
  destruct (true_moon_near sin (sd_MeanMoon p) _ _ _ S (conj F3 eq_refl) ltac:(lra) (mean_uccabala_near (sy_Uccabala (su_init y)) (d - T y) U ltac:(lia)) Hu) as (tm & [F4 X4] & B4). rewrite <- E4 in F4, X4.
  destruct (raek_near (sd_TrueMoon p) _ (conj F4 eq_refl) ltac:(lra)) as (rk & [F5 X5] & B5). rewrite <- E5 in F5, X5.
  rewrite F1, F2, F3, F4, F5. split; [reflexivity|]. split; [exact B1|]. rewrite X2. split; [exact B2|]. rewrite X3.
  split; [exists k; rewrite <- X2; auto|]. rewrite X4. split; [apply Rabs_le; rewrite X3 in B4; lra|]. rewrite X5, <- X4. split; [exact B5|].
  apply Rabs_le_inv in B5. rewrite X4 in B5. rewrite X3 in B4. lra.
Qed.
(** Raek is out of its range 1..28 at both ends, and TrueSun exceeds 360. *)
Theorem C38_raek_range_refuted :
  (exists y d, (1900 <= y <= 2040)%Z /\ (0 <= d <= 385)%Z /\ B2R (sd_Raek (suriya_day go_sin y d)) < 0) /\
  (exists y d, (1900 <= y <= 2040)%Z /\ (0 <= d <= 385)%Z /\ 28 < B2R (sd_Raek (suriya_day go_sin y d))).
Proof.
  assert (Lt : forall a b ra rb, fin a ra -> fin b rb -> Bltb a b = true -> ra < rb).
  { intros a b ra rb [Fa Ea] [Fb Eb] H. rewrite Bltb_correct, Ea, Eb in H by assumption. destruct (Rlt_bool_spec ra rb); [assumption|discriminate]. }
  split; [exists 2007%Z, 0%Z|exists 1942%Z, 191%Z]; (split; [lia|]); (split; [lia|]).
  - apply (Lt (sd_Raek (suriya_day go_sin 2007 0)) (f_of_int 0)); [split; [vm_compute; reflexivity|reflexivity]|apply f_of_int_fin; lia|vm_compute; reflexivity].
  - apply (Lt (f_of_int 28) (sd_Raek (suriya_day go_sin 1942 191))); [apply f_of_int_fin; lia|split; [vm_compute; reflexivity|reflexivity]|vm_compute; reflexivity].
Qed.
Example C38_example :
  map (fun p => B2SF (sd_TrueSun p)) [suriya_day go_sin 1963 103; suriya_day go_sin 1904 384] =
  map (fun n => B2SF (fdiv (f_of_int n) (f_of_int 10000))) [794832; 3774000]%Z.
Proof. vm_compute. reflexivity. Qed.
