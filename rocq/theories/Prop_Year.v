(** Theorems C01-C14: the year record and the year types. *)
From Coq Require Import ZArith Lia Bool ZifyBool.
From Verif Require Import GoInt GoFloat GoTime SuriyaYear SuriyaDay Machine Helpers Spec.
From Verif Require Import P_Time P_Year P_Counts P_Kattika P_Misc P_Machine.
Open Scope Z_scope.
Ltac Zify.zify_post_hook ::= Z.div_mod_to_equations.

Ltac fy :=
  repeat match goal with
  | |- context [sy_Horakhun (su_init ?y)] => change (sy_Horakhun (su_init y)) with (Hor y) in *
  | |- context [sy_Kammacubala (su_init ?y)] => change (sy_Kammacubala (su_init y)) with (K y) in *
  | |- context [sy_Avoman (su_init ?y)] => change (sy_Avoman (su_init y)) with (Av y) in *
  | |- context [sy_Tithi (su_init ?y)] => change (sy_Tithi (su_init y)) with (T y) in *
  | |- context [sy_Masaken (su_init ?y)] => change (sy_Masaken (su_init y)) with (M y) in *
  end.

(** * C01 Year values stay in their ranges *)
Theorem C01_year_ranges : forall y, 638 <= y ->
  let su := su_init y in
  sy_Year su = y /\ sy_BE_Year su = y + 543 /\ sy_CS_Year su = y - 638 /\
  1 <= sy_Horakhun su /\ 1 <= sy_Kammacubala su <= 800 /\ 0 <= sy_Uccabala su < 3232 /\
  0 <= sy_Avoman su < 692 /\ 0 <= sy_Masaken su /\ 0 <= sy_Tithi su <= 29.
Proof.
  intros y Hy. cbv zeta. pose proof (HK_spec y Hy). pose proof (NA_spec y Hy).
  rewrite (U_spec y Hy). fy.
  split; [reflexivity|]. split; [reflexivity|]. split; [reflexivity|]. lia.
Qed.

(** Just before the era Kammacubala, Avoman and Tithi leave their ranges. *)
Theorem C01_before_era_refuted : exists y, y < 638 /\
  800 < sy_Kammacubala (su_init y) /\ sy_Avoman (su_init y) < 0 /\ sy_Tithi (su_init y) < 0.
Proof. exists 637. vm_compute. repeat split; congruence. Qed.

Example C01_example : su_init 1963 = mkSuriyaYear 1963 2506 1325 483969 552 1780 61 16388 23.
Proof. reflexivity. Qed.

(** * C02 Horakhun and Kammacubala are the exact whole days and 800ths of the era *)
Theorem C02_horakhun_exact : forall y, 638 <= y ->
  forall h k, (800 * h - k = 292207 * (y - 638) + 373 /\ 1 <= k <= 800) <->
    (h = sy_Horakhun (su_init y) /\ k = sy_Kammacubala (su_init y)).
Proof. intros y Hy h k. pose proof (HK_spec y Hy). fy. lia. Qed.
Example C02_example : 800 * 483969 - 552 = 292207 * (1963 - 638) + 373. Proof. reflexivity. Qed.

(** * C03 Solar leap rule *)
Theorem C03_leap_rule : forall y, 638 <= y ->
  sy_Horakhun (su_init (y + 1)) - sy_Horakhun (su_init y)
  = (if is_suriya_leap (su_init y) then 366 else 365).
Proof.
  intros y Hy. pose proof (proj1 (H_step y Hy)) as Hs. fy. unfold lp in Hs.
  destruct (is_suriya_leap (su_init y)); lia.
Qed.
Theorem C03_before_era_refuted : exists y, y < 638 /\
  sy_Horakhun (su_init (y + 1)) - sy_Horakhun (su_init y) = 364.
Proof. exists 637. split; reflexivity. Qed.
Example C03_example : is_suriya_leap (su_init 1963) = false /\ is_suriya_leap (su_init 1964) = false
  /\ is_suriya_leap (su_init 1965) = true.
Proof. repeat split; vm_compute; reflexivity. Qed.

(** * C04 800-year era cycle *)
Theorem C04_era_cycle : forall y k, 638 <= y -> 0 <= k ->
  sy_Horakhun (su_init (y + 800 * k)) = sy_Horakhun (su_init y) + 292207 * k /\
  sy_Kammacubala (su_init (y + 800 * k)) = sy_Kammacubala (su_init y) /\
  is_suriya_leap (su_init (y + 800 * k)) = is_suriya_leap (su_init y).
Proof.
  intros y k Hy Hk. pose proof (HK_spec y Hy). pose proof (HK_spec (y + 800 * k) ltac:(lia)).
  unfold is_suriya_leap. fy.
  assert (E : K (y + 800 * k) = K y) by lia.
  rewrite E. repeat split; lia.
Qed.
Example C04_example : sy_Horakhun (su_init 2763) = 483969 + 292207. Proof. reflexivity. Qed.

(** * C05 Masaken, Tithi and Avoman are the exact lunar-day count *)
Theorem C05_lunar_count_exact : forall y, 638 <= y ->
  let su := su_init y in
  tithis_elapsed (sy_Horakhun su) = 30 * sy_Masaken su + sy_Tithi su /\
  moon_age (sy_Horakhun su) = sy_Tithi su /\
  forall m t a, (692 * (30 * m + t) + a = 703 * sy_Horakhun su + 650 /\ 0 <= t < 30 /\ 0 <= a < 692) <->
    (m = sy_Masaken su /\ t = sy_Tithi su /\ a = sy_Avoman su).
Proof.
  intros y Hy. cbv zeta. pose proof (NA_spec y Hy) as (E & HT & HA & HM).
  fy. unfold moon_age, tithis_elapsed.
  assert (Hq : (703 * Hor y + 650) / 692 = 30 * M y + T y)
    by (symmetry; apply (Z.div_unique_pos _ _ _ (Av y)); lia).
  rewrite Hq. split; [reflexivity|]. split; [lia|]. intros m t a. split; [|lia]. intros (E' & Ht & Ha).
  assert (30 * m + t = 30 * M y + T y) by lia. lia.
Qed.
Example C05_example : tithis_elapsed 483969 = 30 * 16388 + 23. Proof. reflexivity. Qed.

(** * C06 int64/float64 arithmetic computes the exact integer values *)
Theorem C06_machine_year_exact : forall y, Z.abs y <= 10 ^ 12 -> su_init_m y = su_init y.
Proof. exact su_init_machine. Qed.
Theorem C06_machine_day_exact : forall y d, Z.abs y <= 10 ^ 12 -> Z.abs d <= 10 ^ 12 ->
  sd_ints_m y d = sd_ints y d.
Proof. exact sd_ints_machine. Qed.
Theorem C06_machine_cycle_exact : forall y, Z.abs y <= 10 ^ 12 ->
  adhikavara_cycle_pos_m (su_init y) = adhikavara_cycle_pos (su_init y) /\
  adhikamasa_cycle_pos_m (su_init y) = adhikamasa_cycle_pos (su_init y).
Proof. intros y Hy. apply cycle_pos_machine. exact Hy. Qed.
Theorem C06_overflow_refuted : exists y, Z.abs y <= 10 ^ 14 /\ sy_Horakhun (su_init_m y) < 0 < sy_Horakhun (su_init y) /\
  sy_Horakhun (su_init_m y) = -8448080092369973 /\ sy_Kammacubala (su_init_m y) = 909.
Proof. exists 40000000000000. vm_compute. repeat split; congruence. Qed.
Example C06_example : su_init_m 2500000 = su_init 2500000 /\ sy_Tithi (su_init_m 2500000) = 18.
Proof. vm_compute. split; reflexivity. Qed.

(** * C07 Adhikamasa years are 2 or 3 years apart and DeltaAdhikamasa is exact *)
Theorem C07_adhikamasa_spacing : forall y1 y2, 638 <= y1 ->
  let am := fun y => is_adhikamasa (su_init y) in
  am y1 = true -> next_after am y1 y2 -> y2 - y1 = 2 \/ y2 - y1 = 3.
Proof. intros y1 y2 Hy am Ha Hn. pose proof (am_next y1 y2 Hy Ha Hn). lia. Qed.
Theorem C07_adhikamasa_recurs : forall y1, 638 <= y1 ->
  exists y2, next_after (fun y => is_adhikamasa (su_init y)) y1 y2 /\ y2 <= y1 + 3.
Proof. exact am_next_exists. Qed.
Theorem C07_delta_adhikamasa_exact : forall y, 639 <= y ->
  exists d, delta_adhikamasa (su_init y) = Some d /\ 1 <= d <= 3 /\
            latest_before (fun z => is_adhikamasa (su_init z)) y (y - d).
Proof.
  intros y Hy. destruct (Z_lt_ge_dec y 641) as [L|G].
  - assert (y = 639 \/ y = 640) as [-> | ->] by lia.
    + exists 1. repeat split; try (vm_compute; congruence). intros z Hz. lia.
    + exists 2. repeat split; try (vm_compute; congruence). intros z Hz. replace z with 639 by lia. vm_compute. reflexivity.
  - destruct (delta_am y ltac:(lia)) as (d & Hd & E & Hl). exists d. auto.
Qed.
(** In the first year of the era there is none to be found. *)
Theorem C07_first_year_refuted : delta_adhikamasa (su_init 638) = Some (-1).
Proof. vm_compute. reflexivity. Qed.
Example C07_example : is_adhikamasa (su_init 2010) = true /\ is_adhikamasa (su_init 2012) = true /\
  is_adhikamasa (su_init 2015) = true /\ delta_adhikamasa (su_init 2015) = Some 3.
Proof. vm_compute. repeat split; reflexivity. Qed.

(** * C08 Intercalary months track the lunar month count for ever *)
Theorem C08_months_tracked : forall y n, 638 <= y ->
  12 * Z.of_nat n + count_years (fun z => is_adhikamasa (su_init z)) y n =
  (sy_Masaken (su_init (y + Z.of_nat n)) - one_if (sy_Tithi (su_init (y + Z.of_nat n)) <=? 5))
  - (sy_Masaken (su_init y) - one_if (sy_Tithi (su_init y) <=? 5)).
Proof. intros y n Hy. pose proof (am_count y n Hy) as E. fy. unfold am in E. rewrite E. lia. Qed.
Theorem C08_metonic_count : forall y, 638 <= y ->
  6 <= count_years (fun z => is_adhikamasa (su_init z)) y 19 <= 8.
Proof. exact am_count_19. Qed.
(** "Seven in nineteen" is not a law of this calendar. *)
Theorem C08_always_seven_refuted :
  count_years (fun z => is_adhikamasa (su_init z)) 660 19 = 8 /\
  count_years (fun z => is_adhikamasa (su_init z)) 679 19 = 6 /\
  count_years (fun z => is_adhikamasa (su_init z)) 2000 19 = 7.
Proof. vm_compute. repeat split. Qed.
Example C08_example : 12 * 10 + count_years (fun z => is_adhikamasa (su_init z)) 2000 10 = 16965 - 16842
  /\ sy_Masaken (su_init 2010) - sy_Masaken (su_init 2000) = 124.
Proof. vm_compute. split; reflexivity. Qed.

(** * C09 A year is common, adhikavara or adhikamasa, never both *)
Theorem C09_year_types_exclusive : forall cfg y,
  (UseExceptions cfg = false \/ forall z, AdhikavaraExceptions cfg z = shipped_exceptions z) ->
  ~ (is_adhikamasa (su_init y) = true /\ is_adhikavara cfg (su_init y) = true).
Proof.
  intros cfg y Hs [Ha Hv]. pose proof (am_av_exclusive cfg y Hs) as Hx. unfold am, avc in Hx.
  rewrite Ha, Hv in Hx. discriminate.
Qed.
Theorem C09_year_length : forall cfg y,
  let su := su_init y in
  (year_length cfg su = 384 <-> is_adhikamasa su = true) /\
  (year_length cfg su = 355 <-> is_adhikamasa su = false /\ is_adhikavara cfg su = true) /\
  (year_length cfg su = 354 <-> is_adhikamasa su = false /\ is_adhikavara cfg su = false).
Proof.
  intros cfg y. cbv zeta. unfold year_length.
  destruct (is_adhikamasa (su_init y)), (is_adhikavara cfg (su_init y)); intuition (discriminate || lia).
Qed.
(** An edited exceptions table can make a year both; YearLength then says adhikamasa. *)
Theorem C09_user_table_refuted : exists cfg y,
  is_adhikamasa (su_init y) = true /\ is_adhikavara cfg (su_init y) = true /\ year_length cfg (su_init y) = 384.
Proof. exists (mkConfig true (fun y => if y =? 2015 then Some true else None)), 2015. vm_compute. auto. Qed.
Example C09_example : year_length cfg_default (su_init 2014) = 354 /\ year_length cfg_default (su_init 2015) = 384
  /\ year_length cfg_default (su_init 2016) = 355.
Proof. vm_compute. auto. Qed.

(** * C10 Would_Be_Adhikavara is the missing-tithi rule, except at the 126 boundary *)
Theorem C10_missing_tithi : forall y, 638 <= y ->
  let h := sy_Horakhun (su_init y) in let h' := sy_Horakhun (su_init (y + 1)) in
  let gained := (tithis_elapsed h' - tithis_elapsed h) - (h' - h) in
  (gained = 5 \/ gained = 6) /\
  (would_be_adhikavara (su_init y) = true <->
   gained = 5 \/ (is_suriya_leap (su_init y) = true /\ sy_Avoman (su_init y) = 126)) /\
  (is_suriya_leap (su_init y) = true /\ sy_Avoman (su_init y) = 126 -> gained = 6).
Proof.
  intros y Hy. cbv zeta.
  destruct (C05_lunar_count_exact y Hy) as (E1 & _). destruct (C05_lunar_count_exact (y + 1) ltac:(lia)) as (E2 & _).
  cbv zeta in E1, E2. rewrite E1, E2.
  destruct (NA_gain y Hy) as [HN _]. destruct (H_step y Hy) as [HH _].
  destruct (wv_gain y Hy) as [Hw Hx].
  assert (He : edge y = true <-> is_suriya_leap (su_init y) = true /\ sy_Avoman (su_init y) = 126).
  { unfold edge. rewrite leap_lp. fy. lia. }
  rewrite <- He. fold (wv y). rewrite Hw. fy. unfold b2z in *.
  destruct (gain5 y), (edge y); cbn [andb orb] in *; try discriminate; intuition (discriminate || lia).
Qed.
(** "Both <= and < seem to work" (suriya_year.go:122) is false, first in 3577. *)
Theorem C10_both_work_refuted :
  is_suriya_leap (su_init 3577) = true /\ sy_Avoman (su_init 3577) = 126 /\
  forall y, 638 <= y < 3577 -> ~ (is_suriya_leap (su_init y) = true /\ sy_Avoman (su_init y) = 126).
Proof.
  split; [vm_compute; reflexivity|]. split; [vm_compute; reflexivity|].
  intros y Hy He. destruct (Z_lt_ge_dec y 640) as [L|G].
  { assert (y = 638 \/ y = 639) as [-> | ->] by lia; destruct He as [_ He]; vm_compute in He; discriminate. }
  assert (E : edge y = true).
  { unfold edge. rewrite leap_lp in He. change (sy_Avoman (su_init y)) with (Av y) in He. lia. }
  pose proof (no_edge y ltac:(lia) E). lia.
Qed.
Example C10_example : would_be_adhikavara (su_init 2015) = true /\ would_be_adhikavara (su_init 2014) = false.
Proof. vm_compute. auto. Qed.

(** * C11 A suppressed adhikavara is carried to the next year, none is lost or doubled *)
Theorem C11_carry : forall y, 639 <= y ->
  is_adhikavara_pure (su_init y) = true <->
    (is_adhikamasa (su_init y) = false /\ would_be_adhikavara (su_init y) = true) \/
    (is_adhikamasa (su_init (y - 1)) = true /\ would_be_adhikavara (su_init (y - 1)) = true).
Proof. exact av_cases. Qed.
Definition suppressed (y : Z) : bool := is_adhikamasa (su_init y) && would_be_adhikavara (su_init y).
Definition boundary (y : Z) : bool := is_suriya_leap (su_init y) && (sy_Avoman (su_init y) =? 126).
(** Adhikavara years in a span = would-be years in it, plus one carried in, minus one
    carried out, minus the years directly after an adhikamasa boundary year (where a
    carried day and an own day coincide). *)
Theorem C11_balance : forall y n, 639 <= y ->
  count_years (fun z => is_adhikavara_pure (su_init z)) y n
  + one_if (suppressed (y + Z.of_nat n - 1))
  + count_years (fun z => suppressed (z - 1) && boundary (z - 1)) y n
  = count_years (fun z => would_be_adhikavara (su_init z)) y n + one_if (suppressed (y - 1)).
Proof.
  intros y n Hy. pose proof (av_count y n Hy) as E. unfold av, wv in E.
  rewrite (count_years_ext (fun z => suppressed (z - 1) && boundary (z - 1)) lost).
  - unfold ca, has_carried_adhikavara in E. rewrite !sy_Year_init in E.
    unfold suppressed. cbv zeta in E. lia.
  - intros z Hz. rewrite lost_edge by lia. unfold suppressed, boundary.
    replace (is_suriya_leap (su_init (z - 1)) && (sy_Avoman (su_init (z - 1)) =? 126)) with (edge (z - 1))
      by (unfold edge; rewrite leap_lp; reflexivity).
    destruct (wv_gain (z - 1) ltac:(lia)) as [Hw _]. unfold wv in Hw. rewrite Hw. fold (am (z - 1)).
    destruct (am (z - 1)), (gain5 (z - 1)), (edge (z - 1)); reflexivity.
Qed.
Theorem C11_spacing : forall y1 y2, 640 <= y1 ->
  let av := fun y => is_adhikavara_pure (su_init y) in
  av y1 = true -> next_after av y1 y2 ->
  y2 - y1 <= 7 /\ y2 - y1 <> 3 /\ (y2 - y1 <= 2 -> boundary y1 = true \/ boundary (y1 - 1) = true).
Proof.
  intros y1 y2 Hy av Ha Hn. pose proof (av_gap y1 y2 Hy Ha Hn) as Hg.
  unfold boundary. rewrite !leap_lp. exact Hg.
Qed.
Example C11_example : suppressed 2004 = true /\ is_adhikavara_pure (su_init 2005) = true /\
  is_adhikavara_pure (su_init 2004) = false /\ would_be_adhikavara (su_init 2005) = false.
Proof. vm_compute. auto. Qed.

(** * C12 DeltaAdhikavara is exact and never -1 *)
Lemma av_early cfg z : (UseExceptions cfg = false \/ forall z, AdhikavaraExceptions cfg z = shipped_exceptions z) -> z < 1994 ->
  is_adhikavara cfg (su_init z) = is_adhikavara_pure (su_init z).
Proof.
  intros H Hz. unfold is_adhikavara. destruct H as [-> | H]; [reflexivity|]. rewrite H. change (sy_Year (su_init z)) with z.
  unfold shipped_exceptions. destruct (z =? 1994) eqn:E; [lia|]. destruct (z =? 1997) eqn:F; [lia|]. destruct (UseExceptions cfg); reflexivity.
Qed.
Theorem C12_delta_adhikavara_exact : forall cfg y, 638 <= y ->
  (UseExceptions cfg = false \/ forall z, AdhikavaraExceptions cfg z = shipped_exceptions z) ->
  exists d, delta_adhikavara cfg (su_init y) = Some d /\ 1 <= d <= 8 /\
    (UseExceptions cfg = false -> d <= 7) /\
    latest_before (fun z => is_adhikavara cfg (su_init z)) y (y - d).
Proof.
  intros cfg y Hy Hs. destruct (Z_lt_ge_dec y 645) as [L|G].
  { assert (exists d, 1 <= d <= 5 /\ latest_before (fun z => is_adhikavara cfg (su_init z)) y (y - d)) as (d & Hd & Hl).
    { exists (if y <=? 642 then y - 637 else y - 642).
      assert (V : forall z, z < 645 -> is_adhikavara cfg (su_init z) = is_adhikavara_pure (su_init z)) by (intros z Hz; apply av_early; [exact Hs|lia]).
      destruct (y <=? 642) eqn:E; (split; [lia|]); (split; [lia|]); split.
      - replace (y - (y - 637)) with 637 by lia. rewrite V by lia. vm_compute. reflexivity.
      - intros z Hz. rewrite V by lia. assert (z = 638 \/ z = 639 \/ z = 640 \/ z = 641) as [-> | [-> | [-> | ->]]] by lia; vm_compute; reflexivity.
      - replace (y - (y - 642)) with 642 by lia. rewrite V by lia. vm_compute. reflexivity.
      - intros z Hz. rewrite V by lia. assert (z = 643 \/ z = 644) as [-> | ->] by lia; vm_compute; reflexivity. }
    exists d. split; [apply delta_av_gen; [lia|exact Hl]|]. repeat split; try lia; apply Hl. }
  destruct (av_latest_shipped cfg y Hs ltac:(lia)) as (d & Hd & H7 & Hl).
  exists d. split; [apply delta_av_gen; [lia|exact Hl]|]. auto.
Qed.
Example C12_example : delta_adhikavara cfg_default (su_init 2016) = Some 7 /\
  delta_adhikavara cfg_exceptions (su_init 1997) = Some 8.
Proof. vm_compute. auto. Qed.

(** * C13 Cycle positions *)
Theorem C13_cycle_positions : forall y,
  1 <= adhikavara_cycle_pos (su_init y) <= 57 /\ 1 <= adhikamasa_cycle_pos (su_init y) <= 19 /\
  (1414 <= y -> (adhikavara_cycle_pos (su_init y) - 1) = (y - 1984) mod 57) /\
  (1794 <= y -> (adhikamasa_cycle_pos (su_init y) - 1) = (y - 1984) mod 19).
Proof. intros y. pose proof (cycle_pos_57 y). pose proof (cycle_pos_19 y). lia. Qed.
(** Before that the positions run backwards. *)
Theorem C13_backwards_refuted : forall y,
  (y <= 1414 -> (adhikavara_cycle_pos (su_init y) - 1) = (1984 - y) mod 57) /\
  (y <= 1794 -> (adhikamasa_cycle_pos (su_init y) - 1) = (1984 - y) mod 19).
Proof. intros y. pose proof (cycle_pos_57 y). pose proof (cycle_pos_19 y). lia. Qed.
Example C13_example : adhikavara_cycle_pos (su_init 1984) = 1 /\ adhikavara_cycle_pos (su_init 2040) = 57 /\
  adhikavara_cycle_pos (su_init 2041) = 1 /\ adhikavara_cycle_pos (su_init 1412) = 3 /\ adhikavara_cycle_pos (su_init 1413) = 2.
Proof. vm_compute. auto 6. Qed.

Lemma some_inj {A} (x y : A) : Some x = Some y -> y = x.
Proof. intros E. injection E as E. symmetry. exact E. Qed.

(** * C14 UseExceptions changes only 1994-1997 *)
Theorem C14_exceptions_local : forall cfg y, UseExceptions cfg = true ->
  (forall z, AdhikavaraExceptions cfg z = shipped_exceptions z) ->
  (is_adhikavara cfg (su_init y) <> is_adhikavara cfg_default (su_init y) <-> y = 1994 \/ y = 1997) /\
  (is_adhikavara cfg (su_init 1994) = false /\ is_adhikavara cfg (su_init 1997) = true).
Proof.
  intros cfg y Hu Hs. pose proof years_1994_1997 as (Y1 & Y2 & Y3 & Y4).
  rewrite !(is_av_exceptions cfg _ Hu Hs). change (is_adhikavara cfg_default (su_init y)) with (av y).
  split; [|split; reflexivity].
  destruct (Z.eqb_spec y 1994) as [E|]; [rewrite <- E in Y2; rewrite Y2; intuition discriminate|].
  destruct (Z.eqb_spec y 1997) as [E|]; [rewrite <- E in Y4; rewrite Y4; intuition discriminate|]. intuition congruence.
Qed.
Theorem C14_kattika_shift : forall cfg y k k', UseExceptions cfg = true ->
  (forall z, AdhikavaraExceptions cfg z = shipped_exceptions z) ->
  previous_kattika cfg_default y = Some k -> previous_kattika cfg y = Some k' ->
  k' = if (1995 <=? y) && (y <=? 1997) then time_add k (- (24 * hour_ns)) else k.
Proof.
  intros cfg y k k' Hu Hs E E'. rewrite previous_kattika_eq in E, E'. apply some_inj in E. apply some_inj in E'. rewrite E, E'. clear E E'.
  rewrite (kday_shipped cfg y (or_intror Hs)). unfold exc_shift. rewrite Hu. cbn [andb].
  destruct ((1995 <=? y) && (y <=? 1997)); apply time_eq; cbn; unfold day_ns, hour_ns; lia.
Qed.
Theorem C14_asalha_shift : forall cfg y a a', UseExceptions cfg = true ->
  (forall z, AdhikavaraExceptions cfg z = shipped_exceptions z) ->
  asalha_puja cfg_default (su_init y) = Some a -> asalha_puja cfg (su_init y) = Some a' ->
  a' = if (1994 <=? y) && (y <=? 1996) then time_add a (- (24 * hour_ns)) else a.
Proof.
  intros cfg y a a' Hu Hs E E'. unfold asalha_puja in *. cbv zeta in *. rewrite sy_Year_init, previous_kattika_eq in E, E'.
  rewrite (is_av_exceptions cfg y Hu Hs) in E'. change (is_adhikavara cfg_default (su_init y)) with (av y) in E.
  fold (am y) in E, E'. rewrite midnight_add24 in E, E'. apply some_inj in E. apply some_inj in E'. rewrite E, E'. clear E E'.
  rewrite (kday_shipped cfg y (or_intror Hs)). unfold exc_shift. rewrite Hu. cbn [andb].
  pose proof years_1994_1997 as (Y1 & Y2 & Y3 & Y4).
  generalize (kday cfg_default y). intros kd.
  destruct (Z.eqb_spec y 1994) as [E|];
    [rewrite <- E in Y1, Y2; rewrite Y1, Y2, E; apply time_eq; cbn; unfold day_ns, hour_ns; lia|].
  destruct (Z.eqb_spec y 1997) as [E|];
    [rewrite <- E in Y3, Y4; rewrite Y3, Y4, E; apply time_eq; cbn; unfold day_ns, hour_ns; lia|].
  replace ((1994 <=? y) && (y <=? 1996)) with ((1995 <=? y) && (y <=? 1997)) by lia.
  destruct ((1995 <=? y) && (y <=? 1997)), (am y), (av y); apply time_eq; cbn; unfold day_ns, hour_ns; lia.
Qed.
Example C14_example : previous_kattika cfg_default 1996 = Some (time_date 1995 11 7 0 0) /\
  previous_kattika cfg_exceptions 1996 = Some (time_date 1995 11 6 0 0).
Proof. vm_compute. auto. Qed.
