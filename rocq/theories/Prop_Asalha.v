(** Theorem C67: the place of Asalha Puja in the civil year. *)
From Coq Require Import ZArith Lia Bool List String.
From Verif Require Import GoTime SuriyaYear SuriyaDay Helpers Spec P_Time P_Year P_Counts P_Kattika P_Day Prop_Kattika.
Import ListNotations.
Open Scope Z_scope.

(** * C67 Asalha Puja moves later in the civil year and keeps to its year for more than ten thousand years *)
Definition days_to_asalha (cfg : config) (y : Z) : Z :=
  if is_adhikamasa (su_init y) then 266 else if is_adhikavara cfg (su_init y) then 237 else 236.
Lemma asalha_day_of cfg y : asalha_puja cfg (su_init y) = Some (midnight (kday cfg y + days_to_asalha cfg y)).
Proof.
  rewrite asalha_puja_eq. unfold days_to_asalha. fold (am y). do 2 f_equal. destruct (am y); [lia|]. destruct (is_adhikavara cfg (su_init y)); lia.
Qed.
Lemma days_range cfg y : 236 <= days_to_asalha cfg y <= 266.
Proof. unfold days_to_asalha. destruct (is_adhikamasa _); [lia|]. destruct (is_adhikavara cfg _); lia. Qed.
Definition in_year (y k : Z) : bool :=
  let a := k + days_to_asalha cfg_default y in (days_before_year y <=? a) && (a <? days_before_year (y + 1)).
Lemma early_check : check_year cfg_default 12 618 225478 in_year = true.
Proof. vm_cast_no_check (eq_refl true). Qed.
Lemma late_check : check_year cfg_default (Z.to_nat 7069) 4117 1503339 in_year = true.
Proof. vm_cast_no_check (eq_refl true). Qed.
Lemma kday_617 : kday cfg_default 617 = 225123 /\ kday cfg_default 618 = 225478.
Proof.
  pose proof (kday_off_sum cfg_default 617 13) as A. pose proof (kday_off_sum cfg_default 618 12) as B.
  change (617 + Z.of_nat 13) with 630 in A. change (618 + Z.of_nat 12) with 630 in B. rewrite kday_630 in A, B.
  assert (SA : sum_len cfg_default 617 13 = 4615) by (vm_cast_no_check (eq_refl 4615)).
  assert (SB : sum_len cfg_default 618 12 = 4260) by (vm_cast_no_check (eq_refl 4260)). lia.
Qed.
Lemma kday_11187 : kday cfg_default 11187 = 4085701.
Proof.
  pose proof (kday_off_sum cfg_default 4117 (Z.to_nat 7070)) as A. change (4117 + Z.of_nat (Z.to_nat 7070)) with 11187 in A. rewrite kday_4117 in A.
  assert (S : sum_len cfg_default 4117 (Z.to_nat 7070) = 2582362) by (vm_cast_no_check (eq_refl 2582362)). lia.
Qed.
Lemma in_year_spec y : in_year y (kday cfg_default y) = true -> year_of_day (kday cfg_default y + days_to_asalha cfg_default y) = y.
Proof. unfold in_year. intros H. apply year_of_day_iff. lia. Qed.

Lemma shipped_default : shipped cfg_default. Proof. left. reflexivity. Qed.
Lemma same_year_default y : 618 <= y <= 11186 -> year_of_day (kday cfg_default y + days_to_asalha cfg_default y) = y.
Proof.
  intros H. destruct (Z_lt_le_dec y 631); [|destruct (Z_lt_le_dec y 4117)].
  - apply in_year_spec. apply (check_year_spec cfg_default in_year 12 618); [|lia]. rewrite (proj2 kday_617). exact early_check.
  - pose proof (kattika_offset cfg_default y shipped_default ltac:(lia)) as [O _]. pose proof (days_range cfg_default y).
    apply year_of_day_iff. pose proof (days_before_year_succ y). destruct (is_leap y); lia.
  - apply in_year_spec. apply (check_year_spec cfg_default in_year (Z.to_nat 7069) 4117); [|lia]. rewrite kday_4117. exact late_check.
Qed.
(** Outside the range of [kattika_offset] the exceptions change nothing. *)
Lemma shipped_same cfg y : shipped cfg -> y < 631 \/ 4116 < y ->
  kday cfg y = kday cfg_default y /\ days_to_asalha cfg y = days_to_asalha cfg_default y.
Proof.
  intros S H. split.
  - rewrite (kday_shipped cfg y S). unfold exc_shift. destruct (UseExceptions cfg); cbn [andb]; [|lia].
    destruct (Z.leb_spec 1995 y), (Z.leb_spec y 1997); cbn [andb]; lia.
  - unfold days_to_asalha. replace (is_adhikavara cfg (su_init y)) with (is_adhikavara cfg_default (su_init y)); [reflexivity|].
    destruct (UseExceptions cfg) eqn:U.
    + destruct S as [S|S]; [congruence|]. rewrite (is_av_exceptions cfg y U S).
      destruct (Z.eqb_spec y 1994); [lia|]. destruct (Z.eqb_spec y 1997); [lia|]. reflexivity.
    + unfold is_adhikavara. rewrite U. reflexivity.
Qed.

Theorem C67_same_year : forall cfg y, UseExceptions cfg = false \/ (forall z, AdhikavaraExceptions cfg z = shipped_exceptions z) -> 618 <= y <= 11186 ->
  exists a, asalha_puja cfg (su_init y) = Some a /\ time_year a = y.
Proof.
  intros cfg y S H. rewrite asalha_day_of. eexists. split; [reflexivity|]. rewrite time_year_midnight.
  destruct (Z_lt_le_dec y 631) as [L|L]; [|destruct (Z_lt_le_dec y 4117) as [G|G]].
  1,3: destruct (shipped_same cfg y S ltac:(lia)) as [-> ->]; apply same_year_default; lia.
  pose proof (kattika_offset cfg y S ltac:(lia)) as [O _]. pose proof (days_range cfg y).
  apply year_of_day_iff. pose proof (days_before_year_succ y). destruct (is_leap y); lia.
Qed.
Theorem C67_range_is_sharp_refuted : forall cfg, UseExceptions cfg = false \/ (forall z, AdhikavaraExceptions cfg z = shipped_exceptions z) ->
  option_map time_year (asalha_puja cfg (su_init 617)) = Some 618 /\
  option_map time_year (asalha_puja cfg (su_init 11187)) = Some 11188.
Proof.
  intros cfg S. rewrite !asalha_day_of. cbn [option_map]. rewrite !time_year_midnight.
  destruct (shipped_same cfg 617 S ltac:(lia)) as [-> ->]. destruct (shipped_same cfg 11187 S ltac:(lia)) as [-> ->].
  rewrite (proj1 kday_617), kday_11187. vm_compute. split; reflexivity.
Qed.
(** A day [n] days after 1 January, less the surplus days of C16, keeps to a window of 36 days that moves by 13 days in 800 years:
    the traditional year of 292207/800 days is that much longer than the civil year. *)
Theorem C67_drift : forall cfg y, UseExceptions cfg = false -> 640 <= y ->
  exists n, asalha_puja cfg (su_init y) = Some (time_date y 1 (1 + n) 0 0) /\
    159 * 800 + 13 * (y - 640) <= 800 * (n - drift y) <= 195 * 800 + 13 * (y - 640).
Proof.
  intros cfg y S H. rewrite asalha_routes by assumption.
  exists (hdate (sd_Horakhun (sd_ints y (asalha_day y))) + surplus y - days_before_year y). split.
  - rewrite day_number_date. do 2 f_equal.
    assert (J : forall k, day_number y 1 (1 + k) = days_before_year y + k).
    { intros k. unfold day_number. cbv zeta. change ((1 - 1) / 12) with 0. replace (y + 0) with y by lia. change ((1 - 1) mod 12 + 1) with 1.
      assert (D : forall b, days_before_month b 1 = 0) by (intros []; reflexivity). rewrite D. lia. }
    rewrite J. generalize (hdate (sd_Horakhun (sd_ints y (asalha_day y)))), (surplus y), (days_before_year y). intros. lia.
  - rewrite drift_surplus by exact H. rewrite sd_Horakhun_eq. unfold hdate. assert (B : day_number 1963 7 5 = 716790) by reflexivity. rewrite B. clear B.
    pose proof (HK_spec y ltac:(lia)). pose proof (NA_spec y ltac:(lia)) as (_ & HT & _).
    pose proof (NA_spec (y + 1) ltac:(lia)) as (_ & HT1 & _).
    pose proof (amT y ltac:(lia)) as AM. pose proof (T_small_am y ltac:(lia)) as SM. destruct (T_step y ltac:(lia)) as (d & c & D & C & TS & _).
    unfold asalha_day, days_before_year.
    assert (R : 78 <= 103 + (if av y && negb (ca y) then 1 else 0) + (if am y && (24 <=? T y) then 30 else 0) - T y <= 109).
    { rewrite av_eq. destruct (am y), (ca y), (wv y), (Z.leb_spec 24 (T y)); cbn [andb orb negb]; try lia.
      all: destruct AM as [A1 A2]; try specialize (A1 eq_refl); try lia.
      all: try (assert (~ ((24 <= T y \/ T y <= 5) /\ 5 < T (y + 1) < 24)) by (intros X; specialize (A2 X); discriminate); lia).
      all: try (destruct (Z_le_gt_dec (T y) 5) as [X|X]; [specialize (SM X); discriminate|lia]). }
    lia.
Qed.
(** With the shipped table of exceptions as well, and without the surplus days, up to the year 4098. *)
Lemma shipped_shift cfg y : shipped cfg ->
  kday cfg_default y + days_to_asalha cfg_default y - 1 <= kday cfg y + days_to_asalha cfg y
  <= kday cfg_default y + days_to_asalha cfg_default y.
Proof.
  intros S. destruct (Z_lt_le_dec y 1994); [|destruct (Z_lt_le_dec 1997 y)].
  1,2: rewrite (kday_shipped cfg y S); unfold exc_shift, days_to_asalha; destruct (UseExceptions cfg) eqn:U;
    [destruct S as [S|S]; [congruence|]; rewrite (is_av_exceptions cfg y U S);
     destruct (Z.eqb_spec y 1994); [lia|]; destruct (Z.eqb_spec y 1997); [lia|];
     destruct (Z.leb_spec 1995 y), (Z.leb_spec y 1997); cbn [andb]; change (is_adhikavara cfg_default (su_init y)) with (av y); lia
    |cbn [andb]; unfold is_adhikavara; rewrite U; cbn [UseExceptions cfg_default]; lia].
  rewrite (kday_shipped cfg y S). unfold exc_shift, days_to_asalha. destruct (UseExceptions cfg) eqn:U.
  - destruct S as [S|S]; [congruence|]. rewrite (is_av_exceptions cfg y U S). change (is_adhikavara cfg_default (su_init y)) with (av y).
    assert (D : y = 1994 \/ y = 1995 \/ y = 1996 \/ y = 1997) by lia.
    generalize (kday cfg_default y). intros k.
    destruct D as [E|[E|[E|E]]]; subst y; cbn [andb Z.eqb Z.leb].
    + change (is_adhikamasa (su_init 1994)) with false. change (av 1994) with true. cbn. lia.
    + destruct (is_adhikamasa (su_init 1995)), (av 1995); cbn; lia.
    + destruct (is_adhikamasa (su_init 1996)), (av 1996); cbn; lia.
    + change (is_adhikamasa (su_init 1997)) with false. change (av 1997) with false. cbn. lia.
  - cbn [andb]. unfold is_adhikavara. rewrite U. cbn [UseExceptions cfg_default]. lia.
Qed.
Theorem C67_window : forall cfg y, UseExceptions cfg = false \/ (forall z, AdhikavaraExceptions cfg z = shipped_exceptions z) -> 640 <= y <= 4098 ->
  exists n, asalha_puja cfg (su_init y) = Some (time_date y 1 (1 + n) 0 0) /\
    158 * 800 + 13 * (y - 640) <= 800 * n <= 196 * 800 + 13 * (y - 640).
Proof.
  intros cfg y S H. destruct (C67_drift cfg_default y eq_refl ltac:(lia)) as (n & E & B).
  rewrite asalha_day_of in E |- *. rewrite day_number_date in E.
  assert (E2 : kday cfg_default y + days_to_asalha cfg_default y = day_number y 1 (1 + n)) by (apply midnight_inj; congruence). clear E.
  pose proof (shipped_shift cfg y S) as Z.
  exists (n + (kday cfg y + days_to_asalha cfg y - (kday cfg_default y + days_to_asalha cfg_default y))). split.
  - rewrite day_number_date. do 2 f_equal. rewrite E2 in *. unfold day_number in *. cbv zeta in *.
    generalize dependent (days_before_year (y + (1 - 1) / 12)). generalize dependent (days_before_month (is_leap (y + (1 - 1) / 12)) ((1 - 1) mod 12 + 1)).
    intros. lia.
  - rewrite (C16_no_drift y H) in B. destruct (y =? 3578); lia.
Qed.
Example C67_example :
  asalha_puja cfg_default (su_init 640) = Some (time_date 640 6 12 0 0) /\
  asalha_puja cfg_default (su_init 2016) = Some (time_date 2016 7 19 0 0) /\
  asalha_puja cfg_default (su_init 2021) = Some (time_date 2021 7 24 0 0) /\
  asalha_puja cfg_default (su_init 4000) = Some (time_date 4000 8 27 0 0).
Proof. vm_compute. repeat split. Qed.
