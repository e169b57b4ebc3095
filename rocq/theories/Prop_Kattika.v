(** Theorems C15-C19: the Kattika date, Asalha Puja and HorakhunToDate. *)
From Coq Require Import ZArith Lia Bool ZifyBool.
From Verif Require Import GoInt GoTime SuriyaYear SuriyaDay Machine Helpers Spec.
From Verif Require Import P_Time P_Year P_Counts P_Kattika P_Machine P_Day P_Misc.
Open Scope Z_scope.
Ltac Zify.zify_post_hook ::= Z.div_mod_to_equations.

Lemma some_inj' {A} (x y : A) : Some x = Some y -> y = x.
Proof. intros E. injection E as E. symmetry. exact E. Qed.

(** * C15 Kattika stepping is consistent with YearLength *)
Theorem C15_kattika_step : forall cfg y,
  exists k k' : time,
    previous_kattika cfg y = Some k /\ previous_kattika cfg (y + 1) = Some k' /\
    t_off k = 0 /\ t_ns k mod (24 * hour_ns) = 0 /\
    k' = time_add k (year_length cfg (su_init y) * (24 * hour_ns)).
Proof.
  intros cfg y. exists (midnight (kday cfg y)), (midnight (kday cfg (y + 1))).
  rewrite !previous_kattika_eq, kday_step. unfold len.
  generalize (kday cfg y), (year_length cfg (su_init y)). intros a b.
  split; [reflexivity|]. split; [reflexivity|]. split; [reflexivity|]. split.
  - cbn [midnight t_ns]. change day_ns with (24 * hour_ns). apply Z_mod_mult.
  - apply time_eq; cbn [midnight time_add t_ns t_off]; unfold day_ns, hour_ns; lia.
Qed.
Theorem C15_kattika_epoch : forall cfg, previous_kattika cfg 2016 = Some (time_date 2015 11 25 0 0).
Proof. intros cfg. rewrite previous_kattika_eq, kday_2016. reflexivity. Qed.
Example C15_example : previous_kattika cfg_default 2026 = Some (time_date 2025 11 5 0 0) /\
  previous_kattika cfg_default 2010 = Some (time_date 2009 11 2 0 0).
Proof. vm_compute. auto. Qed.

(** * C16 closed form, and the full moon *)

(** Boundary years in the sense of C10: leap with Avoman 126. *)
Definition boundary (y : Z) : bool := is_suriya_leap (su_init y) && (sy_Avoman (su_init y) =? 126).

(** Number of surplus days at the Kattika before year [y]: one for each boundary year
    from 640 on that is not an adhikamasa year, and one more just after an adhikamasa
    boundary year. *)
Definition drift (y : Z) : Z :=
  count_years (fun e => boundary e && negb (is_adhikamasa (su_init e))) 640 (Z.to_nat (y - 640))
  + (if 640 <? y then one_if (boundary (y - 1) && is_adhikamasa (su_init (y - 1))) else 0).

(** The day count (Horakhun) of the previous Kattika full moon, by closed formula. *)
Definition kattika_horakhun (y : Z) : Z :=
  let su := su_init y in
  sy_Horakhun su - sy_Tithi su - (if sy_Tithi su <=? 5 then 163 else 133)
  - one_if (is_adhikamasa (su_init (y - 1)) && would_be_adhikavara (su_init (y - 1))).

Lemma boundary_edge y : boundary y = edge y.
Proof. unfold boundary, edge. rewrite leap_lp. reflexivity. Qed.

Lemma drift_surplus y : 640 <= y -> drift y = surplus y.
Proof.
  intros Hy. unfold drift, surplus. f_equal.
  - apply count_years_ext. intros z Hz. rewrite boundary_edge. reflexivity.
  - rewrite boundary_edge. reflexivity.
Qed.

Lemma kh_closed y : hdate (kattika_horakhun y) = closed y.
Proof.
  unfold kattika_horakhun, closed, hdate. cbv zeta. fold (Hor y) (T y) (am (y - 1)) (wv (y - 1)).
  rewrite ca_eq. unfold b2z. destruct (T y <=? 5); lia.
Qed.

Theorem C16_kattika_closed_form : forall cfg y, UseExceptions cfg = false -> 640 <= y ->
  previous_kattika cfg y =
  Some (time_date 1963 7 (5 + (kattika_horakhun y - 484049) + drift y) 0 0).
Proof.
  intros cfg y Ho Hy. rewrite previous_kattika_eq, (kday_closed cfg y Ho Hy), <- kh_closed, drift_surplus by assumption.
  unfold hdate, midnight, time_date. f_equal. apply time_eq; cbn [t_ns t_off]; [|reflexivity].
  unfold day_number. generalize (kattika_horakhun y), (surplus y). intros a b. lia.
Qed.

Theorem C16_no_drift : forall y, 640 <= y <= 4098 -> drift y = (if y =? 3578 then 1 else 0).
Proof.
  intros y Hy. rewrite drift_surplus by lia. destruct (Z.eqb_spec y 3578) as [E|Hne].
  - rewrite E. exact surplus_3578.
  - apply surplus_zero; assumption.
Qed.

(** From 4099 on the drift is at least one day. *)
Lemma count_years_app p a n m : count_years p a (n + m) = count_years p a n + count_years p (a + Z.of_nat n) m.
Proof. apply count_years_add. Qed.
Lemma boundary_4098 : boundary 4098 && negb (is_adhikamasa (su_init 4098)) = true.
Proof. vm_cast_no_check (eq_refl true). Qed.
Theorem C16_drift_from_4099 : forall y, 4099 <= y -> 1 <= drift y.
Proof.
  intros y Hy. unfold drift.
  set (p := fun e => _). set (e := if 640 <? y then _ else _).
  assert (He : 0 <= e) by (unfold e, one_if; destruct (640 <? y); [destruct (boundary (y - 1) && is_adhikamasa (su_init (y - 1)))|]; lia).
  assert (Hp : p 4098 = true) by exact boundary_4098.
  replace (Z.to_nat (y - 640)) with (Z.to_nat 3458 + (1 + Z.to_nat (y - 4099)))%nat by lia.
  rewrite !count_years_app. replace (640 + Z.of_nat (Z.to_nat 3458)) with 4098 by lia.
  pose proof (count_years_bounds p 640 (Z.to_nat 3458)). pose proof (count_years_bounds p (4098 + Z.of_nat 1) (Z.to_nat (y - 4099))).
  assert (E1 : count_years p 4098 1 = 1) by (cbn [count_years]; rewrite Hp; reflexivity).
  rewrite E1. lia.
Qed.

(** The day computed is a full moon: lunar age 14 or 15 (0 = new). *)
Theorem C16_full_moon : forall y, 640 <= y ->
  let corr := one_if (boundary (y - 1) && is_adhikamasa (su_init (y - 1))) in
  14 <= moon_age (kattika_horakhun y + corr) <= 15.
Proof.
  intros y Hy. cbv zeta. rewrite boundary_edge. fold (am (y - 1)).
  unfold kattika_horakhun. cbv zeta. fold (Hor y) (T y) (am (y - 1)) (wv (y - 1)).
  pose proof (NA_spec y ltac:(lia)) as (HN & HT & HA & _).
  pose proof (NA_gain (y - 1) ltac:(lia)) as (HG & HGA). replace (y - 1 + 1) with y in * by lia.
  pose proof (NA_spec (y - 1) ltac:(lia)) as (_ & HT' & HA' & _).
  pose proof (amT (y - 1) ltac:(lia)) as Ham. replace (y - 1 + 1) with y in * by lia.
  pose proof (wv_gain (y - 1) ltac:(lia)) as (Hw & _). rewrite Hw. clear Hw.
  pose proof (lp_spec (y - 1)) as Hl. unfold edge.
  unfold moon_age, tithis_elapsed, b2z, one_if in *.
  set (g := gain5 (y - 1)) in *. clearbody g.
  set (a := am (y - 1)) in *. clearbody a.
  assert (HlE : gain5 (y - 1) = gain5 (y - 1)) by reflexivity. clear HlE.
  set (lpy := lp (y - 1)) in *. set (Ay := Av y) in *. set (Ay' := Av (y - 1)) in *.
  set (Ty := T y) in *. set (Ty' := T (y - 1)) in *. set (My := M y) in *. set (My' := M (y - 1)) in *. set (Hy' := Hor y) in *.
  clearbody lpy Ay Ay' Ty Ty' My My' Hy'.
  set (c := (if a && _ then 1 else 0)). set (d := (if _ && a then 1 else 0)).
  assert (Hcd : c - d = 0 \/ c - d = 1 /\ a = true /\ g = true).
  { unfold c, d. destruct a, g, ((lpy =? 1) && (Ay' =? 126)); cbn [andb orb]; auto. }
  set (e := (if Ty <=? 5 then 163 else 133)) in *.
  assert (He : Ty <= 5 /\ e = 163 \/ 6 <= Ty /\ e = 133) by (unfold e; destruct (Z.leb_spec Ty 5); lia).
  clearbody c d e.
  assert (Eq : (703 * (Hy' - Ty - e - c + d) + 650) / 692 = 30 * My - (e + (c - d)) + (Ay - 11 * Ty - 11 * (e + (c - d))) / 692).
  { replace (703 * (Hy' - Ty - e - c + d) + 650) with
      ((30 * My - (e + (c - d))) * 692 + (Ay - 11 * Ty - 11 * (e + (c - d)))) by lia.
    rewrite Z.div_add_l by lia. reflexivity. }
  rewrite Eq. clear Eq.
  destruct Hcd as [Hc|(Hc & -> & ->)]; rewrite Hc; clear Hc.
  - clear HG HGA Ham. destruct He as [[? ->]|[? ->]].
    + replace (30 * My - (163 + 0) + (Ay - 11 * Ty - 11 * (163 + 0)) / 692) with
        (((Ay - 11 * Ty - 1793) / 692 + 17) + (My - 6) * 30) by lia. rewrite Z_mod_plus_full. lia.
    + replace (30 * My - (133 + 0) + (Ay - 11 * Ty - 11 * (133 + 0)) / 692) with
        (((Ay - 11 * Ty - 1463) / 692 + 17) + (My - 5) * 30) by lia. rewrite Z_mod_plus_full. lia.
  - destruct He as [[? ->]|[? ->]].
    + replace (30 * My - (163 + 1) + (Ay - 11 * Ty - 11 * (163 + 1)) / 692) with
        (((Ay - 11 * Ty - 1804) / 692 + 16) + (My - 6) * 30) by lia. rewrite Z_mod_plus_full. lia.
    + replace (30 * My - (133 + 1) + (Ay - 11 * Ty - 11 * (133 + 1)) / 692) with
        (((Ay - 11 * Ty - 1474) / 692 + 16) + (My - 5) * 30) by lia. rewrite Z_mod_plus_full. lia.
Qed.
(** 2015-11-25 has Horakhun 503185. *)
Example C16_example : kattika_horakhun 2016 = 503185 /\ moon_age 503185 = 14 /\
  time_date 1963 7 (5 + (503185 - 484049)) 0 0 = time_date 2015 11 25 0 0.
Proof. vm_compute. auto. Qed.

(** * C17 The previous Kattika lies in the previous solar year *)
Theorem C17_kattika_previous_year : forall cfg y k,
  UseExceptions cfg = false \/ (forall z, AdhikavaraExceptions cfg z = shipped_exceptions z) ->
  631 <= y <= 4116 -> previous_kattika cfg y = Some k -> time_year k = y - 1.
Proof.
  intros cfg y k Hs Hy E. rewrite previous_kattika_eq in E. apply some_inj' in E. rewrite E.
  rewrite time_year_midnight. apply kattika_year; assumption.
Qed.
Theorem C17_range_is_sharp_refuted : forall cfg,
  UseExceptions cfg = false \/ (forall z, AdhikavaraExceptions cfg z = shipped_exceptions z) ->
  option_map time_year (previous_kattika cfg 630) = Some 630 /\
  option_map time_year (previous_kattika cfg 4117) = Some 4117.
Proof.
  intros cfg Hs. rewrite !previous_kattika_eq. cbn [option_map]. rewrite !time_year_midnight.
  destruct (kattika_year_ends cfg Hs) as [-> ->]. split; reflexivity.
Qed.
Example C17_example : option_map time_year (previous_kattika cfg_exceptions 1997) = Some 1996.
Proof. vm_compute. reflexivity. Qed.

(** * C18 Two independent routes to Asalha Puja agree *)

(** Lunar-year day of the Asalha full moon: 103, plus 1 for an adhikavara that is the
    year's own, plus 30 for an adhikamasa year with Tithi from 24. *)
Definition asalha_lunar_day (cfg : config) (y : Z) : Z :=
  let su := su_init y in
  103 + one_if (is_adhikavara cfg su && negb (has_carried_adhikavara su))
  + (if is_adhikamasa su && (24 <=? sy_Tithi su) then 30 else 0).

Lemma asalha_day_eq cfg y : UseExceptions cfg = false -> asalha_lunar_day cfg y = asalha_day y.
Proof. intros Ho. unfold asalha_lunar_day, asalha_day. cbv zeta. rewrite (adhikavara_default_off cfg y Ho). reflexivity. Qed.

Theorem C18_asalha_routes : forall cfg y, UseExceptions cfg = false -> 640 <= y <= 4098 -> y <> 3578 ->
  let sd := sd_ints y (asalha_lunar_day cfg y) in
  exists a d, asalha_puja cfg (su_init y) = Some a /\ horakhun_to_date (sd_Horakhun sd) = Some d /\
    time_add a (23 * hour_ns + 59 * 60 * second_ns + 59 * second_ns) = d /\
    14 <= sd_Tithi sd <= 15.
Proof.
  intros cfg y Ho Hy Hne. cbv zeta. rewrite (asalha_day_eq cfg y Ho).
  exists (midnight (hdate (sd_Horakhun (sd_ints y (asalha_day y))))).
  eexists. split; [apply asalha_routes_agree; assumption|]. split; [apply horakhun_to_date_spec|].
  - rewrite sd_Horakhun_eq. unfold asalha_day. pose proof (HK_spec y ltac:(lia)). pose proof (NA_spec y ltac:(lia)).
    destruct (_ && _), (_ && _); lia.
  - split; [|apply asalha_age; lia].
    apply time_eq; cbn [midnight time_add t_ns t_off]; [|reflexivity]. unfold hdate, hour_ns, second_ns, day_ns. ring.
Qed.
(** In 3578 (after the boundary year 3577) the two routes are a day apart. *)
Theorem C18_asalha_3578_refuted : forall cfg, UseExceptions cfg = false ->
  exists a d, asalha_puja cfg (su_init 3578) = Some a /\
    horakhun_to_date (sd_Horakhun (sd_ints 3578 (asalha_lunar_day cfg 3578))) = Some d /\
    time_add a (23 * hour_ns + 59 * 60 * second_ns + 59 * second_ns) = time_add d (24 * hour_ns).
Proof.
  intros cfg Ho. rewrite (asalha_day_eq cfg 3578 Ho).
  exists (midnight (hdate (sd_Horakhun (sd_ints 3578 (asalha_day 3578))) + 1)).
  eexists. split; [rewrite (asalha_routes cfg 3578 Ho ltac:(lia)), surplus_3578; reflexivity|].
  split; [apply horakhun_to_date_spec|].
  - rewrite sd_Horakhun_eq. unfold asalha_day. pose proof (HK_spec 3578 ltac:(lia)) as A. pose proof (NA_spec 3578 ltac:(lia)) as B.
    revert A B. generalize (Hor 3578), (T 3578), (K 3578), (M 3578), (Av 3578), (av 3578 && negb (ca 3578)), (am 3578 && (24 <=? T 3578)).
    intros a b c d e f g A B. destruct f, g; lia.
  - generalize (sd_Horakhun (sd_ints 3578 (asalha_day 3578))). intros h.
    apply time_eq; cbn [midnight time_add t_ns t_off]; [|reflexivity]. unfold hdate, hour_ns, second_ns, day_ns. ring.
Qed.
(** 2021 (adhikamasa): 2021-07-24; 2016 (adhikavara): 2016-07-19; 2019: 2019-07-16. *)
Example C18_example :
  asalha_puja cfg_default (su_init 2021) = Some (time_date 2021 7 24 0 0) /\
  asalha_puja cfg_default (su_init 2016) = Some (time_date 2016 7 19 0 0) /\
  asalha_puja cfg_default (su_init 2019) = Some (time_date 2019 7 16 0 0) /\
  asalha_lunar_day cfg_default 2016 = 103 /\ asalha_lunar_day cfg_default 2020 = 104.
Proof. vm_compute. auto. Qed.

(** * C19 HorakhunToDate is an exact day count *)
Theorem C19_horakhun_to_date : forall h, Z.abs h <= 10 ^ 15 ->
  horakhun_to_date h =
  Some (time_add (time_date 1963 7 5 (86399 * second_ns) 0) ((h - 484049) * (24 * hour_ns))).
Proof.
  intros h Hh. rewrite horakhun_to_date_spec by assumption. f_equal.
  apply time_eq; cbn [time_add time_date t_ns t_off]; [|reflexivity]. unfold hour_ns, second_ns, day_ns. ring.
Qed.
Theorem C19_horakhun_injective : forall h h', Z.abs h <= 10 ^ 15 -> Z.abs h' <= 10 ^ 15 ->
  horakhun_to_date h = horakhun_to_date h' -> h = h'.
Proof.
  intros h h' H1 H2. rewrite !C19_horakhun_to_date by assumption. intros E. apply some_inj' in E.
  apply (f_equal t_ns) in E. cbn [time_add t_ns] in E. unfold hour_ns in E. lia.
Qed.
Example C19_example : horakhun_to_date 484049 = Some (time_date 1963 7 5 (86399 * second_ns) 0) /\
  horakhun_to_date 0 = Some (time_date 638 3 24 (86399 * second_ns) 0) /\
  horakhun_to_date (-1000000) = Some (time_date 1963 7 (5 - 1484049) (86399 * second_ns) 0).
Proof. vm_compute. auto. Qed.
