(** Theorem C66: the calendar computed with Go's int64 and float64 arithmetic is the calendar of the other claims. *)
From Coq Require Import ZArith Lia Bool List String.
From Verif Require Import GoInt GoTime SuriyaYear Machine Helpers UposathaMoon CalDay AstroMoon AstroFS MachineCal.
From Verif Require Import P_Time P_Machine P_MachineCal.
Import ListNotations.
Open Scope Z_scope.

(** * C66 The calendar computed with int64 arithmetic is exact *)
Theorem C66_year_types : forall cfg y, Z.abs y <= 10 ^ 11 -> let su := su_init_m y in
  su = su_init y /\ is_adhikamasa_m su = is_adhikamasa su /\ is_adhikavara_m cfg su = is_adhikavara cfg su /\
  year_length_m cfg su = year_length cfg su /\
  delta_adhikamasa_m su = delta_adhikamasa su /\ delta_adhikavara_m cfg su = delta_adhikavara cfg su.
Proof.
  intros cfg y H su. assert (E : su = su_init y) by (apply su_init_machine; lia). clearbody su. subst su.
  split; [reflexivity|]. split; [apply am_machine; rewrite init_year; lia|]. split; [apply av_machine; rewrite init_year; lia|].
  split; [apply length_machine; exact H|].
  unfold delta_adhikamasa_m, delta_adhikamasa, delta_adhikavara_m, delta_adhikavara. rewrite init_year, isub_id by (unfold in_int64, two63; lia).
  split; apply delta_machine; try lia; intros z Z.
  - apply am_machine. rewrite init_year. lia.
  - apply av_machine. rewrite init_year. lia.
Qed.
Theorem C66_dates : forall cfg y, Z.abs y <= 10 ^ 11 ->
  previous_kattika_m cfg y = previous_kattika cfg y /\ asalha_puja_m cfg (su_init_m y) = asalha_puja cfg (su_init y).
Proof.
  intros cfg y H. split; [apply kattika_machine; exact H|]. rewrite su_init_machine by lia. apply asalha_machine. exact H.
Qed.
(** Any moon, not only those of the calendar: the counters must be below the largest int64. *)
Theorem C66_next : forall cfg u, Z.abs (time_year (u_Date u)) <= 10 ^ 11 -> Z.abs (t_off (u_Date u)) <= 10 ^ 9 ->
  (forall n, In n [u_S_Number u; u_LunarMonth u; u_LunarSeason u; u_LunarYear u] -> - 2 ^ 63 <= n < 2 ^ 63 - 1) ->
  next_uposatha_m cfg u = next_uposatha cfg u.
Proof.
  intros cfg u Y O C. assert (B : forall n, - 2 ^ 63 <= n < 2 ^ 63 - 1 -> in_int64 (n + 1)) by (intros n ?; unfold in_int64, two63; lia).
  apply next_machine; [apply B, C; cbn; tauto ..|apply years_near; assumption|lia].
Qed.
Theorem C66_generated : forall cfg y, Z.abs y <= 10 ^ 11 -> generate_solar_year_m cfg y = generate_solar_year cfg y.
Proof. exact year_machine. Qed.
Theorem C66_cal_days : forall cfg fs from to, Z.abs (time_year from) <= 10 ^ 11 -> Z.abs (time_year to) <= 10 ^ 11 ->
  get_cal_days_m cfg fs from to = get_cal_days cfg fs from to.
Proof. exact days_machine. Qed.
(** Beyond, the years go wrong, and so does the year of a moon at the largest int64. *)
Theorem C66_overflow_refuted :
  (exists y, Z.abs y <= 10 ^ 14 /\ year_length_m cfg_default (su_init_m y) <> year_length cfg_default (su_init y)) /\
  exists u, u_LunarYear u = 2 ^ 63 - 1 /\ u_LunarYear (next_uposatha_m cfg_default u) = - 2 ^ 63.
Proof.
  split; [exists 40000000000000; split; [lia|vm_compute; discriminate]|].
  exists (mkUposatha (time_date 2016 11 14 0 0) 0 2 "full" "" 8 8 15 29 12 3 (2 ^ 63 - 1) false "" ""). vm_compute. split; reflexivity.
Qed.
Example C66_example : exists l, generate_solar_year_m cfg_default 2016 = Some l /\ List.length l = 56%nat /\
  asalha_puja_m cfg_default (su_init_m 1994) = Some (time_date 1994 7 23 0 0) /\
  asalha_puja_m cfg_exceptions (su_init_m 1994) = Some (time_date 1994 7 22 0 0) /\
  delta_adhikavara_m cfg_default (su_init_m 2016) = Some 7.
Proof. eexists. split; [vm_compute; reflexivity|]. vm_compute. repeat split. Qed.
