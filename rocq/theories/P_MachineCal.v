(** Proofs for Prop_MachineCal.v. *)
From Coq Require Import ZArith Lia Bool List String.
From Verif Require Import GoInt GoTime SuriyaYear Machine Helpers UposathaMoon CalDay AstroMoon MachineCal.
From Verif Require Import P_Time P_Year P_Machine P_Kattika.
Import ListNotations.
Open Scope Z_scope.
Local Ltac unf := unfold in_int64, two63, two64, day_ns, hour_ns, second_ns in *.

Lemma iadd_id a b : in_int64 (a + b) -> iadd a b = a + b. Proof. apply wrap64_id. Qed.
Lemma isub_id a b : in_int64 (a - b) -> isub a b = a - b. Proof. apply wrap64_id. Qed.
Lemma imul_id a b : in_int64 (a * b) -> imul a b = a * b. Proof. apply wrap64_id. Qed.

(** Seconds within [-9*10^18, 9*10^18]. *)
Definition near (t : time) : Prop := Z.abs (t_ns t) <= 9 * 10 ^ 27.
Lemma time_add_near t d : near t -> Z.abs d <= 10 ^ 18 -> time_add_m t d = time_add t d.
Proof.
  unfold near, time_add_m, time_add. intros T D. pose proof (Z.quot_rem' d second_ns) as Q.
  assert (R : Z.abs (Z.rem d second_ns) < second_ns) by (pose proof (Z.rem_bound_abs d second_ns); unf; lia).
  pose proof (Z.div_mod (t_ns t) second_ns) as M. pose proof (Z.mod_pos_bound (t_ns t) second_ns) as B.
  unfold second_ns in *.
  destruct (Z.leb_spec 1000000000 (t_ns t mod 1000000000 + Z.rem d 1000000000));
    [|destruct (Z.ltb_spec (t_ns t mod 1000000000 + Z.rem d 1000000000) 0)].
  - rewrite (iadd_id (Z.quot d _)) by (unf; lia). rewrite iadd_id by (unf; lia). f_equal. lia.
  - rewrite (isub_id (Z.quot d _)) by (unf; lia). rewrite iadd_id by (unf; lia). f_equal. lia.
  - rewrite iadd_id by (unf; lia). f_equal. lia.
Qed.
Lemma hours24_small n : Z.abs n <= 106751 -> hours24 n = n * hour_ns * 24.
Proof. intros H. rewrite hours24_id by exact H. unf. lia. Qed.

Lemma am_machine su : Z.abs (sy_Year su) <= 10 ^ 12 - 1 -> is_adhikamasa_m su = is_adhikamasa su.
Proof. intros H. unfold is_adhikamasa_m, is_adhikamasa. rewrite iadd_id by (unf; lia). rewrite su_init_machine by lia. reflexivity. Qed.
Lemma init_year y : sy_Year (su_init y) = y. Proof. reflexivity. Qed.
Lemma av_machine cfg su : Z.abs (sy_Year su) <= 10 ^ 12 - 2 -> is_adhikavara_m cfg su = is_adhikavara cfg su.
Proof.
  intros H. unfold is_adhikavara_m, is_adhikavara, is_adhikavara_pure, has_carried_adhikavara_m, has_carried_adhikavara.
  rewrite am_machine by lia. rewrite isub_id by (unf; lia). rewrite su_init_machine by lia.
  rewrite am_machine by (rewrite init_year; lia). reflexivity.
Qed.

Lemma delta_machine test test_m limit y0 : Z.abs y0 <= 10 ^ 12 - 30 -> 0 <= limit <= 20 ->
  (forall y, Z.abs y <= 10 ^ 12 - 2 -> test_m (su_init y) = test (su_init y)) ->
  forall fuel year, y0 - 22 + Z.of_nat (20 - fuel) <= year + Z.of_nat (20 - fuel) -> y0 - 21 <= year <= y0 -> (fuel <= 20)%nat -> year - Z.of_nat fuel >= y0 - 21 ->
  delta_loop_m test_m limit y0 fuel year = delta_loop test limit y0 fuel year.
Proof.
  intros H0 L T. induction fuel as [|fuel IH]; intros year A B F G; [reflexivity|]. cbn [delta_loop_m delta_loop].
  rewrite su_init_machine by lia. rewrite T by lia. rewrite init_year. rewrite !isub_id by (unf; lia).
  destruct (test (su_init year)); [reflexivity|]. destruct (limit <? y0 - year); [reflexivity|]. apply IH; lia.
Qed.

Lemma step_days_machine cfg direction y : Z.abs y <= 10 ^ 12 - 3 -> kattika_step_days_m cfg direction y = kattika_step_days cfg direction y.
Proof.
  intros H. unfold kattika_step_days_m, kattika_step_days.
  assert (I : (if direction =? 1 then su_init_m (iadd y 1) else su_init_m y) = if direction =? 1 then su_init (y + 1) else su_init y).
  { rewrite iadd_id by (unf; lia). rewrite !su_init_machine by lia. reflexivity. }
  rewrite I. rewrite am_machine by (destruct (direction =? 1); rewrite init_year; lia).
  rewrite av_machine by (destruct (direction =? 1); rewrite init_year; lia). reflexivity.
Qed.
Lemma step_days_range cfg direction y : 354 <= kattika_step_days cfg direction y <= 384.
Proof. unfold kattika_step_days. destruct (is_adhikamasa _); [lia|]. destruct (is_adhikavara cfg _); lia. Qed.

Lemma loop_machine cfg direction target : direction = 1 \/ direction = -1 -> Z.abs target <= 10 ^ 11 + 1 ->
  forall fuel y date, Z.abs y + Z.of_nat fuel <= 10 ^ 11 + 5000 ->
  Z.abs (t_ns date) + 384 * day_ns * Z.of_nat fuel <= 384 * day_ns * (10 ^ 11 + 6000) ->
  kattika_loop_m cfg fuel direction target y date = kattika_loop cfg fuel direction target y date.
Proof.
  intros D T. induction fuel as [|fuel IH]; intros y date Y N; cbn [kattika_loop_m kattika_loop]; destruct (y =? target); try reflexivity.
  rewrite step_days_machine by lia. pose proof (step_days_range cfg direction y) as R.
  set (n := kattika_step_days cfg direction y) in *. clearbody n.
  assert (P : Z.abs (n * direction) <= 384) by lia.
  rewrite (imul_id n direction) by (unf; lia). rewrite hours24_small by lia.
  rewrite iadd_id by (unf; lia).
  rewrite time_add_near.
  - apply IH; [lia|]. unfold time_add. cbn [t_ns]. unf. lia.
  - unfold near. unf. lia.
  - unf. lia.
Qed.

Lemma kattika_machine cfg y : Z.abs y <= 10 ^ 11 -> previous_kattika_m cfg y = previous_kattika cfg y.
Proof.
  intros H. unfold previous_kattika_m, previous_kattika. rewrite kattika_epoch_year. cbv zeta. rewrite isub_id by (unf; lia).
  assert (E : t_ns kattika_epoch = 735926 * day_ns) by reflexivity.
  destruct (Z.ltb_spec 2015 (y - 1)); [|destruct (Z.ltb_spec (y - 1) 2015)].
  1,2: apply loop_machine; [auto|lia|lia|rewrite E; unf; lia].
  replace y with 2016 by lia. reflexivity.
Qed.

Lemma kday_bound cfg y : Z.abs y <= 10 ^ 11 -> Z.abs (kday cfg y) <= 38400000000000 + 400 * 6000.
Proof.
  intros H.
  assert (U : forall n, Z.abs (kday cfg (2016 + Z.of_nat n) - kbase) <= 384 * Z.of_nat n).
  { induction n as [|n IH]; [rewrite Z.add_0_r, kday_2016; lia|]. replace (2016 + Z.of_nat (S n)) with (2016 + Z.of_nat n + 1) by lia.
    rewrite kday_step. pose proof (len_pos cfg (2016 + Z.of_nat n)). lia. }
  assert (D : forall n, Z.abs (kday cfg (2016 - Z.of_nat n) - kbase) <= 384 * Z.of_nat n).
  { induction n as [|n IH]; [rewrite Z.sub_0_r, kday_2016; lia|]. pose proof (kday_step cfg (2016 - Z.of_nat (S n))) as ST.
    replace (2016 - Z.of_nat (S n) + 1) with (2016 - Z.of_nat n) in ST by lia. pose proof (len_pos cfg (2016 - Z.of_nat (S n))). lia. }
  assert (B : kbase = 735926) by reflexivity.
  destruct (Z.le_ge_cases 2016 y).
  - specialize (U (Z.to_nat (y - 2016))). replace (2016 + Z.of_nat (Z.to_nat (y - 2016))) with y in U by lia. lia.
  - specialize (D (Z.to_nat (2016 - y))). replace (2016 - Z.of_nat (Z.to_nat (2016 - y))) with y in D by lia. lia.
Qed.
Lemma asalha_machine cfg y : Z.abs y <= 10 ^ 11 -> asalha_puja_m cfg (su_init y) = asalha_puja cfg (su_init y).
Proof.
  intros H. unfold asalha_puja_m, asalha_puja. rewrite init_year, kattika_machine by exact H.
  rewrite am_machine, av_machine by (rewrite init_year; lia).
  pose proof (kday_bound cfg y H) as K. rewrite previous_kattika_eq.
  f_equal. set (n := if is_adhikamasa (su_init y) then iadd (4 * (29 + 30)) 30 else if is_adhikavara cfg (su_init y) then iadd (4 * (29 + 30)) 1 else 4 * (29 + 30)).
  assert (E : n = if is_adhikamasa (su_init y) then 4 * (29 + 30) + 30 else if is_adhikavara cfg (su_init y) then 4 * (29 + 30) + 1 else 4 * (29 + 30)) by reflexivity.
  cbv zeta. fold n. rewrite <- E. assert (B : 0 <= n <= 400) by (rewrite E; destruct (is_adhikamasa _); [lia|]; destruct (is_adhikavara cfg _); lia).
  clearbody n. rewrite hours24_small by lia. apply time_add_near; [unfold near, midnight; cbn [t_ns]; unf; lia | unf; lia].
Qed.

Lemma length_machine cfg y : Z.abs y <= 10 ^ 11 -> year_length_m cfg (su_init y) = year_length cfg (su_init y).
Proof. intros H. unfold year_length_m, year_length. rewrite am_machine, av_machine by (rewrite init_year; lia). reflexivity. Qed.

(** ** Moons *)
Definition room (k : Z) (u : UposathaMoon) : Prop :=
  Z.abs (u_S_Number u) + k <= 2 ^ 62 /\ Z.abs (u_LunarMonth u) + k <= 2 ^ 62 /\
  Z.abs (u_LunarSeason u) + k <= 2 ^ 62 /\ Z.abs (u_LunarYear u) + k <= 2 ^ 62.
Lemma rem2_id m : imod m 2 = Z.rem m 2.
Proof. unfold imod. apply wrap64_id. pose proof (Z.rem_bound_abs m 2). unf. lia. Qed.
Lemma next_machine cfg u : in_int64 (u_S_Number u + 1) -> in_int64 (u_LunarMonth u + 1) -> in_int64 (u_LunarSeason u + 1) -> in_int64 (u_LunarYear u + 1) -> near (u_Date u) -> Z.abs (time_year (u_Date u)) <= 10 ^ 12 - 2 ->
  next_uposatha_m cfg u = next_uposatha cfg u.
Proof.
  intros S M SE Y N T. unfold next_uposatha_m, next_uposatha. rewrite su_init_machine by lia.
  rewrite am_machine, av_machine by (rewrite init_year; lia). cbv zeta.
  assert (MO : next_month_m (is_adhikamasa (su_init (time_year (u_Date u)))) (u_LunarMonth u) = next_month (is_adhikamasa (su_init (time_year (u_Date u)))) (u_LunarMonth u)).
  { unfold next_month_m, next_month. rewrite iadd_id by exact M. reflexivity. }
  rewrite MO, rem2_id, !iadd_id by assumption.
  rewrite (hours24_small 15) by lia. rewrite (time_add_near _ (15 * hour_ns * 24)) by (try assumption; unf; lia).
  set (d := if _ =? 29 then 14 else 15). assert (D : d = 14 \/ d = 15) by (unfold d; match goal with |- context [if ?b then 14 else 15] => destruct b; auto end).
  rewrite (hours24_small d) by lia. rewrite (time_add_near _ (d * hour_ns * 24)) by (try assumption; unf; lia). reflexivity.
Qed.
Lemma next_room cfg u k : 0 <= k <= 2 ^ 61 -> room (k + 1) u -> room k (next_uposatha cfg u).
Proof.
  intros K (S & M & SE & Y). unfold next_uposatha. cbv zeta. destruct (String.eqb (u_Phase u) "new").
  - unfold room. cbn [u_S_Number u_LunarMonth u_LunarSeason u_LunarYear]. lia.
  - assert (MO : forall b, Z.abs (next_month b (u_LunarMonth u)) + k <= 2 ^ 62).
    { intros b. unfold next_month. destruct (_ =? 13); [lia|]. destruct (_ && _); [lia|]. destruct (_ =? 12); lia. }
    specialize (MO (is_adhikamasa (su_init (time_year (u_Date u))))).
    destruct (u_S_Number u <? u_S_Total u); [|destruct (u_LunarMonth u =? 12)]; unfold room; cbn [u_S_Number u_LunarMonth u_LunarSeason u_LunarYear]; lia.
Qed.
Lemma next_date cfg u : exists n, 14 <= n <= 15 /\ u_Date (next_uposatha cfg u) = time_add (u_Date u) (n * day_ns).
Proof.
  assert (E : forall n t, time_add t (n * hour_ns * 24) = time_add t (n * day_ns)) by (intros; f_equal; unf; lia).
  unfold next_uposatha. cbv zeta. destruct (String.eqb (u_Phase u) "new").
  - exists 15. split; [lia|]. cbn [u_Date]. apply E.
  - destruct (u_S_Number u <? u_S_Total u); [|destruct (u_LunarMonth u =? 12)]; cbn [u_Date];
    (match goal with |- context [if ?b then 14 else 15] => destruct b; [exists 14|exists 15] end); (split; [lia|apply E]).
Qed.

Lemma year_low n : - (38400000000000 + 400 * 6000) <= n -> - 110000000000 <= year_of_day n.
Proof. intros H. apply year_of_day_ge. unfold days_before_year. lia. Qed.
Lemma day_high n y : year_of_day n <= y -> y <= 10 ^ 11 -> n <= 37000000000000.
Proof. intros H Y. apply year_of_day_le in H. unfold days_before_year in H. lia. Qed.

Lemma generate_machine cfg y : Z.abs y <= 10 ^ 11 -> forall fuel u, Z.of_nat fuel <= 2 ^ 61 -> room (Z.of_nat fuel) u ->
  t_off (u_Date u) = 0 -> - (38400000000000 + 400 * 6000) * day_ns <= t_ns (u_Date u) ->
  generate_loop_m cfg fuel y u = generate_loop cfg fuel y u.
Proof.
  intros Y. induction fuel as [|fuel IH]; intros u F R O L; cbn [generate_loop_m generate_loop]; destruct (Z.leb_spec (time_year (u_Date u)) y) as [T|T]; try reflexivity.
  assert (LD : local_day (u_Date u) = t_ns (u_Date u) / day_ns) by (unfold local_day, local_ns; rewrite O; f_equal; lia).
  assert (LO : - (38400000000000 + 400 * 6000) <= local_day (u_Date u)) by (rewrite LD; unf; lia).
  pose proof (day_high (local_day (u_Date u)) y T ltac:(lia)) as HI.
  pose proof (year_low _ LO) as YL. fold (time_year (u_Date u)) in YL.
  assert (N : near (u_Date u)) by (unfold near; rewrite LD in *; unf; lia).
  rewrite next_machine; [|destruct R as (?&?&?&?); unf; lia ..|exact N|lia].
  rewrite IH; [reflexivity|lia|apply next_room; [lia|]; replace (Z.of_nat fuel + 1) with (Z.of_nat (S fuel)) by lia; exact R| |].
  - destruct (next_date cfg u) as (n & _ & ->). exact O.
  - destruct (next_date cfg u) as (n & B & ->). unfold time_add. cbn [t_ns]. unf. lia.
Qed.

Lemma year_machine cfg y : Z.abs y <= 10 ^ 11 -> generate_solar_year_m cfg y = generate_solar_year cfg y.
Proof.
  intros Y. unfold generate_solar_year_m, generate_solar_year. rewrite kattika_machine by exact Y. rewrite previous_kattika_eq.
  pose proof (kday_bound cfg y Y) as K. set (k := kday cfg y) in *. clearbody k.
  assert (YL : - 110000000000 <= year_of_day k) by (apply year_low; lia).
  assert (YH : year_of_day k <= 110000000000) by (apply year_of_day_le; unfold days_before_year; lia).
  rewrite time_year_midnight. rewrite iadd_id by (unfold BEdiff; unf; lia).
  rewrite generate_machine; [unfold kattika_seed; rewrite time_year_midnight; reflexivity|exact Y| | |reflexivity|cbn [u_Date]; unfold midnight; cbn [t_ns]; unf; lia].
  - unfold generate_fuel. rewrite local_day_midnight. unfold days_before_year. lia.
  - assert (F : Z.of_nat (generate_fuel y (midnight k)) <= 10 ^ 14) by (unfold generate_fuel; rewrite local_day_midnight; unfold days_before_year; lia).
    unfold room. cbn [u_S_Number u_LunarMonth u_LunarSeason u_LunarYear]. unfold BEdiff. lia.
Qed.

Lemma years_near t : Z.abs (time_year t) <= 10 ^ 11 -> Z.abs (t_off t) <= 10 ^ 9 -> near t.
Proof.
  intros Y O. pose proof (year_of_day_spec (local_day t)) as S. fold (time_year t) in S. pose proof (local_ns_split t) as L.
  pose proof (clock_ns_range t). unfold local_ns in L. unfold near. unfold days_before_year in S. unf. lia.
Qed.
(** ** Ranges *)
Lemma merge_machine cfg from to : Z.abs (time_year to) <= 10 ^ 11 -> forall n year l, - 10 ^ 11 <= year ->
  n = Z.to_nat (time_year to - year + 1) -> merge_years_m cfg from to n year l = merge_years cfg from to n year l.
Proof.
  intros T. induction n as [|n IH]; intros year l Y E; cbn [merge_years_m merge_years]; destruct (Z.leb_spec year (time_year to)); try lia; try reflexivity.
  rewrite year_machine by lia. destruct (generate_solar_year cfg year); [|reflexivity]. rewrite iadd_id by (unf; lia). apply IH; lia.
Qed.
Lemma astro_machine fs from to : Z.abs (time_year to) <= 10 ^ 11 -> forall n year, - 10 ^ 11 <= year ->
  n = Z.to_nat (time_year to - year + 1) -> astro_years_m fs from to n year = Some (astro_years fs from to n year).
Proof.
  intros T. induction n as [|n IH]; intros year Y E; cbn [astro_years_m astro_years]; destruct (Z.leb_spec year (time_year to)); try lia; try reflexivity.
  destruct (fs year) as [| |success code resp]; try reflexivity. rewrite iadd_id by (unf; lia). rewrite (IH (year + 1)) by lia.
  destruct (negb success); [reflexivity|]. destruct (negb _); [reflexivity|]. destruct (astro_of_response from to resp); [|reflexivity].
  destruct (astro_years fs from to n (year + 1)); reflexivity.
Qed.
Lemma days_machine cfg fs from to : Z.abs (time_year from) <= 10 ^ 11 -> Z.abs (time_year to) <= 10 ^ 11 ->
  get_cal_days_m cfg fs from to = get_cal_days cfg fs from to.
Proof.
  intros F T. unfold get_cal_days_m, get_cal_days, get_cal_days_unsorted, get_astro_moons. rewrite astro_machine by (try reflexivity; lia).
  destruct (astro_years fs from to (year_count from to) (time_year from)); [|reflexivity]. cbv zeta.
  rewrite merge_machine by (try reflexivity; lia). destruct (merge_years cfg from to (year_count from to) (time_year from) _); reflexivity.
Qed.
