(** C24, continued: later years, up to the first one without its Pavarana. *)
From Coq Require Import ZArith Lia Bool ZifyBool List String.
From Verif Require Import GoTime SuriyaYear Helpers UposathaMoon CalDay Spec SpecCal.
From Verif Require Import P_Time P_Year P_Counts P_Kattika P_Chain P_Gen P_Gen2 P_Day Prop_Kattika P_Age Prop_Calendar.
Import ListNotations.
Open Scope Z_scope.

(** ** Years whose own Kattika is at most 28 days into the next year *)

Definition to_pavarana (a : bool) : nat := if a then 24 else 22.
Definition pavarana_day (a v : bool) : Z := if a then 355 else if v then 326 else 325.
Definition late_rows (a v : bool) : list row := rows a v (to_pavarana a) row0 ++ rows a v 3 (iter_row a v (to_pavarana a) row0).

Lemma pavarana_row a v : a && v = false -> r_off (iter_row a v (to_pavarana a) row0) = pavarana_day a v /\
  r_off (iter_row a v 3 (iter_row a v (to_pavarana a) row0)) = pavarana_day a v + 44.
Proof. destruct a, v; try discriminate; intros _; vm_compute; split; reflexivity. Qed.
Lemma late_ok a v : rows_ok 118 a v (to_pavarana a) row0 = true /\ rows_ok 1000 a v 3 (iter_row a v (to_pavarana a) row0) = true.
Proof. destruct a, v; vm_compute; split; reflexivity. Qed.
Lemma late_check a v : a && v = false -> forallb (row_check a 89 (pavarana_day a v)) (late_rows a v) = true.
Proof. destruct a, v; try discriminate; intros _; vm_compute; reflexivity. Qed.
Lemma late_majors a v : a && v = false -> flat_map (fun r => majors_list (ev_row a r) (r_off r)) (late_rows a v) = year_majors a v.
Proof. destruct a, v; try discriminate; intros _; vm_compute; reflexivity. Qed.

Lemma late_moons cfg y : am y && is_adhikavara cfg (su_init y) = false ->
  let k := kday cfg y in let a := am y in let v := is_adhikavara cfg (su_init y) in
  days_before_year y - k <= 74 -> k + pavarana_day a v < days_before_year (y + 1) ->
  moons cfg (to_pavarana a + 3) (kattika_seed (midnight k)) = map (of_row k (year_of_day k + 544)) (late_rows a v) /\
  u_Date (iter_moon cfg (to_pavarana a + 3) (kattika_seed (midnight k))) = midnight (k + (pavarana_day a v + 44)).
Proof.
  intros Hx. cbv zeta. intros H1 H2. rewrite (seed_row (kday cfg y) (year_of_day (kday cfg y) + 544) eq_refl).
  generalize (year_of_day (kday cfg y) + 544). intros ly.
  destruct (late_ok (am y) (is_adhikavara cfg (su_init y))) as [K1 K2].
  destruct (pavarana_row _ _ Hx) as [R1 R2].
  destruct (moons_rows cfg (kday cfg y) ly (am y) (is_adhikavara cfg (su_init y)) 118 (to_pavarana (am y)) row0 K1) as [E1 E2].
  { rewrite R1. intros j Hj. assert (E : year_of_day (kday cfg y + j) = y) by (apply year_of_day_iff; lia).
    unfold fl_am, fl_av. rewrite E. split; reflexivity. }
  destruct (moons_rows cfg (kday cfg y) ly (am y) (is_adhikavara cfg (su_init y)) 1000 3 (iter_row (am y) (is_adhikavara cfg (su_init y)) (to_pavarana (am y)) row0) K2) as [F1 F2].
  { rewrite R2. intros j Hj. exfalso. revert Hj. unfold pavarana_day. destruct (am y), (is_adhikavara cfg (su_init y)); lia. }
  rewrite moons_app, iter_moon_add, E1, E2, F1, F2. unfold late_rows. rewrite map_app. split; [reflexivity|].
  cbn [of_row u_Date]. rewrite R2. reflexivity.
Qed.

Lemma late_majors_eq cfg y : am y && is_adhikavara cfg (su_init y) = false ->
  let k := kday cfg y in let a := am y in let v := is_adhikavara cfg (su_init y) in
  days_before_year y - k <= 74 -> k + pavarana_day a v < days_before_year (y + 1) <= k + pavarana_day a v + 44 ->
  majors_of (events_of_year cfg y) = map (mev k) (year_majors a v).
Proof.
  intros Hx. cbv zeta. intros H1 H2. unfold events_of_year. destruct (generate_spec cfg y) as (p & E & Hle & Hgt). rewrite E.
  rewrite majors_flat. destruct (late_moons cfg y Hx H1 ltac:(lia)) as [L1 L2].
  enough (E' : filter (in_y y) (moons cfg p (kattika_seed (midnight (kday cfg y)))) =
    filter (in_y y) (moons cfg (to_pavarana (am y) + 3) (kattika_seed (midnight (kday cfg y))))).
  { rewrite E', L1, majors_filter, flat_map_compose, <- late_majors by exact Hx. rewrite <- flat_map_map. apply flat_map_ext_in. intros r Hr.
    pose proof (late_check _ _ Hx) as Hrc. rewrite forallb_forall in Hrc. specialize (Hrc r Hr). unfold row_check in Hrc.
    rewrite in_y_row, majors_row'. unfold row_event, ev_row.
    destruct (r_full r); cbn [negb orb] in Hrc; [|rewrite !majors_list_nil by reflexivity; apply if_nil].
    assert (Hin : forall j, 74 <= j <= pavarana_day (am y) (is_adhikavara cfg (su_init y)) -> fl_am (kday cfg y) j = am y).
    { intros j Hj. unfold fl_am. replace (year_of_day (kday cfg y + j)) with y; [reflexivity|]. symmetry. apply year_of_day_iff. lia. }
    destruct (String.eqb (full_moon_event true (r_month r)) "") eqn:E1, (String.eqb (full_moon_event false (r_month r)) "") eqn:E2;
      cbn [andb orb] in Hrc;
      try (apply String.eqb_eq in E1; apply String.eqb_eq in E2; rewrite (majors_list_nil (full_moon_event (am y) (r_month r))) by (destruct (am y); assumption); rewrite majors_list_nil by (destruct (fl_am (kday cfg y) (r_off r - 15)); assumption); apply if_nil).
    all: rewrite (Hin (r_off r - 15)) by lia;
      replace ((days_before_year y - kday cfg y <=? r_off r) && (r_off r <? days_before_year (y + 1) - kday cfg y)) with true; [reflexivity|lia]. }
  assert (Hend : y < time_year (u_Date (iter_moon cfg (to_pavarana (am y) + 3) (kattika_seed (midnight (kday cfg y)))))).
  { rewrite L2, time_year_midnight.
    destruct (Z_lt_le_dec y (year_of_day (kday cfg y + (pavarana_day (am y) (is_adhikavara cfg (su_init y)) + 44)))) as [|Hle']; [assumption|].
    apply year_of_day_le in Hle'. lia. }
  destruct (Nat.le_gt_cases p (to_pavarana (am y) + 3)) as [Hp|Hp].
  - symmetry. apply (filter_more cfg y _ (kday cfg y)); [reflexivity|exact Hp|exact Hgt].
  - exfalso. specialize (Hle _ Hp). lia.
Qed.

(** The list of C24 is right as long as Pavarana, 29 days before the Kattika of its own year, is still in that year: the Kattika before a year may be up to
    28 days after its 1 January. *)
Theorem C24_late : forall cfg y asalha,
  kattika_within cfg (-28) 74 y -> kattika_within cfg (-28) 74 (y + 1) -> exclusive cfg y ->
  asalha_puja cfg (su_init y) = Some asalha ->
  let a := is_adhikamasa (su_init y) in let v := is_adhikavara cfg (su_init y) in
  let event days name := mkEvent (time_add asalha (days * (24 * hour_ns))) 0 name name in
  majors_of (events_of_year cfg y) =
  [event (if a || v then -148 else -147) "Māgha Pūjā"%string; event (if v then -60 else -59) "Vesākha Pūjā"%string;
   event 0 "Āsāḷha Pūjā"%string; event 1 "First day of Vassa"%string;
   event 89 "Pavāraṇā Day"%string; event 89 "Last day of Vassa"%string].
Proof.
  intros cfg y asalha H1 H2 Hx Ea. pose proof H1 as W1. pose proof H2 as W2. rewrite within_iff in W1, W2.
  destruct (Z_le_gt_dec 1 (days_before_year y - kday cfg y)) as [P1|P1];
  [destruct (Z_le_gt_dec 1 (days_before_year (y + 1) - kday cfg (y + 1))) as [P2|P2]; [apply (C24_major_events cfg y asalha); try assumption; apply within_iff; lia|]|].
  all: cbv zeta; rewrite kday_step, len_days in W2; try rewrite kday_step, len_days in P2; pose proof (days_before_year_step y) as S;
    rewrite (late_majors_eq cfg y Hx);
    [|lia|unfold lunar_days, pavarana_day in *; unfold exclusive in Hx; fold (am y) in Hx; destruct (am y), (is_adhikavara cfg (su_init y)); try discriminate; lia].
  all: rewrite year_majors_val by exact Hx; rewrite asalha_puja_eq in Ea; apply some_inj' in Ea; rewrite Ea; clear Ea S W1 W2 P1 H1 H2; try clear P2;
    unfold exclusive in Hx; fold (am y) in *; generalize (kday cfg y); intros k;
    destruct (am y), (is_adhikavara cfg (su_init y)); try discriminate; cbn [orb map mev fst snd mevent];
    unfold mev, mevent; cbn [fst snd];
    repeat (f_equal; try (apply time_eq; cbn [midnight time_add t_ns t_off]; [unfold day_ns, hour_ns; lia|reflexivity])).
Qed.

(** With the table as shipped that holds up to 5834. *)
Lemma offset_check_late : check_year cfg_default 1718 4117 1503339 (offset_in (-28) 74) = true.
Proof. vm_cast_no_check (eq_refl true). Qed.
Lemma shipped_late cfg y : shipped cfg -> 1290 <= y <= 5835 -> kattika_within cfg (-28) 74 y.
Proof.
  intros Hs Hy. destruct (Z_le_gt_dec y 4116) as [L|L]; [apply (within_weaken cfg 1 74); [apply shipped_within_74; [exact Hs|lia]|lia..]|].
  apply within_iff. rewrite (kday_shipped cfg y Hs). replace (exc_shift cfg y) with 0 by (unfold exc_shift; destruct (UseExceptions cfg); cbn [andb]; [replace (1995 <=? y) with true by lia; replace (y <=? 1997) with false by lia|]; reflexivity).
  pose proof (check_year_spec cfg_default (offset_in (-28) 74) 1718 4117) as Hc. rewrite kday_4117 in Hc.
  specialize (Hc offset_check_late y ltac:(lia)). rewrite offset_in_spec in Hc. lia.
Qed.
Theorem C24_late_hypotheses : forall cfg y,
  UseExceptions cfg = false \/ (forall z, AdhikavaraExceptions cfg z = shipped_exceptions z) ->
  1290 <= y <= 5834 ->
  kattika_within cfg (-28) 74 y /\ kattika_within cfg (-28) 74 (y + 1) /\ exclusive cfg y /\
  exists a, asalha_puja cfg (su_init y) = Some a /\ time_year a = y.
Proof.
  intros cfg y Hs Hy. pose proof (shipped_late cfg y Hs ltac:(lia)) as H1. pose proof (shipped_late cfg (y + 1) Hs ltac:(lia)) as H2.
  split; [exact H1|]. split; [exact H2|]. split; [apply shipped_exclusive; exact Hs|].
  rewrite asalha_puja_eq. eexists. split; [reflexivity|]. rewrite time_year_midnight. apply year_of_day_iff.
  rewrite within_iff in H1. pose proof (days_before_year_step y).
  generalize dependent (kday cfg y). intros k H1. destruct (am y); [lia|]. destruct (is_adhikavara cfg (su_init y)); lia.
Qed.
(** 5834, the last year of the range, starts three weeks before the Kattika it is counted from. *)
Lemma kday_5834 : kday cfg_default 5834 = 2130480.
Proof. rewrite (kday_closed cfg_default 5834 eq_refl) by lia. vm_cast_no_check (eq_refl 2130480). Qed.
Example C24_late_example : kattika_within cfg_default (-21) (-21) 5834 /\ map (fun e => (e_Summary e, e_Date e)) (majors_of (events_of_year cfg_default 5834)) =
  [("Māgha Pūjā"%string, time_date 5834 4 21 0 0); ("Vesākha Pūjā"%string, time_date 5834 7 18 0 0);
   ("Āsāḷha Pūjā"%string, time_date 5834 9 15 0 0); ("First day of Vassa"%string, time_date 5834 9 16 0 0);
   ("Pavāraṇā Day"%string, time_date 5834 12 13 0 0); ("Last day of Vassa"%string, time_date 5834 12 13 0 0)].
Proof.
  split; [apply within_iff; rewrite kday_5834; vm_compute; intuition discriminate|].
  rewrite (generate_from cfg_default 5834 _ kday_5834). vm_compute. reflexivity.
Qed.

(** In those years every festival is a day of the year. *)
Lemma late_major_date cfg y m : kattika_within cfg (-28) 74 y -> kattika_within cfg (-28) 74 (y + 1) -> exclusive cfg y ->
  In m (majors_of (events_of_year cfg y)) -> exists d, e_Date m = midnight d /\ year_of_day d = y.
Proof.
  intros H1 H2 Hx. rewrite (C24_late cfg y _ H1 H2 Hx (asalha_puja_eq cfg y)). rewrite within_iff in H1, H2. rewrite kday_step, len_days in H2.
  assert (D : forall k j, time_add (midnight k) (j * (24 * hour_ns)) = midnight (k + j)) by (intros k j; apply time_eq; cbn [midnight time_add t_ns t_off]; [unfold day_ns, hour_ns; lia|reflexivity]).
  unfold exclusive in Hx. fold (am y) in *. rewrite !D. unfold lunar_days in H2.
  generalize dependent (kday cfg y). intros k H1 H2.
  intros Hm. cbn [In] in Hm. repeat (destruct Hm as [<-|Hm]); [..|destruct Hm]; cbn [e_Date]; eexists; (split; [reflexivity|]); apply year_of_day_iff;
    destruct (am y), (is_adhikavara cfg (su_init y)); try discriminate; cbn [orb]; lia.
Qed.

Lemma kday_5835 : kday cfg_default 5835 = 2130834.
Proof. rewrite (kday_closed cfg_default 5835 eq_refl) by lia. vm_cast_no_check (eq_refl 2130834). Qed.
Lemma kday_5836 : kday cfg_default 5836 = 2131218.
Proof. rewrite (kday_closed cfg_default 5836 eq_refl) by lia. vm_cast_no_check (eq_refl 2131218). Qed.
(** Late enough it fails again: the Vassa that begins in October 5835 never ends. Pavarana, 89 days after Asalha Puja, is 1 January 5836, outside of 5835;
    and 5836 starts from a Kattika moon after it. *)
Theorem C24_5835_refuted :
  map (fun e => (e_Summary e, e_Date e)) (majors_of (events_of_year cfg_default 5835)) =
  [("Māgha Pūjā"%string, time_date 5835 5 9 0 0); ("Vesākha Pūjā"%string, time_date 5835 8 6 0 0);
   ("Āsāḷha Pūjā"%string, time_date 5835 10 4 0 0); ("First day of Vassa"%string, time_date 5835 10 5 0 0)] /\
  time_add (time_date 5835 10 4 0 0) (89 * (24 * hour_ns)) = time_date 5836 1 1 0 0 /\
  map (fun e => (e_Summary e, e_Date e)) (majors_of (events_of_year cfg_default 5836)) =
  [("Māgha Pūjā"%string, time_date 5836 4 28 0 0); ("Vesākha Pūjā"%string, time_date 5836 7 25 0 0);
   ("Āsāḷha Pūjā"%string, time_date 5836 9 22 0 0); ("First day of Vassa"%string, time_date 5836 9 23 0 0);
   ("Pavāraṇā Day"%string, time_date 5836 12 20 0 0); ("Last day of Vassa"%string, time_date 5836 12 20 0 0)].
Proof.
  rewrite (generate_from cfg_default 5835 _ kday_5835), (generate_from cfg_default 5836 _ kday_5836).
  split; [vm_compute; reflexivity|]. split; [reflexivity|vm_compute; reflexivity].
Qed.
