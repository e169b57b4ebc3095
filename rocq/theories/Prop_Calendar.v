(** Theorems C20-C26 and C49: NextUposatha and GenerateSolarYear. *)
From Coq Require Import ZArith Lia Bool ZifyBool List String.
From Verif Require Import GoTime SuriyaYear Helpers UposathaMoon CalDay Spec SpecCal.
From Verif Require Import P_Time P_Year P_Counts P_Kattika P_Chain P_Gen P_Gen2 P_Day Prop_Kattika P_Age.
Import ListNotations.
Open Scope Z_scope.

(** * C20 NextUposatha alternates and advances 14 or 15 days *)
Theorem C20_next_uposatha : forall cfg u, let n := next_uposatha cfg u in
  u_Phase n = (if String.eqb (u_Phase u) "new" then "full"%string else "new"%string) /\
  u_Date n = time_add (u_Date u) (u_U_Days n * (24 * hour_ns)) /\
  (u_Phase n = "full"%string -> u_U_Days n = 15 /\ u_M_Days n = u_M_Days u /\ u_LunarMonth n = u_LunarMonth u) /\
  (u_Phase n = "new"%string -> (u_M_Days n = 29 /\ u_U_Days n = 14 \/ u_M_Days n = 30 /\ u_U_Days n = 15) /\ u_Event n = ""%string) /\
  u_Status n = 0 /\ u_Calendar n = 0 /\ u_Source n = ""%string /\ u_Comments n = ""%string.
Proof.
  intros cfg u. cbv zeta. rewrite next_uposatha_flags. unfold next_flags.
  set (a := am _). set (v := is_adhikavara _ _). clearbody a v.
  destruct (String.eqb (u_Phase u) "new").
  - cbn [u_Phase u_Date u_U_Days u_M_Days u_LunarMonth u_Event u_Status u_Calendar u_Source u_Comments].
    split; [reflexivity|]. split; [f_equal; lia|]. split; [auto|]. split; [discriminate|]. auto.
  - set (month := next_month a (u_LunarMonth u)). clearbody month. cbv zeta.
    set (md := if v && (month =? 8) then 30 else if Z.rem month 2 =? 1 then 30 else 29).
    assert (Hmd : md = 29 \/ md = 30) by (unfold md; destruct (v && (month =? 8)); [auto|destruct (Z.rem month 2 =? 1); auto]).
    clearbody md.
    destruct (u_S_Number u <? u_S_Total u); [|destruct (u_LunarMonth u =? 12)];
    cbn [u_Phase u_Date u_U_Days u_M_Days u_LunarMonth u_Event u_Status u_Calendar u_Source u_Comments];
    (split; [reflexivity|]; split; [f_equal; lia|]; split; [discriminate|]; split; [|auto]);
    intros _; (split; [|reflexivity]); destruct Hmd as [-> | ->]; auto.
Qed.
(** 2016-07-04 (new, month 8 of an adhikavara year) is 15 days after the full moon of 2016-06-19. *)
Example C20_example :
  let u := mkUposatha (time_date 2016 6 19 0 0) 0 0 "full" "" 6 8 15 30 7 2 2559 false "" "" in
  next_uposatha cfg_default u =
    mkUposatha (time_date 2016 7 4 0 0) 0 0 "new" "" 7 8 15 30 8 2 2559 true "" "" /\
  next_uposatha cfg_default (next_uposatha cfg_default u) =
    mkUposatha (time_date 2016 7 19 0 0) 0 0 "full" "asalha" 8 8 15 30 8 2 2559 false "" "".
Proof. vm_compute. auto. Qed.

(** * C21 A lunar year closes on the next Kattika *)
Theorem C21_year_closes : forall cfg y k k',
  kattika_within cfg 1 118 y -> (exists hi, kattika_within cfg 1 hi (y + 1)) -> exclusive cfg y ->
  previous_kattika cfg y = Some k -> previous_kattika cfg (y + 1) = Some k' ->
  nth_moon cfg (kattika_moon k) (if is_adhikamasa (su_init y) then 26 else 24) = kattika_moon k'.
Proof.
  intros cfg y k k' H1 [hi H2] Hx E E'. rewrite previous_kattika_eq in E, E'. apply some_inj' in E. apply some_inj' in E'.
  rewrite E, E', !kattika_moon_seed, nth_moon_iter.
  pose proof (lunar_year cfg y (valid_within cfg y hi H1 H2 Hx)) as [_ L]. exact L.
Qed.
Theorem C21_year_closes_631_4115 : forall cfg y k k',
  UseExceptions cfg = false \/ (forall z, AdhikavaraExceptions cfg z = shipped_exceptions z) ->
  631 <= y <= 4115 ->
  previous_kattika cfg y = Some k -> previous_kattika cfg (y + 1) = Some k' ->
  nth_moon cfg (kattika_moon k) (if is_adhikamasa (su_init y) then 26 else 24) = kattika_moon k'.
Proof.
  intros cfg y k k' Hs Hy. apply C21_year_closes.
  - apply (within_weaken cfg 1 104); [apply shipped_within; [exact Hs|]|..]; lia.
  - exists 104. apply shipped_within; [exact Hs|lia].
  - apply shipped_exclusive; exact Hs.
Qed.
(** In 4116 it does not close: the Kattika of 4117 has slipped into 4117 itself, and the
    lunar year is counted one too high. *)
Theorem C21_4116_refuted : exists k k', previous_kattika cfg_default 4116 = Some k /\
  previous_kattika cfg_default 4117 = Some k' /\
  nth_moon cfg_default (kattika_moon k) (if is_adhikamasa (su_init 4116) then 26 else 24) <> kattika_moon k' /\
  u_LunarYear (kattika_moon k') = u_LunarYear (nth_moon cfg_default (kattika_moon k) (if is_adhikamasa (su_init 4116) then 26 else 24)) + 1.
Proof.
  assert (K6 : kday cfg_default 4116 = 1502955).
  { pose proof (kday_step cfg_default 4116) as E. change (4116 + 1) with 4117 in E. rewrite kday_4117 in E.
    assert (L : len cfg_default 4116 = 384) by (vm_cast_no_check (eq_refl 384)). rewrite L in E. revert E.
    generalize (kday cfg_default 4116). intros z E. lia. }
  exists (midnight 1502955), (midnight 1503339). rewrite !previous_kattika_eq, K6, kday_4117.
  split; [reflexivity|]. split; [reflexivity|]. split.
  - intros E. apply (f_equal u_LunarYear) in E. vm_compute in E. discriminate.
  - vm_cast_no_check (eq_refl 4660).
Qed.
Example C21_example : nth_moon cfg_default (kattika_moon (time_date 2014 11 6 0 0)) 26 = kattika_moon (time_date 2015 11 25 0 0)
  /\ is_adhikamasa (su_init 2015) = true.
Proof. vm_compute. auto. Qed.

(** * C22 Season and month numbering along the generated chain *)
Theorem C22_numbering : forall cfg y k,
  kattika_within cfg 1 118 y -> (exists hi, kattika_within cfg 1 hi (y + 1)) -> exclusive cfg y ->
  previous_kattika cfg y = Some k ->
  let a := is_adhikamasa (su_init y) in let v := is_adhikavara cfg (su_init y) in
  let moons := chain cfg (kattika_moon k) 1 (if a then 26 else 24) in
  map (fun u => (u_LunarMonth u, u_Phase u)) moons =
    flat_map (fun m => [(m, "new"%string); (m, "full"%string)]) (lunar_months a) /\
  map (fun u => (u_U_Days u, u_M_Days u)) moons =
    flat_map (fun m => [(month_days v m - 15, month_days v m); (15, month_days v m)]) (lunar_months a) /\
  map (fun u => (u_S_Number u, u_S_Total u, u_LunarSeason u)) moons = season_numbers a /\
  (forall u, In u moons -> u_LunarYear u = y + 543 /\
    (u_HasAdhikavara u = true <-> v = true /\ u_LunarMonth u = 8 /\ u_Phase u = "new"%string)).
Proof.
  intros cfg y k H1 [hi H2] Hx E. rewrite previous_kattika_eq in E. apply some_inj' in E. rewrite E. cbv zeta.
  rewrite kattika_moon_seed, <- moons_chain.
  pose proof (lunar_year cfg y (valid_within cfg y hi H1 H2 Hx)) as [L _]. cbv zeta in L. unfold moon_count in L. unfold am in L.
  rewrite L. clear L. unfold exclusive in Hx. rewrite !map_map. generalize (kday cfg y). intros kd.
  destruct (is_adhikamasa (su_init y)), (is_adhikavara cfg (su_init y)); try discriminate Hx.
  all: split; [vm_compute; reflexivity|]; split; [vm_compute; reflexivity|]; split; [vm_compute; reflexivity|].
  all: intros u Hu; apply in_map_iff in Hu; destruct Hu as (r & <- & Hr); unfold of_row;
       cbn [u_LunarYear u_HasAdhikavara u_LunarMonth u_Phase].
  1: pose (f := fun r => (r_ly r =? 0) && Bool.eqb (r_av r) false); assert (C : forallb f (year_rows true false) = true) by (vm_compute; reflexivity).
  2: pose (f := fun r => (r_ly r =? 0) && Bool.eqb (r_av r) ((r_month r =? 8) && negb (r_full r))); assert (C : forallb f (year_rows false true) = true) by (vm_compute; reflexivity).
  3: pose (f := fun r => (r_ly r =? 0) && Bool.eqb (r_av r) false); assert (C : forallb f (year_rows false false) = true) by (vm_compute; reflexivity).
  all: rewrite forallb_forall in C; specialize (C r Hr); unfold f in C; apply andb_true_iff in C; destruct C as [C1 C2];
    apply Bool.eqb_prop in C2; rewrite C2; apply Z.eqb_eq in C1; rewrite C1; (split; [lia|]).
  - intuition discriminate.
  - destruct (Z.eqb_spec (r_month r) 8), (r_full r); cbn [negb andb]; intuition (discriminate || congruence).
  - intuition discriminate.
Qed.
Example C22_example : map (fun u => (u_LunarMonth u, u_S_Number u, u_S_Total u))
    (chain cfg_default (kattika_moon (time_date 2014 11 6 0 0)) 15 4) = [(8, 7, 10); (8, 8, 10); (13, 9, 10); (13, 10, 10)].
Proof. vm_compute. reflexivity. Qed.

(** * C23 GenerateSolarYear yields exactly the uposathas of the year, with no gap at year seams *)
Theorem C23_no_gap : forall cfg y1 n k, (0 < n)%nat ->
  (forall y, y1 <= y <= y1 + Z.of_nat n -> kattika_within cfg 1 118 y /\ exclusive cfg y) ->
  previous_kattika cfg y1 = Some k ->
  exists i m, (1 <= i)%nat /\
  flat_map (fun y => uposathas_of (events_of_year cfg y)) (years y1 n)
    = map confirmed (chain cfg (kattika_moon k) i m) /\
  time_year (u_Date (nth_moon cfg (kattika_moon k) (i - 1))) = y1 - 1 /\
  time_year (u_Date (nth_moon cfg (kattika_moon k) (i + m))) = y1 + Z.of_nat n.
Proof.
  intros cfg y1 n k Hn Hv E. rewrite previous_kattika_eq in E. apply some_inj' in E. rewrite E, kattika_moon_seed.
  apply years_segment; [exact Hn|]. intros y Hy.
  apply (valid_within cfg y 118); [apply Hv; lia|apply Hv; lia|apply Hv; lia].
Qed.
Theorem C23_each_in_its_year : forall cfg y u, In u (uposathas_of (events_of_year cfg y)) ->
  time_year (u_Date u) = y /\ u_Status u = 2.
Proof.
  intros cfg y u. destruct (year_filter cfg y) as (p & E). rewrite (E p ltac:(lia)).
  intros Hu. apply in_map_iff in Hu. destruct Hu as (x & <- & Hx). apply filter_In in Hx. destruct Hx as [_ Hx].
  unfold in_y in Hx. split; [|reflexivity]. cbn [confirmed u_Date]. lia.
Qed.
Theorem C23_count : forall cfg y,
  kattika_within cfg 1 118 y -> kattika_within cfg 1 118 (y + 1) -> exclusive cfg y ->
  List.length (uposathas_of (events_of_year cfg y)) = 24%nat \/ List.length (uposathas_of (events_of_year cfg y)) = 25%nat.
Proof.
  intros cfg y H1 H2 Hx. apply year_count; [exact (valid_within cfg y 118 H1 H2 Hx)| |]; rewrite within_iff in *; lia.
Qed.
(** The hypotheses hold for all years 631..4115 with the table as shipped. *)
Theorem C23_hypotheses : forall cfg y,
  UseExceptions cfg = false \/ (forall z, AdhikavaraExceptions cfg z = shipped_exceptions z) ->
  631 <= y <= 4116 -> kattika_within cfg 1 118 y /\ exclusive cfg y.
Proof.
  intros cfg y Hs Hy. split; [|apply shipped_exclusive; exact Hs].
  apply (within_weaken cfg 1 104); [apply shipped_within; assumption|lia..].
Qed.
Example C23_example : List.length (uposathas_of (events_of_year cfg_default 2015)) = 25%nat /\
  List.length (uposathas_of (events_of_year cfg_default 2017)) = 24%nat /\
  map (fun u => u_Date u) (firstn 2 (uposathas_of (events_of_year cfg_default 2017))) =
    [time_date 2017 1 12 0 0; time_date 2017 1 27 0 0].
Proof. vm_compute. auto. Qed.

(** * C24 Each solar year has each major event exactly once *)
Theorem C24_major_events : forall cfg y asalha,
  kattika_within cfg 1 74 y -> kattika_within cfg 1 74 (y + 1) -> exclusive cfg y ->
  asalha_puja cfg (su_init y) = Some asalha ->
  let a := is_adhikamasa (su_init y) in let v := is_adhikavara cfg (su_init y) in
  let event days name := mkEvent (time_add asalha (days * (24 * hour_ns))) 0 name name in
  majors_of (events_of_year cfg y) =
  [event (if a || v then -148 else -147) "Māgha Pūjā"%string; event (if v then -60 else -59) "Vesākha Pūjā"%string;
   event 0 "Āsāḷha Pūjā"%string; event 1 "First day of Vassa"%string;
   event 89 "Pavāraṇā Day"%string; event 89 "Last day of Vassa"%string].
Proof.
  intros cfg y asalha H1 H2 Hx Ea. cbv zeta.
  rewrite (year_majors_eq cfg y).
  - rewrite year_majors_val by exact Hx. rewrite asalha_puja_eq in Ea. apply some_inj' in Ea. rewrite Ea. clear Ea.
    unfold exclusive in Hx. fold (am y) in *. generalize (kday cfg y). intros k.
    destruct (am y), (is_adhikavara cfg (su_init y)); try discriminate; cbn [orb map mev fst snd mevent];
    unfold mev, mevent; cbn [fst snd];
    repeat (f_equal; try (apply time_eq; cbn [midnight time_add t_ns t_off]; [unfold day_ns, hour_ns; lia|reflexivity])).
  - apply (valid_within cfg y 74); [apply (within_weaken cfg 1 74); [exact H1|lia..]|exact H2|exact Hx].
  - rewrite within_iff in H1. lia.
  - rewrite within_iff in H2. lia.
Qed.
Theorem C24_hypotheses : forall cfg y,
  UseExceptions cfg = false \/ (forall z, AdhikavaraExceptions cfg z = shipped_exceptions z) ->
  1290 <= y <= 4115 ->
  kattika_within cfg 1 74 y /\ kattika_within cfg 1 74 (y + 1) /\ exclusive cfg y /\
  exists a, asalha_puja cfg (su_init y) = Some a /\ time_year a = y.
Proof.
  intros cfg y Hs Hy. pose proof (shipped_within_74 cfg y Hs ltac:(lia)) as H1.
  pose proof (shipped_within_74 cfg (y + 1) Hs ltac:(lia)) as H2.
  split; [exact H1|]. split; [exact H2|]. split; [apply shipped_exclusive; exact Hs|].
  rewrite asalha_puja_eq. eexists. split; [reflexivity|]. rewrite time_year_midnight. apply year_of_day_iff.
  rewrite within_iff in H1. pose proof (days_before_year_step y).
  generalize dependent (kday cfg y). intros k H1. destruct (am y); [lia|]. destruct (is_adhikavara cfg (su_init y)); lia.
Qed.
(** In every year, also those outside the hypotheses, the major events are those the uposathas of that year stand for:
    none is taken from a neighbouring year. *)
Definition announced (event : string) : list (string * Z) :=
  if String.eqb event "magha" then [("Māgha Pūjā"%string, 0)]
  else if String.eqb event "vesakha" then [("Vesākha Pūjā"%string, 0)]
  else if String.eqb event "asalha" then [("Āsāḷha Pūjā"%string, 0); ("First day of Vassa"%string, 1)]
  else if String.eqb event "pavarana" then [("Pavāraṇā Day"%string, 0); ("Last day of Vassa"%string, 0)]
  else [].
Lemma time_add_none t : time_add t (0 * (24 * hour_ns)) = t.
Proof. destruct t as [n o]. unfold time_add. cbn [t_ns t_off]. f_equal. lia. Qed.
Lemma moons_calendar cfg n : forall u x, In x (moons cfg n u) -> u_Calendar x = 0.
Proof.
  induction n as [|n IH]; intros u x; cbn [moons In]; [tauto|]. intros [<-|H]; [|exact (IH _ _ H)].
  apply (C20_next_uposatha cfg u).
Qed.
Lemma majors_announced u : u_Calendar u = 0 -> majors_u u =
  map (fun p => mkEvent (time_add (u_Date u) (snd p * (24 * hour_ns))) 0 (fst p) (fst p)) (announced (u_Event u)).
Proof.
  intros C. unfold majors_u, major_events, announced. cbn [set_status u_Event u_Date u_Calendar]. rewrite C, time_add_date_days.
  change (1 * day_ns) with (1 * (24 * hour_ns)). generalize (u_Event u) (u_Date u). intros e t.
  destruct (String.eqb_spec e "magha"); [subst e|destruct (String.eqb_spec e "vesakha"); [subst e|destruct (String.eqb_spec e "asalha");
    [subst e|destruct (String.eqb_spec e "pavarana"); [subst e|reflexivity]]]];
  cbn [String.eqb Ascii.eqb Bool.eqb app majors_of map fst snd]; rewrite ?time_add_none; reflexivity.
Qed.
Theorem C24_announced : forall cfg y, majors_of (events_of_year cfg y) =
  flat_map (fun u => map (fun p => mkEvent (time_add (u_Date u) (snd p * (24 * hour_ns))) 0 (fst p) (fst p)) (announced (u_Event u)))
    (uposathas_of (events_of_year cfg y)).
Proof.
  intros cfg y. unfold events_of_year. destruct (generate_spec cfg y) as (p & E & _). rewrite E, majors_flat, uposathas_flat.
  pose proof (moons_calendar cfg p (kattika_seed (midnight (kday cfg y)))) as C. revert C.
  generalize (moons cfg p (kattika_seed (midnight (kday cfg y)))). intros l C.
  induction l as [|u l IH]; [reflexivity|]. cbn [filter].
  destruct (in_y y u); [|apply IH; intros x Hx; apply C; right; exact Hx].
  cbn [map flat_map]. rewrite (majors_announced u) by (apply C; left; reflexivity). f_equal. apply IH. intros x Hx. apply C. right. exact Hx.
Qed.
(** The moon after the last one of 1288 is the first of the two Magha Pujas of 1289, and not among the events of 1288. *)
Example C24_announced_example : List.length (majors_of (events_of_year cfg_default 1288)) = 6%nat /\
  map u_Event (filter (fun u => negb (String.eqb (u_Event u) "")) (uposathas_of (events_of_year cfg_default 2016))) =
  ["magha"; "vesakha"; "asalha"; "pavarana"]%string.
Proof. vm_compute. auto. Qed.
(** Before 1290 it fails: 1289 has two Magha Pujas (the Kattika moon is 75 days before
    1 January, so the month-3 full moon still sees the previous, common year). *)
Lemma generate_from cfg y k : kday cfg y = k ->
  events_of_year cfg y =
  match generate_loop cfg (generate_fuel y (midnight k)) y (kattika_seed (midnight k)) with Some e => e | None => [] end.
Proof. intros <-. unfold events_of_year, generate_solar_year. rewrite previous_kattika_eq. reflexivity. Qed.
Lemma kday_1289 : kday cfg_default 1289 = 470358.
Proof.
  rewrite (kday_closed cfg_default 1289 eq_refl), surplus_zero by lia. vm_cast_no_check (eq_refl 470358).
Qed.
Theorem C24_1289_refuted :
  map (fun e => (e_Summary e, e_Date e)) (firstn 2 (majors_of (events_of_year cfg_default 1289))) =
  [("Māgha Pūjā"%string, time_date 1289 1 15 0 0); ("Māgha Pūjā"%string, time_date 1289 2 13 0 0)].
Proof.
  rewrite (generate_from cfg_default 1289 _ kday_1289). vm_cast_no_check (eq_refl
  [("Māgha Pūjā"%string, time_date 1289 1 15 0 0); ("Māgha Pūjā"%string, time_date 1289 2 13 0 0)]).
Qed.
Example C24_example : map (fun e => (e_Summary e, e_Date e)) (majors_of (events_of_year cfg_default 2016)) =
  [("Māgha Pūjā"%string, time_date 2016 2 22 0 0); ("Vesākha Pūjā"%string, time_date 2016 5 20 0 0);
   ("Āsāḷha Pūjā"%string, time_date 2016 7 19 0 0); ("First day of Vassa"%string, time_date 2016 7 20 0 0);
   ("Pavāraṇā Day"%string, time_date 2016 10 16 0 0); ("Last day of Vassa"%string, time_date 2016 10 16 0 0)].
Proof. vm_compute. reflexivity. Qed.

(** * C25 Half moons *)
Lemma chain_phase cfg u n : forall x, In x (moons cfg n u) -> u_Phase x = "new"%string \/ u_Phase x = "full"%string.
Proof.
  revert u. induction n as [|n IH]; intros u x; cbn [moons In]; [tauto|]. intros [<-|Hi]; [|apply (IH _ _ Hi)].
  destruct (C20_next_uposatha cfg u) as [-> _]. destruct (String.eqb (u_Phase u) "new"); auto.
Qed.
Lemma half_of_after u : u_Phase u = "new"%string \/ u_Phase u = "full"%string -> half_of u = half_moon_after u.
Proof. unfold half_of, half_moon_after, eighth_day, half_phase. intros [-> | ->]; reflexivity. Qed.

Theorem C25_half_moons : forall cfg y, exists k n, previous_kattika cfg y = Some k /\
  let moons := chain cfg (kattika_moon k) 1 n in
  halves_of (events_of_year cfg y) =
    map half_moon_after (filter (fun u => time_year (eighth_day u) =? y) moons) /\
  uposathas_of (events_of_year cfg y) =
    map confirmed (filter (fun u => time_year (u_Date u) =? y) moons) /\
  y < time_year (u_Date (nth_moon cfg (kattika_moon k) n)).
Proof.
  intros cfg y. unfold events_of_year. destruct (generate_spec cfg y) as (p & E & _ & Hgt). rewrite E.
  exists (midnight (kday cfg y)), p. split; [apply previous_kattika_eq|]. cbv zeta.
  change kattika_moon with kattika_seed. rewrite nth_moon_iter. rewrite <- (moons_chain cfg p). split; [|split; [apply uposathas_flat|exact Hgt]].
  rewrite halves_flat. apply map_ext_in. intros x Hx. apply filter_In in Hx. destruct Hx as [Hx _].
  apply half_of_after. apply (chain_phase cfg _ p _ Hx).
Qed.
Theorem C25_between_uposathas : forall cfg u, 
  time_before (u_Date u) (eighth_day u) = true /\ time_before (eighth_day u) (u_Date (next_uposatha cfg u)) = true.
Proof.
  intros cfg u. destruct (C20_next_uposatha cfg u) as (Hp & -> & H1 & H2 & _). 
  unfold eighth_day, time_before. cbn [time_add t_ns]. unfold hour_ns.
  destruct (String.eqb (u_Phase u) "new"); [destruct (H1 Hp)|destruct (H2 Hp)]; lia.
Qed.
(** No half moon is lost at a year seam when the Kattika moon is at least 9 days before
    1 January: the half moon of every uposatha emitted for [y] is emitted for [y] or [y+1]. *)
Theorem C25_none_lost : forall cfg y u,
  kattika_within cfg 1 118 y -> kattika_within cfg 9 118 (y + 1) -> exclusive cfg y ->
  In u (uposathas_of (events_of_year cfg y)) ->
  In (half_moon_after u) (halves_of (events_of_year cfg y)) \/ In (half_moon_after u) (halves_of (events_of_year cfg (y + 1))).
Proof.
  intros cfg y u H1 H2 Hx Hu.
  assert (Hv : valid cfg y) by (apply (valid_within cfg y 118); [exact H1|apply (within_weaken cfg 9 118); [exact H2|lia..]|exact Hx]).
  destruct (year_filter cfg y) as (p & E). rewrite (E p ltac:(lia)) in Hu.
  apply in_map_iff in Hu. destruct Hu as (x & <- & Hi). apply filter_In in Hi. destruct Hi as [Hi Hy].
  assert (Eh : half_moon_after (confirmed x) = half_of x) by (symmetry; exact (half_of_after x (chain_phase cfg _ p x Hi))).
  rewrite Eh. apply half_kept; [exact Hv|rewrite within_iff in H2; lia|exists p; exact Hi|].
  unfold in_y in Hy. unfold yr. lia.
Qed.
(** With the Kattika moon on 24 December, as in 3571, its half moon (1 January 3572) is lost. *)
Lemma kday_3571 : kday cfg_default 3571 = 1303888.
Proof.
  rewrite (kday_closed cfg_default 3571 eq_refl), surplus_zero by lia. vm_cast_no_check (eq_refl 1303888).
Qed.
Lemma kday_3572 : kday cfg_default 3572 = 1304272.
Proof.
  rewrite (kday_closed cfg_default 3572 eq_refl), surplus_zero by lia. vm_cast_no_check (eq_refl 1304272).
Qed.
Definition lost_half_check (l1 l2 : list CalendarEvent) (u : UposathaMoon) : bool :=
  let same h := time_equal (h_Date h) (eighth_day u) in
  negb (existsb same (halves_of l1)) && negb (existsb same (halves_of l2)).
Lemma lost_half_witness :
  match generate_loop cfg_default (generate_fuel 3571 (midnight 1303888)) 3571 (kattika_seed (midnight 1303888)),
        generate_loop cfg_default (generate_fuel 3572 (midnight 1304272)) 3572 (kattika_seed (midnight 1304272)) with
  | Some l1, Some l2 =>
      existsb (fun u => time_equal (u_Date u) (time_date 3571 12 24 0 0) && lost_half_check l1 l2 u) (uposathas_of l1)
  | _, _ => false
  end = true.
Proof. vm_cast_no_check (eq_refl true). Qed.
Theorem C25_lost_at_seam_refuted : exists u,
  In u (uposathas_of (events_of_year cfg_default 3571)) /\ t_ns (u_Date u) = t_ns (time_date 3571 12 24 0 0) /\
  ~ In (half_moon_after u) (halves_of (events_of_year cfg_default 3571)) /\
  ~ In (half_moon_after u) (halves_of (events_of_year cfg_default 3572)).
Proof.
  pose proof lost_half_witness as W.
  rewrite (generate_from cfg_default 3571 _ kday_3571), (generate_from cfg_default 3572 _ kday_3572).
  destruct (generate_loop cfg_default (generate_fuel 3571 (midnight 1303888)) 3571 (kattika_seed (midnight 1303888))) as [l1|]; [|discriminate].
  destruct (generate_loop cfg_default (generate_fuel 3572 (midnight 1304272)) 3572 (kattika_seed (midnight 1304272))) as [l2|]; [|discriminate].
  apply existsb_exists in W. destruct W as (u & Hu & W). apply andb_true_iff in W. destruct W as [W1 W2].
  exists u. split; [exact Hu|]. split; [apply Z.eqb_eq; exact W1|].
  unfold lost_half_check in W2. cbv zeta in W2. apply andb_true_iff in W2. destruct W2 as [N1 N2].
  apply negb_true_iff in N1. apply negb_true_iff in N2.
  split; intros Hi; [rewrite <- not_true_iff_false in N1; apply N1|rewrite <- not_true_iff_false in N2; apply N2];
    apply existsb_exists; exists (half_moon_after u); (split; [exact Hi|]); unfold time_equal; apply Z.eqb_refl.
Qed.
Example C25_example : firstn 2 (halves_of (events_of_year cfg_default 2017)) =
  [mkHalfMoon (time_date 2017 1 5 0 0) "waxing"; mkHalfMoon (time_date 2017 1 20 0 0) "waning"].
Proof. vm_compute. reflexivity. Qed.

(** * C26 GenerateSolarYear terminates for every year *)
Theorem C26_terminates : forall cfg y, exists evs k, generate_solar_year cfg y = Some evs /\
  previous_kattika cfg y = Some k /\
  forall fuel, (14 * Z.of_nat fuel >= days_before_year (y + 1) - local_day k) ->
    generate_loop cfg fuel y (kattika_moon k) = Some evs.
Proof.
  intros cfg y. destruct (generate_spec cfg y) as (p & E & Hle & Hgt).
  exists (flat_map (uposatha_events y) (moons cfg p (kattika_seed (midnight (kday cfg y))))), (midnight (kday cfg y)).
  split; [exact E|]. split; [apply previous_kattika_eq|]. intros fuel Hf. rewrite local_day_midnight in Hf.
  rewrite kattika_moon_seed.
  destruct (generate_loop_spec cfg y fuel (kattika_seed (midnight (kday cfg y))) (kday cfg y) eq_refl ltac:(lia))
    as (p' & _ & E' & Hle' & Hgt'). rewrite E'. do 3 f_equal.
  destruct (Nat.lt_trichotomy p p') as [Hl|[->|Hl]]; [|reflexivity|].
  - specialize (Hle' _ Hl). lia.
  - specialize (Hle _ Hl). lia.
Qed.
Example C26_example : exists evs, generate_solar_year cfg_default (-5) = Some evs.
Proof. destruct (C26_terminates cfg_default (-5)) as (evs & k & E & _). exists evs. exact E. Qed.

(** * C49 Every generated uposatha is at the right moon *)
Theorem C49_moon_ages : forall cfg y u, UseExceptions cfg = false -> 640 <= y <= 4097 ->
  In u (uposathas_of (events_of_year cfg y)) ->
  exists h, u_Date u = time_date 1963 7 (5 + (h - 484049)) 0 0 /\
    ((u_Phase u = "full"%string /\ 14 <= moon_age h <= 16) \/
     (u_Phase u = "new"%string /\ (moon_age h = 28 \/ moon_age h = 29 \/ moon_age h = 0))).
Proof.
  intros cfg y u Ho Hy Hu.
  assert (H1 : kattika_within cfg 1 118 y) by (apply (within_weaken cfg 1 104); [apply shipped_within; [left; exact Ho|]|..]; lia).
  assert (H2 : kattika_within cfg 1 118 (y + 1)) by (apply (within_weaken cfg 1 104); [apply shipped_within; [left; exact Ho|]|..]; lia).
  pose proof (valid_within cfg y 118 H1 H2 (shipped_exclusive cfg y (or_introl Ho))) as Hv.
  rewrite within_iff in H2.
  destruct (in_year_list cfg y Hv ltac:(lia)) as [E _]. rewrite E in Hu. clear E.
  apply in_map_iff in Hu. destruct Hu as (x & <- & Hx). apply filter_In in Hx. destruct Hx as [Hx _].
  cbn [confirmed u_Date u_Phase]. rewrite (adhikavara_default_off cfg y Ho) in Hx.
  destruct (age_rows cfg y Ho Hy) as [A1 A2].
  assert (G : forall k ly r h, x = of_row k ly r -> k = hdate h -> age_ok (r_full r) (h + r_off r) ->
    exists h, u_Date x = time_date 1963 7 (5 + (h - 484049)) 0 0 /\
    ((u_Phase x = "full"%string /\ 14 <= moon_age h <= 16) \/
     (u_Phase x = "new"%string /\ (moon_age h = 28 \/ moon_age h = 29 \/ moon_age h = 0)))).
  { intros k ly r h -> -> Ha. exists (h + r_off r). cbn [of_row u_Date u_Phase]. split.
    - rewrite day_number_date. f_equal. unfold hdate, day_number. lia.
    - unfold age_ok in Ha. destruct (r_full r); [left|right]; (split; [reflexivity|exact Ha]). }
  apply in_app_or in Hx. destruct Hx as [Hx|Hx]; apply in_map_iff in Hx; destruct Hx as (r & <- & Hr).
  - apply (G (kday cfg y) (y + 543) r (kh y) eq_refl); [apply kday_kh; [exact Ho|lia]|apply A1; exact Hr].
  - apply (G (kday cfg (y + 1)) (y + 544) r (kh (y + 1)) eq_refl); [apply kday_kh; [exact Ho|lia]|apply A2; exact Hr].
Qed.
(** 2016-07-19 has Horakhun 503422 and age 15. *)
Example C49_example : time_date 1963 7 (5 + (503422 - 484049)) 0 0 = time_date 2016 7 19 0 0 /\ moon_age 503422 = 15.
Proof. vm_compute. auto. Qed.
