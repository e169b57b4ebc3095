(** C71: the positions of the Sun and the Moon on the days of the calendar. *)
From Coq Require Import ZArith Reals Lia Lra Bool Psatz List String.
From Flocq Require Import Core BinarySingleNaN.
From Verif Require Import GoInt GoFloat GoTime SuriyaYear SuriyaDay UposathaMoon CalDay Spec SpecCal Machine GoSin.
From Verif Require Import P_Year P_Float P_Machine P_Day P_Degree P_Approx P_Positions P_Sin P_Time P_CalDays P_CalDays2 P_Counts P_Kattika P_Chain P_Gen P_Gen2 P_Age Prop_Kattika Prop_Calendar Prop_Sun.
Import ListNotations.
Open Scope R_scope.

(** The civil day with the given Horakhun (C19). *)
Definition civil (h : Z) : time := time_date 1963 7 (5 + (h - 484049)) 0 0.
Lemma civil_inj a b : civil a = civil b -> a = b.
Proof. unfold civil. rewrite !day_number_date. intros H. apply midnight_inj in H. unfold day_number in H. lia. Qed.


(** * C71 The Moon's distance from the Sun is that of the lunar days elapsed *)
Lemma day_nonneg z d : (638 <= z)%Z -> (0 <= d)%Z -> (0 <= sd_Horakhun (sd_ints z d))%Z.
Proof.
  intros Hz Hd. rewrite sd_Horakhun_eq. destruct (HK_spec z ltac:(lia)) as (EH & Hk & Hh). destruct (NA_spec z ltac:(lia)) as (_ & Ht & _).
  assert (Y : z = 638%Z \/ (639 <= z)%Z) by lia. destruct Y as [Y|Ny]; [rewrite Y|lia].
  assert (E638 : Hor 638 = 1%Z /\ T 638 = 1%Z) by (vm_compute; auto). lia.
Qed.
(** The lunar days elapsed since the start of the era, with fraction: 703 in 692 days. *)
Definition lunar_days_elapsed (h : Z) : R := IZR (703 * h + 650) / 692.
(** On every day of every year: twelve degrees a lunar day, less 40 minutes; the mean Moon is at
    that distance from the Sun up to a minute and a half, the true Moon up to five degrees. *)
Theorem C71_distance : forall sin y d, bounded_sin sin -> (638 <= y <= 10 ^ 12)%Z -> (0 <= d <= 400)%Z ->
  let p := suriya_day sin y d in
  let h := sd_Horakhun (sd_ints_of p) in
  exists turns : Z,
    let mean := B2R (sd_MeanMoon p) - B2R (sd_TrueSun p) + 360 * IZR turns in
    let true := B2R (sd_TrueMoon p) - B2R (sd_TrueSun p) + 360 * IZR turns in
    let reckoned := 12 * lunar_days_elapsed h - 40 / 60 in
    reckoned - 22 / 1000 <= mean <= reckoned + / 10000 /\ reckoned - 22 / 1000 - 297 / 60 <= true <= reckoned + / 10000 + 297 / 60.
Proof.
  intros sin z d S Hz Hd p h. destruct (C38_positions sin z d S Hz Hd) as (_ & _ & _ & (k & _ & B & _) & Bt & _). fold p in B, Bt.
  destruct (day_parts sin z d Hz ltac:(lia)) as (E0 & _). fold p in E0. rewrite E0 in B. unfold h. rewrite E0. clear h.
  pose proof (day_nonneg z d ltac:(lia) ltac:(lia)) as H0.
  destruct (sd_moon z d H0) as (EM & Ht & Ha & _). cbv zeta in EM.
  set (h := sd_Horakhun (sd_ints z d)) in *. set (t := sd_Tithi (sd_ints z d)) in *. set (v := sd_Avoman (sd_ints z d)) in *. set (m := sd_Masaken (sd_ints z d)) in *.
  assert (E : IZR (703 * h + 650) = 692 * (30 * IZR m + IZR t) + IZR v) by (rewrite <- EM, plus_IZR, !mult_IZR, plus_IZR, mult_IZR; reflexivity).
  assert (V : 0 <= IZR v <= 691) by (split; apply IZR_le; lia).
  assert (W : IZR v - 24 <= 25 * IZR (v / 25) <= IZR v).
  { rewrite <- !mult_IZR, <- minus_IZR. split; apply IZR_le; pose proof (Z.div_mod v 25 ltac:(lia)); pose proof (Z.mod_pos_bound v 25 ltac:(lia)); lia. }
  rewrite plus_IZR in B. apply Rabs_le_inv in B. apply Rabs_le_inv in Bt. exists (k + m)%Z. cbv zeta. unfold lunar_days_elapsed. rewrite E, plus_IZR. lra.
Qed.
(** Every day from the first new year of the era on is a day of some year's reckoning, at most
    394 days after its 1 Citta. *)
Theorem C71_every_day : forall h, (1 <= h)%Z ->
  exists z d, (638 <= z)%Z /\ (0 <= d <= 394)%Z /\ sd_Horakhun (sd_ints z d) = h /\ (sy_Tithi (su_init z) <= d)%Z.
Proof.
  intros h Hh. set (z := (638 + (800 * h - 374) / 292207)%Z). 
  assert (Hz : (638 <= z)%Z) by (unfold z; assert (0 <= (800 * h - 374) / 292207)%Z by (apply Z.div_pos; lia); lia).
  destruct (HK_spec z Hz) as (EH & Hk & Hh0). destruct (NA_spec z Hz) as (_ & Ht & _).
  pose proof (Z.div_mod (800 * h - 374) 292207 ltac:(lia)) as Dm. pose proof (Z.mod_pos_bound (800 * h - 374) 292207 ltac:(lia)) as Db.
  replace ((800 * h - 374) / 292207)%Z with (z - 638)%Z in Dm by (unfold z; lia).
  exists z, (h - Hor z + T z)%Z. rewrite sd_Horakhun_eq. fold (T z). lia.
Qed.

(** ** The place of the uposathas in the lunation *)
Local Ltac Zify.zify_post_hook ::= Z.div_mod_to_equations.
Definition pos_ok (full : bool) (h : Z) : Prop :=
  (exists n, if full then 9744 <= 703 * h + 650 - 20760 * n <= 11232 else -801 <= 703 * h + 650 - 20760 * n <= 687)%Z.
Lemma pos_of_dev h r m flo fhi nlo nhi :
  dev_ok flo fhi nlo nhi (r_full r, 703 * r_off r - 20760 * m)%Z = true ->
  (9744 <= pos h + flo -> pos h + fhi <= 11232 -> 19959 <= pos h + nlo -> pos h + nhi <= 21447 ->
  pos_ok (r_full r) (h + r_off r))%Z.
Proof.
  unfold dev_ok, pos_ok, pos. cbn [fst snd]. intros Hd H1 H2 H3 H4.
  pose proof (Z.div_mod (703 * h + 650) 20760 ltac:(lia)) as EX. set (X := ((703 * h + 650) mod 20760)%Z) in *. set (q := ((703 * h + 650) / 20760)%Z) in *. clearbody q X.
  destruct (r_full r); [exists (q + m)%Z|exists (q + m + 1)%Z]; lia.
Qed.
Lemma pos_rows cfg y : UseExceptions cfg = false -> (640 <= y <= 4097)%Z ->
  (forall r, In r (year_rows (am y) (av y)) -> pos_ok (r_full r) (kh y + r_off r)) /\
  (forall r, In r first_rows -> pos_ok (r_full r) (kh (y + 1) + r_off r)).
Proof.
  intros Ho Hy. pose proof (pos_kh y ltac:(lia)) as (P1 & P2). pose proof (pos_kh (y + 1) ltac:(lia)) as (P1' & _).
  assert (Hk : (kh (y + 1) = kh y + lunar_days (am y) (av y))%Z).
  { pose proof (kday_kh cfg y Ho ltac:(lia)) as E1. pose proof (kday_kh cfg (y + 1) Ho ltac:(lia)) as E2.
    rewrite kday_step, len_days, (adhikavara_default_off cfg y Ho) in E2. unfold hdate in *. lia. }
  assert (Hp : (pos (kh (y + 1)) = (pos (kh y) + 703 * lunar_days (am y) (av y)) mod 20760)%Z).
  { unfold pos. rewrite Hk. rewrite Zplus_mod_idemp_l. f_equal. lia. }
  split.
  - intros r Hr. pose proof (shipped_exclusive cfg y (or_introl Ho)) as Hx. unfold exclusive in Hx. fold (am y) in Hx.
    rewrite (adhikavara_default_off cfg y Ho) in Hx.
    destruct (row_devs_in _ 0 r Hr) as [m Hm].
    destruct (am y), (av y); cbn [andb] in Hx; try discriminate; unfold lunar_days in Hp.
    + pose proof devs_am as D. rewrite forallb_forall in D. apply (pos_of_dev _ r m _ _ _ _ (D _ Hm)); lia.
    + pose proof devs_av as D. rewrite forallb_forall in D. specialize (P2 eq_refl).
      apply (pos_of_dev _ r m _ _ _ _ (D _ Hm)); lia.
    + pose proof devs_common as D. rewrite forallb_forall in D. apply (pos_of_dev _ r m _ _ _ _ (D _ Hm)); lia.
  - intros r Hr. destruct (row_devs_in _ 0 r Hr) as [m Hm].
    pose proof devs_first as D. rewrite forallb_forall in D. apply (pos_of_dev _ r m _ _ _ _ (D _ Hm)); lia.
Qed.
Local Ltac Zify.zify_post_hook ::= idtac.
(** The day count of the day with number [k]. *)
Definition horakhun_of (k : Z) : Z := (k - day_number 1963 7 5 + 484049)%Z.
Lemma hdate_horakhun k : hdate (horakhun_of k) = k.
Proof. unfold hdate, horakhun_of. lia. Qed.
Lemma horakhun_hdate h : horakhun_of (hdate h) = h.
Proof. unfold hdate, horakhun_of. lia. Qed.
Lemma year_places cfg y (P : bool -> Z -> Prop) : shipped cfg -> (640 <= y <= 4097)%Z ->
  (forall r, In r (year_rows (am y) (is_adhikavara cfg (su_init y))) -> P (r_full r) (horakhun_of (kday cfg y) + r_off r)%Z) ->
  (forall r, In r first_rows -> P (r_full r) (horakhun_of (kday cfg (y + 1)) + r_off r)%Z) ->
  forall u, In u (uposathas_of (events_of_year cfg y)) -> exists h b,
    u_Date u = civil h /\ u_Phase u = (if b : bool then "full" else "new")%string /\ P b h.
Proof.
  intros Hs Hy A1 A2 u Hu.
  assert (H1 : kattika_within cfg 1 118 y) by (apply (within_weaken cfg 1 104); [apply shipped_within; [exact Hs|]|..]; lia).
  assert (H2 : kattika_within cfg 1 118 (y + 1)) by (apply (within_weaken cfg 1 104); [apply shipped_within; [exact Hs|]|..]; lia).
  pose proof (valid_within cfg y 118 H1 H2 (shipped_exclusive cfg y Hs)) as Hv.
  rewrite within_iff in H2.
  destruct (in_year_list cfg y Hv ltac:(lia)) as [E _]. rewrite E in Hu. clear E.
  apply in_map_iff in Hu. destruct Hu as (x & <- & Hx). apply filter_In in Hx. destruct Hx as [Hx _].
  cbn [confirmed u_Date u_Phase].
  assert (G : forall k ly r, x = of_row k ly r -> P (r_full r) (horakhun_of k + r_off r)%Z ->
    exists h b, u_Date x = civil h /\ u_Phase x = (if b : bool then "full" else "new")%string /\ P b h).
  { intros k ly r -> Ha. exists (horakhun_of k + r_off r)%Z, (r_full r). cbn [of_row u_Date u_Phase]. split; [|split; [reflexivity|exact Ha]].
    unfold civil. rewrite day_number_date. f_equal. unfold horakhun_of, day_number. lia. }
  apply in_app_or in Hx. destruct Hx as [Hx|Hx]; apply in_map_iff in Hx; destruct Hx as (r & <- & Hr).
  - apply (G (kday cfg y) (y + 543)%Z r eq_refl). apply A1. exact Hr.
  - apply (G (kday cfg (y + 1)) (y + 544)%Z r eq_refl). apply A2. exact Hr.
Qed.
(** Counted in lunar days with fraction, every full moon uposatha lies between 14.08 and 16.24
    and every new moon uposatha between -1.16 and 1, in whole lunations of 30. *)
Definition placed (lo hi lo' hi' : R) (u : UposathaMoon) : Prop :=
  exists h lunations : Z, u_Date u = time_date 1963 7 (5 + (h - 484049)) 0 0 /\
    let place := lunar_days_elapsed h - 30 * IZR lunations in
    ((u_Phase u = "full"%string /\ lo <= place <= hi) \/ (u_Phase u = "new"%string /\ lo' <= place <= hi')).
Lemma placed_of (u : UposathaMoon) (a b c e : Z) : (exists h (f : bool),
    u_Date u = civil h /\ u_Phase u = (if f then "full" else "new")%string /\
    exists n, if f then (a <= 703 * h + 650 - 20760 * n <= b)%Z else (c <= 703 * h + 650 - 20760 * n <= e)%Z) ->
  placed (IZR a / 692) (IZR b / 692) (IZR c / 692) (IZR e / 692) u.
Proof.
  intros (h & f & D & Ph & n & B). exists h, n. split; [exact D|]. cbv zeta. unfold lunar_days_elapsed. set (v := (703 * h + 650)%Z) in *. clearbody v.
  destruct f; [left|right]; (split; [exact Ph|]); destruct B as [B1 B2]; apply IZR_le in B1, B2; rewrite minus_IZR, mult_IZR in B1, B2; lra.
Qed.
Lemma placed_weaken a b c e a' b' c' e' u : placed a b c e u -> a' <= a -> b <= b' -> c' <= c -> e <= e' -> placed a' b' c' e' u.
Proof.
  intros (h & n & D & B) Ha Hb Hc He. exists h, n. split; [exact D|]. cbv zeta in *. destruct B as [[Ph B]|[Ph B]]; [left|right]; (split; [exact Ph|lra]).
Qed.
Theorem C71_place : forall cfg y u, UseExceptions cfg = false -> (640 <= y <= 4097)%Z ->
  In u (uposathas_of (events_of_year cfg y)) -> placed (1408 / 100) (1624 / 100) (- 116 / 100) 1 u.
Proof.
  intros cfg y u Ho Hy Hu. apply (placed_weaken (IZR 9744 / 692) (IZR 11232 / 692) (IZR (-801) / 692) (IZR 687 / 692)); [|lra|lra|lra|lra].
  destruct (pos_rows cfg y Ho Hy) as [A1 A2]. apply placed_of.
  apply (year_places cfg y pos_ok (or_introl Ho) Hy); [| |exact Hu]; rewrite kday_kh, horakhun_hdate by (assumption || lia); [|exact A2].
  rewrite (adhikavara_default_off cfg y Ho). exact A1.
Qed.
Definition row_ok (h : Z) (r : row) : bool :=
  let x := ((703 * (h + r_off r) + 650) mod 20760)%Z in
  if r_full r then (9601 <=? x)%Z && (x <=? 11232)%Z else (x <=? 687)%Z || (19816 <=? x)%Z.
Lemma row_ok_spec h r : row_ok h r = true ->
  exists n, if r_full r then (9601 <= 703 * (h + r_off r) + 650 - 20760 * n <= 11232)%Z else (-944 <= 703 * (h + r_off r) + 650 - 20760 * n <= 687)%Z.
Proof.
  unfold row_ok. cbv zeta. set (v := (703 * (h + r_off r) + 650)%Z). clearbody v. intros C.
  pose proof (Z.div_mod v 20760 ltac:(lia)) as Dm. pose proof (Z.mod_pos_bound v 20760 ltac:(lia)) as Db.
  destruct (r_full r); [exists (v / 20760)%Z; lia|].
  apply orb_true_iff in C. destruct C as [C|C]; [exists (v / 20760)%Z|exists (v / 20760 + 1)%Z]; lia.
Qed.
Definition exc_av (y : Z) : bool := if (y =? 1994)%Z then false else if (y =? 1997)%Z then true else av y.
Definition late (y : Z) : Z := if (1995 <=? y)%Z && (y <=? 1997)%Z then 1 else 0.
Lemma rows_1994 y r : (1994 <= y <= 1997)%Z -> In r (year_rows (am y) (exc_av y)) -> row_ok (kh y - late y) r = true.
Proof.
  assert (C : forallb (fun y => forallb (row_ok (kh y - late y)) (year_rows (am y) (exc_av y))) [1994; 1995; 1996; 1997]%Z = true) by (vm_cast_no_check (eq_refl true)).
  intros Hy Hr. rewrite forallb_forall in C.
  assert (I : In y [1994; 1995; 1996; 1997]%Z) by (clear - Hy; cbn [In]; lia).
  specialize (C y I). rewrite forallb_forall in C. exact (C r Hr).
Qed.
Lemma rows_first y r : (1994 <= y <= 1996)%Z -> In r first_rows -> row_ok (kh (y + 1) - 1) r = true.
Proof.
  assert (C : forallb (fun y => forallb (row_ok (kh (y + 1) - 1)) first_rows) [1994; 1995; 1996]%Z = true) by (vm_cast_no_check (eq_refl true)).
  intros Hy Hr. rewrite forallb_forall in C.
  assert (I : In y [1994; 1995; 1996]%Z) by (clear - Hy; cbn [In]; lia).
  specialize (C y I). rewrite forallb_forall in C. exact (C r Hr).
Qed.
Definition early_ok (f : bool) (h : Z) : Prop :=
  exists n, if f then (9601 <= 703 * h + 650 - 20760 * n <= 11232)%Z else (-944 <= 703 * h + 650 - 20760 * n <= 687)%Z.
Lemma places_exceptions cfg y u : (forall z, AdhikavaraExceptions cfg z = shipped_exceptions z) -> (640 <= y <= 4097)%Z ->
  In u (uposathas_of (events_of_year cfg y)) ->
  exists h (b : bool), u_Date u = civil h /\ u_Phase u = (if b then "full" else "new")%string /\ early_ok b h.
Proof.
  intros Hs Hy Hu. set (P := early_ok).
  assert (W : forall f h, pos_ok f h -> P f h) by (intros f h [n B]; exists n; destruct f; lia).
  destruct (pos_rows cfg_default y eq_refl Hy) as [A1 A2].
  pose proof (kday_shipped cfg y (or_intror Hs)) as E1. pose proof (kday_shipped cfg (y + 1) (or_intror Hs)) as E2.
  rewrite (kday_kh cfg_default _ eq_refl) in E1 by lia. rewrite (kday_kh cfg_default _ eq_refl) in E2 by lia.
  apply (year_places cfg y P (or_intror Hs) Hy); [| |exact Hu].
  - destruct (UseExceptions cfg) eqn:X; unfold exc_shift in E1; rewrite X in E1; cbn [andb] in E1.
    + rewrite (is_av_exceptions cfg y X Hs). fold (exc_av y). fold (late y) in E1.
      destruct ((1994 <=? y)%Z && (y <=? 1997)%Z) eqn:Y.
      * intros r Hr. replace (horakhun_of (kday cfg y)) with (kh y - late y)%Z by (rewrite E1; unfold hdate, horakhun_of; lia).
        apply row_ok_spec. apply rows_1994; [lia|exact Hr].
      * replace (exc_av y) with (av y) by (unfold exc_av; destruct (Z.eqb_spec y 1994), (Z.eqb_spec y 1997); (lia || reflexivity)).
        replace (horakhun_of (kday cfg y)) with (kh y); [intros r Hr; apply W; apply A1; exact Hr|].
        rewrite E1. replace (late y) with 0%Z by (unfold late; destruct ((1995 <=? y)%Z && (y <=? 1997)%Z) eqn:Z; lia). rewrite Z.sub_0_r, horakhun_hdate. reflexivity.
    + rewrite (adhikavara_default_off cfg y X), E1, Z.sub_0_r, horakhun_hdate. intros r Hr. apply W. apply A1. exact Hr.
  - destruct (UseExceptions cfg) eqn:X; unfold exc_shift in E2; rewrite X in E2; cbn [andb] in E2.
    + destruct ((1995 <=? y + 1)%Z && (y + 1 <=? 1997)%Z) eqn:Y.
      * intros r Hr. replace (horakhun_of (kday cfg (y + 1))) with (kh (y + 1) - 1)%Z by (rewrite E2; unfold hdate, horakhun_of; lia).
        apply row_ok_spec. apply rows_first; [lia|exact Hr].
      * rewrite E2, Z.sub_0_r, horakhun_hdate. intros r Hr. apply W. apply A2. exact Hr.
    + rewrite E2, Z.sub_0_r, horakhun_hdate. intros r Hr. apply W. apply A2. exact Hr.
Qed.
(** With the shipped exceptions in use some moons of 1995 to 1997 come a little earlier. *)
Theorem C71_place_exceptions : forall cfg y u, (forall z, AdhikavaraExceptions cfg z = shipped_exceptions z) -> (640 <= y <= 4097)%Z ->
  In u (uposathas_of (events_of_year cfg y)) -> placed (1387 / 100) (1624 / 100) (- 137 / 100) 1 u.
Proof.
  intros cfg y u Hs Hy Hu. apply (placed_weaken (IZR 9601 / 692) (IZR 11232 / 692) (IZR (-944) / 692) (IZR 687 / 692)); [|lra|lra|lra|lra].
  apply placed_of. exact (places_exceptions cfg y u Hs Hy Hu).
Qed.
(** So with the exceptions the ages of C49 hold but for full moons of age 13, which occur. *)
Theorem C49_moon_ages_exceptions : forall cfg y u, (forall z, AdhikavaraExceptions cfg z = shipped_exceptions z) -> (640 <= y <= 4097)%Z ->
  In u (uposathas_of (events_of_year cfg y)) ->
  exists h, u_Date u = time_date 1963 7 (5 + (h - 484049)) 0 0 /\
    ((u_Phase u = "full"%string /\ (13 <= moon_age h <= 16)%Z) \/
     (u_Phase u = "new"%string /\ (moon_age h = 28 \/ moon_age h = 29 \/ moon_age h = 0)%Z)).
Proof.
  intros cfg y u Hs Hy Hu. destruct (places_exceptions cfg y u Hs Hy Hu) as (h & b & D & Ph & n & B). exists h. split; [exact D|].
  unfold moon_age, tithis_elapsed. set (v := (703 * h + 650)%Z) in *. clearbody v. clear - Ph B.
  assert (Q : (v = 20760 * n + (v - 20760 * n))%Z) by lia. set (x := (v - 20760 * n)%Z) in *. clearbody x. subst v.
  replace (20760 * n + x)%Z with (x + 30 * n * 692)%Z by lia. rewrite Z.div_add by lia.
  replace (x / 692 + 30 * n)%Z with (x / 692 + n * 30)%Z by lia. rewrite Z.mod_add by lia.
  destruct b; [left|right]; (split; [exact Ph|]).
  - rewrite Z.mod_small; [|split]; try (assert (13 <= x / 692)%Z by (apply Z.div_le_lower_bound; lia); assert (x / 692 < 17)%Z by (apply Z.div_lt_upper_bound; lia); lia).
  - assert (C : (x / 692 = -2 \/ x / 692 = -1 \/ x / 692 = 0)%Z).
    { assert (-2 <= x / 692)%Z by (apply Z.div_le_lower_bound; lia). assert (x / 692 < 1)%Z by (apply Z.div_lt_upper_bound; lia). lia. }
    destruct C as [->|[->| ->]]; cbn; auto.
Qed.
Example C49_exceptions_example : map (fun u => (time_mday (u_Date u), moon_age (484049 + (local_day (u_Date u) - day_number 1963 7 5))))
    (filter (fun u => String.eqb (u_Phase u) "full" && (time_month (u_Date u) =? 3)%Z) (uposathas_of (events_of_year cfg_exceptions 1996))) = [(3, 13)]%Z /\
  time_date 1963 7 (5 + (495979 - 484049)) 0 0 = time_date 1996 3 3 0 0 /\ moon_age 495979 = 13%Z.
Proof. vm_compute. auto. Qed.
(** So the positions SuriyaDay.Init computes for the day of an uposatha have the Moon between 17
    degrees short of and 20 degrees past opposition on a full moon, and between 20 degrees short of
    and 17 degrees past conjunction on a new moon, in whichever year [z] the day is counted; with
    the exceptions 20 and 23 degrees short. *)
Lemma opposed sin lo lo' u z d : placed lo (1624 / 100) lo' 1 u -> bounded_sin sin ->
  (638 <= z <= 10 ^ 12)%Z -> (0 <= d <= 400)%Z -> u_Date u = time_date 1963 7 (5 + (sd_Horakhun (sd_ints z d) - 484049)) 0 0 ->
  let p := suriya_day sin z d in
  exists turns : Z, let distance := B2R (sd_TrueMoon p) - B2R (sd_TrueSun p) + 360 * IZR turns in
    (u_Phase u = "full"%string /\ 12 * lo - 565 / 100 <= distance <= 180 + 20) \/
    (u_Phase u = "new"%string /\ 12 * lo' - 565 / 100 <= distance <= 17).
Proof.
  intros (h & n & Eh & C) S Hz Hd D p.
  rewrite D in Eh. apply civil_inj in Eh. rewrite <- Eh in C. destruct (C71_distance sin z d S Hz Hd) as (k & _ & B). fold p in B. cbv zeta in B, C.
  destruct (day_parts sin z d Hz ltac:(lia)) as (E0 & _). fold p in E0. rewrite E0 in B.
  exists (k - n)%Z. cbv zeta. rewrite minus_IZR. destruct C as [[Ph C]|[Ph C]]; [left|right]; (split; [exact Ph|]); lra.
Qed.
Theorem C71_opposition : forall sin cfg y u z d, bounded_sin sin ->
  UseExceptions cfg = false \/ (forall z, AdhikavaraExceptions cfg z = shipped_exceptions z) -> (640 <= y <= 4097)%Z ->
  In u (uposathas_of (events_of_year cfg y)) ->
  (638 <= z <= 10 ^ 12)%Z -> (0 <= d <= 400)%Z -> u_Date u = time_date 1963 7 (5 + (sd_Horakhun (sd_ints z d) - 484049)) 0 0 ->
  let p := suriya_day sin z d in let early := if UseExceptions cfg then 3 else 0 in
  exists turns : Z, let distance := B2R (sd_TrueMoon p) - B2R (sd_TrueSun p) + 360 * IZR turns in
    (u_Phase u = "full"%string /\ 180 - 17 - early <= distance <= 180 + 20) \/
    (u_Phase u = "new"%string /\ - 20 - early <= distance <= 17).
Proof.
  intros sin cfg y u z d S Hs Hy Hu Hz Hd D. cbv zeta. destruct (UseExceptions cfg) eqn:X.
  - destruct Hs as [Hs|Hs]; [discriminate|].
    destruct (opposed sin _ _ u z d (C71_place_exceptions cfg y u Hs Hy Hu) S Hz Hd D) as (k & B). cbv zeta in B.
    exists k. destruct B as [[Ph B]|[Ph B]]; [left|right]; (split; [exact Ph|]); lra.
  - destruct (opposed sin _ _ u z d (C71_place cfg y u X Hy Hu) S Hz Hd D) as (k & B). cbv zeta in B.
    exists k. destruct B as [[Ph B]|[Ph B]]; [left|right]; (split; [exact Ph|]); lra.
Qed.
(** It is not within a lunar day (12 degrees) of opposition: on Pavarana day of 1978 the Moon is 17.5 degrees past it. *)
Lemma value (x : float64) m e : B2SF x = B2SF (fmake m e) -> (Z.abs m < 2 ^ 53)%Z -> (-60 <= e <= 0)%Z -> B2R x = IZR m * bpow radix2 e.
Proof. intros E H He. apply B2SF_inj in E. rewrite E. destruct (fmake_exact m e H ltac:(lia)) as [_ ->]. reflexivity. Qed.
Example C71_example : let p := suriya_day go_sin 1978 193 in
  sd_Horakhun (sd_ints 1978 193) = 489632%Z /\ time_date 1963 7 (5 + (489632 - 484049)) 0 0 = time_date 1978 10 17 0 0 /\
  B2R (sd_TrueMoon p) = 6135113034878471 / 281474976710656 /\ B2R (sd_TrueSun p) = 6483304617943971 / 35184372088832.
Proof.
  cbv zeta. split; [vm_compute; reflexivity|]. split; [vm_compute; reflexivity|]. split.
  - rewrite (value _ 6135113034878471 (-48)); [bp; lra|vm_compute; reflexivity|lia|lia].
  - rewrite (value _ 6483304617943971 (-45)); [bp; lra|vm_compute; reflexivity|lia|lia].
Qed.
Theorem C71_within_a_lunar_day_refuted : exists u z d,
  In u (uposathas_of (events_of_year cfg_default 1978)) /\ u_Phase u = "full"%string /\
  u_Date u = time_date 1963 7 (5 + (sd_Horakhun (sd_ints z d) - 484049)) 0 0 /\
  let p := suriya_day go_sin z d in
  forall turns : Z, ~ 180 - 17 <= B2R (sd_TrueMoon p) - B2R (sd_TrueSun p) + 360 * IZR turns <= 180 + 17.
Proof.
  assert (U : exists u l1 l2, uposathas_of (events_of_year cfg_default 1978) = l1 ++ u :: l2 /\ u_Phase u = "full"%string /\ u_Date u = time_date 1978 10 17 0 0).
  { exists (nth 19 (uposathas_of (events_of_year cfg_default 1978)) (kattika_moon zero_time)),
      (firstn 19 (uposathas_of (events_of_year cfg_default 1978))), (skipn 20 (uposathas_of (events_of_year cfg_default 1978))).
    vm_compute. auto. }
  destruct U as (u & l1 & l2 & E & Ph & D). exists u, 1978%Z, 193%Z. split; [rewrite E; apply in_or_app; right; left; reflexivity|].
  split; [exact Ph|]. destruct C71_example as (H & Ed & M & S). rewrite H, Ed. split; [exact D|]. cbv zeta. rewrite M, S. intros t [B1 B2].
  assert (C : (t <= 0)%Z \/ (1 <= t)%Z) by lia. destruct C as [C|C]; apply IZR_le in C; lra.
Qed.
(** Asalha Puja of 2016 (19 July) is day 103 of 2016. *)
Example C71_days_example : sd_Horakhun (sd_ints 2016 103) = 503422%Z /\ time_date 1963 7 (5 + (503422 - 484049)) 0 0 = time_date 2016 7 19 0 0 /\
  sy_Tithi (su_init 2016) = 9%Z.
Proof. vm_compute. auto. Qed.
