(** Theorems C70: asking for a range in two parts. *)
From Coq Require Import ZArith Lia Bool ZifyBool List String Sorted.
From Verif Require Import GoTime SuriyaYear Helpers UposathaMoon CalDay AstroMoon AstroData AstroFS Spec SpecCal SpecAstro.
From Verif Require Import P_Time P_Year P_Counts P_Kattika P_Chain P_Gen P_Gen2 P_CalDays P_CalDays2 P_Astro.
From Verif Require Import Prop_Days Prop_Astro.
Import ListNotations.
Open Scope Z_scope.

(** ** Lists of days are determined by their entries of each day *)
Definition by_day (a b : CalDay) : Prop := dayof a < dayof b.
Lemma entries_none d l : (forall c, In c l -> dayof c <> d) -> entries_on d l = [].
Proof. intros H. apply filter_nil. intros c Hc. specialize (H c Hc). unfold dayof in H. lia. Qed.
Lemma days_determined l : forall m, StronglySorted by_day l -> StronglySorted by_day m ->
  (forall d, entries_on d l = entries_on d m) -> l = m.
Proof.
  induction l as [|a l IH]; intros m Sl Sm H.
  - destruct m as [|b m]; [reflexivity|]. specialize (H (dayof b)). cbn [entries_on filter] in H. unfold dayof in H.
    rewrite Z.eqb_refl in H. discriminate.
  - destruct m as [|b m].
    { specialize (H (dayof a)). cbn [entries_on filter] in H. unfold dayof in H. rewrite Z.eqb_refl in H. discriminate. }
    apply StronglySorted_inv in Sl. destruct Sl as [Sl Fl]. apply StronglySorted_inv in Sm. destruct Sm as [Sm Fm].
    rewrite Forall_forall in Fl, Fm. unfold by_day in Fl, Fm.
    assert (E : dayof a = dayof b).
    { destruct (Z.lt_trichotomy (dayof a) (dayof b)) as [L|[E|L]]; [|exact E|].
      - pose proof (H (dayof a)) as Ha. rewrite (entries_none _ (b :: m)) in Ha.
        + cbn [entries_on filter] in Ha. fold (dayof a) in Ha. rewrite Z.eqb_refl in Ha. discriminate.
        + intros c [<-|Hc]; [lia|]. specialize (Fm c Hc). lia.
      - pose proof (H (dayof b)) as Hb. rewrite (entries_none _ (a :: l)) in Hb.
        + cbn [entries_on filter] in Hb. fold (dayof b) in Hb. rewrite Z.eqb_refl in Hb. discriminate.
        + intros c [<-|Hc]; [lia|]. specialize (Fl c Hc). lia. }
    assert (Nl : entries_on (dayof a) l = []) by (apply entries_none; intros c Hc; specialize (Fl c Hc); lia).
    assert (Nm : entries_on (dayof a) m = []) by (apply entries_none; intros c Hc; specialize (Fm c Hc); lia).
    assert (C : forall d x k, entries_on d (x :: k) = if dayof x =? d then x :: entries_on d k else entries_on d k) by reflexivity.
    pose proof (H (dayof a)) as Ha. rewrite !C, Nl, Nm, <- E, Z.eqb_refl in Ha. injection Ha as <-.
    f_equal. apply IH; [exact Sl|exact Sm|]. intros d. specialize (H d). rewrite !C in H.
    destruct (Z.eqb_spec (dayof a) d) as [Ed|Ed]; [rewrite <- Ed, Nl, Nm; reflexivity|exact H].
Qed.

(** ** The generated events of one day *)
Definition year_valid (cfg : config) (y : Z) : Prop := kattika_within cfg 1 118 y /\ kattika_within cfg 1 118 (y + 1) /\ exclusive cfg y.
Lemma year_event_kinds cfg y e : In e (events_of_year cfg y) ->
  match e with EvAstro _ | EvEvent _ => False | _ => True end.
Proof.
  unfold events_of_year. destruct (generate_spec cfg y) as (p & E & _). rewrite E. clear E.
  intros H. apply in_flat_map in H. destruct H as (u & _ & H). revert H. unfold uposatha_events, major_events.
  rewrite !in_app_iff.
  repeat match goal with |- context [if ?b then _ else _] => destruct b end; cbn [In app];
    intros H; repeat match goal with H : _ \/ _ |- _ => destruct H as [H|H] end; try contradiction H; try (subst e; exact I).
Qed.
Lemma year_event_date cfg y e : year_valid cfg y -> In e (events_of_year cfg y) ->
  exists x, ev_date e = midnight x /\ year_of_day x = y.
Proof.
  intros (H1 & H2 & H3) H. pose proof (year_event_kinds cfg y e H) as K. destruct e as [u|h|a|m|v]; try contradiction K.
  - apply uposathas_in in H. apply year_uposatha_date in H. exact H.
  - apply halves_in in H. apply year_half_date in H. exact H.
  - apply majors_in in H. pose proof (valid_within cfg y 118 H1 H2 H3) as V. rewrite within_iff in H1, H2.
    apply (year_major_date cfg y m V); [lia|lia|exact H].
Qed.

Lemma generated_on cfg from to d : t_off from = 0 -> t_off to = 0 ->
  (forall y, time_year from <= y <= time_year to -> year_valid cfg y) ->
  events_on d (generated cfg from to) = if day_in from to d then events_on d (events_of_year cfg (year_of_day d)) else [].
Proof.
  intros Hf Ht Hv. unfold events_on, generated. rewrite filter_filter.
  apply (day_items ev_date (events_of_year cfg) from to d Hf Ht).
  intros y e Hy. apply year_event_date. apply Hv. exact Hy.
Qed.

(** ** The astro moons of one day *)
Definition own_year (fs : Z -> fetch) (y : Z) : Prop :=
  forall r, In r (usable (fs y)) -> year_of_day (utc_day (ae_DateTimeISO r)) = y.
Definition missing_stay_missing (fs : Z -> fetch) (a b : Z) : Prop :=
  forall y z, a <= y <= z -> z <= b -> fs y = Missing -> fs z = Missing.
Lemma read_all {B} (fs : Z -> fetch) (g : fetch -> list B) n : g Missing = [] -> forall a,
  missing_stay_missing fs a (a + Z.of_nat n - 1) ->
  flat_map (fun y => g (fs y)) (take_while (fun y => negb (is_missing (fs y))) (years a n)) = flat_map (fun y => g (fs y)) (years a n).
Proof.
  intros G. induction n as [|n IH]; intros a H; [reflexivity|]. cbn [years take_while].
  destruct (fs a) eqn:E; cbn [is_missing negb flat_map].
  - rewrite E, G. cbn [app]. symmetry. apply flat_map_nil. intros y Hy. apply years_in in Hy.
    rewrite (H a y); [exact G|lia|lia|exact E].
  - f_equal. apply IH. intros y z Hy Hz. apply H; lia.
  - f_equal. apply IH. intros y z Hy Hz. apply H; lia.
Qed.
Definition moons_on (fs : Z -> fetch) (from to : time) (d : Z) : list CalendarEvent :=
  map (fun r => EvAstro (moon_of r)) (filter (fun r => in_period from to r && (utc_day (ae_DateTimeISO r) =? d)) (usable (fs (year_of_day d)))).
Lemma in_period_year from to r : t_off from = 0 -> t_off to = 0 -> in_period from to r = true ->
  time_year from <= year_of_day (utc_day (ae_DateTimeISO r)) <= time_year to.
Proof.
  intros Hf Ht H. unfold in_period in H. rewrite !year_utc by assumption. unfold utc_day.
  split; apply year_of_day_mono; apply Z.div_le_mono; (reflexivity || lia).
Qed.
Lemma astros_on fs from to ms d : t_off from = 0 -> t_off to = 0 ->
  missing_stay_missing fs (time_year from) (time_year to) ->
  (forall y, time_year from <= y <= time_year to -> own_year fs y) ->
  get_astro_moons fs from to = Ok ms -> events_on d (map EvAstro ms) = moons_on fs from to d.
Proof.
  intros Hf Ht Hm Ho E. destruct (C30_exact fs from to) as [[E' _]|[E' _]]; rewrite E in E'; [|discriminate].
  injection E' as ->. set (n := Z.to_nat (time_year to - time_year from + 1)).
  rewrite (read_all fs (fun f => map moon_of (filter (in_period from to) (usable f))) n eq_refl (time_year from))
    by (intros y z Hy Hz; apply Hm; lia).
  unfold moons_on. unfold events_on.
  set (g := fun y => if (time_year from <=? y) && (y <=? time_year to) then map (fun r => EvAstro (moon_of r))
      (filter (fun r => in_period from to r && (utc_day (ae_DateTimeISO r) =? d)) (usable (fs y))) else []).
  transitivity (flat_map g (years (time_year from) n)).
  - rewrite !flat_map_concat_map, concat_map, map_map, <- flat_map_concat_map, filter_flat_map, <- flat_map_concat_map.
    apply flat_map_ext_in. intros y Hy. apply years_in in Hy. unfold g.
    replace ((time_year from <=? y) && (y <=? time_year to)) with true by (unfold n in Hy; lia).
    rewrite map_map, <- filter_filter. generalize (filter (in_period from to) (usable (fs y))). intros l.
    induction l as [|r l IH]; [reflexivity|]. cbn [map filter ev_date moon_of a_Date]. rewrite IH.
    change (utc_day (mkTime (t_ns (ae_DateTimeISO r)) 0)) with (utc_day (ae_DateTimeISO r)).
    destruct (utc_day (ae_DateTimeISO r) =? d); reflexivity.
  - rewrite (flat_map_one g (year_of_day d)).
    + unfold g. destruct ((time_year from <=? year_of_day d) && (year_of_day d <=? time_year to)) eqn:Y.
      * replace ((time_year from <=? year_of_day d) && (year_of_day d <? time_year from + Z.of_nat n)) with true by (unfold n; lia). reflexivity.
      * replace ((time_year from <=? year_of_day d) && (year_of_day d <? time_year from + Z.of_nat n)) with false by (unfold n; lia).
        symmetry. rewrite filter_nil; [reflexivity|]. intros r _. destruct (in_period from to r) eqn:P; [|reflexivity].
        pose proof (in_period_year from to r Hf Ht P). destruct (Z.eqb_spec (utc_day (ae_DateTimeISO r)) d) as [X|X]; [|reflexivity]. rewrite X in *. lia.
    + intros y Hy. unfold g. destruct ((time_year from <=? y) && (y <=? time_year to)) eqn:Y; [|reflexivity].
      rewrite filter_nil; [reflexivity|]. intros r Hr. pose proof (Ho y ltac:(lia) r Hr) as O.
      destruct (Z.eqb_spec (utc_day (ae_DateTimeISO r)) d) as [X|X]; [rewrite X in O; congruence|apply andb_false_r].
Qed.

(** ** Parts of a range *)
Lemma sub_ok fs from to from' to' ms : get_astro_moons fs from to = Ok ms ->
  t_off from = 0 -> t_off to = 0 -> t_off from' = 0 -> t_off to' = 0 -> t_ns from <= t_ns from' -> t_ns to' <= t_ns to ->
  missing_stay_missing fs (time_year from) (time_year to) ->
  exists ms', get_astro_moons fs from' to' = Ok ms'.
Proof.
  intros E F T F' T' Hf Ht Hm. destruct (C30_exact fs from' to') as [[E' _]|[_ (y & Hy & B)]]; [eexists; exact E'|exfalso].
  destruct (C30_exact fs from to) as [[_ G]|[E' _]]; [|rewrite E in E'; discriminate].
  assert (Hyr : time_year from <= time_year from' /\ time_year to' <= time_year to).
  { rewrite !year_utc by assumption. unfold utc_day. split; apply year_of_day_mono; apply Z.div_le_mono; (reflexivity || assumption). }
  assert (R : forall n a z, In z (take_while (fun y => negb (is_missing (fs y))) (years a n)) -> a <= z < a + Z.of_nat n /\ fs z <> Missing).
  { clear. induction n as [|n IH]; intros a z; cbn [years take_while]; [intros []|].
    destruct (fs a) eqn:X; cbn [is_missing negb]; [intros []| |]; (intros [<-|H]; [rewrite X; split; [lia|discriminate]|]);
    destruct (IH _ _ H); split; try lia; assumption. }
  assert (R' : forall n a z, missing_stay_missing fs a (a + Z.of_nat n - 1) -> a <= z < a + Z.of_nat n -> fs z <> Missing ->
     In z (take_while (fun y => negb (is_missing (fs y))) (years a n))).
  { clear. induction n as [|n IH]; intros a z H Hz N; [lia|]. cbn [years take_while].
    destruct (fs a) eqn:X; cbn [is_missing negb].
    - elim N. apply (H a z); [lia|lia|exact X].
    - destruct (Z.eq_dec a z) as [->|]; [left; reflexivity|right]. apply IH; [intros y w Hy Hw; apply H; lia|lia|exact N].
    - destruct (Z.eq_dec a z) as [->|]; [left; reflexivity|right]. apply IH; [intros y w Hy Hw; apply H; lia|lia|exact N]. }
  destruct (R _ _ _ Hy) as [Ry Ny]. destruct (G y) as [G1 G2].
  { apply R'; [|lia|exact Ny]. intros u w Hu Hw. apply Hm; lia. }
  destruct B as [B|(m & Hi & Hp & Hc)]; [exact (G1 B)|]. apply Hc. apply G2; [exact Hi|]. unfold in_period in *. lia.
Qed.

(** * C70 Asking for a range in two parts gives the same days *)
(** Cut the range just before the midnight of day [m]: the days of the two parts, one after
    the other, are the days of the whole. *)
Theorem C70_join : forall cfg fs from to m l,
  t_off from = 0 -> t_off to = 0 -> t_ns from < m * (24 * hour_ns) <= t_ns to ->
  (forall y, time_year from <= y <= time_year to ->
     kattika_within cfg 1 118 y /\ kattika_within cfg 1 118 (y + 1) /\ exclusive cfg y) ->
  (forall y, time_year from <= y <= time_year to -> forall r, In r (usable (fs y)) -> year_of_day (utc_day (ae_DateTimeISO r)) = y) ->
  (forall y z, time_year from <= y <= z -> z <= time_year to -> fs y = Missing -> fs z = Missing) ->
  get_cal_days cfg fs from to = Some (Ok l) ->
  exists l1 l2,
    get_cal_days cfg fs from (mkTime (m * (24 * hour_ns) - 1) 0) = Some (Ok l1) /\
    get_cal_days cfg fs (mkTime (m * (24 * hour_ns)) 0) to = Some (Ok l2) /\
    l = l1 ++ l2.
Proof.
  intros cfg fs from to m l F T Hm Hv Ho Hg H. change (24 * hour_ns) with day_ns in *.
  set (t1 := mkTime (m * day_ns - 1) 0). set (t2 := mkTime (m * day_ns) 0).
  destruct (cal_days_merged cfg fs from to l H) as (ms & E & M & S).
  destruct (sub_ok fs from to from t1 ms E F T F eq_refl ltac:(lia) ltac:(cbn [t1 t_ns]; lia) Hg) as [ms1 E1].
  destruct (sub_ok fs from to t2 to ms E F T eq_refl T ltac:(cbn [t2 t_ns]; lia) ltac:(lia) Hg) as [ms2 E2].
  pose proof (C27_returns cfg fs from t1) as R1. rewrite E1 in R1. destruct R1 as [l1 R1].
  pose proof (C27_returns cfg fs t2 to) as R2. rewrite E2 in R2. destruct R2 as [l2 R2].
  exists l1, l2. split; [exact R1|]. split; [exact R2|].
  destruct (cal_days_merged cfg fs from t1 l1 R1) as (ms1' & E1' & M1 & S1). rewrite E1 in E1'. injection E1' as <-.
  destruct (cal_days_merged cfg fs t2 to l2 R2) as (ms2' & E2' & M2 & S2). rewrite E2 in E2'. injection E2' as <-.
  assert (Y1 : time_year from <= time_year t2 /\ time_year t1 <= time_year to).
  { rewrite !year_utc by (assumption || reflexivity). unfold utc_day. cbn [t1 t2 t_ns].
    split; apply year_of_day_mono; apply Z.div_le_mono; (reflexivity || lia). }
  assert (A : forall d, events_on d (all_events cfg ms from to) = moons_on fs from to d ++
      (if day_in from to d then events_on d (events_of_year cfg (year_of_day d)) else [])).
  { intros d. unfold all_events. rewrite events_on_app. f_equal; [apply astros_on; assumption|apply generated_on; assumption]. }
  assert (A1 : forall d, events_on d (all_events cfg ms1 from t1) = moons_on fs from t1 d ++
      (if day_in from t1 d then events_on d (events_of_year cfg (year_of_day d)) else [])).
  { intros d. unfold all_events. rewrite events_on_app. f_equal.
    - apply astros_on; [exact F|reflexivity| | |exact E1]; [intros y z Hy Hz; apply Hg; lia|intros y Hy; exact (Ho y ltac:(lia))].
    - apply generated_on; [exact F|reflexivity|]. intros y Hy. apply Hv. lia. }
  assert (A2 : forall d, events_on d (all_events cfg ms2 t2 to) = moons_on fs t2 to d ++
      (if day_in t2 to d then events_on d (events_of_year cfg (year_of_day d)) else [])).
  { intros d. unfold all_events. rewrite events_on_app. f_equal.
    - apply astros_on; [reflexivity|exact T| | |exact E2]; [intros y z Hy Hz; apply Hg; lia|intros y Hy; exact (Ho y ltac:(lia))].
    - apply generated_on; [reflexivity|exact T|]. intros y Hy. apply Hv. lia. }
  assert (P1 : forall d, events_on d (all_events cfg ms1 from t1) = if d <? m then events_on d (all_events cfg ms from to) else []).
  { intros d. rewrite A, A1. unfold moons_on. destruct (Z.ltb_spec d m) as [L|L].
    - f_equal.
      + f_equal. apply filter_ext. intros r. destruct (Z.eqb_spec (utc_day (ae_DateTimeISO r)) d) as [X|X]; [|rewrite !andb_false_r; reflexivity].
        f_equal. pose proof (utc_day_spec (ae_DateTimeISO r)). unfold in_period. cbn [t1 t_ns]. unfold day_ns in *. lia.
      + replace (day_in from t1 d) with (day_in from to d); [reflexivity|]. unfold day_in. cbn [t1 t_ns]. unfold day_ns in *. lia.
    - rewrite filter_nil.
      + replace (day_in from t1 d) with false; [reflexivity|]. unfold day_in. cbn [t1 t_ns]. unfold day_ns in *. lia.
      + intros r _. destruct (Z.eqb_spec (utc_day (ae_DateTimeISO r)) d) as [X|X]; [|apply andb_false_r].
        pose proof (utc_day_spec (ae_DateTimeISO r)). unfold in_period. cbn [t1 t_ns]. unfold day_ns in *. lia. }
  assert (P2 : forall d, events_on d (all_events cfg ms2 t2 to) = if d <? m then [] else events_on d (all_events cfg ms from to)).
  { intros d. rewrite A, A2. unfold moons_on. destruct (Z.ltb_spec d m) as [L|L].
    - rewrite filter_nil.
      + replace (day_in t2 to d) with false; [reflexivity|]. unfold day_in. cbn [t2 t_ns]. unfold day_ns in *. lia.
      + intros r _. destruct (Z.eqb_spec (utc_day (ae_DateTimeISO r)) d) as [X|X]; [|apply andb_false_r].
        pose proof (utc_day_spec (ae_DateTimeISO r)). unfold in_period. cbn [t2 t_ns]. unfold day_ns in *. lia.
    - f_equal.
      + f_equal. apply filter_ext. intros r. destruct (Z.eqb_spec (utc_day (ae_DateTimeISO r)) d) as [X|X]; [|rewrite !andb_false_r; reflexivity].
        f_equal. pose proof (utc_day_spec (ae_DateTimeISO r)). unfold in_period. cbn [t2 t_ns]. unfold day_ns in *. lia.
      + replace (day_in t2 to d) with (day_in from to d); [reflexivity|]. unfold day_in. cbn [t2 t_ns]. unfold day_ns in *. lia. }
  assert (I : forall evs k, merged evs k -> forall c, In c k -> events_on (dayof c) evs <> []).
  { intros evs k (_ & C & _) c Hc. apply (C c Hc). }
  assert (D1 : forall c, In c l1 -> dayof c < m).
  { intros c Hc. pose proof (I _ _ M1 c Hc) as N. rewrite P1 in N. destruct (Z.ltb_spec (dayof c) m); [assumption|elim N; reflexivity]. }
  assert (D2 : forall c, In c l2 -> m <= dayof c).
  { intros c Hc. pose proof (I _ _ M2 c Hc) as N. rewrite P2 in N. destruct (Z.ltb_spec (dayof c) m); [elim N; reflexivity|assumption]. }
  pose proof (sorted_days l S (proj1 M)) as Q. pose proof (sorted_days l1 S1 (proj1 M1)) as Q1. pose proof (sorted_days l2 S2 (proj1 M2)) as Q2.
  apply days_determined; [exact Q| |].
  - clear - Q1 Q2 D1 D2. induction Q1 as [|a k Hk IH Ha]; [exact Q2|]. cbn [app]. constructor.
    + apply IH. intros c Hc. apply D1. right. exact Hc.
    + apply Forall_app. split; [exact Ha|]. apply Forall_forall. intros c Hc. specialize (D1 a (or_introl eq_refl)).
      specialize (D2 c Hc). unfold by_day. lia.
  - intros d. unfold entries_on. rewrite filter_app. fold (entries_on d l). fold (entries_on d l1). fold (entries_on d l2).
    rewrite (merged_on _ l d M), (merged_on _ l1 d M1), (merged_on _ l2 d M2), P1, P2.
    destruct (d <? m); [rewrite app_nil_r|]; reflexivity.
Qed.
(** With the shipped exceptions and the embedded files this is so for all ranges from 1900 on. *)
Theorem C70_embedded : forall cfg from to m,
  UseExceptions cfg = false \/ (forall y, AdhikavaraExceptions cfg y = shipped_exceptions y) ->
  t_off from = 0 -> t_off to = 0 -> 1900 <= time_year from -> time_year to <= 4115 ->
  t_ns from < m * (24 * hour_ns) <= t_ns to ->
  exists l1 l2,
    get_cal_days cfg embedded_fs from (mkTime (m * (24 * hour_ns) - 1) 0) = Some (Ok l1) /\
    get_cal_days cfg embedded_fs (mkTime (m * (24 * hour_ns)) 0) to = Some (Ok l2) /\
    get_cal_days cfg embedded_fs from to = Some (Ok (l1 ++ l2)).
Proof.
  intros cfg from to m Hs F T Y1 Y2 Hm. destruct (C32_never_panics from to) as [ms E].
  pose proof (C27_returns cfg embedded_fs from to) as R. rewrite E in R. destruct R as [l R].
  assert (W : forall y, 1900 <= y <= 4116 -> kattika_within cfg 1 118 y).
  { intros y Hy. pose proof (shipped_within cfg y Hs ltac:(lia)) as W. rewrite within_iff in *. lia. }
  destruct (C70_join cfg embedded_fs from to m l F T Hm) as (l1 & l2 & H1 & H2 & ->).
  - intros y Hy. split; [apply W; lia|]. split; [apply W; lia|]. apply shipped_exclusive. exact Hs.
  - intros y _ r Hr. apply (usable_in y r Hr).
  - intros y z Hy Hz Hmiss. pose proof (embedded_missing y) as My. rewrite Hmiss in My. cbn [is_missing] in My.
    pose proof (embedded_missing z) as Mz. destruct (embedded_fs z); [reflexivity|cbn [is_missing] in Mz; lia|cbn [is_missing] in Mz; lia].
  - exact R.
  - exists l1, l2. auto.
Qed.
(** The two parts must meet: the command line only knows midnights, and from 18 to 19 July
    and then from 20 to 21 July 2016 the astronomical full moon of 19 July is in neither part. *)
Theorem C70_midnights_refuted :
  match get_cal_days cfg_default embedded_fs (time_date 2016 7 18 0 0) (time_date 2016 7 19 0 0),
        get_cal_days cfg_default embedded_fs (time_date 2016 7 20 0 0) (time_date 2016 7 21 0 0),
        get_cal_days cfg_default embedded_fs (time_date 2016 7 18 0 0) (time_date 2016 7 21 0 0) with
  | Some (Ok l1), Some (Ok l2), Some (Ok l) =>
      map cd_Date l = map cd_Date (l1 ++ l2) /\ flat_map cd_Astro (l1 ++ l2) = [] /\ map a_Phase (flat_map cd_Astro l) = ["full"%string]
  | _, _, _ => False
  end.
Proof. vm_compute. auto. Qed.
(** And the range must not start before the data: cut at New Year 1902, the part of 1902 has
    its astronomical moons, the whole from 1899 on has none. *)
Lemma no_astro cfg from to l : time_year from < 1900 -> get_cal_days cfg embedded_fs from to = Some (Ok l) -> flat_map cd_Astro l = [].
Proof.
  intros Hy H. destruct (cal_days_merged cfg embedded_fs from to l H) as (ms & E & (_ & C & _) & _).
  rewrite (C32_before_1900 from to Hy) in E. injection E as <-. apply flat_map_nil. intros c Hc.
  destruct (C c Hc) as (Ec & _). rewrite Ec. cbn [entry_of cd_Astro]. unfold all_events. cbn [map app].
  assert (N : forall k, (forall e, In e k -> match e with EvAstro _ | EvEvent _ => False | _ => True end) -> astros_of k = []).
  { clear. induction k as [|e k IH]; intros K; [reflexivity|]. pose proof (K e (or_introl eq_refl)) as Ke.
    destruct e; try contradiction Ke; cbn [astros_of]; apply IH; intros x Hx; apply K; right; exact Hx. }
  rewrite N; [reflexivity|]. intros e He. unfold events_on in He. apply filter_In in He. destruct He as [He _].
  unfold generated in He. apply filter_In in He. destruct He as [He _]. apply in_flat_map in He. destruct He as (y & _ & He).
  apply (year_event_kinds cfg y e He).
Qed.
Theorem C70_before_the_data_refuted : exists l l2,
  get_cal_days cfg_default embedded_fs (time_date 1899 12 31 0 0) (time_date 1902 1 10 0 0) = Some (Ok l) /\
  get_cal_days cfg_default embedded_fs (time_date 1902 1 1 0 0) (time_date 1902 1 10 0 0) = Some (Ok l2) /\
  flat_map cd_Astro l = [] /\ map a_Phase (flat_map cd_Astro l2) = ["waning"; "new"]%string.
Proof.
  assert (G : exists l2, get_cal_days cfg_default embedded_fs (time_date 1902 1 1 0 0) (time_date 1902 1 10 0 0) = Some (Ok l2) /\
    map a_Phase (flat_map cd_Astro l2) = ["waning"; "new"]%string).
  { eexists. split; vm_compute; reflexivity. }
  destruct G as (l2 & G1 & G2).
  pose proof (C27_returns cfg_default embedded_fs (time_date 1899 12 31 0 0) (time_date 1902 1 10 0 0)) as R.
  rewrite C32_before_1900 in R by (vm_compute; reflexivity). destruct R as [l R].
  exists l, l2. split; [exact R|]. split; [exact G1|]. split; [|exact G2]. refine (no_astro _ _ _ _ _ R). vm_compute. reflexivity.
Qed.
(** July 2016, cut before the 20th. *)
Example C70_example :
  match get_cal_days cfg_default embedded_fs (time_date 2016 7 1 0 0) (mkTime (t_ns (time_date 2016 7 20 0 0) - 1) 0),
        get_cal_days cfg_default embedded_fs (time_date 2016 7 20 0 0) (time_date 2016 7 31 0 0),
        get_cal_days cfg_default embedded_fs (time_date 2016 7 1 0 0) (time_date 2016 7 31 0 0) with
  | Some (Ok l1), Some (Ok l2), Some (Ok l) =>
      List.length l1 = 3%nat /\ List.length l2 = 3%nat /\ l = l1 ++ l2 /\ map a_Phase (flat_map cd_Astro l1) = ["new"; "waxing"; "full"]%string
  | _, _, _ => False
  end.
Proof. vm_compute. repeat split. Qed.
