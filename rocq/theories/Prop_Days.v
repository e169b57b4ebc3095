(** Theorems C27-C29: GetCalDays. *)
From Coq Require Import ZArith Lia Bool ZifyBool List String Permutation Sorted.
From Verif Require Import GoTime SuriyaYear Helpers UposathaMoon CalDay AstroMoon AstroFS Spec SpecCal.
From Verif Require Import P_Time P_Year P_Counts P_Kattika P_Chain P_Gen P_Gen2 P_CalDays P_CalDays2.
Import ListNotations.
Open Scope Z_scope.

(** * C27 GetCalDays returns strictly increasing days, one per civil day *)
Theorem C27_strictly_increasing : forall cfg fs from to l,
  get_cal_days cfg fs from to = Some (Ok l) ->
  StronglySorted (fun a b => time_before (cd_Date a) (cd_Date b) = true /\ utc_day (cd_Date a) < utc_day (cd_Date b)) l.
Proof.
  intros cfg fs from to l H. destruct (cal_days_merged cfg fs from to l H) as (ms & _ & (Hn & _) & Hs).
  pose proof (sorted_days l Hs Hn) as Hd. eapply sorted_weaken; [|exact Hd].
  intros a b _ _ Hab. split; [|exact Hab]. unfold time_before, dayof, utc_day in *. 
  destruct (Z.ltb_spec (t_ns (cd_Date a)) (t_ns (cd_Date b))) as [|Hle]; [reflexivity|].
  apply (Z.div_le_mono _ _ (24 * hour_ns)) in Hle; [|reflexivity]. lia.
Qed.
(** It always returns (or panics, when reading the astro data does). *)
Theorem C27_returns : forall cfg fs from to,
  match get_astro_moons fs from to with
  | Panic => get_cal_days cfg fs from to = Some Panic
  | Ok _ => exists l, get_cal_days cfg fs from to = Some (Ok l)
  end.
Proof.
  intros cfg fs from to. rewrite cal_days_eq. destruct (get_astro_moons fs from to) as [ms|]; [|reflexivity].
  eexists. reflexivity.
Qed.
(** Whatever the sorting algorithm: the only permutation of the merged days in which no
    element is Less than its predecessor (what sort.Sort guarantees) is the result. *)
Theorem C27_any_sort : forall cfg fs from to unsorted l,
  get_cal_days_unsorted cfg fs from to = Some (Ok unsorted) ->
  Permutation unsorted l -> Sorted (fun a b => cal_day_less b a = false) l ->
  get_cal_days cfg fs from to = Some (Ok l).
Proof.
  intros cfg fs from to u l. rewrite unsorted_eq, cal_days_eq.
  destruct (get_astro_moons fs from to) as [ms|] eqn:E; [|discriminate]. intros H. injection H as <-. intros P Hs.
  rewrite <- (sort_any _ l (merged_distinct _ _ (merged_fold _ (all_events_utc cfg fs from to ms E))) P Hs). reflexivity.
Qed.
Definition day_summary (c : CalDay) : time * list string * list string * list string * list string :=
  (cd_Date c, map u_Phase (cd_Uposatha c), map h_Phase (cd_Half c), map a_Phase (cd_Astro c), map e_Summary (cd_Major c)).
(** 11 to 20 July 2016 with the embedded data. *)
Example C27_example :
  match get_cal_days cfg_default embedded_fs (time_date 2016 7 11 0 0) (time_date 2016 7 20 0 0) with
  | Some (Ok l) => map day_summary l = [
      (time_date 2016 7 12 0 0, [], ["waxing"%string], ["waxing"%string], []);
      (time_date 2016 7 19 0 0, ["full"%string], [], ["full"%string], ["Āsāḷha Pūjā"%string]);
      (time_date 2016 7 20 0 0, [], [], [], ["First day of Vassa"%string])]
  | _ => False
  end.
Proof. vm_compute. reflexivity. Qed.

(** * C28 GetCalDays is sound and complete *)
(** The result holds exactly the events of the astro files and of the years touched by the
    range: every entry is made of all the events of its day and of nothing else, and every
    event's day has an entry. *)
Theorem C28_exact : forall cfg fs from to moons l,
  get_astro_moons fs from to = Ok moons -> get_cal_days cfg fs from to = Some (Ok l) ->
  let evs := map EvAstro moons ++ generated cfg from to in
  forall d, entries_on d l =
    match events_on d evs with [] => [] | _ :: _ => [entry_of (events_on d evs)] end.
Proof.
  intros cfg fs from to moons l Hm H. destruct (cal_days_merged cfg fs from to l H) as (ms & E & M & _).
  rewrite Hm in E. injection E as <-. intros evs d. exact (merged_on _ l d M).
Qed.
(** For ranges in UTC no uposatha and no half moon of any year is missed or overwritten. *)
Theorem C28_no_moon_missed : forall cfg fs from to l, t_off from = 0 -> t_off to = 0 ->
  get_cal_days cfg fs from to = Some (Ok l) ->
  (forall y u, In u (uposathas_of (events_of_year cfg y)) ->
     time_before (u_Date u) from = false -> time_after (u_Date u) to = false ->
     exists c, In c l /\ utc_day (cd_Date c) = utc_day (u_Date u) /\ cd_Uposatha c = [u]) /\
  (forall y h, In h (halves_of (events_of_year cfg y)) ->
     time_before (h_Date h) from = false -> time_after (h_Date h) to = false ->
     exists c, In c l /\ utc_day (cd_Date c) = utc_day (h_Date h) /\ cd_Half c = [h]).
Proof.
  intros cfg fs from to l Hf Ht H. destruct (cal_days_merged cfg fs from to l H) as (ms & _ & M & _).
  assert (G : forall {A} (sel : CalDay -> list A) d x, flat_map sel (entries_on d l) = [x] ->
     exists c, In c l /\ utc_day (cd_Date c) = d /\ sel c = [x]).
  { intros A sel d x. rewrite (merged_on _ l d M). intros E.
    destruct (events_on d (all_events cfg ms from to)) as [|e es] eqn:Ev; [discriminate|].
    cbn [flat_map] in E. rewrite app_nil_r in E.
    exists (entry_of (e :: es)). pose proof (merged_on _ l d M) as Eo. rewrite Ev in Eo.
    assert (I : In (entry_of (e :: es)) (entries_on d l)) by (rewrite Eo; left; reflexivity).
    unfold entries_on in I. apply filter_In in I. destruct I as [I1 I2]. split; [exact I1|]. split; [lia|exact E]. }
  split.
  - intros y u Hu Hb Ha. destruct (year_uposatha_date cfg y u Hu) as (d & Ed & Ey).
    apply (G _ cd_Uposatha). destruct (day_content cfg ms from to l (utc_day (u_Date u)) Hf Ht M) as [-> _].
    rewrite Ed, utc_day_midnight, Ey. unfold time_before, time_after in Hb, Ha. rewrite Ed in Hb, Ha. cbn [midnight t_ns] in Hb, Ha.
    replace (day_in from to d) with true by (unfold day_in; lia).
    apply one_uposatha. apply filter_In. split; [exact Hu|]. rewrite Ed, utc_day_midnight. apply Z.eqb_refl.
  - intros y u Hu Hb Ha. destruct (year_half_date cfg y u Hu) as (d & Ed & Ey).
    apply (G _ cd_Half). destruct (day_content cfg ms from to l (utc_day (h_Date u)) Hf Ht M) as [_ ->].
    rewrite Ed, utc_day_midnight, Ey. unfold time_before, time_after in Hb, Ha. rewrite Ed in Hb, Ha. cbn [midnight t_ns] in Hb, Ha.
    replace (day_in from to d) with true by (unfold day_in; lia).
    apply one_half. apply filter_In. split; [exact Hu|]. rewrite Ed, utc_day_midnight. apply Z.eqb_refl.
Qed.
(** With times in another zone an uposatha inside the range can be missed: from
    2017-12-30T00:00-05:00 to 2017-12-31T23:00-05:00 contains the uposatha of
    2018-01-01T00:00Z, but only the events of 2017 are looked at. *)
Theorem C28_other_zone_refuted :
  let from := time_date 2017 12 30 0 (-18000) in let to := time_date 2017 12 31 (23 * hour_ns) (-18000) in
  (exists u, In u (uposathas_of (events_of_year cfg_default 2018)) /\ u_Date u = time_date 2018 1 1 0 0 /\
     time_before (u_Date u) from = false /\ time_after (u_Date u) to = false) /\
  get_cal_days cfg_default embedded_fs from to = Some (Ok []).
Proof.
  cbv zeta. split.
  - assert (E : exists u l, uposathas_of (events_of_year cfg_default 2018) = u :: l /\ u_Date u = time_date 2018 1 1 0 0).
    { eexists. eexists. vm_compute. split; reflexivity. }
    destruct E as (u & l & E & D). exists u. rewrite E. split; [left; reflexivity|]. split; [exact D|]. rewrite D. split; reflexivity.
  - vm_compute. reflexivity.
Qed.
Example C28_example : map e_Summary (majors_of (events_on (utc_day (time_date 2016 10 16 0 0))
    (generated cfg_default (time_date 2016 10 1 0 0) (time_date 2016 10 31 0 0)))) = ["Pavāraṇā Day"%string; "Last day of Vassa"%string].
Proof. vm_compute. reflexivity. Qed.

(** * C29 Narrowing the range only drops days *)
Theorem C29_moons : forall cfg fs fs' from to from' to' l l' d,
  t_off from = 0 -> t_off to = 0 -> t_off from' = 0 -> t_off to' = 0 ->
  t_ns from <= t_ns from' -> t_ns to' <= t_ns to ->
  get_cal_days cfg fs from to = Some (Ok l) -> get_cal_days cfg fs' from' to' = Some (Ok l') ->
  let inside := (t_ns from' <=? d * (24 * hour_ns)) && (d * (24 * hour_ns) <=? t_ns to') in
  flat_map cd_Uposatha (entries_on d l') = (if inside then flat_map cd_Uposatha (entries_on d l) else []) /\
  flat_map cd_Half (entries_on d l') = (if inside then flat_map cd_Half (entries_on d l) else []).
Proof.
  intros cfg fs fs' from to from' to' l l' d F T F' T' Hf Ht H H'.
  destruct (cal_days_merged cfg fs from to l H) as (ms & _ & M & _).
  destruct (cal_days_merged cfg fs' from' to' l' H') as (ms' & _ & M' & _).
  destruct (day_content cfg ms from to l d F T M) as [-> ->].
  destruct (day_content cfg ms' from' to' l' d F' T' M') as [-> ->]. cbv zeta.
  change (d * (24 * hour_ns)) with (d * day_ns). fold (day_in from' to' d).
  destruct (day_in from' to' d) eqn:D; [|split; reflexivity].
  replace (day_in from to d) with true; [split; reflexivity|]. unfold day_in in *. lia.
Qed.
Theorem C29_major_events : forall cfg fs fs' from to from' to' l l' d,
  t_off from = 0 -> t_off to = 0 -> t_off from' = 0 -> t_off to' = 0 ->
  t_ns from <= t_ns from' -> t_ns to' <= t_ns to ->
  (forall y, time_year from <= y <= time_year to -> 
     kattika_within cfg 1 118 y /\ kattika_within cfg 1 118 (y + 1) /\ exclusive cfg y) ->
  get_cal_days cfg fs from to = Some (Ok l) -> get_cal_days cfg fs' from' to' = Some (Ok l') ->
  let inside := (t_ns from' <=? d * (24 * hour_ns)) && (d * (24 * hour_ns) <=? t_ns to') in
  flat_map cd_Major (entries_on d l') = (if inside then flat_map cd_Major (entries_on d l) else []).
Proof.
  intros cfg fs fs' from to from' to' l l' d F T F' T' Hf Ht Hk H H'.
  destruct (cal_days_merged cfg fs from to l H) as (ms & _ & M & _).
  destruct (cal_days_merged cfg fs' from' to' l' H') as (ms' & _ & M' & _).
  assert (V : forall y, time_year from <= y <= time_year to -> valid cfg y /\ 1 <= days_before_year y - kday cfg y /\
     days_before_year (y + 1) - kday cfg (y + 1) <= 118).
  { intros y Hy. destruct (Hk y Hy) as (H1 & H2 & H3). split; [apply (valid_within cfg y 118); assumption|].
    rewrite within_iff in H1, H2. lia. }
  assert (Hyr : time_year from <= time_year from' /\ time_year to' <= time_year to).
  { rewrite !year_utc by assumption. unfold utc_day. split; apply year_of_day_mono; apply Z.div_le_mono; (reflexivity || assumption). }
  rewrite (day_majors cfg ms from to l d F T M V).
  rewrite (day_majors cfg ms' from' to' l' d F' T' M') by (intros y Hy; apply V; lia). cbv zeta.
  change (d * (24 * hour_ns)) with (d * day_ns). fold (day_in from' to' d).
  destruct (day_in from' to' d) eqn:D; [|reflexivity].
  replace (day_in from to d) with true; [reflexivity|]. unfold day_in in *. lia.
Qed.
(** The six-week view and the two-day view agree on 19 July 2016. *)
Example C29_example :
  match get_cal_days cfg_default embedded_fs (time_date 2016 7 19 0 0) (time_date 2016 7 20 0 0),
        get_cal_days cfg_default embedded_fs (time_date 2016 7 1 0 0) (time_date 2016 8 15 0 0) with
  | Some (Ok l'), Some (Ok l) => map u_S_Number (flat_map cd_Uposatha l') = [8] /\
      flat_map cd_Uposatha l' = flat_map cd_Uposatha (entries_on (utc_day (time_date 2016 7 19 0 0)) l)
  | _, _ => False
  end.
Proof. vm_compute. auto. Qed.
