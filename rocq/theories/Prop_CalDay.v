(** Theorems C40, C42: the CalDay accessors and AddHalfMoonDays. *)
From Coq Require Import ZArith Lia Bool List String.
From Verif Require Import GoTime SuriyaYear UposathaMoon CalDay SpecCal.
From Verif Require Import P_Time P_Gen P_CalDays.
Import ListNotations.
Open Scope Z_scope.

(** * C40 CalDay accessors behave as optional fields under any sequence of operations *)
(** One call on a CalDay: one of the three setters, or AddToDay of any event. *)
Inductive operation :=
| SetUposatha (u : UposathaMoon) | SetHalf (h : HalfMoon) | SetAstro (a : AstroMoon) | AddToDay (e : CalendarEvent).
Definition run1 (d : CalDay) (o : operation) : CalDay :=
  match o with
  | SetUposatha u => set_uposatha d u | SetHalf h => set_half d h | SetAstro a => set_astro d a | AddToDay e => add_to_day e d
  end.
Definition run (l : list operation) : CalDay := fold_left run1 l zero_calday.
(** What an operation puts on the day, and the AddToDay calls among the operations. *)
Definition put (o : operation) : CalendarEvent :=
  match o with SetUposatha u => EvUposatha u | SetHalf h => EvHalf h | SetAstro a => EvAstro a | AddToDay e => e end.
Definition added (l : list operation) : list CalendarEvent :=
  flat_map (fun o => match o with AddToDay e => [e] | _ => [] end) l.

Theorem C40_accessors : forall l,
  cd_Date (run l) = match last_of (added l) with [e] => ev_date e | _ => time_date 1 1 1 0 0 end /\
  cd_Uposatha (run l) = last_of (uposathas_of (map put l)) /\
  cd_Half (run l) = last_of (halves_of (map put l)) /\
  cd_Astro (run l) = last_of (astros_of (map put l)) /\
  cd_Major (run l) = majors_of (map put l) /\
  cd_Events (run l) = plain_events_of (map put l) /\
  get_uposatha (run l) = match last_of (uposathas_of (map put l)) with u :: _ => u | [] => mkUposatha (time_date 1 1 1 0 0) 0 0 "" "" 0 0 0 0 0 0 0 false "" "" end /\
  get_half (run l) = match last_of (halves_of (map put l)) with h :: _ => h | [] => mkHalfMoon (time_date 1 1 1 0 0) "" end /\
  get_astro (run l) = match last_of (astros_of (map put l)) with a :: _ => a | [] => mkAstroMoon "" (time_date 1 1 1 0 0) end.
Proof.
  intros l. assert (H : run l = mkCalDay (match last_of (added l) with [e] => ev_date e | _ => zero_time end)
    (last_of (uposathas_of (map put l))) (last_of (halves_of (map put l))) (last_of (astros_of (map put l)))
    (majors_of (map put l)) (plain_events_of (map put l))).
  { unfold run. induction l as [|o l IH] using rev_ind; [reflexivity|]. rewrite fold_left_app, IH. cbn [fold_left].
    unfold added. rewrite map_app, flat_map_app. fold (added l). cbn [map flat_map].
    rewrite uposathas_app, halves_app, astros_app, majors_app, plain_app.
    destruct o as [u|h|a|e]; [| | |destruct e]; cbn [run1 put add_to_day]; unfold set_uposatha, set_half, set_astro, set_date;
      cbn [ev_date cd_Date cd_Uposatha cd_Half cd_Astro cd_Major cd_Events uposathas_of halves_of astros_of majors_of plain_events_of];
      rewrite ?app_nil_r, ?set_single_last, ?last_of_app; reflexivity. }
  unfold get_uposatha, get_half, get_astro. rewrite H. cbn [cd_Date cd_Uposatha cd_Half cd_Astro cd_Major cd_Events].
  repeat split.
Qed.
(** Getting what was set last, and at most one moon of each kind. *)
Theorem C40_get_set : forall d u h a,
  get_uposatha (set_uposatha d u) = u /\ get_half (set_half d h) = h /\ get_astro (set_astro d a) = a /\
  get_half (set_uposatha d u) = get_half d /\ get_astro (set_uposatha d u) = get_astro d /\
  get_uposatha (set_half d h) = get_uposatha d /\ get_astro (set_half d h) = get_astro d /\
  get_uposatha (set_astro d a) = get_uposatha d /\ get_half (set_astro d a) = get_half d.
Proof.
  intros [dt us hs ms mj ev] u h a. unfold get_uposatha, get_half, get_astro, set_uposatha, set_half, set_astro.
  cbn [cd_Uposatha cd_Half cd_Astro]. destruct us, hs, ms; repeat split.
Qed.
Theorem C40_at_most_one : forall l, (List.length (cd_Uposatha (run l)) <= 1)%nat /\
  (List.length (cd_Half (run l)) <= 1)%nat /\ (List.length (cd_Astro (run l)) <= 1)%nat.
Proof.
  intros l. destruct (C40_accessors l) as (_ & -> & -> & -> & _).
  repeat split; match goal with |- context [last_of ?x] => destruct (last_of_cases x) as [->|[y ->]] end; cbn; auto.
Qed.
Example C40_example :
  let w := mkHalfMoon (midnight 5) "waxing" in let v := mkHalfMoon (midnight 6) "waning" in
  let m s := mkEvent (midnight 7) 0 s s in
  run [SetHalf w; AddToDay (EvMajor (m "a"%string)); SetHalf v; AddToDay (EvMajor (m "b"%string))] =
  mkCalDay (midnight 7) [] [v] [] [m "a"%string; m "b"%string] [].
Proof. reflexivity. Qed.

(** * C42 AddHalfMoonDays *)
(** The half moon day for a day with an uposatha. *)
Definition half_day (d : CalDay) (phase : string) : CalDay :=
  let t := time_add (cd_Date d) (8 * (24 * hour_ns)) in mkCalDay t [] [mkHalfMoon t phase] [] [] [].
Definition half_days (d : CalDay) : list CalDay :=
  match cd_Uposatha d with
  | u :: _ => if String.eqb (u_Phase u) "new" then [half_day d "waxing"]
              else if String.eqb (u_Phase u) "full" then [half_day d "waning"] else []
  | [] => []
  end.
Theorem C42_half_moon_days : forall l, add_half_moon_days l = l ++ flat_map half_days l.
Proof.
  intros l. unfold add_half_moon_days. f_equal. induction l as [|d l IH]; [reflexivity|]. cbn [filter_map flat_map]. rewrite IH.
  unfold half_moon_day, half_days. destruct (cd_Uposatha d) as [|u us] eqn:E; [reflexivity|].
  unfold get_uposatha. rewrite E. cbn [get_single]. cbv zeta. cbn [cd_Date set_date]. rewrite time_add_date_days.
  destruct (String.eqb (u_Phase u) "new"); [reflexivity|]. destruct (String.eqb (u_Phase u) "full"); reflexivity.
Qed.
(** Same time of day, eight days later in the zone of the day. *)
Theorem C42_eighth_day : forall d p, let h := half_day d p in
  t_off (cd_Date h) = t_off (cd_Date d) /\ clock_ns (cd_Date h) = clock_ns (cd_Date d) /\
  local_day (cd_Date h) = local_day (cd_Date d) + 8.
Proof.
  intros d p. cbv zeta. unfold half_day. cbn [cd_Date]. unfold time_add, clock_ns, local_day, local_ns. cbn [t_ns t_off].
  replace (t_ns (cd_Date d) + 8 * (24 * hour_ns) + t_off (cd_Date d) * second_ns)
    with (t_ns (cd_Date d) + t_off (cd_Date d) * second_ns + 8 * day_ns) by (unfold hour_ns, day_ns; lia).
  split; [reflexivity|]. split; [apply Z_mod_plus_full|apply Z_div_plus_full; discriminate].
Qed.
(** Applying it twice duplicates every half moon day. *)
Theorem C42_twice : forall l, add_half_moon_days (add_half_moon_days l) = l ++ flat_map half_days l ++ flat_map half_days l.
Proof.
  intros l. rewrite !C42_half_moon_days, flat_map_app, app_assoc.
  assert (E : flat_map half_days (flat_map half_days l) = []).
  { induction l as [|d l IH]; [reflexivity|]. cbn [flat_map]. rewrite flat_map_app, IH, app_nil_r. unfold half_days at 2.
    destruct (cd_Uposatha d) as [|u us]; [reflexivity|]. destruct (String.eqb (u_Phase u) "new"); [reflexivity|].
    destruct (String.eqb (u_Phase u) "full"); reflexivity. }
  rewrite E, app_nil_r, <- app_assoc. reflexivity.
Qed.
Definition new_moon_day : CalDay := mkCalDay (midnight 10) [mkUposatha (midnight 10) 0 0 "new" "" 1 8 15 30 1 1 2500 false "" ""] [] [] [] [].
Example C42_example : add_half_moon_days [new_moon_day] =
  [new_moon_day; mkCalDay (midnight 18) [] [mkHalfMoon (midnight 18) "waxing"] [] [] []].
Proof. reflexivity. Qed.
Theorem C42_idempotent_refuted : add_half_moon_days (add_half_moon_days [new_moon_day]) <> add_half_moon_days [new_moon_day].
Proof. intros H. apply (f_equal (@List.length CalDay)) in H. discriminate H. Qed.
