(** Which day each event is on; nothing overwritten (C28, C29). *)
From Coq Require Import ZArith Lia Bool ZifyBool List String Permutation Sorted.
From Verif Require Import GoTime SuriyaYear Helpers UposathaMoon CalDay AstroMoon Spec SpecCal.
From Verif Require Import P_Time P_Year P_Counts P_Kattika P_Chain P_Gen P_Gen2 P_CalDays.
Import ListNotations.
Open Scope Z_scope.

Definition ubefore (a b : UposathaMoon) : Prop := t_ns (u_Date a) < t_ns (u_Date b).
Definition hbefore (a b : HalfMoon) : Prop := t_ns (h_Date a) < t_ns (h_Date b).

Lemma next_later cfg u : t_ns (u_Date u) < t_ns (u_Date (next_uposatha cfg u)).
Proof.
  rewrite next_uposatha_flags. unfold next_flags. set (a := am _). set (v := is_adhikavara _ _). clearbody a v.
  destruct (String.eqb (u_Phase u) "new"); [cbn [u_Date time_add t_ns]; unfold hour_ns; lia|].
  set (month := next_month a (u_LunarMonth u)). clearbody month. cbv zeta.
  set (md := if v && (month =? 8) then 30 else if Z.rem month 2 =? 1 then 30 else 29). clearbody md.
  destruct (u_S_Number u <? u_S_Total u); [|destruct (u_LunarMonth u =? 12)];
  cbn [u_Date time_add t_ns]; unfold hour_ns; destruct (md =? 29); lia.
Qed.
Lemma moons_sorted cfg n : forall u, StronglySorted ubefore (moons cfg n u) /\ Forall (ubefore u) (moons cfg n u).
Proof.
  induction n as [|n IH]; intros u; cbn [moons]; [split; constructor|].
  destruct (IH (next_uposatha cfg u)) as [S F]. pose proof (next_later cfg u) as L. split.
  - constructor; assumption.
  - constructor; [exact L|]. eapply Forall_impl; [|exact F]. intros x Hx. unfold ubefore in *. lia.
Qed.
Lemma sorted_filter {A} (R : A -> A -> Prop) f l : StronglySorted R l -> StronglySorted R (filter f l).
Proof.
  induction 1 as [|x l Hs IH Hx]; [constructor|]. cbn [filter]. destruct (f x); [|exact IH].
  constructor; [exact IH|]. rewrite Forall_forall in *. intros z Hz. apply filter_In in Hz. apply Hx. apply Hz.
Qed.
Lemma sorted_map {A B} (R : A -> A -> Prop) (R' : B -> B -> Prop) f l :
  (forall a b, R a b -> R' (f a) (f b)) -> StronglySorted R l -> StronglySorted R' (map f l).
Proof.
  intros H. induction 1 as [|x l Hs IH Hx]; cbn [map]; constructor; [exact IH|].
  rewrite Forall_forall in *. intros z Hz. apply in_map_iff in Hz. destruct Hz as (w & <- & Hw). apply H. apply Hx. exact Hw.
Qed.

Lemma year_uposathas_sorted cfg y : StronglySorted ubefore (uposathas_of (events_of_year cfg y)).
Proof.
  unfold events_of_year. destruct (generate_spec cfg y) as (p & E & _). rewrite E, uposathas_flat.
  apply (sorted_map ubefore); [intros a b H; exact H|]. apply sorted_filter. apply moons_sorted.
Qed.
Lemma year_halves_sorted cfg y : StronglySorted hbefore (halves_of (events_of_year cfg y)).
Proof.
  unfold events_of_year. destruct (generate_spec cfg y) as (p & E & _). rewrite E, halves_flat.
  apply (sorted_map ubefore); [intros a b H; unfold hbefore, half_of, ubefore in *; cbn [h_Date time_add t_ns]; lia|].
  apply sorted_filter. apply moons_sorted.
Qed.

Definition mid (t : time) : Prop := exists d, t = midnight d.
Lemma uposathas_in l u : In u (uposathas_of l) <-> In (EvUposatha u) l.
Proof.
  induction l as [|e l IH]; [cbn; tauto|]. destruct e; cbn [uposathas_of In]; rewrite <- IH; split; intros H;
    try (right; exact H); try (destruct H as [H|H]; [discriminate|exact H]).
  - destruct H as [->|H]; auto.
  - destruct H as [H|H]; [injection H as ->; auto|auto].
Qed.
Lemma halves_in l u : In u (halves_of l) <-> In (EvHalf u) l.
Proof.
  induction l as [|e l IH]; [cbn; tauto|]. destruct e; cbn [halves_of In]; rewrite <- IH; split; intros H;
    try (right; exact H); try (destruct H as [H|H]; [discriminate|exact H]).
  - destruct H as [->|H]; auto.
  - destruct H as [H|H]; [injection H as ->; auto|auto].
Qed.
Lemma majors_in l u : In u (majors_of l) <-> In (EvMajor u) l.
Proof.
  induction l as [|e l IH]; [cbn; tauto|]. destruct e; cbn [majors_of In]; rewrite <- IH; split; intros H;
    try (right; exact H); try (destruct H as [H|H]; [discriminate|exact H]).
  - destruct H as [->|H]; auto.
  - destruct H as [H|H]; [injection H as ->; auto|auto].
Qed.

Lemma year_uposatha_date cfg y u : In u (uposathas_of (events_of_year cfg y)) ->
  exists d, u_Date u = midnight d /\ year_of_day d = y.
Proof.
  intros H. pose proof (events_midnight cfg y) as M. rewrite Forall_forall in M.
  destruct (M _ (proj1 (uposathas_in _ _) H)) as [d E]. cbn [ev_date] in E. exists d. split; [exact E|].
  revert H. unfold events_of_year. destruct (generate_spec cfg y) as (p & G & _). rewrite G, uposathas_flat.
  intros H. apply in_map_iff in H. destruct H as (x & <- & Hx). apply filter_In in Hx. destruct Hx as [_ Hx].
  unfold in_y in Hx. cbn [confirmed u_Date] in E. rewrite E, time_year_midnight in Hx. lia.
Qed.
Lemma year_half_date cfg y u : In u (halves_of (events_of_year cfg y)) ->
  exists d, h_Date u = midnight d /\ year_of_day d = y.
Proof.
  intros H. pose proof (events_midnight cfg y) as M. rewrite Forall_forall in M.
  destruct (M _ (proj1 (halves_in _ _) H)) as [d E]. cbn [ev_date] in E. exists d. split; [exact E|].
  revert H. unfold events_of_year. destruct (generate_spec cfg y) as (p & G & _). rewrite G, halves_flat.
  intros H. apply in_map_iff in H. destruct H as (x & <- & Hx). apply filter_In in Hx. destruct Hx as [_ Hx].
  unfold half_in_y in Hx. cbn [half_of h_Date] in E. rewrite E, time_year_midnight in Hx. lia.
Qed.

Definition asalha_rows (l : list row) (hi : Z) : bool :=
  forallb (fun r => negb (r_full r) || negb ((r_month r =? 8) || (r_month r =? 13)) || (r_off r <=? hi)) l.
Lemma asalha_rows_year a v : a && v = false -> asalha_rows (year_rows a v) 266 = true.
Proof. destruct a, v; try discriminate; intros _; vm_compute; reflexivity. Qed.
Lemma asalha_rows_first : asalha_rows first_rows (-1) = true.
Proof. vm_compute. reflexivity. Qed.
Lemma first_rows_pos r : In r first_rows -> 0 <= r_off r.
Proof.
  intros H. assert (C : forallb (fun r => 0 <=? r_off r) first_rows = true) by (vm_compute; reflexivity).
  rewrite forallb_forall in C. specialize (C r H). lia.
Qed.
Lemma asalha_month a m : String.eqb (full_moon_event a m) "asalha" = true -> m = 8 \/ m = 13.
Proof.
  unfold full_moon_event. destruct a.
  - destruct (m =? 4); [discriminate|]. destruct (m =? 7); [discriminate|]. destruct (Z.eqb_spec m 13); [auto|].
    destruct (m =? 11); discriminate.
  - destruct (m =? 3); [discriminate|]. destruct (m =? 6); [discriminate|]. destruct (Z.eqb_spec m 8); [auto|].
    destruct (m =? 11); discriminate.
Qed.

Lemma majors_list_in e j p : In p (majors_list e j) -> fst p = j \/ (fst p = j + 1 /\ String.eqb e "asalha" = true).
Proof.
  unfold majors_list. destruct (String.eqb e "magha"); [intros [<-|[]]; auto|].
  destruct (String.eqb e "vesakha"); [intros [<-|[]]; auto|].
  destruct (String.eqb e "asalha"); [intros [<-|[<-|[]]]; auto|].
  destruct (String.eqb e "pavarana"); [intros [<-|[<-|[]]]; auto|intros []].
Qed.

Lemma year_major_date cfg y m : valid cfg y -> 1 <= days_before_year y - kday cfg y ->
  days_before_year (y + 1) - kday cfg (y + 1) <= 118 ->
  In m (majors_of (events_of_year cfg y)) -> exists d, e_Date m = midnight d /\ year_of_day d = y.
Proof.
  intros Hv Hlo Ho H. destruct (in_year_list cfg y Hv Ho) as [_ E]. rewrite E in H. clear E.
  apply in_flat_map in H. destruct H as (x & Hx & Hm). apply filter_In in Hx. destruct Hx as [Hx Hy].
  assert (G : forall k ly r, x = of_row k ly r -> (forall a, String.eqb (full_moon_event a (r_month r)) "asalha" = true -> r_full r = true -> k + r_off r + 1 < days_before_year (y + 1)) ->
    exists d, e_Date m = midnight d /\ year_of_day d = y).
  { intros k ly r -> Hr. rewrite majors_row' in Hm. apply in_map_iff in Hm. destruct Hm as (p & <- & Hp).
    exists (k + fst p). split; [reflexivity|]. unfold in_y in Hy. cbn [of_row u_Date] in Hy. rewrite time_year_midnight in Hy.
    apply Z.eqb_eq in Hy. destruct (majors_list_in _ _ _ Hp) as [->|[-> Ha]]; [exact Hy|].
    unfold row_event in Ha. destruct (r_full r) eqn:Hf; [|discriminate]. specialize (Hr _ Ha eq_refl).
    apply year_of_day_iff in Hy. apply year_of_day_iff. lia. }
  pose proof Hv as (_ & _ & _ & Hx2).
  apply in_app_or in Hx. destruct Hx as [Hx|Hx]; apply in_map_iff in Hx; destruct Hx as (r & <- & Hr).
  - eapply G; [reflexivity|]. intros a Ha Hf. apply asalha_month in Ha.
    pose proof (asalha_rows_year _ _ Hx2) as C. unfold asalha_rows in C. rewrite forallb_forall in C. specialize (C r Hr). cbv beta in C.
    rewrite Hf in C. pose proof (days_before_year_step y). revert Hlo C. generalize (kday cfg y). intros k Hlo C. lia.
  - eapply G; [reflexivity|]. intros a Ha Hf. apply asalha_month in Ha.
    pose proof asalha_rows_first as C. unfold asalha_rows in C. rewrite forallb_forall in C. specialize (C r Hr). cbv beta in C.
    pose proof (first_rows_pos r Hr). rewrite Hf in C. lia.
Qed.

(** ** What falls on one day *)
Lemma uposathas_filter f l : uposathas_of (filter f l) = filter (fun u => f (EvUposatha u)) (uposathas_of l).
Proof.
  induction l as [|e l IH]; [reflexivity|]. cbn [filter]. destruct e; cbn [uposathas_of filter].
  1: destruct (f (EvUposatha u)); cbn [uposathas_of]; rewrite IH; reflexivity.
  all: rewrite <- IH; destruct (f _); reflexivity.
Qed.
Lemma halves_filter f l : halves_of (filter f l) = filter (fun u => f (EvHalf u)) (halves_of l).
Proof.
  induction l as [|e l IH]; [reflexivity|]. cbn [filter]. destruct e; cbn [halves_of filter].
  2: destruct (f (EvHalf h)); cbn [halves_of]; rewrite IH; reflexivity.
  all: rewrite <- IH; destruct (f _); reflexivity.
Qed.
Lemma majors_filter' f l : majors_of (filter f l) = filter (fun u => f (EvMajor u)) (majors_of l).
Proof.
  induction l as [|e l IH]; [reflexivity|]. cbn [filter]. destruct e; cbn [majors_of filter].
  4: destruct (f (EvMajor m)); cbn [majors_of]; rewrite IH; reflexivity.
  all: rewrite <- IH; destruct (f _); reflexivity.
Qed.
Lemma uposathas_flat_map {A} (g : A -> list CalendarEvent) l : uposathas_of (flat_map g l) = flat_map (fun x => uposathas_of (g x)) l.
Proof. induction l as [|x l IH]; [reflexivity|]. cbn [flat_map]. rewrite uposathas_app, IH. reflexivity. Qed.
Lemma halves_flat_map {A} (g : A -> list CalendarEvent) l : halves_of (flat_map g l) = flat_map (fun x => halves_of (g x)) l.
Proof. induction l as [|x l IH]; [reflexivity|]. cbn [flat_map]. rewrite halves_app, IH. reflexivity. Qed.
Lemma majors_flat_map {A} (g : A -> list CalendarEvent) l : majors_of (flat_map g l) = flat_map (fun x => majors_of (g x)) l.
Proof. induction l as [|x l IH]; [reflexivity|]. cbn [flat_map]. rewrite majors_app, IH. reflexivity. Qed.

Lemma filter_filter {A} (f g : A -> bool) l : filter f (filter g l) = filter (fun x => g x && f x) l.
Proof.
  induction l as [|x l IH]; [reflexivity|]. cbn [filter]. destruct (g x); cbn [filter andb]; rewrite IH; reflexivity.
Qed.
Lemma filter_flat_map {A B} (f : B -> bool) (g : A -> list B) l : filter f (flat_map g l) = flat_map (fun x => filter f (g x)) l.
Proof. induction l as [|x l IH]; [reflexivity|]. cbn [flat_map]. rewrite filter_app, IH. reflexivity. Qed.

Lemma years_in y n z : In z (years y n) <-> y <= z < y + Z.of_nat n.
Proof.
  revert y. induction n as [|n IH]; intros y; cbn [years In]; [lia|]. rewrite IH. lia.
Qed.
(** Only the year [z] contributes. *)
Lemma flat_map_one {B} (g : Z -> list B) z : (forall x, x <> z -> g x = []) -> forall n y,
  flat_map g (years y n) = if (y <=? z) && (z <? y + Z.of_nat n) then g z else [].
Proof.
  intros H n. induction n as [|n IH]; intros y; cbn [years flat_map].
  - destruct (Z.leb_spec y z), (Z.ltb_spec z (y + Z.of_nat 0)); try reflexivity; lia.
  - rewrite IH. destruct (Z.eq_dec y z) as [->|E].
    + replace (z + 1 <=? z) with false by lia. replace (z <=? z) with true by lia.
      replace (z <? z + Z.of_nat (S n)) with true by lia. cbn [andb]. apply app_nil_r.
    + rewrite (H y E). cbn [app].
      replace ((y + 1 <=? z) && (z <? y + 1 + Z.of_nat n)) with ((y <=? z) && (z <? y + Z.of_nat (S n))) by lia. reflexivity.
Qed.

(** In the range and on the day. *)
Definition sel (from to : time) (d : Z) (t : time) : bool :=
  ((t_ns from <=? t_ns t) && (t_ns t <=? t_ns to)) && (utc_day t =? d).
Definition day_in (from to : time) (d : Z) : bool := (t_ns from <=? d * day_ns) && (d * day_ns <=? t_ns to).

Lemma utc_day_midnight d : utc_day (midnight d) = d.
Proof. rewrite <- utc_local by reflexivity. apply local_day_midnight. Qed.
Lemma sel_midnight from to d x : sel from to d (midnight x) = (x =? d) && day_in from to d.
Proof.
  unfold sel, day_in. rewrite utc_day_midnight. cbn [midnight t_ns].
  destruct (Z.eqb_spec x d) as [->|]; [|rewrite andb_false_r; reflexivity].
  rewrite andb_true_r. reflexivity.
Qed.
Lemma year_utc t : t_off t = 0 -> time_year t = year_of_day (utc_day t).
Proof. intros H. unfold time_year. rewrite utc_local by exact H. reflexivity. Qed.
Lemma utc_day_spec t : utc_day t * day_ns <= t_ns t < (utc_day t + 1) * day_ns.
Proof.
  unfold utc_day. pose proof (Z.div_mod (t_ns t) (24 * hour_ns) ltac:(discriminate)).
  pose proof (Z.mod_pos_bound (t_ns t) (24 * hour_ns) ltac:(reflexivity)). unfold hour_ns, day_ns in *. lia.
Qed.
Lemma day_in_year from to d : t_off from = 0 -> t_off to = 0 -> day_in from to d = true ->
  time_year from <= year_of_day d <= time_year to.
Proof.
  intros Hf Ht H. rewrite !year_utc by assumption. pose proof (utc_day_spec from). pose proof (utc_day_spec to).
  unfold day_in in H. apply andb_true_iff in H. destruct H as [D1 D2]. apply Z.leb_le in D1. apply Z.leb_le in D2.
  split; apply year_of_day_mono; unfold day_ns in *; lia.
Qed.

Lemma filter_const {A} (f : A -> bool) (b : bool) l : filter (fun x => f x && b) l = if b then filter f l else [].
Proof.
  destruct b; [|apply filter_nil; intros x _; apply andb_false_r]. apply filter_ext. intros x. apply andb_true_r.
Qed.

(** Generic: items [g y] of each year, dated at midnights of that year. *)
Lemma day_items {B} (date : B -> time) (g : Z -> list B) from to d :
  t_off from = 0 -> t_off to = 0 ->
  (forall y b, time_year from <= y <= time_year to -> In b (g y) -> exists x, date b = midnight x /\ year_of_day x = y) ->
  filter (fun b => sel from to d (date b)) (flat_map g (years (time_year from) (Z.to_nat (time_year to - time_year from + 1)))) =
  if day_in from to d then filter (fun b => utc_day (date b) =? d) (g (year_of_day d)) else [].
Proof.
  intros Hf Ht Hg. rewrite filter_flat_map.
  set (n := Z.to_nat (time_year to - time_year from + 1)).
  set (g' := fun y => if (time_year from <=? y) && (y <=? time_year to) then filter (fun b => sel from to d (date b)) (g y) else []).
  rewrite (flat_map_ext_in _ g').
  - rewrite (flat_map_one g' (year_of_day d)).
    + unfold g'. destruct (day_in from to d) eqn:D.
      * pose proof (day_in_year from to d Hf Ht D) as Y.
        replace ((time_year from <=? year_of_day d) && (year_of_day d <? time_year from + Z.of_nat n)) with true by (unfold n; lia).
        replace ((time_year from <=? year_of_day d) && (year_of_day d <=? time_year to)) with true by lia.
        apply filter_ext_in. intros b Hb. destruct (Hg _ b Y Hb) as (x & -> & _). rewrite sel_midnight, D, utc_day_midnight, andb_true_r. reflexivity.
      * destruct (_ && _); [|reflexivity]. destruct ((time_year from <=? year_of_day d) && (year_of_day d <=? time_year to)) eqn:Y; [|reflexivity].
        apply filter_nil. intros b Hb. destruct (Hg (year_of_day d) b ltac:(lia) Hb) as (x & -> & _). rewrite sel_midnight, D, andb_false_r. reflexivity.
    + intros y Hy. unfold g'. destruct ((time_year from <=? y) && (y <=? time_year to)) eqn:Y; [|reflexivity].
      apply filter_nil. intros b Hb. destruct (Hg y b ltac:(lia) Hb) as (x & -> & E). rewrite sel_midnight.
      destruct (Z.eqb_spec x d) as [->|]; [congruence|reflexivity].
  - intros y Hy. apply years_in in Hy. unfold g'. replace ((time_year from <=? y) && (y <=? time_year to)) with true by (unfold n in Hy; lia). reflexivity.
Qed.

Lemma uposathas_on cfg from to d : t_off from = 0 -> t_off to = 0 ->
  uposathas_of (events_on d (generated cfg from to)) =
  if day_in from to d then filter (fun u => utc_day (u_Date u) =? d) (uposathas_of (events_of_year cfg (year_of_day d))) else [].
Proof.
  intros Hf Ht. unfold events_on, generated. rewrite filter_filter, uposathas_filter, uposathas_flat_map.
  apply (day_items u_Date (fun y => uposathas_of (events_of_year cfg y)) from to d Hf Ht).
  intros y u _ Hu. apply year_uposatha_date in Hu. exact Hu.
Qed.
Lemma halves_on cfg from to d : t_off from = 0 -> t_off to = 0 ->
  halves_of (events_on d (generated cfg from to)) =
  if day_in from to d then filter (fun u => utc_day (h_Date u) =? d) (halves_of (events_of_year cfg (year_of_day d))) else [].
Proof.
  intros Hf Ht. unfold events_on, generated. rewrite filter_filter, halves_filter, halves_flat_map.
  apply (day_items h_Date (fun y => halves_of (events_of_year cfg y)) from to d Hf Ht).
  intros y u _ Hu. apply year_half_date in Hu. exact Hu.
Qed.
Lemma majors_on cfg from to d : t_off from = 0 -> t_off to = 0 ->
  (forall y, time_year from <= y <= time_year to -> valid cfg y /\ 1 <= days_before_year y - kday cfg y /\
     days_before_year (y + 1) - kday cfg (y + 1) <= 118) ->
  majors_of (events_on d (generated cfg from to)) =
  if day_in from to d then filter (fun u => utc_day (e_Date u) =? d) (majors_of (events_of_year cfg (year_of_day d))) else [].
Proof.
  intros Hf Ht Hv. unfold events_on, generated. rewrite filter_filter, majors_filter', majors_flat_map.
  apply (day_items e_Date (fun y => majors_of (events_of_year cfg y)) from to d Hf Ht).
  intros y u Hy Hu. destruct (Hv y Hy) as (V & L & O). apply (year_major_date cfg y u V L O Hu).
Qed.

(** At most one uposatha and one half moon a day. *)
Lemma one_of_sorted {A} (key : A -> Z) (l : list A) :
  StronglySorted (fun a b => key a < key b) l -> forall d x, In x (filter (fun a => key a =? d) l) -> filter (fun a => key a =? d) l = [x].
Proof.
  induction 1 as [|a l Hs IH Ha]; cbn [filter]; intros d x; [intros []|].
  destruct (Z.eqb_spec (key a) d) as [E|E]; [|apply IH].
  rewrite (filter_nil (fun a => key a =? d) l); [intros [->|[]]; reflexivity|].
  intros b Hb. rewrite Forall_forall in Ha. specialize (Ha b Hb). lia.
Qed.
Lemma sorted_weaken {A} (R R' : A -> A -> Prop) l : (forall a b, In a l -> In b l -> R a b -> R' a b) -> StronglySorted R l -> StronglySorted R' l.
Proof.
  intros H Hs. induction Hs as [|a l Hs IH Ha]; constructor.
  - apply IH. intros x y Hx Hy. apply H; right; assumption.
  - rewrite Forall_forall in *. intros b Hb. apply H; [left; reflexivity|right; exact Hb|apply Ha; exact Hb].
Qed.
Lemma one_uposatha cfg y d u : In u (filter (fun u => utc_day (u_Date u) =? d) (uposathas_of (events_of_year cfg y))) ->
  filter (fun u => utc_day (u_Date u) =? d) (uposathas_of (events_of_year cfg y)) = [u].
Proof.
  apply (one_of_sorted (fun u => utc_day (u_Date u))). eapply sorted_weaken; [|apply year_uposathas_sorted].
  intros a b Ha Hb. destruct (year_uposatha_date cfg y a Ha) as (da & Ea & _). destruct (year_uposatha_date cfg y b Hb) as (db & Eb & _).
  unfold ubefore. rewrite Ea, Eb, !utc_day_midnight. cbn [midnight t_ns]. unfold day_ns. lia.
Qed.
Lemma one_half cfg y d u : In u (filter (fun u => utc_day (h_Date u) =? d) (halves_of (events_of_year cfg y))) ->
  filter (fun u => utc_day (h_Date u) =? d) (halves_of (events_of_year cfg y)) = [u].
Proof.
  apply (one_of_sorted (fun u => utc_day (h_Date u))). eapply sorted_weaken; [|apply year_halves_sorted].
  intros a b Ha Hb. destruct (year_half_date cfg y a Ha) as (da & Ea & _). destruct (year_half_date cfg y b Hb) as (db & Eb & _).
  unfold hbefore. rewrite Ea, Eb, !utc_day_midnight. cbn [midnight t_ns]. unfold day_ns. lia.
Qed.
Lemma last_of_one_up cfg y d : last_of (filter (fun u => utc_day (u_Date u) =? d) (uposathas_of (events_of_year cfg y))) =
  filter (fun u => utc_day (u_Date u) =? d) (uposathas_of (events_of_year cfg y)).
Proof.
  pose proof (one_uposatha cfg y d) as H. destruct (filter _ _) as [|u l]; [reflexivity|].
  rewrite (H u (or_introl eq_refl)). reflexivity.
Qed.
Lemma last_of_one_half cfg y d : last_of (filter (fun u => utc_day (h_Date u) =? d) (halves_of (events_of_year cfg y))) =
  filter (fun u => utc_day (h_Date u) =? d) (halves_of (events_of_year cfg y)).
Proof.
  pose proof (one_half cfg y d) as H. destruct (filter _ _) as [|u l]; [reflexivity|].
  rewrite (H u (or_introl eq_refl)). reflexivity.
Qed.

(** The content of the entries of a day. *)
Lemma astro_none (ms : list AstroMoon) d : uposathas_of (events_on d (map EvAstro ms)) = [] /\
  halves_of (events_on d (map EvAstro ms)) = [] /\ majors_of (events_on d (map EvAstro ms)) = [] /\
  plain_events_of (events_on d (map EvAstro ms)) = [].
Proof.
  unfold events_on. induction ms as [|m ms (H1 & H2 & H3 & H4)]; [repeat split; reflexivity|]. cbn [map filter ev_date].
  destruct (utc_day (a_Date m) =? d); cbn [uposathas_of halves_of majors_of plain_events_of]; repeat split; assumption.
Qed.
Lemma content_on evs l d : merged evs l ->
  flat_map cd_Uposatha (entries_on d l) = last_of (uposathas_of (events_on d evs)) /\
  flat_map cd_Half (entries_on d l) = last_of (halves_of (events_on d evs)) /\
  flat_map cd_Astro (entries_on d l) = last_of (astros_of (events_on d evs)) /\
  flat_map cd_Major (entries_on d l) = majors_of (events_on d evs) /\
  flat_map cd_Events (entries_on d l) = plain_events_of (events_on d evs).
Proof.
  intros M. rewrite (merged_on evs l d M). destruct (events_on d evs) as [|e es]; [repeat split; reflexivity|].
  generalize (e :: es). intros x. cbn [flat_map entry_of cd_Uposatha cd_Half cd_Astro cd_Major cd_Events]. rewrite !app_nil_r.
  repeat split; reflexivity.
Qed.
Lemma day_content cfg ms from to l d : t_off from = 0 -> t_off to = 0 -> merged (all_events cfg ms from to) l ->
  flat_map cd_Uposatha (entries_on d l) =
    (if day_in from to d then filter (fun u => utc_day (u_Date u) =? d) (uposathas_of (events_of_year cfg (year_of_day d))) else []) /\
  flat_map cd_Half (entries_on d l) =
    (if day_in from to d then filter (fun u => utc_day (h_Date u) =? d) (halves_of (events_of_year cfg (year_of_day d))) else []).
Proof.
  intros Hf Ht M. destruct (content_on _ l d M) as (-> & -> & _). unfold all_events.
  rewrite events_on_app, uposathas_app, halves_app. destruct (astro_none ms d) as (-> & -> & _). cbn [app].
  rewrite uposathas_on, halves_on by assumption. destruct (day_in from to d); [|split; reflexivity].
  rewrite last_of_one_up, last_of_one_half. split; reflexivity.
Qed.
Lemma day_majors cfg ms from to l d : t_off from = 0 -> t_off to = 0 -> merged (all_events cfg ms from to) l ->
  (forall y, time_year from <= y <= time_year to -> valid cfg y /\ 1 <= days_before_year y - kday cfg y /\
     days_before_year (y + 1) - kday cfg (y + 1) <= 118) ->
  flat_map cd_Major (entries_on d l) =
    (if day_in from to d then filter (fun u => utc_day (e_Date u) =? d) (majors_of (events_of_year cfg (year_of_day d))) else []).
Proof.
  intros Hf Ht M Hv. destruct (content_on _ l d M) as (_ & _ & _ & -> & _). unfold all_events.
  rewrite events_on_app, majors_app. destruct (astro_none ms d) as (_ & _ & -> & _). cbn [app].
  rewrite majors_on by assumption. reflexivity.
Qed.
