(** Seams between years, counts, major events (C23-C25). *)
From Coq Require Import ZArith Lia Bool ZifyBool List String.
From Verif Require Import GoTime SuriyaYear Helpers UposathaMoon CalDay Spec SpecCal.
From Verif Require Import P_Time P_Year P_Counts P_Kattika P_Chain P_Gen.
Import ListNotations.
Open Scope Z_scope.
Ltac Zify.zify_post_hook ::= Z.div_mod_to_equations.

Definition yr (u : UposathaMoon) : Z := time_year (u_Date u).
Definition is_midnight (u : UposathaMoon) : Prop := exists d, u_Date u = midnight d.
Lemma seed_midnight k : is_midnight (kattika_seed (midnight k)).
Proof. exists k. reflexivity. Qed.
Lemma next_midnight cfg u : is_midnight u -> is_midnight (next_uposatha cfg u).
Proof. intros [d Hd]. destruct (next_date cfg u d Hd) as (d' & E & _). exists d'. exact E. Qed.
Lemma iter_midnight cfg u n : is_midnight u -> is_midnight (iter_moon cfg n u).
Proof. intros H. induction n as [|n IH]; [exact H|]. rewrite iter_moon_S. apply next_midnight. exact IH. Qed.

Lemma yr_next cfg u : is_midnight u -> yr u <= yr (next_uposatha cfg u) <= yr u + 1.
Proof.
  intros [d Hd]. destruct (next_date cfg u d Hd) as (d' & E & Hb). unfold yr. rewrite Hd, E, !time_year_midnight.
  split; [apply year_of_day_mono; lia|]. apply year_of_day_le.
  pose proof (year_of_day_spec d). pose proof (days_before_year_step (year_of_day d + 1)). lia.
Qed.
Lemma moons_yr cfg n : forall u x, is_midnight u -> In x (moons cfg n u) -> yr (next_uposatha cfg u) <= yr x.
Proof.
  induction n as [|n IH]; intros u x Hu; cbn [moons In]; [tauto|]. intros [<-|Hi]; [lia|].
  specialize (IH _ x (next_midnight cfg u Hu) Hi). pose proof (yr_next cfg _ (next_midnight cfg u Hu)). lia.
Qed.
Lemma moons_yr_last cfg n : forall u x, is_midnight u -> In x (moons cfg n u) -> yr x <= yr (iter_moon cfg n u).
Proof.
  induction n as [|n IH]; intros u x Hu; cbn [moons In iter_moon]; [tauto|]. intros [<-|Hi].
  - clear IH. induction n as [|n IH]; [cbn; lia|]. rewrite iter_moon_S.
    pose proof (yr_next cfg _ (iter_midnight cfg (next_uposatha cfg u) n (next_midnight cfg u Hu))). lia.
  - apply IH; [apply next_midnight; exact Hu|exact Hi].
Qed.

Lemma filter_nil {A} (f : A -> bool) l : (forall x, In x l -> f x = false) -> filter f l = [].
Proof.
  induction l as [|x l IH]; intros H; [reflexivity|]. cbn [filter]. rewrite (H x (or_introl eq_refl)).
  apply IH. intros z Hz. apply H. right. exact Hz.
Qed.

Definition between (lo hi : Z) (u : UposathaMoon) : bool := (lo <=? yr u) && (yr u <? hi).

Lemma filter_split cfg n : forall u lo hi, is_midnight u -> lo < hi ->
  filter (between lo hi) (moons cfg n u) =
  filter (in_y lo) (moons cfg n u) ++ filter (between (lo + 1) hi) (moons cfg n u).
Proof.
  induction n as [|n IH]; intros u lo hi Hu Hlh; [reflexivity|]. cbn [moons filter].
  rewrite (IH (next_uposatha cfg u) lo hi (next_midnight cfg u Hu) Hlh).
  set (x := next_uposatha cfg u) in *.
  assert (Hx : is_midnight x) by (apply next_midnight; exact Hu).
  destruct (in_y lo x) eqn:E1.
  - unfold in_y in E1. apply Z.eqb_eq in E1. fold (yr x) in E1.
    replace (between lo hi x) with true by (unfold between; lia).
    replace (between (lo + 1) hi x) with false by (unfold between; lia). reflexivity.
  - unfold in_y in E1. apply Z.eqb_neq in E1. fold (yr x) in E1.
    destruct (between (lo + 1) hi x) eqn:E2.
    + replace (between lo hi x) with true by (unfold between in *; lia).
      rewrite (filter_nil (in_y lo)); [reflexivity|].
      intros z Hz. unfold in_y. fold (yr z). pose proof (moons_yr cfg n x z Hx Hz). pose proof (yr_next cfg x Hx).
      unfold between in E2. lia.
    + replace (between lo hi x) with false by (unfold between in *; lia). reflexivity.
Qed.

Definition seed (cfg : config) (y : Z) : UposathaMoon := kattika_seed (midnight (kday cfg y)).

Lemma year_filter cfg y : exists p, forall n, (p <= n)%nat ->
  uposathas_of (events_of_year cfg y) = map confirmed (filter (in_y y) (moons cfg n (seed cfg y))).
Proof.
  unfold events_of_year. destruct (generate_spec cfg y) as (p & E & Hle & Hgt). exists p. intros n Hn.
  rewrite E, uposathas_flat. f_equal. symmetry. apply (filter_more cfg y _ (kday cfg y)); [reflexivity|exact Hn|exact Hgt].
Qed.

Lemma years_filter cfg n : forall y1, (forall y, y1 <= y < y1 + Z.of_nat n -> valid cfg y) ->
  exists p, forall m, (p <= m)%nat ->
  flat_map (fun y => uposathas_of (events_of_year cfg y)) (years y1 n) =
  map confirmed (filter (between y1 (y1 + Z.of_nat n)) (moons cfg m (seed cfg y1))).
Proof.
  induction n as [|n IH]; intros y1 Hv.
  - exists O. intros m _. cbn [years flat_map]. rewrite filter_nil; [reflexivity|]. intros x _. unfold between. lia.
  - destruct (IH (y1 + 1)) as (p2 & E2); [intros y Hy; apply Hv; lia|].
    destruct (year_filter cfg y1) as (p1 & E1).
    pose proof (Hv y1 ltac:(lia)) as Hv1. pose proof Hv1 as (_ & Hk & _).
    pose proof (lunar_year cfg y1 Hv1) as [_ L]. cbv zeta in L.
    set (c := moon_count (am y1)) in *.
    exists (p1 + (c + p2))%nat. intros m Hm. cbn [years flat_map].
    rewrite (E1 m) by lia. rewrite (E2 (m - c)%nat) by lia.
    rewrite (filter_split cfg m (seed cfg y1) y1 (y1 + Z.of_nat (S n)) (seed_midnight _)) by lia.
    rewrite map_app. f_equal. f_equal.
    replace (y1 + Z.of_nat (S n)) with (y1 + 1 + Z.of_nat n) by lia.
    replace m with (c + (m - c))%nat at 2 by lia. rewrite moons_app, filter_app.
    unfold seed in *. rewrite L.
    rewrite (filter_nil _ (moons cfg c _)); [reflexivity|].
    intros x Hx. pose proof (moons_yr_last cfg c _ x (seed_midnight _) Hx) as Hy. rewrite L in Hy.
    unfold yr at 2 in Hy. cbn [kattika_seed u_Date] in Hy. rewrite time_year_midnight, Hk in Hy. unfold between. lia.
Qed.

Lemma filter_map_comm {A B} (f : B -> bool) (g : A -> B) l : filter f (map g l) = map g (filter (fun x => f (g x)) l).
Proof. induction l as [|x l IH]; cbn [map filter]; [reflexivity|]. rewrite IH. destruct (f (g x)); reflexivity. Qed.

Lemma years_segment cfg y1 n : (0 < n)%nat -> (forall y, y1 <= y < y1 + Z.of_nat n -> valid cfg y) ->
  exists i m, (1 <= i)%nat /\
  flat_map (fun y => uposathas_of (events_of_year cfg y)) (years y1 n) = map confirmed (chain cfg (seed cfg y1) i m) /\
  yr (nth_moon cfg (seed cfg y1) (i - 1)) = y1 - 1 /\
  yr (nth_moon cfg (seed cfg y1) (i + m)) = y1 + Z.of_nat n.
Proof.
  intros Hn Hv. destruct (years_filter cfg n y1 Hv) as (p & E).
  pose proof (Hv y1 ltac:(lia)) as (Hk & _).
  set (g := fun i => yr (nth_moon cfg (seed cfg y1) i)).
  assert (Hg : forall i, g i <= g (S i) <= g i + 1).
  { intros i. unfold g. rewrite !nth_moon_iter, iter_moon_S. apply yr_next. apply iter_midnight. apply seed_midnight. }
  assert (H0 : g 0%nat = y1 - 1).
  { change (g 0%nat) with (time_year (midnight (kday cfg y1))). rewrite time_year_midnight. exact Hk. }
  (* enough moons to pass the last year *)
  set (big := (p + Z.to_nat (366 * (Z.of_nat n + 2)))%nat).
  assert (Hbig : y1 + Z.of_nat n <= g big).
  { unfold g. rewrite nth_moon_iter. destruct (iter_date cfg (seed cfg y1) (kday cfg y1) big eq_refl) as (d & Ed & Hb).
    unfold yr. rewrite Ed, time_year_midnight. apply year_of_day_ge.
    assert (A : forall m, days_before_year (y1 + Z.of_nat m) <= days_before_year y1 + 366 * Z.of_nat m).
    { induction m as [|m IHm]; [replace (y1 + Z.of_nat 0) with y1 by lia; lia|].
      replace (y1 + Z.of_nat (S m)) with (y1 + Z.of_nat m + 1) by lia.
      pose proof (days_before_year_step (y1 + Z.of_nat m)). lia. }
    specialize (A n). apply year_of_day_iff in Hk. pose proof (days_before_year_step (y1 - 1)).
    replace (y1 - 1 + 1) with y1 in * by lia. unfold big in Hb. lia. }
  destruct (filter_seq_seg g y1 (y1 + Z.of_nat n) ltac:(lia) Hg big 0) as (i & m & Es & Hi & G1 & G2); [lia|exact Hbig|].
  exists i, m. split; [lia|]. split; [|split; assumption].
  rewrite (E big) by (unfold big; lia). rewrite moons_chain. unfold chain. rewrite filter_map_comm.
  unfold between. f_equal. f_equal. exact Es.
Qed.

(** ** Counts *)
Definition offsets (a v : bool) : list Z :=
  map r_off (year_rows a v) ++ map (fun r => lunar_days a v + r_off r) first_rows.
Definition count_in (lo hi : Z) (l : list Z) : nat := List.length (filter (fun j => (lo <=? j) && (j <? hi)) l).
Definition count_ok (a v : bool) (o : Z) : bool :=
  let c1 := count_in o (o + 365) (offsets a v) in let c2 := count_in o (o + 366) (offsets a v) in
  ((c1 =? 24) || (c1 =? 25))%nat && ((c2 =? 24) || (c2 =? 25))%nat.
Lemma count_check : all_years (fun o => count_ok false false o && count_ok false true o && count_ok true false o) 1 118 = true.
Proof. vm_compute. reflexivity. Qed.

Lemma in_y_row_next y cfg ly r : in_y y (of_row (kday cfg (y + 1)) ly r) =
  (days_before_year y - kday cfg y <=? lunar_days (am y) (is_adhikavara cfg (su_init y)) + r_off r)
  && (lunar_days (am y) (is_adhikavara cfg (su_init y)) + r_off r <? days_before_year (y + 1) - kday cfg y).
Proof. rewrite in_y_row, kday_step, len_days. lia. Qed.

Lemma year_count cfg y : valid cfg y -> 1 <= days_before_year y - kday cfg y -> days_before_year (y + 1) - kday cfg (y + 1) <= 118 ->
  let c := List.length (uposathas_of (events_of_year cfg y)) in c = 24%nat \/ c = 25%nat.
Proof.
  intros Hv Hlo Ho. cbv zeta. destruct (in_year_list cfg y Hv Ho) as [-> _]. rewrite map_length.
  pose proof Hv as (_ & _ & Hhi & Hx).
  set (a := am y) in *. set (v := is_adhikavara cfg (su_init y)) in *. set (o := days_before_year y - kday cfg y) in *.
  assert (E : List.length (filter (in_y y) (map (of_row (kday cfg y) (y + 543)) (year_rows a v)
     ++ map (of_row (kday cfg (y + 1)) (y + 544)) first_rows)) = count_in o (days_before_year (y + 1) - kday cfg y) (offsets a v)).
  { unfold count_in, offsets. rewrite !filter_app, !app_length, !filter_map_comm, !map_length. f_equal; f_equal; apply filter_ext; intros r.
    - apply in_y_row.
    - rewrite in_y_row_next. reflexivity. }
  rewrite E. pose proof (all_years_spec _ _ _ count_check o ltac:(lia)) as Hc. cbn beta in Hc.
  apply andb_true_iff in Hc. destruct Hc as [Hc C3]. apply andb_true_iff in Hc. destruct Hc as [C1 C2].
  assert (C : count_ok a v o = true) by (destruct a, v; try discriminate; assumption).
  pose proof (days_before_year_succ y) as Hs.
  unfold count_ok in C. cbv zeta in C.
  destruct (is_leap y); [replace (days_before_year (y + 1) - kday cfg y) with (o + 366) by lia|
    replace (days_before_year (y + 1) - kday cfg y) with (o + 365) by lia];
  [set (c := count_in o (o + 366) _) in *; set (c' := count_in o (o + 365) _) in *|
   set (c := count_in o (o + 365) _) in *; set (c' := count_in o (o + 366) _) in *]; clearbody c c'; lia.
Qed.

(** ** Major events *)

Definition mevent (d : Z) (s : string) : MajorEvent := mkEvent (midnight d) 0 s s.

Lemma majors_row k ly r : majors_u (of_row k ly r) =
  let e := row_event k r in let d := k + r_off r in
  if String.eqb e "magha" then [mevent d "Māgha Pūjā"]
  else if String.eqb e "vesakha" then [mevent d "Vesākha Pūjā"]
  else if String.eqb e "asalha" then [mevent d "Āsāḷha Pūjā"; mevent (d + 1) "First day of Vassa"]
  else if String.eqb e "pavarana" then [mevent d "Pavāraṇā Day"; mevent d "Last day of Vassa"]
  else [].
Proof.
  unfold majors_u, major_events, of_row. cbn [set_status u_Event u_Date u_Calendar].
  rewrite time_add_date_days, midnight_add. cbv zeta.
  set (e := row_event k r). rewrite !majors_app.
  destruct (String.eqb_spec e "magha") as [->|]; [reflexivity|].
  destruct (String.eqb_spec e "vesakha") as [->|]; [reflexivity|].
  destruct (String.eqb_spec e "asalha") as [->|]; [reflexivity|].
  destruct (String.eqb_spec e "pavarana") as [->|]; reflexivity.
Qed.

Lemma majors_filter y l : flat_map majors_u (filter (in_y y) l) = flat_map (fun u => if in_y y u then majors_u u else []) l.
Proof. induction l as [|u l IH]; [reflexivity|]. cbn [filter flat_map]. destruct (in_y y u); cbn [flat_map app]; rewrite IH; reflexivity. Qed.

Definition ev_row (a : bool) (r : row) : string := if r_full r then full_moon_event a (r_month r) else "".
Definition majors_list (e : string) (d : Z) : list (Z * string) :=
  if String.eqb e "magha" then [(d, "Māgha Pūjā"%string)]
  else if String.eqb e "vesakha" then [(d, "Vesākha Pūjā"%string)]
  else if String.eqb e "asalha" then [(d, "Āsāḷha Pūjā"%string); (d + 1, "First day of Vassa"%string)]
  else if String.eqb e "pavarana" then [(d, "Pavāraṇā Day"%string); (d, "Last day of Vassa"%string)]
  else [].
Definition mev (k : Z) (p : Z * string) : MajorEvent := mevent (k + fst p) (snd p).

Lemma majors_row' k ly r : majors_u (of_row k ly r) = map (mev k) (majors_list (row_event k r) (r_off r)).
Proof.
  rewrite majors_row. cbv zeta. unfold majors_list. set (e := row_event k r).
  destruct (String.eqb e "magha"); [reflexivity|]. destruct (String.eqb e "vesakha"); [reflexivity|].
  destruct (String.eqb e "asalha"); [unfold mev; cbn [map fst snd]; rewrite Z.add_assoc; reflexivity|].
  destruct (String.eqb e "pavarana"); reflexivity.
Qed.

(** Which rows can carry an event, and that they lie well inside the year. *)
Definition row_check (a : bool) (lo hi : Z) (r : row) : bool :=
  negb (r_full r)
  || (String.eqb (full_moon_event true (r_month r)) "" && String.eqb (full_moon_event false (r_month r)) "")
  || ((74 <=? r_off r - 15) && (r_off r <=? hi) && (lo <=? r_off r)).
Lemma rows_check a v : a && v = false -> forallb (row_check a 89 (lunar_days a v)) (year_rows a v) = true.
Proof. destruct a, v; try discriminate; intros _; vm_compute; reflexivity. Qed.
Lemma first_check : forallb (row_check false 74 118) first_rows = true.
Proof. vm_compute. reflexivity. Qed.

Lemma flat_map_ext_in {A B} (f g : A -> list B) l : (forall x, In x l -> f x = g x) -> flat_map f l = flat_map g l.
Proof.
  induction l as [|x l IH]; intros H; [reflexivity|]. cbn [flat_map]. rewrite (H x (or_introl eq_refl)).
  rewrite IH; [reflexivity|]. intros z Hz. apply H. right. exact Hz.
Qed.
Lemma flat_map_map {A B C} (f : B -> C) (g : A -> list B) l : flat_map (fun x => map f (g x)) l = map f (flat_map g l).
Proof. induction l as [|x l IH]; [reflexivity|]. cbn [flat_map]. rewrite map_app, IH. reflexivity. Qed.
Lemma flat_map_compose {A B C} (f : B -> list C) (g : A -> B) l : flat_map f (map g l) = flat_map (fun x => f (g x)) l.
Proof. induction l as [|x l IH]; [reflexivity|]. cbn [flat_map map]. rewrite IH. reflexivity. Qed.
Lemma flat_map_nil {A B} (f : A -> list B) l : (forall x, In x l -> f x = []) -> flat_map f l = [].
Proof.
  induction l as [|x l IH]; intros H; [reflexivity|]. cbn [flat_map]. rewrite (H x (or_introl eq_refl)).
  cbn [app]. apply IH. intros z Hz. apply H. right. exact Hz.
Qed.

Lemma majors_list_nil e : e = ""%string -> forall d, majors_list e d = [].
Proof. intros -> d. reflexivity. Qed.

Lemma if_nil {A} (b : bool) : (if b then @nil A else []) = [].
Proof. destruct b; reflexivity. Qed.

Definition year_majors (a v : bool) : list (Z * string) :=
  flat_map (fun r => majors_list (ev_row a r) (r_off r)) (year_rows a v).

Lemma year_majors_eq cfg y : valid cfg y -> 1 <= days_before_year y - kday cfg y <= 74 ->
  days_before_year (y + 1) - kday cfg (y + 1) <= 74 ->
  majors_of (events_of_year cfg y) =
  map (mev (kday cfg y)) (year_majors (am y) (is_adhikavara cfg (su_init y))).
Proof.
  intros Hv Ho Ho'. destruct (in_year_list cfg y Hv ltac:(lia)) as [_ ->].
  rewrite majors_filter, flat_map_app, !flat_map_compose.
  pose proof Hv as (Hk & Hk' & _ & Hx). pose proof (rows_check _ _ Hx) as Hrc. pose proof (valid_flags cfg y) as Hfl.
  set (a := am y) in *. set (v := is_adhikavara cfg (su_init y)) in *.
  assert (Hin : forall j, 74 <= j <= lunar_days a v -> fl_am (kday cfg y) j = a).
  { intros j Hj. unfold fl_am. replace (year_of_day (kday cfg y + j)) with y; [reflexivity|].
    symmetry. apply year_of_day_iff. rewrite kday_step, len_days in Hk'. fold a v in Hk'.
    apply year_of_day_iff in Hk'. lia. }
  rewrite (flat_map_nil _ first_rows).
  - rewrite app_nil_r. unfold year_majors. rewrite <- flat_map_map. apply flat_map_ext_in. intros r Hr.
    rewrite forallb_forall in Hrc. specialize (Hrc r Hr). unfold row_check in Hrc.
    rewrite in_y_row, majors_row'. unfold row_event, ev_row.
    destruct (r_full r); cbn [negb orb] in Hrc; [|rewrite !majors_list_nil by reflexivity; apply if_nil].
    destruct (String.eqb (full_moon_event true (r_month r)) "") eqn:E1, (String.eqb (full_moon_event false (r_month r)) "") eqn:E2;
      cbn [andb orb] in Hrc;
      try (apply String.eqb_eq in E1; apply String.eqb_eq in E2; rewrite (majors_list_nil (full_moon_event a (r_month r))) by (destruct a; assumption); rewrite majors_list_nil by (destruct (fl_am (kday cfg y) (r_off r - 15)); assumption); apply if_nil).
    all: rewrite (Hin (r_off r - 15)) by lia;
      replace ((days_before_year y - kday cfg y <=? r_off r) && (r_off r <? days_before_year (y + 1) - kday cfg y)) with true; [reflexivity|].
    all: rewrite kday_step, len_days in Hk'; fold a v in Hk'; apply year_of_day_iff in Hk'; lia.
  - intros r Hr. pose proof first_check as Hf. rewrite forallb_forall in Hf. specialize (Hf r Hr). unfold row_check in Hf.
    rewrite in_y_row, majors_row'. unfold row_event.
    destruct (r_full r); cbn [negb orb] in Hf; [|rewrite !majors_list_nil by reflexivity; apply if_nil].
    destruct (String.eqb (full_moon_event true (r_month r)) "") eqn:E1, (String.eqb (full_moon_event false (r_month r)) "") eqn:E2;
      cbn [andb orb] in Hf;
      try (apply String.eqb_eq in E1; apply String.eqb_eq in E2; rewrite !majors_list_nil by (destruct (fl_am (kday cfg (y + 1)) (r_off r - 15)); assumption); apply if_nil).
    all: replace ((days_before_year y - kday cfg (y + 1) <=? r_off r) && (r_off r <? days_before_year (y + 1) - kday cfg (y + 1))) with false; [reflexivity|lia].
Qed.

Lemma year_majors_val a v : a && v = false ->
  let s := if a then 266 else if v then 237 else 236 in
  year_majors a v =
  [(s - (if a || v then 148 else 147), "Māgha Pūjā"%string); (s - (if v then 60 else 59), "Vesākha Pūjā"%string);
   (s, "Āsāḷha Pūjā"%string); (s + 1, "First day of Vassa"%string);
   (s + 89, "Pavāraṇā Day"%string); (s + 89, "Last day of Vassa"%string)].
Proof. destruct a, v; try discriminate; intros _; vm_compute; reflexivity. Qed.

(** ** Half moons across the seam *)

Lemma in_moons_iter cfg n : forall u x, In x (moons cfg n u) <-> exists i, (1 <= i <= n)%nat /\ x = iter_moon cfg i u.
Proof.
  induction n as [|n IH]; intros u x; cbn [moons In]; split.
  - tauto.
  - intros (i & Hi & _). lia.
  - intros [<-|Hx]; [exists 1%nat; split; [lia|reflexivity]|].
    apply IH in Hx. destruct Hx as (i & Hi & ->). exists (S i). split; [lia|reflexivity].
  - intros ([|i] & Hi & ->); [lia|]. destruct i as [|i]; [left; reflexivity|right].
    apply IH. exists (S i). split; [lia|reflexivity].
Qed.

Lemma iter_date_mono cfg u d i j : u_Date u = midnight d -> (i < j)%nat ->
  exists di dj, u_Date (iter_moon cfg i u) = midnight di /\ u_Date (iter_moon cfg j u) = midnight dj /\ di + 14 <= dj.
Proof.
  intros Hd Hij. destruct (iter_date cfg u d i Hd) as (di & Ei & _).
  destruct (iter_date cfg _ di (j - i) Ei) as (dj & Ej & Hb). rewrite <- iter_moon_add in Ej.
  replace (i + (j - i))%nat with j in Ej by lia. exists di, dj. split; [exact Ei|]. split; [exact Ej|]. lia.
Qed.

Lemma half_kept cfg y x : valid cfg y -> 9 <= days_before_year (y + 1) - kday cfg (y + 1) ->
  (exists p, In x (moons cfg p (seed cfg y))) -> yr x = y ->
  In (half_of x) (halves_of (events_of_year cfg y)) \/ In (half_of x) (halves_of (events_of_year cfg (y + 1))).
Proof.
  intros Hv Ho [p0 Hx] Hy. apply in_moons_iter in Hx. destruct Hx as (i & Hi & ->).
  destruct (iter_date cfg (seed cfg y) (kday cfg y) i eq_refl) as (d & Ed & Hd).
  unfold yr in Hy. rewrite Ed, time_year_midnight in Hy.
  assert (Hhalf : time_year (time_add (u_Date (iter_moon cfg i (seed cfg y))) (8 * day_ns)) = year_of_day (d + 8))
    by (rewrite Ed, midnight_add, time_year_midnight; reflexivity).
  pose proof (days_before_year_step (y + 1)). 
  assert (Hc : year_of_day (d + 8) = y \/ year_of_day (d + 8) = y + 1 /\ days_before_year (y + 1) <= d + 8).
  { apply year_of_day_iff in Hy. destruct (Z_lt_le_dec (d + 8) (days_before_year (y + 1))) as [Hl|Hl].
    - left. apply year_of_day_iff. lia.
    - right. split; [|exact Hl]. apply year_of_day_iff. lia. }
  destruct Hc as [Hc|[Hc Hl]].
  - left. unfold events_of_year. destruct (generate_spec cfg y) as (p & E & _ & Hgt). rewrite E, halves_flat.
    apply in_map. apply filter_In. split; [|unfold half_in_y; lia].
    apply in_moons_iter. exists i. split; [|reflexivity].
    destruct (Nat.le_gt_cases i p) as [|Hgt']; [lia|exfalso].
    destruct (iter_date_mono cfg (seed cfg y) (kday cfg y) p i eq_refl Hgt') as (dp & di & E1 & E2 & Hb).
    fold (seed cfg y) in Hgt. rewrite E1, time_year_midnight in Hgt. rewrite Ed in E2. apply midnight_inj in E2. subst di.
    pose proof (year_of_day_mono dp d ltac:(lia)). lia.
  - right. unfold events_of_year. destruct (generate_spec cfg (y + 1)) as (p & E & _ & Hgt). rewrite E, halves_flat.
    pose proof (lunar_year cfg y Hv) as [_ L]. cbv zeta in L. fold (seed cfg y) (seed cfg (y + 1)) in L.
    fold (seed cfg (y + 1)) in Hgt. set (c := moon_count (am y)) in *. fold (seed cfg (y + 1)).
    apply in_map. apply filter_In. split; [|unfold half_in_y; lia].
    assert (Hic : (c < i)%nat).
    { destruct (Nat.le_gt_cases i c) as [Hle|]; [exfalso|assumption].
      assert (Hk' : d <= kday cfg (y + 1)).
      { destruct (Nat.eq_dec i c) as [->|Hne].
        - rewrite L in Ed. unfold seed in Ed. cbn [kattika_seed u_Date] in Ed. apply midnight_inj in Ed. lia.
        - destruct (iter_date_mono cfg (seed cfg y) (kday cfg y) i c eq_refl ltac:(lia)) as (di & dc & E1 & E2 & Hb).
          rewrite L in E2. unfold seed in E2. cbn [kattika_seed u_Date] in E2. apply midnight_inj in E2.
          rewrite Ed in E1. apply midnight_inj in E1. lia. }
      lia. }
    replace i with (c + (i - c))%nat by lia. rewrite iter_moon_add, L.
    apply in_moons_iter. exists (i - c)%nat. split; [|reflexivity]. split; [lia|].
    destruct (Nat.le_gt_cases (i - c) p) as [|Hgt']; [lia|exfalso].
    destruct (iter_date_mono cfg (seed cfg (y + 1)) (kday cfg (y + 1)) p (i - c) eq_refl Hgt') as (dp & di & E1 & E2 & Hb).
    rewrite E1, time_year_midnight in Hgt.
    rewrite <- L, <- iter_moon_add in E2. replace (c + (i - c))%nat with i in E2 by lia.
    rewrite Ed in E2. apply midnight_inj in E2. subst di.
    pose proof (year_of_day_mono dp d ltac:(lia)). lia.
Qed.
