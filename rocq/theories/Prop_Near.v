(** Theorems C64: the calculated moons stay close to the embedded astronomical ones. *)
From Coq Require Import ZArith Lia Bool ZifyBool List String.
From Verif Require Import GoTime SuriyaYear Helpers UposathaMoon CalDay AstroMoon AstroData AstroFS Spec SpecCal SpecAstro.
From Verif Require Import P_Time P_Year P_Counts P_Kattika P_Chain P_Gen P_Gen2 P_Astro P_Near.
Import ListNotations.
Open Scope Z_scope.

(** * C64 Calculated quarter moons and the embedded astronomical ones *)

(** On the day [d] the calendar has an uposatha or a half moon of the phase [p]. *)
Inductive calculated (cfg : config) : Z -> string -> Prop :=
| by_uposatha y u : In u (uposathas_of (events_of_year cfg y)) -> calculated cfg (utc_day (u_Date u)) (u_Phase u)
| by_half y h : In h (halves_of (events_of_year cfg y)) -> calculated cfg (utc_day (h_Date h)) (h_Phase h).

(** How many days the astronomical moon may come after the calculated one. *)
Definition after_at_least (p : string) : Z := if String.eqb p "new" || String.eqb p "full" then -1 else -2.
Definition after_at_most (cfg : config) (p : string) : Z :=
  if String.eqb p "new" || String.eqb p "full" then 2 else if UseExceptions cfg then 2 else 1.

Lemma utc_day_midnight d : utc_day (midnight d) = d.
Proof. unfold utc_day, midnight. cbn [t_ns]. unfold hour_ns, day_ns. apply Z.div_mul. discriminate. Qed.

Lemma quarter_calculated cfg q : shipped cfg -> In q (quarters_1902_2034 cfg) ->
  exists p, calculated cfg (fst q) p /\ phase_code p (snd q).
Proof.
  intros Hs Hq. apply quarters_in in Hq. destruct Hq as (y & r & Hy & Hr & [<-|[<-|[]]]).
  - destruct (row_uposatha cfg y r Hs ltac:(lia) Hr) as (z & u & Hu & Ed & Ep). exists (u_Phase u). cbn [fst snd]. split.
    + rewrite <- (utc_day_midnight (kday cfg y + r_off r)), <- Ed. exact (by_uposatha cfg z u Hu).
    + unfold phase_code. rewrite Ep. destruct (r_full r); reflexivity.
  - destruct (row_half cfg y r Hs ltac:(lia) Hr) as (z & h & Hh & Ed & Ep). exists (h_Phase h). cbn [fst snd]. split.
    + rewrite <- (utc_day_midnight (kday cfg y + r_off r + 8)), <- Ed. exact (by_half cfg z h Hh).
    + unfold phase_code. rewrite Ep. destruct (r_full r); reflexivity.
Qed.

Lemma near_iff cfg q e : 0 <= snd e <= 3 -> near (if UseExceptions cfg then 2 else 1) q e = true ->
  forall p, phase_code p (snd q) ->
  p = nth (Z.to_nat (snd e)) ["new"; "waxing"; "full"; "waning"]%string ""%string /\
  after_at_least p <= fst e - fst q <= after_at_most cfg p.
Proof.
  destruct q as [d c], e as [d' c']. unfold near. cbn [fst snd]. intros Hc H p Hp. rewrite !andb_true_iff in H.
  destruct H as [Ec Hw]. apply Z.eqb_eq in Ec. subst c'. split; [exact Hp|]. rewrite Hp. clear Hp.
  assert (C : c = 0 \/ c = 1 \/ c = 2 \/ c = 3) by lia.
  destruct C as [-> |[-> |[-> | ->]]]; cbn [Z.even] in Hw; rewrite andb_true_iff, !Z.leb_le in Hw;
    unfold after_at_least, after_at_most;
    match goal with |- context [nth ?n ?l ?x] => let s := eval vm_compute in (nth n l x) in change (nth n l x) with s end;
    match goal with |- context [String.eqb ?a "new" || String.eqb ?a "full"] =>
      let b := eval vm_compute in (String.eqb a "new" || String.eqb a "full") in change (String.eqb a "new" || String.eqb a "full") with b end;
    cbv iota; destruct (UseExceptions cfg); lia.
Qed.

Lemma embedded_code m : In m embedded_moons -> 0 <= ae_Code m <= 3.
Proof.
  intros Hm. apply record_moon in Hm. destruct Hm as ([y [[s e] recs]] & r & Hp & Hr & ->). cbn [snd] in Hr.
  assert (Hr' : In r recs) by (unfold file_records in Hr; destruct s; [|destruct Hr]; destruct e; [exact Hr|destruct Hr]).
  destruct (record_of_file _ _ _ _ r Hp Hr') as [Hc _]. destruct r as [[[c i] o] u]. exact Hc.
Qed.

(** Every moon of the embedded files has a calculated moon of its phase: an uposatha from two days
    before it to one day after, or a half moon from one day before it (two with the exceptions)
    to two days after. *)
Theorem C64_every_astronomical : forall cfg m, shipped cfg -> In m embedded_moons ->
  exists d, calculated cfg d (a_Phase (moon_of m)) /\
    after_at_least (a_Phase (moon_of m)) <= utc_day (a_Date (moon_of m)) - d <= after_at_most cfg (a_Phase (moon_of m)).
Proof.
  intros cfg m Hs Hm. pose proof (walk_sound _ _ _ (walk_shipped cfg Hs)) as [W _].
  destruct (W (utc_day (ae_DateTimeISO m), ae_Code m)) as (q & Hq & Hn); [apply records_in; exists m; split; [exact Hm|reflexivity]|].
  destruct (quarter_calculated cfg q Hs Hq) as (p & Hc & Hp).
  destruct (near_iff cfg q (utc_day (ae_DateTimeISO m), ae_Code m) (embedded_code m Hm) Hn p Hp) as [E B]. cbn [fst snd] in E, B. exists (fst q).
  cbn [moon_of a_Phase]. rewrite <- E. split; [exact Hc|exact B].
Qed.

Lemma year_date y m d : utc_day (time_date y m d 0 0) = day_number y m d.
Proof. rewrite day_number_date. apply utc_day_midnight. Qed.

(** Conversely every calculated moon between the first and the last day of the embedded data has its
    astronomical moon, save in 1970 (whose file is empty) and on the days around New Year. *)
Theorem C64_every_calculated : forall cfg d p, shipped cfg -> calculated cfg d p ->
  utc_day (time_date 1902 1 2 0 0) <= d <= utc_day (time_date 2033 5 14 0 0) ->
  ~ utc_day (time_date 1970 1 1 0 0) <= d <= utc_day (time_date 1970 12 31 0 0) ->
  (forall y, d <> utc_day (time_date y 12 30 0 0) /\ d <> utc_day (time_date y 12 31 0 0) /\ d <> utc_day (time_date y 1 1 0 0)) ->
  exists m, In m embedded_moons /\ a_Phase (moon_of m) = p /\
    after_at_least p <= utc_day (a_Date (moon_of m)) - d <= after_at_most cfg p.
Proof.
  intros cfg d p Hs Hc Hd H70 Hny.
  assert (Q : exists q, In q (quarters_1902_2034 cfg) /\ d = fst q /\ phase_code p (snd q)).
  { assert (Hyear : 1902 <= year_of_day d <= 2033).
    { rewrite !year_date in Hd. split; [rewrite <- (year_of_day_mono (day_number 1902 1 2) d) by lia|rewrite (year_of_day_mono d (day_number 2033 5 14)) by lia]; vm_compute; discriminate. }
    destruct Hc as [y u Hu|y h Hh].
    - assert (Ey : year_of_day (utc_day (u_Date u)) = y).
      { destruct (year_filter cfg y) as (n & E). rewrite (E n ltac:(lia)) in Hu. apply in_map_iff in Hu.
        destruct Hu as (x & <- & Hx). apply filter_In in Hx. destruct Hx as [Hx Hi]. apply in_moons_iter in Hx.
        destruct Hx as (i & _ & ->). destruct (iter_date cfg (seed cfg y) (kday cfg y) i eq_refl) as (dd & Ed & _).
        unfold in_y in Hi. cbn [confirmed u_Date]. rewrite Ed in Hi |- *. rewrite time_year_midnight in Hi. rewrite utc_day_midnight. lia. }
      rewrite Ey in Hyear. destruct (uposatha_row cfg y u Hs Hyear Hu) as (q & Hq & Ed & Hp & _). exists q.
      split; [exact Hq|]. split; [rewrite Ed; apply utc_day_midnight|exact Hp].
    - assert (Ey : year_of_day (utc_day (h_Date h)) = y).
      { revert Hh. unfold events_of_year. destruct (generate_spec cfg y) as (n & E & _). rewrite E, halves_flat. intros Hh. apply in_map_iff in Hh.
        destruct Hh as (x & <- & Hx). apply filter_In in Hx. destruct Hx as [Hx Hi]. apply in_moons_iter in Hx.
        destruct Hx as (i & _ & ->). fold (seed cfg y) in *. destruct (iter_date cfg (seed cfg y) (kday cfg y) i eq_refl) as (dd & Ed & _).
        unfold half_in_y in Hi. unfold half_of. cbn [h_Date]. rewrite Ed, midnight_add in Hi |- *.
        rewrite time_year_midnight in Hi. rewrite utc_day_midnight. lia. }
      rewrite Ey in Hyear. destruct (half_row cfg y h Hs Hyear Hh) as (q & Hq & Ed & Hp & _). exists q.
      split; [exact Hq|]. split; [rewrite Ed; apply utc_day_midnight|exact Hp]. }
  destruct Q as (q & Hq & -> & Hp). pose proof (walk_sound _ _ _ (walk_shipped cfg Hs)) as [_ W].
  destruct (W q Hq) as [Ho|(e & He & Hn)].
  - exfalso. revert Ho. unfold outside, around_new_year. cbv zeta. rewrite !year_date in Hd, H70.
    change (day_number 1902 1 2) with first_day in Hd. change (day_number 2033 5 14) with last_day in Hd.
    change (day_number 1970 1 1) with (days_before_year 1970) in H70.
    change (day_number 1970 12 31) with (days_before_year (1970 + 1) - 1) in H70.
    pose proof (year_of_day_iff (fst q) 1970) as Y70. pose proof (year_of_day_iff (fst q) (year_of_day (fst q))) as Y.
    specialize (Hny (year_of_day (fst q))). rewrite !year_date in Hny. set (y := year_of_day (fst q)) in *.
    assert (E1 : day_number y 1 1 = days_before_year y) by (unfold day_number; cbv zeta; change ((1 - 1) / 12) with 0; change ((1 - 1) mod 12 + 1) with 1; rewrite !Z.add_0_r; change (days_before_month (is_leap y) 1) with 0; lia).
    assert (E2 : day_number y 12 31 = days_before_year (y + 1) - 1 /\ day_number y 12 30 = days_before_year (y + 1) - 2).
    { unfold day_number; cbv zeta. change ((12 - 1) / 12) with 0. change ((12 - 1) mod 12 + 1) with 12. rewrite !Z.add_0_r.
      pose proof (days_before_year_succ y) as S. destruct (is_leap y); cbn [days_before_month Z.leb Z.eqb Z.compare Pos.compare Pos.compare_cont Pos.eqb]; lia. }
    lia.
  - apply records_in in He. destruct He as (m & Hm & ->). exists m. split; [exact Hm|].
    destruct (near_iff cfg q (utc_day (ae_DateTimeISO m), ae_Code m) (embedded_code m Hm) Hn p Hp) as [E B]. cbn [fst snd] in E, B. cbn [moon_of a_Phase]. rewrite <- E.
    split; [reflexivity|exact B].
Qed.

(** Both bounds of both kinds are met, so none of them can be tightened. *)
Definition pair_eqb (a b : Z * Z) : bool := (fst a =? fst b) && (snd a =? snd b).
Lemma pair_in a l : existsb (pair_eqb a) l = true -> In a l.
Proof.
  intros H. apply existsb_exists in H. destruct H as (b & Hb & H). apply andb_true_iff in H. destruct H as [H1 H2].
  apply Z.eqb_eq in H1, H2. destruct a, b. cbn [fst snd] in *. subst. exact Hb.
Qed.
(** A calculated moon of the rows of one year. *)
Lemma calculated_row cfg y d c p : shipped cfg -> 1902 <= y <= 2034 -> existsb (pair_eqb (d, c)) (quarters (sav cfg) 1 y (kday cfg y)) = true ->
  phase_code p c -> calculated cfg d p.
Proof.
  intros Hs Hy H Hp. apply pair_in, quarters_in in H. destruct H as (z & r & Hz & Hr & Hq).
  destruct (quarter_calculated cfg (d, c) Hs) as (p' & Hc & Hp').
  - apply quarters_in. exists z, r. split; [lia|]. split; [exact Hr|exact Hq].
  - cbn [fst snd] in *. unfold phase_code in Hp, Hp'. rewrite Hp, <- Hp'. exact Hc.
Qed.
Lemma astronomical d c p : existsb (pair_eqb (d, c)) records = true -> phase_code p c ->
  exists m, In m embedded_moons /\ a_Phase (moon_of m) = p /\ utc_day (a_Date (moon_of m)) = d.
Proof.
  intros H Hp. apply pair_in, records_in in H. destruct H as (m & Hm & E). exists m. split; [exact Hm|].
  injection E as E1 E2. split; [cbn [moon_of a_Phase]; rewrite <- E2; symmetry; exact Hp|symmetry; exact E1].
Qed.
Theorem C64_sharp :
  let off_by cfg p day n := calculated cfg (utc_day day) p /\
    exists m, In m embedded_moons /\ a_Phase (moon_of m) = p /\ utc_day (a_Date (moon_of m)) = utc_day day + n in
  off_by cfg_default "full"%string (time_date 1906 8 5 0 0) (-1) /\
  off_by cfg_default "full"%string (time_date 1917 5 5 0 0) 2 /\
  off_by cfg_default "waxing"%string (time_date 1911 8 3 0 0) (-2) /\
  off_by cfg_default "waxing"%string (time_date 1904 2 23 0 0) 1 /\
  off_by cfg_exceptions "waxing"%string (time_date 1996 6 22 0 0) 2.
Proof.
  cbv zeta. assert (S : shipped cfg_default) by (left; reflexivity).
  assert (S' : shipped cfg_exceptions) by (right; reflexivity).
  split; [|split; [|split; [|split]]]; split.
  - apply (calculated_row _ 1906 _ 2 _ S); [lia|vm_cast_no_check (eq_refl true)|reflexivity].
  - apply (astronomical _ 2); [vm_cast_no_check (eq_refl true)|reflexivity].
  - apply (calculated_row _ 1917 _ 2 _ S); [lia|vm_cast_no_check (eq_refl true)|reflexivity].
  - apply (astronomical _ 2); [vm_cast_no_check (eq_refl true)|reflexivity].
  - apply (calculated_row _ 1911 _ 1 _ S); [lia|vm_cast_no_check (eq_refl true)|reflexivity].
  - apply (astronomical _ 1); [vm_cast_no_check (eq_refl true)|reflexivity].
  - apply (calculated_row _ 1904 _ 1 _ S); [lia|vm_cast_no_check (eq_refl true)|reflexivity].
  - apply (astronomical _ 1); [vm_cast_no_check (eq_refl true)|reflexivity].
  - apply (calculated_row _ 1996 _ 1 _ S'); [lia|vm_cast_no_check (eq_refl true)|reflexivity].
  - apply (astronomical _ 1); [vm_cast_no_check (eq_refl true)|reflexivity].
Qed.

(** The exclusions are needed: in the middle of 1970, and on the last day of 2009, the calendar has a full moon
    with no astronomical full moon within twenty days of it. *)
Lemma alone d c p : forallb (fun e => negb (snd e =? c) || (20 <? Z.abs (fst e - d))) records = true -> 0 <= c <= 3 -> phase_code p c ->
  forall m, In m embedded_moons -> a_Phase (moon_of m) = p -> 20 < Z.abs (utc_day (a_Date (moon_of m)) - d).
Proof.
  intros H Hc Hp m Hm Em. rewrite forallb_forall in H.
  specialize (H (utc_day (ae_DateTimeISO m), ae_Code m) (proj2 (records_in _) (ex_intro _ m (conj Hm eq_refl)))).
  cbn [fst snd] in H. apply orb_true_iff in H. destruct H as [H|H]; [exfalso|apply Z.ltb_lt; exact H].
  pose proof (embedded_code m Hm) as Hm03. cbn [moon_of a_Phase] in Em. unfold phase_code in Hp. rewrite Hp in Em.
  assert (M : ae_Code m = 0 \/ ae_Code m = 1 \/ ae_Code m = 2 \/ ae_Code m = 3) by lia.
  assert (C : c = 0 \/ c = 1 \/ c = 2 \/ c = 3) by lia.
  destruct M as [M|[M|[M|M]]], C as [C|[C|[C|C]]]; rewrite M, C in *; discriminate.
Qed.
Theorem C64_gaps_refuted :
  let without day := calculated cfg_default (utc_day day) "full" /\
    forall m, In m embedded_moons -> a_Phase (moon_of m) = "full"%string -> 20 < Z.abs (utc_day (a_Date (moon_of m)) - utc_day day) in
  without (time_date 1970 6 19 0 0) /\ without (time_date 2009 12 31 0 0).
Proof.
  cbv zeta. assert (S : shipped cfg_default) by (left; reflexivity). repeat split.
  - apply (calculated_row _ 1970 _ 2 _ S); [lia|vm_cast_no_check (eq_refl true)|reflexivity].
  - apply (alone _ 2); [vm_cast_no_check (eq_refl true)|lia|reflexivity].
  - apply (calculated_row _ 2010 _ 2 _ S); [lia|vm_cast_no_check (eq_refl true)|reflexivity].
  - apply (alone _ 2); [vm_cast_no_check (eq_refl true)|lia|reflexivity].
Qed.

(** The full moon of Asalha 2016: calculated and seen on 19 July. *)
Example C64_example : calculated cfg_default (utc_day (time_date 2016 7 19 0 0)) "full" /\
  exists m, In m embedded_moons /\ a_Phase (moon_of m) = "full"%string /\
    utc_day (a_Date (moon_of m)) = utc_day (time_date 2016 7 19 0 0).
Proof.
  split; [apply (calculated_row cfg_default 2016 _ 2 _ (or_introl eq_refl)); [lia|vm_cast_no_check (eq_refl true)|reflexivity]|].
  apply (astronomical _ 2); [vm_cast_no_check (eq_refl true)|reflexivity].
Qed.
