(** What GenerateSolarYear emits, in terms of the chain (C22-C25, C49). *)
From Coq Require Import ZArith Lia Bool ZifyBool List String.
From Verif Require Import GoTime SuriyaYear Helpers UposathaMoon CalDay Spec SpecCal.
From Verif Require Import P_Time P_Year P_Counts P_Kattika P_Chain.
Import ListNotations.
Open Scope Z_scope.
Ltac Zify.zify_post_hook ::= Z.div_mod_to_equations.

Definition in_y (y : Z) (u : UposathaMoon) : bool := time_year (u_Date u) =? y.

Lemma uposathas_app l m : uposathas_of (l ++ m) = uposathas_of l ++ uposathas_of m.
Proof. induction l as [|[] l IH]; cbn [app uposathas_of]; rewrite ?IH; reflexivity. Qed.
Lemma halves_app l m : halves_of (l ++ m) = halves_of l ++ halves_of m.
Proof. induction l as [|[] l IH]; cbn [app halves_of]; rewrite ?IH; reflexivity. Qed.
Lemma majors_app l m : majors_of (l ++ m) = majors_of l ++ majors_of m.
Proof. induction l as [|[] l IH]; cbn [app majors_of]; rewrite ?IH; reflexivity. Qed.

Definition half_of (u : UposathaMoon) : HalfMoon :=
  mkHalfMoon (time_add (u_Date u) (8 * day_ns)) (half_phase (u_Phase u)).
Definition half_in_y (y : Z) (u : UposathaMoon) : bool := time_year (time_add (u_Date u) (8 * day_ns)) =? y.

Lemma events_split y u :
  uposathas_of (uposatha_events y u) = (if in_y y u then [confirmed u] else []) /\
  halves_of (uposatha_events y u) = (if half_in_y y u then [half_of u] else []) /\
  majors_of (uposatha_events y u) = (if in_y y u then majors_of (major_events (set_status u 2)) else []).
Proof.
  unfold uposatha_events, in_y, half_in_y, half_of. cbn [set_status u_Date u_Phase h_Date].
  rewrite time_add_date_days. fold (set_status u 2).
  rewrite !uposathas_app, !halves_app, !majors_app.
  assert (EU : uposathas_of (major_events (set_status u 2)) = [] /\ halves_of (major_events (set_status u 2)) = []).
  { unfold major_events. rewrite !uposathas_app, !halves_app.
    destruct (String.eqb _ "magha"), (String.eqb _ "vesakha"), (String.eqb _ "asalha"), (String.eqb _ "pavarana"); split; reflexivity. }
  destruct EU as [E1 E2].
  destruct (time_year (u_Date u) =? y), (time_year (time_add (u_Date u) (8 * day_ns)) =? y);
    cbn [uposathas_of halves_of majors_of app]; rewrite ?E1, ?E2; repeat split; reflexivity.
Qed.

Lemma uposathas_flat y us :
  uposathas_of (flat_map (uposatha_events y) us) = map confirmed (filter (in_y y) us).
Proof.
  induction us as [|u us IH]; cbn [flat_map filter map]; [reflexivity|].
  rewrite uposathas_app, IH. destruct (events_split y u) as [-> _].
  destruct (in_y y u); reflexivity.
Qed.
Lemma halves_flat y us :
  halves_of (flat_map (uposatha_events y) us) = map half_of (filter (half_in_y y) us).
Proof.
  induction us as [|u us IH]; cbn [flat_map filter map]; [reflexivity|].
  rewrite halves_app, IH. destruct (events_split y u) as (_ & -> & _).
  destruct (half_in_y y u); reflexivity.
Qed.
Definition majors_u (u : UposathaMoon) : list MajorEvent := majors_of (major_events (set_status u 2)).
Lemma majors_flat y us :
  majors_of (flat_map (uposatha_events y) us) = flat_map majors_u (filter (in_y y) us).
Proof.
  induction us as [|u us IH]; cbn [flat_map filter map]; [reflexivity|].
  rewrite majors_app, IH. destruct (events_split y u) as (_ & _ & ->).
  destruct (in_y y u); reflexivity.
Qed.

(** ** Dates along the chain *)

Lemma iter_date cfg u d n : u_Date u = midnight d ->
  exists d', u_Date (iter_moon cfg n u) = midnight d' /\ d + 14 * Z.of_nat n <= d' <= d + 15 * Z.of_nat n.
Proof.
  intros Hd. induction n as [|n (d' & E & Hb)].
  - exists d. split; [exact Hd|lia].
  - rewrite iter_moon_S. destruct (next_date cfg _ d' E) as (d'' & E' & Hb'). exists d''. split; [exact E'|lia].
Qed.

Lemma moons_dates cfg u d n : u_Date u = midnight d ->
  forall x, In x (moons cfg n u) -> exists d', u_Date x = midnight d' /\ d + 14 <= d'.
Proof.
  revert u d. induction n as [|n IH]; intros u d Hd x; cbn [moons In]; [tauto|].
  destruct (next_date cfg u d Hd) as (d' & E & Hb). intros [<-|Hi]; [exists d'; split; [exact E|lia]|].
  destruct (IH _ _ E x Hi) as (d'' & E' & Hb'). exists d''. split; [exact E'|lia].
Qed.

(** Past the year, the filter keeps nothing. *)
Lemma filter_past cfg y u d n : u_Date u = midnight d -> y < year_of_day d ->
  filter (in_y y) (moons cfg n u) = [].
Proof.
  intros Hd Hy. assert (A : forall x, In x (moons cfg n u) -> in_y y x = false).
  { intros x Hx. destruct (moons_dates cfg u d n Hd x Hx) as (d' & E & Hb). unfold in_y. rewrite E, time_year_midnight.
    pose proof (year_of_day_mono d d' ltac:(lia)). lia. }
  induction (moons cfg n u) as [|x l IH]; [reflexivity|]. cbn [filter]. rewrite (A x (or_introl eq_refl)).
  apply IH. intros z Hz. apply A. right. exact Hz.
Qed.

Lemma filter_more cfg y u d p n : u_Date u = midnight d -> (p <= n)%nat ->
  y < time_year (u_Date (iter_moon cfg p u)) ->
  filter (in_y y) (moons cfg n u) = filter (in_y y) (moons cfg p u).
Proof.
  intros Hd Hp Hy. replace n with (p + (n - p))%nat by lia. rewrite moons_app, filter_app.
  destruct (iter_date cfg u d p Hd) as (d' & E & _). rewrite E, time_year_midnight in Hy.
  rewrite (filter_past cfg y _ d' (n - p) E Hy). apply app_nil_r.
Qed.

(** The first eight moons after a Kattika do not depend on the year types. *)
Definition first_rows : list row := rows false false 8 row0.
Lemma first_moons cfg k : moons cfg 8 (kattika_seed (midnight k)) = map (of_row k (year_of_day k + 544)) first_rows /\
  u_Date (iter_moon cfg 8 (kattika_seed (midnight k))) = midnight (k + 118).
Proof.
  rewrite (seed_row k (year_of_day k + 544) eq_refl).
  destruct (moons_rows cfg k (year_of_day k + 544) false false 118 8 row0 (first_rows_ok false false)) as [E1 E2].
  - intros j Hj. exfalso. assert (E : r_off (iter_row false false 8 row0) = 118) by (vm_compute; reflexivity). lia.
  - split; [exact E1|]. rewrite E2. reflexivity.
Qed.

(** The uposathas of a valid year, explicitly. *)
Lemma in_year_list cfg y : valid cfg y -> days_before_year (y + 1) - kday cfg (y + 1) <= 118 ->
  uposathas_of (events_of_year cfg y) = map confirmed (filter (in_y y)
    (map (of_row (kday cfg y) (y + 543)) (year_rows (am y) (is_adhikavara cfg (su_init y)))
     ++ map (of_row (kday cfg (y + 1)) (y + 544)) first_rows)) /\
  majors_of (events_of_year cfg y) = flat_map majors_u (filter (in_y y)
    (map (of_row (kday cfg y) (y + 543)) (year_rows (am y) (is_adhikavara cfg (su_init y)))
     ++ map (of_row (kday cfg (y + 1)) (y + 544)) first_rows)).
Proof.
  intros Hv Ho. unfold events_of_year. destruct (generate_spec cfg y) as (p & E & Hle & Hgt). rewrite E.
  rewrite uposathas_flat, majors_flat.
  pose proof (lunar_year cfg y Hv) as [L1 L2]. cbv zeta in L1, L2.
  destruct (first_moons cfg (kday cfg (y + 1))) as [F1 F2].
  pose proof Hv as (_ & Hk' & _).
  enough (E' : filter (in_y y) (moons cfg p (kattika_seed (midnight (kday cfg y)))) =
    filter (in_y y) (moons cfg (moon_count (am y) + 8) (kattika_seed (midnight (kday cfg y))))).
  { rewrite E', moons_app, L1, L2, F1, Hk'. split; reflexivity. }
  assert (Hend : y < time_year (u_Date (iter_moon cfg (moon_count (am y) + 8) (kattika_seed (midnight (kday cfg y)))))).
  { rewrite iter_moon_add, L2, F2, time_year_midnight.
    destruct (Z_lt_le_dec y (year_of_day (kday cfg (y + 1) + 118))) as [|Hle']; [assumption|].
    apply year_of_day_le in Hle'. lia. }
  destruct (Nat.le_gt_cases p (moon_count (am y) + 8)) as [Hp|Hp].
  - symmetry. apply (filter_more cfg y _ (kday cfg y)); [reflexivity|exact Hp|exact Hgt].
  - exfalso. specialize (Hle _ Hp). lia.
Qed.

(** [in_y] by offset *)
Lemma in_y_row y k ly r : in_y y (of_row k ly r) =
  (days_before_year y - k <=? r_off r) && (r_off r <? days_before_year (y + 1) - k).
Proof.
  unfold in_y. cbn [of_row u_Date]. rewrite time_year_midnight.
  pose proof (year_of_day_iff (k + r_off r) y). lia.
Qed.

(** ** Statements in the vocabulary of SpecCal *)

Lemma nth_moon_iter cfg u i : nth_moon cfg u i = iter_moon cfg i u.
Proof.
  unfold nth_moon. induction i as [|i IH]; [reflexivity|]. rewrite iter_moon_S, <- IH. reflexivity.
Qed.
Lemma moons_seq cfg n : forall u i, moons cfg n (iter_moon cfg i u) = chain cfg u (S i) n.
Proof.
  induction n as [|n IH]; intros u i; [reflexivity|].
  unfold chain. cbn [seq map moons]. rewrite nth_moon_iter, <- iter_moon_S. f_equal. apply (IH u (S i)).
Qed.
Lemma moons_chain cfg n u : moons cfg n u = chain cfg u 1 n.
Proof. exact (moons_seq cfg n u 0). Qed.

Lemma january_first_midnight y : january_first y = midnight (days_before_year y).
Proof.
  unfold january_first. rewrite day_number_date. f_equal. unfold day_number. cbv zeta.
  change ((1 - 1) / 12) with 0. change ((1 - 1) mod 12 + 1) with 1. rewrite !Z.add_0_r.
  change (days_before_month (is_leap y) 1) with 0. lia.
Qed.

Lemma kattika_moon_seed k : kattika_moon k = kattika_seed k.
Proof. reflexivity. Qed.

Lemma within_iff cfg lo hi y : kattika_within cfg lo hi y <-> lo <= days_before_year y - kday cfg y <= hi.
Proof.
  unfold kattika_within. rewrite previous_kattika_eq, january_first_midnight. split.
  - intros (k & n & E & Ha & Hn). injection E as E. rewrite <- E in Ha.
    apply (f_equal t_ns) in Ha. cbn [time_add midnight t_ns] in Ha. unfold hour_ns, day_ns in Ha. lia.
  - intros H. exists (midnight (kday cfg y)), (days_before_year y - kday cfg y). split; [reflexivity|]. split; [|exact H].
    apply time_eq; cbn [time_add midnight t_ns t_off]; [|reflexivity]. unfold hour_ns, day_ns. lia.
Qed.

Lemma valid_within cfg y hi : kattika_within cfg 1 118 y -> kattika_within cfg 1 hi (y + 1) -> exclusive cfg y -> valid cfg y.
Proof.
  rewrite !within_iff. intros H1 H2 Hx. unfold valid, am.
  pose proof (days_before_year_mono (y - 1) y ltac:(lia)). pose proof (days_before_year_step y).
  pose proof (kday_step cfg y). pose proof (len_pos cfg y).
  split; [apply year_of_day_iff; replace (y - 1 + 1) with y by lia; lia|].
  split; [apply year_of_day_iff; lia|]. split; [lia|exact Hx].
Qed.

Lemma shipped_exclusive cfg y : shipped cfg -> exclusive cfg y.
Proof.
  intros Hs. unfold exclusive. fold (am y). destruct (UseExceptions cfg) eqn:Hu.
  - destruct Hs as [Hs|Hs]; [congruence|]. rewrite (is_av_exceptions cfg y Hu Hs).
    pose proof years_1994_1997 as (Y1 & Y2 & Y3 & Y4).
    destruct (Z.eqb_spec y 1994) as [E|]; [apply andb_false_r|].
    destruct (Z.eqb_spec y 1997) as [E|]; [rewrite <- E in Y3; rewrite Y3; reflexivity|].
    rewrite av_eq. destruct (am y); reflexivity.
  - rewrite (adhikavara_default_off cfg y Hu), av_eq. destruct (am y); reflexivity.
Qed.

Lemma shipped_within cfg y : shipped cfg -> 631 <= y <= 4116 -> kattika_within cfg 1 104 y.
Proof. intros Hs Hy. apply within_iff. apply (kattika_offset cfg y Hs Hy). Qed.
Lemma shipped_within_74 cfg y : shipped cfg -> 1290 <= y <= 4116 -> kattika_within cfg 1 74 y.
Proof.
  intros Hs Hy. apply within_iff. pose proof (kattika_offset cfg y Hs ltac:(lia)) as Ho. cbv zeta in Ho.
  split; [apply Ho|]. apply Ho. lia.
Qed.
Lemma within_weaken cfg lo hi lo' hi' y : kattika_within cfg lo hi y -> lo' <= lo -> hi <= hi' -> kattika_within cfg lo' hi' y.
Proof. rewrite !within_iff. lia. Qed.

(** ** Monotone filters are segments *)

Lemma filter_seq_seg (g : nat -> Z) lo hi : lo < hi ->
  (forall i, g i <= g (S i) <= g i + 1) ->
  forall n s, g s < lo -> hi <= g (s + n)%nat ->
  exists i m, filter (fun j => (lo <=? g j) && (g j <? hi)) (seq (S s) n) = seq i m /\
    (S s <= i)%nat /\ g (i - 1)%nat = lo - 1 /\ g (i + m)%nat = hi.
Proof.
  intros Hlh Hg. induction n as [|n IH]; intros s Hs Hn; [rewrite Nat.add_0_r in Hn; lia|].
  cbn [seq filter]. destruct (Z_lt_le_dec (g (S s)) lo) as [Hl|Hl].
  - destruct (Z.leb_spec lo (g (S s))); [lia|]. cbn [andb].
    destruct (IH (S s) Hl) as (i & m & E & Hi & H1 & H2); [replace (S s + n)%nat with (s + S n)%nat by lia; exact Hn|].
    exists i, m. split; [exact E|]. split; [lia|]. split; assumption.
  - pose proof (Hg s) as Hgs. clear IH.
    (* from S s on, everything below hi is kept *)
    assert (A : forall n s', lo <= g s' -> hi <= g (s' + n)%nat ->
      exists m, filter (fun j => (lo <=? g j) && (g j <? hi)) (seq s' n) = seq s' m /\ g (s' + m)%nat = hi \/ hi < g s').
    { clear - Hg. induction n as [|n IH]; intros s' Hl Hn.
      - rewrite Nat.add_0_r in Hn. destruct (Z.eq_dec (g s') hi) as [E|]; [|exists O; right; lia].
        exists O. left. split; [reflexivity|]. rewrite Nat.add_0_r. exact E.
      - cbn [seq filter]. destruct (Z.leb_spec lo (g s')); [|lia]. cbn [andb].
        destruct (Z.ltb_spec (g s') hi) as [Hh|Hh].
        + pose proof (Hg s').
          destruct (IH (S s')) as (m & [(E & Em)|Hx]); [lia|replace (S s' + n)%nat with (s' + S n)%nat by lia; exact Hn| |lia].
          exists (S m). left. rewrite E. split; [reflexivity|]. replace (s' + S m)%nat with (S s' + m)%nat by lia. exact Em.
        + destruct (Z.eq_dec (g s') hi) as [E|]; [|exists O; right; lia].
          exists O. left. split; [|rewrite Nat.add_0_r; exact E].
          cbn [seq]. assert (B : forall n s'', hi <= g s'' -> filter (fun j => (lo <=? g j) && (g j <? hi)) (seq s'' n) = []).
          { clear - Hg. induction n as [|n IH]; intros s'' Hs; [reflexivity|]. cbn [seq filter].
            destruct (Z.ltb_spec (g s'') hi); [lia|]. rewrite andb_false_r. apply IH. pose proof (Hg s''). lia. }
          apply B. pose proof (Hg s'). lia. }
    destruct (A (S n) (S s)) as (m & [(E & Em)|Hx]); [exact Hl| | |lia].
    { pose proof (Hg (s + S n)%nat). replace (S s + S n)%nat with (S (s + S n)) by lia. lia. }
    (* the list of length S n from S s: E is over seq (S s) (S n) *)
    cbn [seq filter] in E. exists (S s).
    exists m. cbn [seq filter] in *. split; [exact E|]. split; [lia|].
    replace (S s - 1)%nat with s by lia. split; [lia|exact Em].
Qed.
