(** The calculated quarter moons beside the embedded astronomical ones, by one walk over both (C64). *)
From Coq Require Import ZArith Lia Bool ZifyBool List String.
From Verif Require Import GoTime SuriyaYear Helpers UposathaMoon CalDay AstroMoon AstroData AstroFS Spec SpecCal SpecAstro.
From Verif Require Import P_Time P_Year P_Counts P_Kattika P_Chain P_Gen P_Gen2.
Import ListNotations.
Open Scope Z_scope.
Ltac Zify.zify_post_hook ::= Z.div_mod_to_equations.

(** ** The two lists *)

Definition sav (cfg : config) (y : Z) : bool := is_adhikavara cfg (su_init y).
Definition quarters_of_row (k : Z) (r : row) : list (Z * Z) :=
  [(k + r_off r, if r_full r then 2 else 0); (k + r_off r + 8, if r_full r then 3 else 1)].
Fixpoint quarters (v : Z -> bool) (n : nat) (y k : Z) : list (Z * Z) :=
  match n with
  | O => []
  | S n' => flat_map (quarters_of_row k) (year_rows (am y) (v y)) ++ quarters v n' (y + 1) (k + lunar_days (am y) (v y))
  end.
Definition quarters_1902_2034 (cfg : config) : list (Z * Z) := quarters (sav cfg) 133 1902 (kday cfg 1902).
Definition records : list (Z * Z) :=
  flat_map (fun p => map (fun r => (rec_day r, rec_code r)) (file_records (snd p))) astro_files.

Lemma quarters_in cfg n : forall y q, In q (quarters (sav cfg) n y (kday cfg y)) <->
  exists z r, y <= z < y + Z.of_nat n /\ In r (year_rows (am z) (sav cfg z)) /\ In q (quarters_of_row (kday cfg z) r).
Proof.
  induction n as [|n IH]; intros y q.
  - split; [intros []|intros (z & r & Hz & _); lia].
  - cbn [quarters]. unfold sav at 3. rewrite <- len_days, <- kday_step. rewrite in_app_iff, IH, in_flat_map. split.
    + intros [(r & Hr & Hq)|(z & r & Hz & Hr & Hq)]; [exists y, r|exists z, r]; (split; [lia|]); split; assumption.
    + intros (z & r & Hz & Hr & Hq). destruct (Z.eq_dec z y) as [->|].
      * left. exists r. split; assumption.
      * right. exists z, r. split; [lia|]. split; assumption.
Qed.

(** ** The walk *)

Definition near (late : Z) (q e : Z * Z) : bool :=
  (snd q =? snd e) &&
  (if Z.even (snd e) then (-1 <=? fst e - fst q) && (fst e - fst q <=? 2) else (-2 <=? fst e - fst q) && (fst e - fst q <=? late)).
Definition around_new_year (d : Z) : bool :=
  let y := year_of_day d in (d =? days_before_year y) || (days_before_year (y + 1) - 2 <=? d).
Definition first_day : Z := 694326.
Definition last_day : Z := 742306.
Definition outside (d : Z) : bool :=
  (d <? first_day) || (last_day <? d) || (year_of_day d =? 1970) || around_new_year d.

Fixpoint walk (late : Z) (qs es : list (Z * Z)) : bool :=
  match qs with
  | [] => match es with [] => true | _ => false end
  | q :: qs' =>
      match es with
      | e :: es' => if near late q e then walk late qs' es' else outside (fst q) && walk late qs' es
      | [] => outside (fst q) && walk late qs' []
      end
  end.

Lemma walk_sound late qs : forall es, walk late qs es = true ->
  (forall e, In e es -> exists q, In q qs /\ near late q e = true) /\
  (forall q, In q qs -> outside (fst q) = true \/ exists e, In e es /\ near late q e = true).
Proof.
  induction qs as [|q qs IH]; intros es H; cbn [walk] in H.
  - destruct es; [|discriminate]. split; intros ? [].
  - destruct es as [|e es].
    + apply andb_true_iff in H. destruct H as [Ho H]. destruct (IH _ H) as [_ I2]. split; [intros ? []|].
      intros q' [<-|Hq]; [left; exact Ho|apply I2; exact Hq].
    + destruct (near late q e) eqn:N.
      * destruct (IH _ H) as [I1 I2]. split.
        -- intros e' [<-|He]; [exists q; split; [left; reflexivity|exact N]|].
           destruct (I1 e' He) as (q' & Hq & Hn). exists q'. split; [right; exact Hq|exact Hn].
        -- intros q' [<-|Hq]; [right; exists e; split; [left; reflexivity|exact N]|].
           destruct (I2 q' Hq) as [Ho|(e' & He & Hn)]; [left; exact Ho|right; exists e'; split; [right; exact He|exact Hn]].
      * apply andb_true_iff in H. destruct H as [Ho H]. destruct (IH _ H) as [I1 I2]. split.
        -- intros e' He. destruct (I1 e' He) as (q' & Hq & Hn). exists q'. split; [right; exact Hq|exact Hn].
        -- intros q' [<-|Hq]; [left; exact Ho|apply I2; exact Hq].
Qed.

Lemma walk_default : walk 1 (quarters_1902_2034 cfg_default) records = true.
Proof. vm_cast_no_check (eq_refl true). Qed.
Lemma walk_exceptions : walk 2 (quarters_1902_2034 cfg_exceptions) records = true.
Proof. vm_cast_no_check (eq_refl true). Qed.

(** ** The configurations as shipped *)

Lemma shipped_av cfg : shipped cfg ->
  if UseExceptions cfg then forall y, sav cfg y = sav cfg_exceptions y else forall y, sav cfg y = sav cfg_default y.
Proof.
  intros Hs. destruct (UseExceptions cfg) eqn:Hu.
  - destruct Hs as [Hs|Hs]; [congruence|]. intros y. unfold sav.
    rewrite (is_av_exceptions cfg y Hu Hs), (is_av_exceptions cfg_exceptions y eq_refl (fun _ => eq_refl)). reflexivity.
  - intros y. unfold sav. rewrite (adhikavara_default_off cfg y Hu), (adhikavara_default_off cfg_default y eq_refl). reflexivity.
Qed.

Section Same.
Variables cfg c : config.
Hypothesis H : forall y, sav cfg y = sav c y.
Lemma len_same y : len cfg y = len c y.
Proof. rewrite !len_days. fold (sav cfg y) (sav c y). rewrite H. reflexivity. Qed.
Lemma sum_len_same n : forall a, sum_len cfg a n = sum_len c a n.
Proof. induction n as [|n IH]; intros a; cbn [sum_len]; [reflexivity|]. rewrite len_same, IH. reflexivity. Qed.
Lemma kday_same y : kday cfg y = kday c y.
Proof. unfold kday. rewrite !sum_len_same. reflexivity. Qed.
Lemma quarters_same n : forall y k, quarters (sav cfg) n y k = quarters (sav c) n y k.
Proof. induction n as [|n IH]; intros y k; cbn [quarters]; [reflexivity|]. rewrite H, IH. reflexivity. Qed.
End Same.

Lemma walk_shipped cfg : shipped cfg -> walk (if UseExceptions cfg then 2 else 1) (quarters_1902_2034 cfg) records = true.
Proof.
  intros Hs. pose proof (shipped_av cfg Hs) as E.
  assert (K : quarters_1902_2034 cfg = quarters_1902_2034 (if UseExceptions cfg then cfg_exceptions else cfg_default)).
  { unfold quarters_1902_2034. destruct (UseExceptions cfg); rewrite (quarters_same cfg _ E), (kday_same cfg _ E); reflexivity. }
  rewrite K. destruct (UseExceptions cfg); [exact walk_exceptions|exact walk_default].
Qed.

(** The Kattika moon lies 10 to 70 days before the year. *)
Lemma offset_check_near : check_year cfg_default 135 1900 (kday cfg_default 1900) (offset_in 10 70) = true.
Proof. vm_cast_no_check (eq_refl true). Qed.
Lemma offset_near cfg y : shipped cfg -> 1900 <= y <= 2035 -> 10 <= days_before_year y - kday cfg y <= 71.
Proof.
  intros Hs Hy. pose proof (check_year_spec _ _ _ _ offset_check_near y ltac:(lia)) as C. apply offset_in_spec in C.
  rewrite (kday_shipped cfg y Hs). unfold exc_shift. destruct (_ && _ && _); lia.
Qed.
Lemma valid_near cfg y : shipped cfg -> 1900 <= y <= 2034 -> valid cfg y.
Proof.
  intros Hs Hy. pose proof (offset_near cfg y Hs ltac:(lia)). pose proof (offset_near cfg (y + 1) Hs ltac:(lia)).
  apply (valid_within cfg y 118); [apply within_iff; lia|apply within_iff; lia|apply shipped_exclusive; exact Hs].
Qed.

(** ** Rows and events *)

(** A moon of a year's rows is in the chain of the year it falls in. *)
Lemma placed cfg y r : shipped cfg -> 1901 <= y <= 2034 -> In r (year_rows (am y) (sav cfg y)) ->
  exists z ly p, In (of_row (kday cfg y) ly r) (moons cfg p (seed cfg z)) /\
    yr (of_row (kday cfg y) ly r) = z /\ y - 1 <= z <= y.
Proof.
  intros Hs Hy Hr. pose proof (valid_near cfg y Hs ltac:(lia)) as Hv. pose proof (valid_near cfg (y - 1) Hs ltac:(lia)) as Hv'.
  destruct (lunar_year cfg y Hv) as [L _]. cbv zeta in L. fold (sav cfg y) in L.
  destruct (lunar_year cfg (y - 1) Hv') as [_ L']. cbv zeta in L'. replace (y - 1 + 1) with y in L' by lia.
  assert (Hx : In (of_row (kday cfg y) (y + 543) r) (moons cfg (moon_count (am y)) (seed cfg y)))
    by (unfold seed; rewrite L; apply in_map; exact Hr).
  assert (B : y - 1 <= yr (of_row (kday cfg y) (y + 543) r) <= y).
  { unfold yr. cbn [of_row u_Date]. rewrite time_year_midnight. destruct Hv as (V1 & V2 & _).
    assert (H0 : 0 < r_off r) by (apply (rows_off_ge _ _ _ _ _ Hr)).
    assert (H1 : kday cfg y + r_off r <= kday cfg (y + 1)).
    { apply in_moons_iter in Hx. destruct Hx as (i & Hi & Ei).
      assert (Hd : u_Date (iter_moon cfg i (seed cfg y)) = midnight (kday cfg y + r_off r)) by (rewrite <- Ei; reflexivity).
      pose proof (lunar_year cfg y (valid_near cfg y Hs ltac:(lia))) as [_ L2]. cbv zeta in L2. fold (seed cfg y) in L2.
      destruct (Nat.eq_dec i (moon_count (am y))) as [->|Hne].
      - rewrite L2 in Hd. cbn [kattika_seed u_Date] in Hd. apply midnight_inj in Hd. lia.
      - destruct (iter_date_mono cfg (seed cfg y) (kday cfg y) i (moon_count (am y)) eq_refl ltac:(lia)) as (di & dc & E1 & E2 & Hb).
        rewrite L2 in E2. cbn [kattika_seed u_Date] in E2. apply midnight_inj in E2. rewrite Hd in E1. apply midnight_inj in E1. lia. }
    pose proof (year_of_day_mono (kday cfg y) (kday cfg y + r_off r) ltac:(lia)).
    pose proof (year_of_day_mono (kday cfg y + r_off r) (kday cfg (y + 1)) ltac:(lia)). lia. }
  destruct (Z.eq_dec (yr (of_row (kday cfg y) (y + 543) r)) y) as [E|E].
  - exists y, (y + 543), (moon_count (am y)). split; [exact Hx|]. split; [exact E|lia].
  - exists (y - 1), (y + 543), (moon_count (am (y - 1)) + moon_count (am y))%nat.
    split; [|split; [lia|lia]]. rewrite moons_app, in_app_iff. right. fold (seed cfg (y - 1)) in L'. rewrite L'. exact Hx.
Qed.

Lemma moons_more cfg p q u x : (p <= q)%nat -> In x (moons cfg p u) -> In x (moons cfg q u).
Proof. rewrite !in_moons_iter. intros Hpq (i & Hi & ->). exists i. split; [lia|reflexivity]. Qed.

Lemma row_uposatha cfg y r : shipped cfg -> 1901 <= y <= 2034 -> In r (year_rows (am y) (sav cfg y)) ->
  exists z u, In u (uposathas_of (events_of_year cfg z)) /\ u_Date u = midnight (kday cfg y + r_off r) /\
    u_Phase u = (if r_full r then "full" else "new")%string.
Proof.
  intros Hs Hy Hr. destruct (placed cfg y r Hs Hy Hr) as (z & ly & p & Hx & Hz & Hb).
  exists z, (confirmed (of_row (kday cfg y) ly r)). split; [|split; reflexivity].
  destruct (year_filter cfg z) as (p' & E). rewrite (E (p' + p)%nat ltac:(lia)). apply in_map. apply filter_In.
  split; [apply (moons_more cfg p); [lia|exact Hx]|]. unfold in_y. fold (yr (of_row (kday cfg y) ly r)). lia.
Qed.

Lemma row_half cfg y r : shipped cfg -> 1901 <= y <= 2034 -> In r (year_rows (am y) (sav cfg y)) ->
  exists z h, In h (halves_of (events_of_year cfg z)) /\ h_Date h = midnight (kday cfg y + r_off r + 8) /\
    h_Phase h = (if r_full r then "waning" else "waxing")%string.
Proof.
  intros Hs Hy Hr. destruct (placed cfg y r Hs Hy Hr) as (z & ly & p & Hx & Hz & Hb).
  assert (V : valid cfg z) by (apply valid_near; [exact Hs|lia]).
  pose proof (offset_near cfg (z + 1) Hs ltac:(lia)) as O.
  assert (D : h_Date (half_of (of_row (kday cfg y) ly r)) = midnight (kday cfg y + r_off r + 8))
    by (unfold half_of; cbn [h_Date of_row u_Date]; rewrite midnight_add; reflexivity).
  assert (P : h_Phase (half_of (of_row (kday cfg y) ly r)) = (if r_full r then "waning" else "waxing")%string)
    by (unfold half_of; cbn [h_Phase of_row u_Phase]; destruct (r_full r); reflexivity).
  destruct (half_kept cfg z _ V ltac:(lia) (ex_intro _ p Hx) Hz) as [K|K]; [exists z|exists (z + 1)];
    exists (half_of (of_row (kday cfg y) ly r)); (split; [exact K|]); split; assumption.
Qed.

(** Conversely. *)
Lemma first_incl_check : forallb (fun av => forallb (fun r => existsb (row_eqb r) (year_rows (fst av) (snd av))) first_rows)
  [(false, false); (false, true); (true, false); (true, true)] = true.
Proof. vm_compute. reflexivity. Qed.
Lemma first_incl a v r : In r first_rows -> In r (year_rows a v).
Proof.
  intros Hr. pose proof first_incl_check as C. rewrite forallb_forall in C. specialize (C (a, v)).
  assert (I : In (a, v) [(false, false); (false, true); (true, false); (true, true)]) by (destruct a, v; cbn; tauto).
  specialize (C I). rewrite forallb_forall in C. specialize (C r Hr). apply existsb_exists in C.
  destruct C as (r' & Hr' & E). apply row_eqb_eq in E. subst r'. exact Hr'.
Qed.

Lemma chain_rows cfg y x : shipped cfg -> 1900 <= y <= 2033 -> In x (moons cfg (moon_count (am y) + 8) (seed cfg y)) ->
  exists z r ly, y <= z <= y + 1 /\ In r (year_rows (am z) (sav cfg z)) /\ x = of_row (kday cfg z) ly r.
Proof.
  intros Hs Hy. destruct (lunar_year cfg y (valid_near cfg y Hs ltac:(lia))) as [L1 L2]. cbv zeta in L1, L2. fold (seed cfg y) in L1, L2.
  rewrite moons_app, L1, L2. destruct (first_moons cfg (kday cfg (y + 1))) as [-> _].
  rewrite in_app_iff, !in_map_iff. intros [(r & <- & Hr)|(r & <- & Hr)].
  - exists y, r, (y + 543). split; [lia|]. split; [exact Hr|reflexivity].
  - exists (y + 1), r, (year_of_day (kday cfg (y + 1)) + 544). split; [lia|]. split; [apply first_incl; exact Hr|reflexivity].
Qed.

(** The moons that fall before the end of the year are among these. *)
Lemma early_moons cfg y p x : shipped cfg -> 1900 <= y <= 2033 -> In x (moons cfg p (seed cfg y)) -> yr x <= y ->
  In x (moons cfg (moon_count (am y) + 8) (seed cfg y)).
Proof.
  intros Hs Hy Hx Hyr. rewrite in_moons_iter in Hx |- *. destruct Hx as (i & Hi & ->). exists i. split; [|reflexivity].
  destruct (Nat.le_gt_cases i (moon_count (am y) + 8)) as [|Hgt]; [lia|exfalso].
  destruct (lunar_year cfg y (valid_near cfg y Hs ltac:(lia))) as [_ L2]. cbv zeta in L2. fold (seed cfg y) in L2.
  destruct (iter_date_mono cfg (seed cfg y) (kday cfg y) _ i eq_refl Hgt) as (d8 & di & E1 & E2 & Hb).
  rewrite iter_moon_add, L2 in E1. destruct (first_moons cfg (kday cfg (y + 1))) as [_ F2]. rewrite F2 in E1. apply midnight_inj in E1.
  unfold yr in Hyr. rewrite E2, time_year_midnight in Hyr. apply year_of_day_le in Hyr.
  pose proof (offset_near cfg (y + 1) Hs ltac:(lia)). lia.
Qed.

Definition phase_code (s : string) (c : Z) : Prop := s = nth (Z.to_nat c) ["new"; "waxing"; "full"; "waning"]%string ""%string.

Lemma uposatha_row cfg y u : shipped cfg -> 1902 <= y <= 2033 -> In u (uposathas_of (events_of_year cfg y)) ->
  exists q, In q (quarters_1902_2034 cfg) /\ u_Date u = midnight (fst q) /\ phase_code (u_Phase u) (snd q) /\ year_of_day (fst q) = y.
Proof.
  intros Hs Hy Hu. destruct (year_filter cfg y) as (p & E). rewrite (E p ltac:(lia)) in Hu.
  apply in_map_iff in Hu. destruct Hu as (x & <- & Hx). apply filter_In in Hx. destruct Hx as [Hx Hi].
  apply (early_moons cfg y p x Hs ltac:(lia)) in Hx; [|unfold in_y in Hi; unfold yr; lia].
  destruct (chain_rows cfg y x Hs ltac:(lia) Hx) as (z & r & ly & Hz & Hr & ->).
  exists (kday cfg z + r_off r, if r_full r then 2 else 0). split.
  - apply quarters_in. exists z, r. split; [lia|]. split; [exact Hr|left; reflexivity].
  - split; [reflexivity|]. unfold in_y in Hi. cbn [of_row u_Date] in Hi. rewrite time_year_midnight in Hi.
    split; [|cbn [fst]; lia]. unfold phase_code. cbn [confirmed of_row u_Phase snd]. destruct (r_full r); reflexivity.
Qed.
Lemma half_row cfg y h : shipped cfg -> 1902 <= y <= 2033 -> In h (halves_of (events_of_year cfg y)) ->
  exists q, In q (quarters_1902_2034 cfg) /\ h_Date h = midnight (fst q) /\ phase_code (h_Phase h) (snd q) /\ year_of_day (fst q) = y.
Proof.
  intros Hs Hy. unfold events_of_year. destruct (generate_spec cfg y) as (p & E & _). rewrite E, halves_flat. fold (seed cfg y).
  intros Hh. apply in_map_iff in Hh. destruct Hh as (x & <- & Hx). apply filter_In in Hx. destruct Hx as [Hx Hi].
  assert (Hm : exists d, u_Date x = midnight d).
  { apply in_moons_iter in Hx. destruct Hx as (i & _ & ->). destruct (iter_date cfg (seed cfg y) (kday cfg y) i eq_refl) as (d & Ed & _).
    exists d. exact Ed. }
  destruct Hm as (d & Ed).
  assert (H8 : year_of_day (d + 8) = y).
  { unfold half_in_y in Hi. rewrite Ed, midnight_add, time_year_midnight in Hi. lia. }
  apply (early_moons cfg y p x Hs ltac:(lia)) in Hx;
    [|unfold yr; rewrite Ed, time_year_midnight; pose proof (year_of_day_mono d (d + 8) ltac:(lia)); lia].
  destruct (chain_rows cfg y x Hs ltac:(lia) Hx) as (z & r & ly & Hz & Hr & ->).
  cbn [of_row u_Date] in Ed. apply midnight_inj in Ed. subst d.
  exists (kday cfg z + r_off r + 8, if r_full r then 3 else 1). split.
  - apply quarters_in. exists z, r. split; [lia|]. split; [exact Hr|right; left; reflexivity].
  - split; [unfold half_of; cbn [h_Date of_row u_Date fst]; rewrite midnight_add; reflexivity|].
    split; [|exact H8]. unfold phase_code, half_of. cbn [h_Phase of_row u_Phase snd]. destruct (r_full r); reflexivity.
Qed.

(** ** The records *)
Lemma record_moon m : In m embedded_moons <-> exists p r, In p astro_files /\ In r (file_records (snd p)) /\ m = moon_of_record r.
Proof.
  unfold embedded_moons. rewrite in_flat_map. split.
  - intros (p & Hp & Hm). apply in_map_iff in Hm. destruct Hm as (r & <- & Hr). exists p, r. split; [exact Hp|]. split; [exact Hr|reflexivity].
  - intros (p & r & Hp & Hr & ->). exists p. split; [exact Hp|]. apply in_map. exact Hr.
Qed.
Lemma records_in e : In e records <-> exists m, In m embedded_moons /\ e = (utc_day (ae_DateTimeISO m), ae_Code m).
Proof.
  assert (K : forall r, (rec_day r, rec_code r) = (utc_day (ae_DateTimeISO (moon_of_record r)), ae_Code (moon_of_record r))).
  { intros [[[c i] o] u]. unfold moon_of_record, rec_day, rec_iso, rec_code, utc_day. cbn [ae_Code ae_DateTimeISO t_ns].
    f_equal. unfold hour_ns, second_ns. lia. }
  unfold records. rewrite in_flat_map. split.
  - intros (p & Hp & He). apply in_map_iff in He. destruct He as (r & <- & Hr). exists (moon_of_record r).
    split; [apply record_moon; exists p, r; split; [exact Hp|]; split; [exact Hr|reflexivity]|apply K].
  - intros (m & Hm & ->). apply record_moon in Hm. destruct Hm as (p & r & Hp & Hr & ->). exists p. split; [exact Hp|].
    rewrite <- K. exact (in_map (fun r => (rec_day r, rec_code r)) _ _ Hr).
Qed.
