(** The chain of uposathas that NextUposatha generates from a Kattika moon (C20-C26, C49). *)
From Coq Require Import ZArith Lia Bool ZifyBool List String.
From Verif Require Import GoTime SuriyaYear Helpers UposathaMoon CalDay Spec.
From Verif Require Import P_Time P_Year P_Counts P_Kattika.
Import ListNotations.
Open Scope Z_scope.
Ltac Zify.zify_post_hook ::= Z.div_mod_to_equations.

(** ** Rows: a moon relative to the Kattika day [k] *)

Record row := mkRow {
  r_off : Z; r_full : bool; r_num : Z; r_total : Z; r_udays : Z; r_mdays : Z;
  r_month : Z; r_season : Z; r_ly : Z; r_av : bool
}.

(** The year flags at offset [j] from [k]. *)
Definition fl_am (k j : Z) : bool := am (year_of_day (k + j)).
Definition fl_av (cfg : config) (k j : Z) : bool := is_adhikavara cfg (su_init (year_of_day (k + j))).

Definition row_event (k : Z) (r : row) : string :=
  if r_full r then full_moon_event (fl_am k (r_off r - 15)) (r_month r) else "".

Definition of_row (k ly : Z) (r : row) : UposathaMoon :=
  mkUposatha (midnight (k + r_off r)) 0 0 (if r_full r then "full" else "new") (row_event k r)
    (r_num r) (r_total r) (r_udays r) (r_mdays r) (r_month r) (r_season r) (ly + r_ly r) (r_av r) "" "".

Definition next_row (a v : bool) (r : row) : row :=
  if r_full r then
    let month := next_month a (r_month r) in
    let adhikavara_month := v && (month =? 8) in
    let m_days := if adhikavara_month then 30 else if Z.rem month 2 =? 1 then 30 else 29 in
    let u_days := if m_days =? 29 then 14 else 15 in
    let s_total := if a && (((5 <=? month) && (month <=? 8)) || (month =? 13)) then 10 else 8 in
    if r_num r <? r_total r
    then mkRow (r_off r + u_days) false (r_num r + 1) s_total u_days m_days month (r_season r) (r_ly r) adhikavara_month
    else if r_month r =? 12
         then mkRow (r_off r + u_days) false 1 s_total u_days m_days month 1 (r_ly r + 1) adhikavara_month
         else mkRow (r_off r + u_days) false 1 s_total u_days m_days month (r_season r + 1) (r_ly r) adhikavara_month
  else
    mkRow (r_off r + 15) true (r_num r + 1) (r_total r) 15 (r_mdays r) (r_month r) (r_season r) (r_ly r) false.

(** NextUposatha with the two flags as parameters. *)
Definition next_flags (a v : bool) (lu : UposathaMoon) : UposathaMoon :=
  if String.eqb (u_Phase lu) "new" then
    mkUposatha (time_add (u_Date lu) (15 * hour_ns * 24)) 0 0 "full"
      (full_moon_event a (u_LunarMonth lu))
      (u_S_Number lu + 1) (u_S_Total lu) 15 (u_M_Days lu) (u_LunarMonth lu)
      (u_LunarSeason lu) (u_LunarYear lu) false "" ""
  else
    let month := next_month a (u_LunarMonth lu) in
    let adhikavara_month := v && (month =? 8) in
    let m_days := if adhikavara_month then 30 else if Z.rem month 2 =? 1 then 30 else 29 in
    let u_days := if m_days =? 29 then 14 else 15 in
    let s_total := if a && (((5 <=? month) && (month <=? 8)) || (month =? 13)) then 10 else 8 in
    let '(s_number, season, year) :=
      if u_S_Number lu <? u_S_Total lu
      then (u_S_Number lu + 1, u_LunarSeason lu, u_LunarYear lu)
      else if u_LunarMonth lu =? 12
           then (1, 1, u_LunarYear lu + 1)
           else (1, u_LunarSeason lu + 1, u_LunarYear lu) in
    mkUposatha (time_add (u_Date lu) (u_days * hour_ns * 24)) 0 0 "new" ""
      s_number s_total u_days m_days month season year adhikavara_month "" "".

Lemma next_uposatha_flags cfg u :
  next_uposatha cfg u =
  next_flags (am (time_year (u_Date u))) (is_adhikavara cfg (su_init (time_year (u_Date u)))) u.
Proof. unfold next_uposatha, next_flags, am. cbv zeta. reflexivity. Qed.

Lemma moon_eq d d' e e' n n' t t' ud ud' md md' m m' s s' ly ly' av' av'' p p' :
  d = d' -> p = p' -> e = e' -> n = n' -> t = t' -> ud = ud' -> md = md' -> m = m' -> s = s' -> ly = ly' -> av' = av'' ->
  mkUposatha d 0 0 p e n t ud md m s ly av' "" "" = mkUposatha d' 0 0 p' e' n' t' ud' md' m' s' ly' av'' "" "".
Proof. intros. subst. reflexivity. Qed.

Lemma next_flags_row a v k ly r : a = fl_am k (r_off r) ->
  next_flags a v (of_row k ly r) = of_row k ly (next_row a v r).
Proof.
  intros Ha. destruct r as [off full num total ud md month season rly av'].
  unfold next_flags, next_row, of_row; cbn [u_Date u_Phase u_LunarMonth u_S_Number u_S_Total u_M_Days u_LunarSeason u_LunarYear r_off r_full r_num r_total r_udays r_mdays r_month r_season r_ly r_av].
  destruct full; cbn [String.eqb Ascii.eqb Bool.eqb].
  - rewrite midnight_add24. set (nm := next_month a month). clearbody nm.
    set (md' := if v && (nm =? 8) then 30 else if Z.rem nm 2 =? 1 then 30 else 29). clearbody md'.
    set (ud' := if md' =? 29 then 14 else 15). clearbody ud'.
    destruct (num <? total); [|destruct (month =? 12)];
      apply moon_eq; try reflexivity; cbn [r_off r_ly]; try (f_equal; lia); lia.
  - rewrite midnight_add24. apply moon_eq; try reflexivity; cbn [r_off r_ly]; [f_equal; lia|].
    unfold row_event. cbn [r_off r_full r_month]. cbn [r_off] in Ha.
    replace (off + 15 - 15) with off by lia. rewrite Ha. reflexivity.
Qed.

Lemma next_of_row cfg k ly r :
  next_uposatha cfg (of_row k ly r) = of_row k ly (next_row (fl_am k (r_off r)) (fl_av cfg k (r_off r)) r).
Proof.
  rewrite next_uposatha_flags.
  assert (E : time_year (u_Date (of_row k ly r)) = year_of_day (k + r_off r)) by exact (time_year_midnight _).
  rewrite E. fold (fl_am k (r_off r)) (fl_av cfg k (r_off r)). exact (next_flags_row _ _ k ly r eq_refl).
Qed.

(** ** Iterating *)

Fixpoint moons (cfg : config) (n : nat) (u : UposathaMoon) : list UposathaMoon :=
  match n with O => [] | S n' => next_uposatha cfg u :: moons cfg n' (next_uposatha cfg u) end.
Fixpoint iter_moon (cfg : config) (n : nat) (u : UposathaMoon) : UposathaMoon :=
  match n with O => u | S n' => iter_moon cfg n' (next_uposatha cfg u) end.
Lemma moons_app cfg n m u : moons cfg (n + m) u = moons cfg n u ++ moons cfg m (iter_moon cfg n u).
Proof. revert u. induction n as [|n IH]; intros u; cbn [moons iter_moon app Nat.add]; [reflexivity|]. f_equal. apply IH. Qed.
Lemma iter_moon_add cfg n m u : iter_moon cfg (n + m) u = iter_moon cfg m (iter_moon cfg n u).
Proof. revert u. induction n as [|n IH]; intros u; cbn [iter_moon Nat.add]; [reflexivity|apply IH]. Qed.
Lemma iter_moon_S cfg n u : iter_moon cfg (S n) u = next_uposatha cfg (iter_moon cfg n u).
Proof. replace (S n) with (n + 1)%nat by lia. rewrite iter_moon_add. reflexivity. Qed.
Lemma moons_length cfg n u : List.length (moons cfg n u) = n.
Proof. revert u. induction n as [|n IH]; intros u; cbn; [reflexivity|]. f_equal. apply IH. Qed.

(** Rows with constant flags. *)
Fixpoint rows (a v : bool) (n : nat) (r : row) : list row :=
  match n with O => [] | S n' => next_row a v r :: rows a v n' (next_row a v r) end.
Definition row0 : row := mkRow 0 true 8 8 15 29 12 3 (-1) false.
Definition moon_count (a : bool) : nat := if a then 26 else 24.
Definition year_rows (a v : bool) : list row := rows a v (moon_count a) row0.

Definition row_eqb (x y : row) : bool :=
  (r_off x =? r_off y) && Bool.eqb (r_full x) (r_full y) && (r_num x =? r_num y) && (r_total x =? r_total y)
  && (r_udays x =? r_udays y) && (r_mdays x =? r_mdays y) && (r_month x =? r_month y) && (r_season x =? r_season y)
  && (r_ly x =? r_ly y) && Bool.eqb (r_av x) (r_av y).
Lemma row_eqb_eq x y : row_eqb x y = true -> x = y.
Proof.
  destruct x, y. unfold row_eqb. cbn. intros E.
  repeat (apply andb_true_iff in E; destruct E as [E ?]).
  repeat match goal with Q : (_ =? _) = true |- _ => apply Z.eqb_eq in Q | Q : Bool.eqb _ _ = true |- _ => apply Bool.eqb_prop in Q end.
  subst. reflexivity.
Qed.

(** Before offset [free] the flags make no difference to the next row. *)
Fixpoint rows_ok (free : Z) (a v : bool) (n : nat) (r : row) : bool :=
  match n with
  | O => true
  | S n' =>
      ((free <=? r_off r) ||
       (row_eqb (next_row false false r) (next_row a v r) && row_eqb (next_row false true r) (next_row a v r)
        && row_eqb (next_row true false r) (next_row a v r) && row_eqb (next_row true true r) (next_row a v r)))
      && rows_ok free a v n' (next_row a v r)
  end.

Lemma rows_ok_next free a v a' v' n r : rows_ok free a v (S n) r = true ->
  (free <= r_off r -> a' = a /\ v' = v) ->
  next_row a' v' r = next_row a v r /\ rows_ok free a v n (next_row a v r) = true.
Proof.
  cbn [rows_ok]. intros E Hf. apply andb_true_iff in E. destruct E as [E1 E2]. split; [|exact E2].
  destruct (Z.leb_spec free (r_off r)) as [Hl|Hl]; cbn [orb] in E1.
  - destruct (Hf Hl) as [-> ->]. reflexivity.
  - rewrite !andb_true_iff in E1. destruct E1 as [[[? ?] ?] ?].
    destruct a', v'; apply row_eqb_eq; assumption.
Qed.

Lemma next_row_off a v r : r_off r + 14 <= r_off (next_row a v r) <= r_off r + 15.
Proof.
  unfold next_row. destruct (r_full r); [|cbn; lia].
  set (ud := if _ =? 29 then 14 else 15). assert (14 <= ud <= 15) by (unfold ud; destruct (_ =? 29); lia). clearbody ud.
  destruct (r_num r <? r_total r); [|destruct (r_month r =? 12)]; cbn [r_off]; lia.
Qed.

Lemma rows_off_ge a v n : forall r x, In x (rows a v n r) -> r_off r < r_off x.
Proof.
  induction n as [|n IH]; intros r x; cbn [rows In]; [tauto|].
  pose proof (next_row_off a v r). intros [<-|Hi]; [lia|]. specialize (IH _ _ Hi). lia.
Qed.

(** The last row has the largest offset. *)
Fixpoint iter_row (a v : bool) (n : nat) (r : row) : row :=
  match n with O => r | S n' => iter_row a v n' (next_row a v r) end.
Lemma iter_row_off a v n : forall r, r_off r + 14 * Z.of_nat n <= r_off (iter_row a v n r).
Proof.
  induction n as [|n IH]; intros r; cbn [iter_row]; [lia|].
  pose proof (next_row_off a v r). specialize (IH (next_row a v r)). lia.
Qed.

Lemma moons_rows cfg k ly a v free n : forall r, rows_ok free a v n r = true ->
  (forall j, free <= j < r_off (iter_row a v n r) -> fl_am k j = a /\ fl_av cfg k j = v) ->
  moons cfg n (of_row k ly r) = map (of_row k ly) (rows a v n r) /\
  iter_moon cfg n (of_row k ly r) = of_row k ly (iter_row a v n r).
Proof.
  induction n as [|n IH]; intros r Hok Hfl; [split; reflexivity|].
  cbn [moons iter_moon rows map iter_row]. rewrite next_of_row.
  cbn [iter_row] in Hfl. pose proof (iter_row_off a v n (next_row a v r)) as Hi. pose proof (next_row_off a v r) as Hn.
  destruct (rows_ok_next free a v (fl_am k (r_off r)) (fl_av cfg k (r_off r)) n r Hok) as [E Hok'].
  { intros Hl. apply Hfl. lia. }
  rewrite E. destruct (IH (next_row a v r) Hok' Hfl) as [E1 E2]. rewrite E1, E2. split; reflexivity.
Qed.

Lemma year_rows_ok a v : rows_ok 118 a v (moon_count a) row0 = true.
Proof. destruct a, v; vm_compute; reflexivity. Qed.
Lemma first_rows_ok a v : rows_ok 118 a v 8 row0 = true.
Proof. destruct a, v; vm_compute; reflexivity. Qed.

(** The last row of a lunar year. *)
Definition lunar_days (a v : bool) : Z := if a then 384 else if v then 355 else 354.
Lemma last_row a v : a && v = false ->
  iter_row a v (moon_count a) row0 = mkRow (lunar_days a v) true 8 8 15 29 12 3 0 false.
Proof. destruct a, v; try discriminate; intros _; vm_compute; reflexivity. Qed.

Lemma seed_row k ly : ly = year_of_day k + 544 -> kattika_seed (midnight k) = of_row k ly row0.
Proof.
  intros ->. unfold kattika_seed. rewrite time_year_midnight. unfold of_row, row0, row_event.
  cbn [r_off r_full r_num r_total r_udays r_mdays r_month r_season r_ly r_av].
  apply moon_eq; try reflexivity; [f_equal; lia| |unfold BEdiff; lia].
  unfold full_moon_event. destruct (fl_am k (0 - 15)); reflexivity.
Qed.

(** A year whose Kattika, and the next one, lie where they should. *)
Definition valid (cfg : config) (y : Z) : Prop :=
  year_of_day (kday cfg y) = y - 1 /\ year_of_day (kday cfg (y + 1)) = y /\
  days_before_year y - kday cfg y <= 118 /\
  am y && is_adhikavara cfg (su_init y) = false.

Lemma len_days cfg y : len cfg y = lunar_days (am y) (is_adhikavara cfg (su_init y)).
Proof. unfold len, year_length, lunar_days, am. reflexivity. Qed.

Lemma valid_flags cfg y j : valid cfg y -> 118 <= j <= len cfg y ->
  fl_am (kday cfg y) j = am y /\ fl_av cfg (kday cfg y) j = is_adhikavara cfg (su_init y).
Proof.
  intros (H1 & H2 & H3 & _) Hj. rewrite kday_step in H2.
  assert (E : year_of_day (kday cfg y + j) = y).
  { apply year_of_day_iff in H2. apply year_of_day_iff. lia. }
  unfold fl_am, fl_av. rewrite E. split; reflexivity.
Qed.

Lemma lunar_year cfg y : valid cfg y ->
  let k := kday cfg y in let a := am y in let v := is_adhikavara cfg (su_init y) in
  moons cfg (moon_count a) (kattika_seed (midnight k)) = map (of_row k (y + 543)) (year_rows a v) /\
  iter_moon cfg (moon_count a) (kattika_seed (midnight k)) = kattika_seed (midnight (kday cfg (y + 1))).
Proof.
  intros Hv. cbv zeta. pose proof Hv as (H1 & H2 & H3 & H4).
  rewrite (seed_row (kday cfg y) (y + 543)) by lia.
  destruct (moons_rows cfg (kday cfg y) (y + 543) (am y) (is_adhikavara cfg (su_init y)) 118 (moon_count (am y)) row0)
    as [E1 E2].
  - apply year_rows_ok.
  - rewrite last_row by exact H4. cbn [r_off]. intros j Hj. apply valid_flags; [exact Hv|]. rewrite len_days. lia.
  - split; [exact E1|]. rewrite E2, last_row by exact H4.
    rewrite (seed_row (kday cfg (y + 1)) (y + 544)) by lia. rewrite kday_step, len_days.
    unfold of_row, row0, row_event; cbn [r_off r_full r_num r_total r_udays r_mdays r_month r_season r_ly r_av].
    apply moon_eq; try reflexivity; [f_equal; lia| |lia].
    unfold full_moon_event. set (x := fl_am _ _). set (x' := fl_am _ _). destruct x, x'; reflexivity.
Qed.

(** ** GenerateSolarYear's loop *)

Lemma next_date cfg u d : u_Date u = midnight d ->
  exists d', u_Date (next_uposatha cfg u) = midnight d' /\ d + 14 <= d' <= d + 15.
Proof.
  intros Hd. rewrite next_uposatha_flags. unfold next_flags. rewrite Hd.
  set (a := am _). set (v := is_adhikavara _ _). clearbody a v.
  destruct (String.eqb (u_Phase u) "new"); cbn [u_Date].
  - rewrite midnight_add24. eexists. split; [reflexivity|lia].
  - set (m := next_month a (u_LunarMonth u)). cbv zeta.
    set (ud := if _ =? 29 then 14 else 15). assert (14 <= ud <= 15) by (unfold ud; destruct (_ =? 29); lia). clearbody ud.
    rewrite midnight_add24. destruct (u_S_Number u <? u_S_Total u); [|destruct (u_LunarMonth u =? 12)]; cbn [u_Date];
      eexists; (split; [reflexivity|lia]).
Qed.

Lemma generate_loop_spec cfg y fuel : forall u d, u_Date u = midnight d ->
  days_before_year (y + 1) <= d + 14 * Z.of_nat fuel ->
  exists p, (p <= fuel)%nat /\ generate_loop cfg fuel y u = Some (flat_map (uposatha_events y) (moons cfg p u)) /\
    (forall i, (i < p)%nat -> time_year (u_Date (iter_moon cfg i u)) <= y) /\
    y < time_year (u_Date (iter_moon cfg p u)).
Proof.
  induction fuel as [|fuel IH]; intros u d Hd Hf; cbn [generate_loop].
  - rewrite Hd, time_year_midnight. destruct (Z.leb_spec (year_of_day d) y) as [Hl|Hl].
    + apply year_of_day_le in Hl. lia.
    + exists O. split; [lia|]. split; [reflexivity|]. split; [lia|].
      cbn [iter_moon]. rewrite Hd, time_year_midnight. lia.
  - destruct (Z.leb_spec (time_year (u_Date u)) y) as [Hl|Hl].
    + destruct (next_date cfg u d Hd) as (d' & Hd' & Hb).
      destruct (IH (next_uposatha cfg u) d' Hd' ltac:(lia)) as (p & Hp & E & Hle & Hgt).
      exists (S p). rewrite E. split; [lia|]. split; [reflexivity|]. split; [|exact Hgt].
      intros [|i] Hi; [exact Hl|]. apply (Hle i). lia.
    + exists O. split; [lia|]. split; [reflexivity|]. split; [lia|]. exact Hl.
Qed.

Lemma generate_spec cfg y :
  let seed := kattika_seed (midnight (kday cfg y)) in
  exists p, generate_solar_year cfg y = Some (flat_map (uposatha_events y) (moons cfg p seed)) /\
    (forall i, (i < p)%nat -> time_year (u_Date (iter_moon cfg i seed)) <= y) /\
    y < time_year (u_Date (iter_moon cfg p seed)).
Proof.
  cbv zeta. unfold generate_solar_year. rewrite previous_kattika_eq.
  destruct (generate_loop_spec cfg y (generate_fuel y (midnight (kday cfg y))) (kattika_seed (midnight (kday cfg y)))
              (kday cfg y) eq_refl) as (p & _ & E).
  - unfold generate_fuel. rewrite local_day_midnight. lia.
  - exists p. exact E.
Qed.
