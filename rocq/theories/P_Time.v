(** Facts about the Gregorian calendar model of GoTime.v. *)
From Coq Require Import ZArith Lia Bool ZifyBool.
From Verif Require Import GoTime.
Open Scope Z_scope.
Ltac Zify.zify_post_hook ::= Z.div_mod_to_equations.

Lemma is_leap_01 y : (if is_leap y then 1 else 0) = 1 \/ (if is_leap y then 1 else 0) = 0.
Proof. destruct (is_leap y); auto. Qed.

Lemma days_before_year_succ y :
  days_before_year (y + 1) = days_before_year y + (if is_leap y then 366 else 365).
Proof.
  unfold days_before_year, is_leap.
  replace (y + 1 - 1) with y by lia.
  destruct (Z.eqb_spec (y mod 4) 0), (Z.eqb_spec (y mod 100) 0), (Z.eqb_spec (y mod 400) 0);
    cbn [andb orb negb]; lia.
Qed.

Lemma days_before_year_step y :
  days_before_year y + 365 <= days_before_year (y + 1) <= days_before_year y + 366.
Proof. rewrite days_before_year_succ. destruct (is_leap y); lia. Qed.

Lemma days_before_year_mono y z : y < z -> days_before_year y + 365 <= days_before_year z.
Proof.
  intros H. unfold days_before_year.
  assert ((y - 1) / 4 <= (z - 1) / 4) by (apply Z.div_le_mono; lia).
  assert ((y - 1) / 400 <= (z - 1) / 400) by (apply Z.div_le_mono; lia).
  destruct (Z.eq_dec z (y + 1)) as [->|]; [|].
  - pose proof (days_before_year_step y) as Hs. unfold days_before_year in Hs. lia.
  - lia.
Qed.

Lemma days_before_year_le y z : y <= z -> days_before_year y <= days_before_year z.
Proof.
  intros H. destruct (Z.eq_dec y z) as [->|]; [lia|].
  pose proof (days_before_year_mono y z). lia.
Qed.

Lemma year_of_day_spec n :
  days_before_year (year_of_day n) <= n < days_before_year (year_of_day n + 1).
Proof.
  unfold year_of_day.
  set (e := 400 * n / 146097 + 1).
  assert (He : 146097 * (e - 1) <= 400 * n < 146097 * e) by (unfold e; lia).
  clearbody e.
  destruct (Z.ltb_spec n (days_before_year e)) as [H1|H1].
  - replace (e - 1 + 1) with e by lia. split; [|lia].
    unfold days_before_year in *. lia.
  - destruct (Z.leb_spec (days_before_year (e + 1)) n) as [H2|H2]; [|lia].
    split; [lia|]. unfold days_before_year in *. lia.
Qed.

Lemma year_of_day_iff n y :
  year_of_day n = y <-> days_before_year y <= n < days_before_year (y + 1).
Proof.
  pose proof (year_of_day_spec n) as H. split.
  - intros <-. exact H.
  - intros H'. set (z := year_of_day n) in *.
    destruct (Z.lt_trichotomy z y) as [Hl|[->|Hl]]; [|reflexivity|].
    + pose proof (days_before_year_le (z + 1) y). lia.
    + pose proof (days_before_year_le (y + 1) z). lia.
Qed.

Lemma year_of_day_ge n y : y <= year_of_day n <-> days_before_year y <= n.
Proof.
  pose proof (year_of_day_spec n) as H. split; intros H'.
  - pose proof (days_before_year_le _ _ H'). lia.
  - destruct (Z_le_gt_dec y (year_of_day n)); [assumption|].
    pose proof (days_before_year_le (year_of_day n + 1) y). lia.
Qed.

Lemma year_of_day_le n y : year_of_day n <= y <-> n < days_before_year (y + 1).
Proof.
  pose proof (year_of_day_ge n (y + 1)). lia.
Qed.

Lemma year_of_day_mono n m : n <= m -> year_of_day n <= year_of_day m.
Proof. intros H. apply year_of_day_ge. pose proof (year_of_day_spec n). lia. Qed.

Ltac month_cases :=
  repeat match goal with
  | |- context [?a <? ?b] => destruct (Z.ltb_spec a b)
  end.

Lemma month_of_yday_spec (l : bool) (d : Z) :
  0 <= d < (if l then 366 else 365) ->
  1 <= month_of_yday l d <= 12 /\
  days_before_month l (month_of_yday l d) <= d < days_before_month l (month_of_yday l d + 1).
Proof.
  unfold month_of_yday. destruct l; cbn [days_before_month Z.leb Z.eqb Pos.eqb Pos.compare Pos.compare_cont Z.compare];
    intros H; unfold days_before_month; cbn; month_cases; cbn; lia.
Qed.

Lemma month_of_day_range n : 1 <= month_of_day n <= 12.
Proof.
  unfold month_of_day.
  apply month_of_yday_spec.
  pose proof (year_of_day_spec n) as H. pose proof (days_before_year_succ (year_of_day n)).
  destruct (is_leap _); lia.
Qed.

Lemma day_number_civil n :
  day_number (year_of_day n) (month_of_day n) (mday_of_day n) = n.
Proof.
  unfold day_number. pose proof (month_of_day_range n).
  rewrite (Z.div_small (month_of_day n - 1)) by lia.
  rewrite (Z.mod_small (month_of_day n - 1)) by lia.
  replace (year_of_day n + 0) with (year_of_day n) by lia.
  replace (month_of_day n - 1 + 1) with (month_of_day n) by lia.
  unfold mday_of_day. lia.
Qed.

Lemma day_number_add y m d k : day_number y m (d + k) = day_number y m d + k.
Proof. unfold day_number. lia. Qed.

(** The day of the month is within the month. *)
Lemma mday_of_day_spec n :
  1 <= mday_of_day n /\
  mday_of_day n <= days_before_month (is_leap (year_of_day n)) (month_of_day n + 1)
                   - days_before_month (is_leap (year_of_day n)) (month_of_day n).
Proof.
  unfold mday_of_day, month_of_day.
  pose proof (year_of_day_spec n) as H. pose proof (days_before_year_succ (year_of_day n)) as Hs.
  pose proof (month_of_yday_spec (is_leap (year_of_day n)) (n - days_before_year (year_of_day n))) as Hm.
  cbv zeta. lia.
Qed.

(** ** Instants *)

Lemma time_eq a b : t_ns a = t_ns b -> t_off a = t_off b -> a = b.
Proof. destruct a, b; cbn; intros -> ->; reflexivity. Qed.

Lemma local_ns_split t : local_ns t = local_day t * day_ns + clock_ns t.
Proof.
  unfold local_day, clock_ns. pose proof (Z.div_mod (local_ns t) day_ns). unfold day_ns in *. lia.
Qed.

Lemma clock_ns_range t : 0 <= clock_ns t < day_ns.
Proof. unfold clock_ns. apply Z.mod_pos_bound. reflexivity. Qed.

(** [AddDate(0, 0, n)] in a fixed-offset zone is [Add(n * 24h)]. *)
Lemma time_add_date_days t n : time_add_date t 0 0 n = time_add t (n * day_ns).
Proof.
  unfold time_add_date, time_date, time_add. rewrite !Z.add_0_r, day_number_add.
  unfold time_year, time_month, time_mday. rewrite day_number_civil.
  apply time_eq; cbn [t_ns t_off]; [|reflexivity].
  pose proof (local_ns_split t). unfold local_ns in *. lia.
Qed.

Lemma local_day_midnight n : local_day (midnight n) = n.
Proof.
  unfold local_day, local_ns, midnight. cbn [t_ns t_off].
  replace (n * day_ns + 0 * second_ns) with (n * day_ns) by lia.
  apply Z.div_mul. discriminate.
Qed.

Lemma time_year_midnight n : time_year (midnight n) = year_of_day n.
Proof. unfold time_year. rewrite local_day_midnight. reflexivity. Qed.

Lemma midnight_add n k : time_add (midnight n) (k * day_ns) = midnight (n + k).
Proof. apply time_eq; cbn; lia. Qed.

Lemma midnight_add24 n k : time_add (midnight n) (k * hour_ns * 24) = midnight (n + k).
Proof. apply time_eq; cbn; unfold hour_ns, day_ns; lia. Qed.

Lemma midnight_inj n m : midnight n = midnight m -> n = m.
Proof. unfold midnight. intros H. injection H. unfold day_ns. lia. Qed.

Lemma day_number_date y m d : time_date y m d 0 0 = midnight (day_number y m d).
Proof. apply time_eq; cbn; lia. Qed.
