(** Dates: civil dates and their day numbers, and the date parser. *)
From Coq Require Import ZArith Lia Bool ZifyBool List String Ascii.
From Verif Require Import GoTime Text SpecText P_Time P_Text.
Import ListNotations.
Open Scope Z_scope.
Local Open Scope string_scope.

Lemma is_leap_spec y : is_leap y = true <-> leap_year y.
Proof. unfold is_leap, leap_year. lia. Qed.
Lemma days_in_length y m : 1 <= m <= 12 -> days_in m y = month_length (is_leap y) m.
Proof.
  intros H. assert (C : m = 1 \/ m = 2 \/ m = 3 \/ m = 4 \/ m = 5 \/ m = 6 \/ m = 7 \/ m = 8 \/ m = 9 \/ m = 10 \/ m = 11 \/ m = 12) by lia.
  unfold days_in. destruct (is_leap y); repeat (destruct C as [->|C]; [reflexivity|]); subst m; reflexivity.
Qed.
Lemma month_length_31 l m : 1 <= m <= 12 -> month_length l m <= 31.
Proof.
  intros H. assert (C : m = 1 \/ m = 2 \/ m = 3 \/ m = 4 \/ m = 5 \/ m = 6 \/ m = 7 \/ m = 8 \/ m = 9 \/ m = 10 \/ m = 11 \/ m = 12) by lia.
  destruct l; repeat (destruct C as [->|C]; [vm_compute; discriminate|]); subst m; vm_compute; discriminate.
Qed.
Lemma civil_iff y m d : civil_date y m d <-> 1 <= m <= 12 /\ 1 <= d <= days_in m y.
Proof.
  split.
  - intros (Hm & Hd & leap & Hl & Hle). split; [exact Hm|]. split; [exact Hd|]. rewrite days_in_length by exact Hm.
    replace (is_leap y) with leap; [exact Hle|]. rewrite <- is_leap_spec in Hl. destruct leap, (is_leap y); try reflexivity; [symmetry; apply Hl; reflexivity|apply Hl; reflexivity].
  - intros (Hm & Hd). split; [exact Hm|]. split; [lia|]. exists (is_leap y). split; [apply is_leap_spec|]. rewrite <- days_in_length by exact Hm. lia.
Qed.

Lemma day_number_parts y m d : civil_date y m d ->
  year_of_day (day_number y m d) = y /\ month_of_day (day_number y m d) = m /\ mday_of_day (day_number y m d) = d.
Proof.
  intros H. apply civil_iff in H. destruct H as [Hm Hd].
  assert (N : day_number y m d = days_before_year y + days_before_month (is_leap y) m + (d - 1)).
  { unfold day_number. replace ((m - 1) / 12) with 0 by (symmetry; apply Z.div_small; lia).
    rewrite Z.mod_small by lia. rewrite Z.add_0_r. replace (m - 1 + 1) with m by lia. reflexivity. }
  assert (C : m = 1 \/ m = 2 \/ m = 3 \/ m = 4 \/ m = 5 \/ m = 6 \/ m = 7 \/ m = 8 \/ m = 9 \/ m = 10 \/ m = 11 \/ m = 12) by lia.
  pose proof (days_before_year_succ y) as S.
  assert (Y : year_of_day (day_number y m d) = y).
  { apply year_of_day_iff. rewrite N. unfold days_in in Hd. unfold days_before_month in *.
    destruct (is_leap y); repeat (destruct C as [->|C]; [cbn in *; lia|]); subst m; cbn in *; lia. }
  assert (M : month_of_day (day_number y m d) = m).
  { unfold month_of_day. rewrite Y, N. unfold days_in in Hd. 
    replace (days_before_year y + days_before_month (is_leap y) m + (d - 1) - days_before_year y) with (days_before_month (is_leap y) m + (d - 1)) by lia.
    assert (L : forall (l : bool) k, 1 <= k <= 12 -> 0 <= days_before_month l k /\ days_before_month l (k + 1) <= (if l then 366 else 365)).
    { clear. intros l k Hk. assert (C : k = 1 \/ k = 2 \/ k = 3 \/ k = 4 \/ k = 5 \/ k = 6 \/ k = 7 \/ k = 8 \/ k = 9 \/ k = 10 \/ k = 11 \/ k = 12) by lia.
      destruct l; repeat (destruct C as [->|C]; [cbn; lia|]); subst k; cbn; lia. }
    assert (Mo : forall (l : bool) a b, 1 <= a -> a < b -> b <= 13 -> days_before_month l (a + 1) <= days_before_month l b).
    { clear. intros l a b H1 H2 H3. unfold days_before_month.
      assert (A : a = 1 \/ a = 2 \/ a = 3 \/ a = 4 \/ a = 5 \/ a = 6 \/ a = 7 \/ a = 8 \/ a = 9 \/ a = 10 \/ a = 11 \/ a = 12) by lia.
      assert (B : b = 2 \/ b = 3 \/ b = 4 \/ b = 5 \/ b = 6 \/ b = 7 \/ b = 8 \/ b = 9 \/ b = 10 \/ b = 11 \/ b = 12 \/ b = 13) by lia.
      destruct l; repeat (destruct A as [->|A]; [repeat (destruct B as [->|B]; [cbn; lia|]); subst b; cbn; lia|]);
        subst a; repeat (destruct B as [->|B]; [cbn; lia|]); subst b; cbn; lia. }
    set (q := days_before_month (is_leap y) m + (d - 1)) in *.
    assert (Q : 0 <= q < (if is_leap y then 366 else 365)) by (unfold q; destruct (L (is_leap y) m Hm); lia).
    destruct (month_of_yday_spec (is_leap y) q Q) as [R1 R2]. set (m' := month_of_yday (is_leap y) q) in *.
    destruct (Z.lt_trichotomy m' m) as [H|[H|H]]; [|exact H|].
    - specialize (Mo (is_leap y) m' m). unfold q in *. lia.
    - specialize (Mo (is_leap y) m m'). unfold q in *. lia. }
  split; [exact Y|]. split; [exact M|]. unfold mday_of_day. rewrite Y, M, N. lia.
Qed.

Lemma day_number_jan1 y : day_number y 1 1 = days_before_year y.
Proof.
  unfold day_number. cbv zeta. change ((1 - 1) / 12) with 0. change ((1 - 1) mod 12 + 1) with 1. rewrite !Z.add_0_r.
  change (days_before_month (is_leap y) 1) with 0. lia.
Qed.
Lemma day_number_dec31 y : day_number y 12 31 = days_before_year (y + 1) - 1.
Proof.
  unfold day_number. cbv zeta. change ((12 - 1) / 12) with 0. change ((12 - 1) mod 12 + 1) with 12. rewrite Z.add_0_r.
  change (days_before_month (is_leap y) 12) with (334 + (if is_leap y then 1 else 0)). rewrite days_before_year_succ. destruct (is_leap y); lia.
Qed.

(** ** Padded numerals *)
Fixpoint up (n : nat) (z : Z) : list Z := match n with O => [] | S n' => z :: up n' (z + 1) end.
Lemma up_in n : forall z x, z <= x < z + Z.of_nat n -> In x (up n z).
Proof. induction n as [|n IH]; intros z x H; [lia|]. cbn [up]. destruct (Z.eq_dec z x); [left; assumption|right; apply IH; lia]. Qed.
Lemma four_all : forallb (fun z => String.eqb (four z) (padded 4 z)) (up (Z.to_nat 10000) 0) = true.
Proof. vm_cast_no_check (eq_refl true). Qed.
Lemma four_padded z : 0 <= z <= 9999 -> four z = padded 4 z.
Proof.
  intros H. pose proof four_all as A. rewrite forallb_forall in A. apply String.eqb_eq. apply A. apply up_in. rewrite Z2Nat.id by lia. lia.
Qed.
Lemma two_all : forallb (fun z => String.eqb (two z) (padded 2 z)) (up 100 0) = true.
Proof. vm_cast_no_check (eq_refl true). Qed.
Lemma two_padded z : 0 <= z <= 99 -> two z = padded 2 z.
Proof.
  intros H. pose proof two_all as A. rewrite forallb_forall in A. apply String.eqb_eq. apply A. apply up_in. lia.
Qed.

(** ** The parser *)
Lemma parse_sound s t : parse_date s = Some t ->
  exists y m d, 0 <= y <= 9999 /\ civil_date y m d /\ s = iso_date y m d /\ t = time_date y m d 0 0.
Proof.
  unfold parse_date. intros H.
  destruct s as [|y3 [|y2 [|y1 [|y0 [|h1 [|m1 [|m0 [|h2 [|d1 [|d0 [|x s]]]]]]]]]]]; try discriminate H.
  destruct (forallb is_digit [y3; y2; y1; y0; m1; m0; d1; d0] && (h1 =? "-")%char && (h2 =? "-")%char) eqn:F; [|discriminate].
  apply andb_prop in F. destruct F as [F E2]. apply andb_prop in F. destruct F as [F E1]. apply Ascii.eqb_eq in E1, E2. subst h1 h2.
  cbn [forallb] in F. rewrite !andb_true_iff in F. destruct F as (F1 & F2 & F3 & F4 & F5 & F6 & F7 & F8 & _).
  destruct (digit_value_spec y3 F1) as [R1 D1]. destruct (digit_value_spec y2 F2) as [R2 D2]. destruct (digit_value_spec y1 F3) as [R3 D3].
  destruct (digit_value_spec y0 F4) as [R4 D4]. destruct (digit_value_spec m1 F5) as [R5 D5]. destruct (digit_value_spec m0 F6) as [R6 D6].
  destruct (digit_value_spec d1 F7) as [R7 D7]. destruct (digit_value_spec d0 F8) as [R8 D8].
  cbv zeta in H. set (y := ((digit_value y3 * 10 + digit_value y2) * 10 + digit_value y1) * 10 + digit_value y0) in *.
  set (m := digit_value m1 * 10 + digit_value m0) in *. set (d := digit_value d1 * 10 + digit_value d0) in *.
  destruct ((1 <=? m)%Z && (m <=? 12)%Z && (1 <=? d)%Z && (d <=? days_in m y)%Z) eqn:V; [|discriminate]. injection H as <-.
  exists y, m, d. split; [unfold y; lia|]. split; [apply civil_iff; lia|]. split; [|reflexivity].
  unfold iso_date. rewrite <- four_padded, <- !two_padded by (unfold y, m, d; lia). unfold four, two. cbn [append].
  assert (Y1 : y / 100 = digit_value y3 * 10 + digit_value y2) by (symmetry; apply (Z.div_unique y 100 _ (digit_value y1 * 10 + digit_value y0)); unfold y; lia).
  assert (Y2 : y mod 100 = digit_value y1 * 10 + digit_value y0) by (symmetry; apply (Z.mod_unique y 100 (digit_value y3 * 10 + digit_value y2)); unfold y; lia).
  assert (Q : forall a b, 0 <= b <= 9 -> (a * 10 + b) / 10 = a /\ (a * 10 + b) mod 10 = b).
  { intros a b Hb. split; [symmetry; apply (Z.div_unique _ 10 _ b); lia|symmetry; apply (Z.mod_unique _ 10 a); lia]. }
  rewrite Y1, Y2. unfold m, d. rewrite !(fun a b H => proj1 (Q a b H)) by assumption. rewrite !(fun a b H => proj2 (Q a b H)) by assumption.
  rewrite D1, D2, D3, D4, D5, D6, D7, D8. reflexivity.
Qed.

Lemma parse_complete y m d : 0 <= y <= 9999 -> civil_date y m d -> parse_date (iso_date y m d) = Some (time_date y m d 0 0).
Proof.
  intros Hy Hc. pose proof Hc as Hv. apply civil_iff in Hv. destruct Hv as [Hm Hd].
  assert (Hd' : d <= 31).
  { assert (C : m = 1 \/ m = 2 \/ m = 3 \/ m = 4 \/ m = 5 \/ m = 6 \/ m = 7 \/ m = 8 \/ m = 9 \/ m = 10 \/ m = 11 \/ m = 12) by lia.
    unfold days_in, days_before_month in Hd. destruct (is_leap y); repeat (destruct C as [->|C]; [cbn in Hd; lia|]); subst m; cbn in Hd; lia. }
  unfold iso_date. rewrite <- four_padded, <- !two_padded by lia. unfold four, two, parse_date. cbn [append].
  assert (Dg : forall z n, 0 <= z < n * 10 -> 0 < n <= 10 -> 0 <= z / 10 <= 9).
  { intros z n Hz Hn. split; [apply Z.div_pos; lia|]. apply Z.lt_succ_r. apply Z.div_lt_upper_bound; lia. }
  assert (Dm : forall z, 0 <= z mod 10 <= 9) by (intros z; pose proof (Z.mod_pos_bound z 10); lia).
  assert (B1 : 0 <= y / 100 < 100) by (split; [apply Z.div_pos; lia|apply Z.div_lt_upper_bound; lia]).
  assert (B2 : 0 <= y mod 100 < 100) by (apply Z.mod_pos_bound; lia).
  cbn [forallb].
  rewrite !(fun z H => proj2 (digit_cases z H)) by (apply Dm || (apply (Dg _ 10); lia)).
  rewrite !(fun z H => proj1 (digit_cases z H)) by (apply Dm || (apply (Dg _ 10); lia)).
  cbn [andb Ascii.eqb Bool.eqb]. change (("-" =? "-")%char) with true. cbn [andb]. cbv zeta.
  replace (((y / 100 / 10 * 10 + (y / 100) mod 10) * 10 + y mod 100 / 10) * 10 + (y mod 100) mod 10) with y
    by (pose proof (Z.div_mod y 100); pose proof (Z.div_mod (y / 100) 10); pose proof (Z.div_mod (y mod 100) 10); lia).
  replace (m / 10 * 10 + m mod 10) with m by (pose proof (Z.div_mod m 10); lia).
  replace (d / 10 * 10 + d mod 10) with d by (pose proof (Z.div_mod d 10); lia).
  replace ((1 <=? m)%Z && (m <=? 12)%Z && (1 <=? d)%Z && (d <=? days_in m y)%Z) with true by lia. reflexivity.
Qed.
Lemma iso_length y m d : 0 <= y <= 9999 -> 0 <= m <= 99 -> 0 <= d <= 99 -> String.length (iso_date y m d) = 10%nat.
Proof. intros. unfold iso_date. rewrite <- four_padded, <- !two_padded by lia. reflexivity. Qed.
