(** CalculatePreviousKattika: stepping, closed form, drift (C14-C17). *)
From Coq Require Import ZArith Lia Bool ZifyBool List.
From Verif Require Import GoTime SuriyaYear Helpers Spec P_Time P_Year P_Counts.
Open Scope Z_scope.
Ltac Zify.zify_post_hook ::= Z.div_mod_to_equations.

Definition len (cfg : config) (y : Z) : Z := year_length cfg (su_init y).

Fixpoint sum_len (cfg : config) (a : Z) (n : nat) : Z :=
  match n with O => 0 | S n' => len cfg a + sum_len cfg (a + 1) n' end.

Lemma sum_len_snoc cfg a n : sum_len cfg a (S n) = sum_len cfg a n + len cfg (a + Z.of_nat n).
Proof.
  revert a. induction n as [|n IH]; intros a.
  - cbn [sum_len]. change (Z.of_nat 0) with 0. rewrite !Z.add_0_r. reflexivity.
  - change (sum_len cfg a (S (S n))) with (len cfg a + sum_len cfg (a + 1) (S n)).
    rewrite IH. cbn [sum_len]. replace (a + 1 + Z.of_nat n) with (a + Z.of_nat (S n)) by lia. lia.
Qed.

Definition kbase : Z := 735926.
Lemma kbase_ok : kattika_epoch = midnight kbase.
Proof. reflexivity. Qed.

(** The day number of CalculatePreviousKattika. *)
Definition kday (cfg : config) (y : Z) : Z :=
  if 2016 <=? y then kbase + sum_len cfg 2016 (Z.to_nat (y - 2016))
  else kbase - sum_len cfg y (Z.to_nat (2016 - y)).

Lemma kday_step cfg y : kday cfg (y + 1) = kday cfg y + len cfg y.
Proof.
  unfold kday. destruct (Z.leb_spec 2016 (y + 1)), (Z.leb_spec 2016 y); try lia.
  - replace (Z.to_nat (y + 1 - 2016)) with (S (Z.to_nat (y - 2016))) by lia.
    rewrite sum_len_snoc. replace (2016 + Z.of_nat (Z.to_nat (y - 2016))) with y by lia. lia.
  - replace y with 2015 by lia. cbn [Z.to_nat sum_len]. change (Z.to_nat (2015 + 1 - 2016)) with O.
    change (Z.to_nat (2016 - 2015)) with 1%nat. cbn [sum_len]. lia.
  - replace (Z.to_nat (2016 - y)) with (S (Z.to_nat (2016 - (y + 1)))) by lia.
    cbn [sum_len]. lia.
Qed.

Lemma step_days_fwd cfg y : kattika_step_days cfg 1 y = len cfg (y + 1).
Proof. reflexivity. Qed.
Lemma step_days_bwd cfg y : kattika_step_days cfg (-1) y = len cfg y.
Proof. reflexivity. Qed.

Lemma loop_fwd cfg n : forall y,
  kattika_loop cfg n 1 (y + Z.of_nat n) y (midnight (kday cfg (y + 1)))
  = Some (midnight (kday cfg (y + Z.of_nat n + 1))).
Proof.
  induction n as [|n IH]; intros y.
  - cbn [kattika_loop]. replace (y + Z.of_nat 0) with y by lia. rewrite Z.eqb_refl. reflexivity.
  - cbn [kattika_loop]. destruct (Z.eqb_spec y (y + Z.of_nat (S n))); [lia|].
    rewrite step_days_fwd, midnight_add24, Z.mul_1_r, <- kday_step.
    replace (y + Z.of_nat (S n)) with (y + 1 + Z.of_nat n) by lia. apply IH.
Qed.

Lemma loop_bwd cfg n : forall y,
  kattika_loop cfg n (-1) (y - Z.of_nat n) y (midnight (kday cfg (y + 1)))
  = Some (midnight (kday cfg (y - Z.of_nat n + 1))).
Proof.
  induction n as [|n IH]; intros y.
  - cbn [kattika_loop]. replace (y - Z.of_nat 0) with y by lia. rewrite Z.eqb_refl. reflexivity.
  - cbn [kattika_loop]. destruct (Z.eqb_spec y (y - Z.of_nat (S n))); [lia|].
    rewrite step_days_bwd, midnight_add24.
    replace (kday cfg (y + 1) + len cfg y * -1) with (kday cfg (y + -1 + 1)).
    2:{ replace (y + -1 + 1) with y by lia. rewrite kday_step. lia. }
    replace (y - Z.of_nat (S n)) with (y + -1 - Z.of_nat n) by lia. apply IH.
Qed.

Lemma kattika_epoch_year : time_year kattika_epoch = 2015.
Proof. reflexivity. Qed.
Lemma kday_2016 cfg : kday cfg 2016 = kbase.
Proof. reflexivity. Qed.

Lemma previous_kattika_eq cfg y : previous_kattika cfg y = Some (midnight (kday cfg y)).
Proof.
  unfold previous_kattika. rewrite kattika_epoch_year, kbase_ok. cbv zeta.
  destruct (Z.ltb_spec 2015 (y - 1)) as [Hlt|Hge]; [|destruct (Z.ltb_spec (y - 1) 2015) as [Hlt'|Hge']].
  - pose proof (loop_fwd cfg (Z.to_nat (y - 1 - 2015)) 2015) as L.
    change (2015 + 1) with 2016 in L. rewrite kday_2016 in L.
    replace (2015 + Z.of_nat (Z.to_nat (y - 1 - 2015))) with (y - 1) in L by lia.
    replace (y - 1 + 1) with y in L by lia.
    replace (Z.abs (y - 1 - 2015)) with (y - 1 - 2015) by lia. exact L.
  - pose proof (loop_bwd cfg (Z.to_nat (2015 - (y - 1))) 2015) as L.
    change (2015 + 1) with 2016 in L. rewrite kday_2016 in L.
    replace (2015 - Z.of_nat (Z.to_nat (2015 - (y - 1)))) with (y - 1) in L by lia.
    replace (y - 1 + 1) with y in L by lia.
    replace (Z.abs (y - 1 - 2015)) with (2015 - (y - 1)) by lia. exact L.
  - replace y with 2016 by lia. reflexivity.
Qed.

Lemma len_pos cfg y : 354 <= len cfg y <= 384.
Proof. unfold len, year_length. destruct (is_adhikamasa (su_init y)), (is_adhikavara cfg (su_init y)); lia. Qed.

Lemma kday_mono cfg y n : kday cfg y + 354 * Z.of_nat n <= kday cfg (y + Z.of_nat n).
Proof.
  induction n as [|n IH].
  - replace (y + Z.of_nat 0) with y by lia. lia.
  - replace (y + Z.of_nat (S n)) with (y + Z.of_nat n + 1) by lia. rewrite kday_step.
    pose proof (len_pos cfg (y + Z.of_nat n)). lia.
Qed.

(** ** Closed form *)

Definition off (cfg : config) : Prop := UseExceptions cfg = false.

Lemma len_off cfg y : off cfg -> len cfg y = 354 + 30 * b2z (am y) + b2z (av y).
Proof.
  intros Ho. unfold len, year_length. rewrite (adhikavara_default_off cfg y Ho).
  fold (am y). rewrite av_eq. destruct (am y), (ca y), (wv y); reflexivity.
Qed.

(** Surplus days accumulated by boundary years since 640. *)
Definition surplus (y : Z) : Z :=
  count_years (fun e => edge e && negb (am e)) 640 (Z.to_nat (y - 640))
  + (if 640 <? y then one_if (edge (y - 1) && am (y - 1)) else 0).

Lemma surplus_step y : 640 <= y -> surplus (y + 1) = surplus y + one_if (edge y) - one_if (lost y).
Proof.
  intros Hy. unfold surplus.
  replace (Z.to_nat (y + 1 - 640)) with (S (Z.to_nat (y - 640))) by lia.
  rewrite count_years_snoc. replace (640 + Z.of_nat (Z.to_nat (y - 640))) with y by lia.
  replace (y + 1 - 1) with y by lia. rewrite (lost_edge y) by lia.
  destruct (Z.ltb_spec 640 (y + 1)), (Z.ltb_spec 640 y); try lia.
  - destruct (edge y), (am y), (edge (y - 1)), (am (y - 1)); cbn; lia.
  - replace (y - 1) with 639 by lia. replace (edge 639) with false by reflexivity.
    destruct (edge y), (am y), (am 639); cbn; lia.
Qed.

(** Day number of the day before Horakhun 0 ... : HorakhunToDate's reference
    (484049 is 1963-07-05). *)
Definition hdate (h : Z) : Z := day_number 1963 7 5 + (h - 484049).

Definition closed (y : Z) : Z :=
  hdate (Hor y - T y) - 133 - 30 * b2z (T y <=? 5) - one_if (ca y).

Lemma closed_step y : 640 <= y ->
  closed (y + 1) = closed y + 354 + 30 * b2z (am y) + one_if (gain5 y) - one_if (ca (y + 1)) + one_if (ca y).
Proof.
  intros Hy. unfold closed, hdate.
  destruct (H_step y ltac:(lia)) as [Hs _]. destruct (NA_gain y ltac:(lia)) as [HN _].
  pose proof (M_am_step y ltac:(lia)) as HM. unfold b2z, one_if in *. lia.
Qed.

Lemma len_off_eq cfg cfg' y : off cfg -> off cfg' -> len cfg y = len cfg' y.
Proof. intros. rewrite !len_off by assumption. reflexivity. Qed.
Lemma sum_off_eq cfg cfg' n : off cfg -> off cfg' -> forall a, sum_len cfg a n = sum_len cfg' a n.
Proof.
  intros Ho Ho'. induction n as [|n IH]; intros a; cbn [sum_len]; [reflexivity|].
  rewrite IH, (len_off_eq cfg cfg') by assumption. reflexivity.
Qed.
Lemma kday_off_eq cfg cfg' y : off cfg -> off cfg' -> kday cfg y = kday cfg' y.
Proof. intros Ho Ho'. unfold kday. rewrite !(sum_off_eq cfg cfg') by assumption. reflexivity. Qed.

(** Boundary years up to 4098, by evaluation. *)
Fixpoint all_years (p : Z -> bool) (a : Z) (n : nat) : bool :=
  match n with O => true | S n' => p a && all_years p (a + 1) n' end.
Lemma all_years_spec p a n : all_years p a n = true -> forall y, a <= y < a + Z.of_nat n -> p y = true.
Proof.
  revert a. induction n as [|n IH]; intros a Hp y Hy; [lia|].
  cbn [all_years] in Hp. apply andb_true_iff in Hp. destruct Hp as [H1 H2].
  destruct (Z.eq_dec y a) as [->|]; [assumption|]. apply (IH (a + 1) H2). lia.
Qed.

Lemma no_edge_check : all_years (fun y => negb (edge y) || (y =? 3577)) 640 3458 = true.
Proof. vm_cast_no_check (eq_refl true). Qed.
Lemma no_edge y : 640 <= y <= 4097 -> edge y = true -> y = 3577.
Proof.
  intros Hy He. pose proof (all_years_spec _ _ _ no_edge_check y ltac:(lia)) as Hc. cbn beta in Hc.
  rewrite He in Hc. cbn in Hc. lia.
Qed.
Lemma am_3577 : am 3577 = true. Proof. vm_cast_no_check (eq_refl true). Qed.

Lemma count_years_zero p a n : (forall y, a <= y < a + Z.of_nat n -> p y = false) -> count_years p a n = 0.
Proof.
  revert a. induction n as [|n IH]; intros a Hp; cbn [count_years]; [reflexivity|].
  rewrite Hp by lia. rewrite IH; [reflexivity|]. intros y Hy. apply Hp. lia.
Qed.

Lemma surplus_zero y : 640 <= y <= 4098 -> y <> 3578 -> surplus y = 0.
Proof.
  intros Hy Hne. unfold surplus. rewrite count_years_zero.
  - destruct (Z.ltb_spec 640 y); [|reflexivity].
    destruct (edge (y - 1)) eqn:E; [|reflexivity].
    apply no_edge in E; lia.
  - intros z Hz. destruct (edge z) eqn:E; [|reflexivity].
    apply no_edge in E; [|lia]. subst z. rewrite am_3577. reflexivity.
Qed.

Lemma surplus_3578 : surplus 3578 = 1.
Proof.
  unfold surplus. rewrite count_years_zero; [vm_cast_no_check (eq_refl 1)|].
  intros z Hz. destruct (edge z) eqn:E; [|reflexivity].
  apply no_edge in E; [|lia]. subst z. rewrite am_3577. reflexivity.
Qed.

(** The difference is constant, and zero at the reference year 2016. *)
Definition kdiff (y : Z) : Z := kday cfg_default y - closed y - surplus y.

Lemma kdiff_step z : 640 <= z -> kdiff (z + 1) = kdiff z.
Proof.
  intros Hz. unfold kdiff.
  rewrite kday_step, len_off, surplus_step, closed_step by (reflexivity || lia).
  pose proof (av_step z ltac:(lia)) as Hs. destruct (wv_gain z ltac:(lia)) as [E1 E2].
  rewrite E1 in *. unfold b2z, one_if in *. destruct (gain5 z), (edge z); cbn [orb andb] in *; try discriminate; lia.
Qed.

Lemma kdiff_const n : forall z, 640 <= z -> kdiff (z + Z.of_nat n) = kdiff z.
Proof.
  induction n as [|n IH]; intros z Hz.
  - f_equal. lia.
  - replace (z + Z.of_nat (S n)) with (z + Z.of_nat n + 1) by lia. rewrite kdiff_step by lia. apply IH. lia.
Qed.

Lemma kdiff_2016 : kdiff 2016 = 0.
Proof.
  unfold kdiff. rewrite kday_2016, surplus_zero by lia. vm_cast_no_check (eq_refl 0).
Qed.

Lemma kday_closed cfg y : off cfg -> 640 <= y -> kday cfg y = closed y + surplus y.
Proof.
  intros Ho Hy. rewrite (kday_off_eq cfg cfg_default) by (assumption || reflexivity).
  enough (E : kdiff y = 0) by (unfold kdiff in E; lia).
  rewrite <- kdiff_2016. destruct (Z_le_gt_dec y 2016).
  - rewrite <- (kdiff_const (Z.to_nat (2016 - y)) y Hy). f_equal. lia.
  - rewrite <- (kdiff_const (Z.to_nat (y - 2016)) 2016) by lia. f_equal. lia.
Qed.

(** ** Position within the solar year *)

Fixpoint check_year (cfg : config) (n : nat) (y k : Z) (p : Z -> Z -> bool) : bool :=
  p y k && match n with O => true | S n' => check_year cfg n' (y + 1) (k + len cfg y) p end.
Lemma check_year_spec cfg p n : forall y, check_year cfg n y (kday cfg y) p = true ->
  forall z, y <= z <= y + Z.of_nat n -> p z (kday cfg z) = true.
Proof.
  induction n as [|n IH]; intros y Hc z Hz; cbn [check_year] in Hc;
    apply andb_true_iff in Hc; destruct Hc as [H1 H2].
  - replace z with y by lia. assumption.
  - destruct (Z.eq_dec z y) as [->|]; [assumption|].
    rewrite <- kday_step in H2. apply (IH _ H2). lia.
Qed.

Definition offset_in (lo hi y k : Z) : bool :=
  let o := days_before_year y - k in (lo <=? o) && (o <=? hi).



(** For most of the range linear arithmetic on the closed form is enough. *)
Lemma offset_lia y : 640 <= y -> surplus y = 0 ->
  let o := days_before_year y - kday cfg_default y in
  (y <= 3900 -> 1 <= o) /\ o <= 104 /\ (1500 <= y -> o <= 74).
Proof.
  intros Hy Hs. cbv zeta. rewrite (kday_closed cfg_default y eq_refl Hy), Hs.
  unfold closed, hdate. change (day_number 1963 7 5) with 716790.
  pose proof (HK_spec y ltac:(lia)). pose proof (NA_spec y ltac:(lia)) as (_ & HT & _).
  unfold days_before_year.
  unfold b2z, one_if. destruct (Z.leb_spec (T y) 5), (ca y); lia.
Qed.

Lemma kday_off_sum cfg y n : kday cfg (y + Z.of_nat n) = kday cfg y + sum_len cfg y n.
Proof.
  induction n as [|n IH].
  - cbn [sum_len]. replace (y + Z.of_nat 0) with y by lia. lia.
  - replace (y + Z.of_nat (S n)) with (y + Z.of_nat n + 1) by lia.
    rewrite kday_step, IH, sum_len_snoc. lia.
Qed.

(** Day numbers at the ends of the ranges that are evaluated. *)
Lemma kday_3900 : kday cfg_default 3900 = 1424048.
Proof.
  rewrite (kday_closed cfg_default 3900 eq_refl), surplus_zero by lia. vm_cast_no_check (eq_refl 1424048).
Qed.
Lemma kday_1290 : kday cfg_default 1290 = 470742.
Proof.
  rewrite (kday_closed cfg_default 1290 eq_refl), surplus_zero by lia. vm_cast_no_check (eq_refl 470742).
Qed.
Lemma kday_640 : kday cfg_default 640 = 233316.
Proof.
  rewrite (kday_closed cfg_default 640 eq_refl), surplus_zero by lia. vm_cast_no_check (eq_refl 233316).
Qed.
Lemma sum_630 : 233316 - sum_len cfg_default 630 10 = 229738.
Proof. vm_cast_no_check (eq_refl 229738). Qed.
Lemma kday_630 : kday cfg_default 630 = 229738.
Proof.
  pose proof (kday_off_sum cfg_default 630 10) as E. change (630 + Z.of_nat 10) with 640 in E.
  rewrite kday_640 in E. rewrite <- sum_630, E.
  generalize (kday cfg_default 630), (sum_len cfg_default 630 10). intros; lia.
Qed.
Lemma closed_3578 : days_before_year 3578 - (closed 3578 + 1) = 15.
Proof. vm_cast_no_check (eq_refl 15). Qed.

Lemma offset_check_hi :
  check_year cfg_default 216 3900 1424048 (offset_in 1 74) = true.
Proof. vm_cast_no_check (eq_refl true). Qed.
Lemma offset_check_mid :
  check_year cfg_default 210 1290 470742 (offset_in 1 74) = true.
Proof. vm_cast_no_check (eq_refl true). Qed.
Lemma offset_check_lo :
  check_year cfg_default 9 631 (229738 + len cfg_default 630) (offset_in 1 104) = true.
Proof. vm_cast_no_check (eq_refl true). Qed.

Lemma offset_in_spec lo hi y k : offset_in lo hi y k = true <-> lo <= days_before_year y - k <= hi.
Proof. unfold offset_in. lia. Qed.

Lemma surplus_range y : 640 <= y <= 4098 -> y <> 3578 -> surplus y = 0.
Proof. exact (surplus_zero y). Qed.

Lemma offset_default y : 631 <= y <= 4116 ->
  let o := days_before_year y - kday cfg_default y in
  1 <= o <= 104 /\ (1290 <= y -> o <= 74).
Proof.
  intros Hy. cbv zeta.
  destruct (Z_lt_le_dec y 640) as [Hlt|Hge]; [|destruct (Z_lt_le_dec y 3900) as [Hlt|Hge2]].
  - split; [|lia]. apply (offset_in_spec 1 104).
    apply (check_year_spec cfg_default (offset_in 1 104) 9 631); [|lia].
    change 631 with (630 + 1) at 2. rewrite kday_step, kday_630. exact offset_check_lo.
  - assert (Hs : surplus y = 0 \/ y = 3578) by
      (destruct (Z.eq_dec y 3578); [auto|left; apply surplus_zero; lia]).
    destruct Hs as [Hs| ->].
    + pose proof (offset_lia y Hge Hs) as Ho. cbv zeta in Ho. split; [lia|]. intros H1290.
      destruct (Z_lt_le_dec y 1500); [|lia].
      pose proof (check_year_spec cfg_default (offset_in 1 74) 210 1290) as Hc.
      rewrite kday_1290 in Hc. specialize (Hc offset_check_mid y ltac:(lia)).
      rewrite offset_in_spec in Hc. lia.
    + rewrite (kday_closed cfg_default 3578 eq_refl), surplus_3578 by lia.
      rewrite closed_3578. lia.
  - pose proof (check_year_spec cfg_default (offset_in 1 74) 216 3900) as Hc.
    rewrite kday_3900 in Hc. specialize (Hc offset_check_hi y ltac:(lia)).
    rewrite offset_in_spec in Hc. lia.
Qed.

(** ** The shipped exceptions *)

Definition shipped (cfg : config) : Prop :=
  UseExceptions cfg = false \/ forall y, AdhikavaraExceptions cfg y = shipped_exceptions y.

Lemma is_av_exceptions cfg y :
  UseExceptions cfg = true -> (forall y, AdhikavaraExceptions cfg y = shipped_exceptions y) ->
  is_adhikavara cfg (su_init y) =
  if y =? 1994 then false else if y =? 1997 then true else av y.
Proof.
  intros Hu Hx. unfold is_adhikavara. rewrite Hu, Hx, sy_Year_init. unfold shipped_exceptions.
  destruct (y =? 1994), (y =? 1997); reflexivity.
Qed.

Lemma years_1994_1997 : am 1994 = false /\ av 1994 = true /\ am 1997 = false /\ av 1997 = false.
Proof. repeat split; vm_cast_no_check (eq_refl true) || vm_cast_no_check (eq_refl false). Qed.

Definition exc_shift (cfg : config) (y : Z) : Z :=
  if UseExceptions cfg && (1995 <=? y) && (y <=? 1997) then 1 else 0.

Lemma len_shipped cfg y : shipped cfg ->
  len cfg y = len cfg_default y - exc_shift cfg (y + 1) + exc_shift cfg y.
Proof.
  intros Hs. unfold exc_shift. destruct (UseExceptions cfg) eqn:Hu.
  - destruct Hs as [Hs|Hs]; [congruence|].
    pose proof years_1994_1997 as (Y1 & Y2 & Y3 & Y4).
    rewrite (len_off cfg_default y eq_refl). unfold len, year_length.
    rewrite (is_av_exceptions cfg y Hu Hs). fold (am y).
    destruct (Z.eqb_spec y 1994) as [->|]; [rewrite Y1, Y2; reflexivity|].
    destruct (Z.eqb_spec y 1997) as [->|]; [rewrite Y3, Y4; reflexivity|].
    assert (E : (1995 <=? y + 1) && (y + 1 <=? 1997) = (1995 <=? y) && (y <=? 1997)) by lia.
    cbn [andb]. rewrite E. rewrite av_eq. destruct ((1995 <=? y) && (y <=? 1997)), (am y), (ca y), (wv y); reflexivity.
  - rewrite (len_off_eq cfg cfg_default) by (assumption || reflexivity). cbn [andb]. lia.
Qed.

Lemma exc_diff_const cfg n : shipped cfg -> forall y,
  kday cfg (y + Z.of_nat n) - kday cfg_default (y + Z.of_nat n) + exc_shift cfg (y + Z.of_nat n)
  = kday cfg y - kday cfg_default y + exc_shift cfg y.
Proof.
  intros Hs y. induction n as [|n IH].
  - replace (y + Z.of_nat 0) with y by lia. reflexivity.
  - replace (y + Z.of_nat (S n)) with (y + Z.of_nat n + 1) by lia.
    rewrite !kday_step, (len_shipped cfg _ Hs). lia.
Qed.

Lemma kday_shipped cfg y : shipped cfg -> kday cfg y = kday cfg_default y - exc_shift cfg y.
Proof.
  intros Hs. assert (E0 : exc_shift cfg 2016 = 0) by (unfold exc_shift; destruct (UseExceptions cfg); reflexivity).
  destruct (Z_le_gt_dec y 2016).
  - pose proof (exc_diff_const cfg (Z.to_nat (2016 - y)) Hs y) as E.
    replace (y + Z.of_nat (Z.to_nat (2016 - y))) with 2016 in E by lia. rewrite !kday_2016, E0 in E. lia.
  - pose proof (exc_diff_const cfg (Z.to_nat (y - 2016)) Hs 2016) as E.
    replace (2016 + Z.of_nat (Z.to_nat (y - 2016))) with y in E by lia. rewrite !kday_2016, E0 in E. lia.
Qed.

Lemma offset_199x : all_years (fun y => offset_in 1 73 y (closed y)) 1995 3 = true.
Proof. vm_cast_no_check (eq_refl true). Qed.

(** The Kattika full moon before solar year [y] is 1..104 days before 1 January,
    and 1..74 days from 1290 on. *)
Lemma kattika_offset cfg y : shipped cfg -> 631 <= y <= 4116 ->
  let o := days_before_year y - kday cfg y in
  1 <= o <= 104 /\ (1290 <= y -> o <= 74).
Proof.
  intros Hs Hy. cbv zeta. rewrite (kday_shipped cfg y Hs). pose proof (offset_default y Hy) as Ho. cbv zeta in Ho.
  unfold exc_shift. destruct (UseExceptions cfg && (1995 <=? y) && (y <=? 1997)) eqn:E; [|lia].
  pose proof (all_years_spec _ _ _ offset_199x y ltac:(lia)) as Hc. cbn beta in Hc.
  rewrite offset_in_spec in Hc. rewrite (kday_closed cfg_default y eq_refl), surplus_zero in * by lia. lia.
Qed.

Lemma kattika_year cfg y : shipped cfg -> 631 <= y <= 4116 -> year_of_day (kday cfg y) = y - 1.
Proof.
  intros Hs Hy. apply year_of_day_iff. replace (y - 1 + 1) with y by lia.
  pose proof (kattika_offset cfg y Hs Hy) as Ho. cbv zeta in Ho.
  pose proof (days_before_year_mono (y - 1) y). lia.
Qed.

Lemma sum_4117 : 1424048 + sum_len cfg_default 3900 217 = 1503339.
Proof. vm_cast_no_check (eq_refl 1503339). Qed.
Lemma kday_4117 : kday cfg_default 4117 = 1503339.
Proof.
  pose proof (kday_off_sum cfg_default 3900 217) as E. change (3900 + Z.of_nat 217) with 4117 in E.
  rewrite E, kday_3900. exact sum_4117.
Qed.

Lemma kattika_year_ends cfg : shipped cfg ->
  year_of_day (kday cfg 630) = 630 /\ year_of_day (kday cfg 4117) = 4117.
Proof.
  intros Hs. rewrite !(kday_shipped cfg) by assumption. rewrite kday_630, kday_4117.
  unfold exc_shift. destruct (UseExceptions cfg); cbn [andb];
  split; apply year_of_day_iff; vm_compute; split; congruence.
Qed.
