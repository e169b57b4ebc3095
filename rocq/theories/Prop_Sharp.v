(** Theorems C06: the exact range of years for which 64-bit integers and floats do not matter. *)
From Coq Require Import ZArith Reals Lia Lra Bool ZifyBool List Psatz.
From Flocq Require Import Core BinarySingleNaN.
From Verif Require Import GoInt GoFloat SuriyaYear SuriyaDay Machine P_Time P_Year P_Float P_Machine.
Import ListNotations.
Open Scope Z_scope.
Ltac Zify.zify_post_hook ::= Z.to_euclidean_division_equations.

(** Below 2^44 rounding moves a number by at most 2^-10. *)
Lemma rnd_error_44 x : (Rabs x <= 17592186044415 -> Rabs (rnd x - x) <= / 1024)%R.
Proof.
  intros Hx. assert (A : (Rabs (rnd x - x) <= / 2 * ulp radix2 fexp64 x)%R) by (apply error_le_half_ulp; typeclasses eauto).
  assert (U : (ulp radix2 fexp64 x <= ulp radix2 fexp64 17592186044415)%R).
  { apply ulp_le; [typeclasses eauto| |].
    - apply (FLT_exp_monotone (-1074) 53).
    - rewrite (Rabs_pos_eq 17592186044415) by lra. exact Hx. }
  assert (V : (ulp radix2 fexp64 17592186044415 = / 512)%R).
  { rewrite ulp_neq_0 by lra. unfold cexp. rewrite (mag_unique_pos radix2 17592186044415 44).
    - reflexivity.
    - change (bpow radix2 (44 - 1)) with 8796093022208%R. change (bpow radix2 44) with 17592186044416%R. lra. }
  lra.
Qed.
Lemma floor_div_692 a : Z.abs a <= 2 ^ 53 -> int_of_f (ffloor (fdiv (f_of_int a) (f_of_int 692))) = a / 692.
Proof.
  intros Ha. apply int_of_f_fin; [|unfold in_int64, two63; lia].
  assert (F : Zfloor (rnd (IZR a / IZR 692)) = a / 692).
  { apply Zfloor_imp. split.
    - rewrite <- (rnd_IZR (a / 692)) by lia. apply rnd_le.
      apply Rmult_le_reg_r with 692%R; [lra|]. unfold Rdiv. rewrite Rmult_assoc, Rinv_l, Rmult_1_r by lra.
      rewrite <- mult_IZR. apply IZR_le. lia.
    - set (x := (IZR a / 692)%R). assert (Hxb : (x * 692 = IZR a)%R) by (unfold x; field).
      assert (Hx : (Rabs x <= 17592186044415)%R).
      { assert ((Rabs (IZR a) <= 9007199254740992)%R) by (rewrite <- abs_IZR; apply IZR_le; exact Ha).
        rewrite <- Hxb, Rabs_mult, (Rabs_pos_eq 692) in H by lra. lra. }
      pose proof (rnd_error_44 x Hx) as He. apply Rabs_le_inv in He.
      assert (Hx1 : ((IZR (a / 692 + 1) - x) * 692 >= 1)%R).
      { rewrite Rmult_minus_distr_r, Hxb, <- mult_IZR, <- minus_IZR. apply Rle_ge. apply IZR_le. lia. }
      lra. }
  rewrite <- F. apply ffloor_fin. apply fdiv_fin.
  - apply f_of_int_fin. lia.
  - apply f_of_int_fin. lia.
  - lra.
  - apply quot_huge; lia.
Qed.

(** Where 11 Horakhun + 650 fits into the 53 bits of a float nothing is rounded. *)
Lemma exact_part y : -2241797891638 <= y <= 2241797892914 -> su_init_m y = su_init y.
Proof.
  intros Hy. unfold su_init_m, su_init. cbv zeta. unfold_consts.
  assert (E1 : int_of_f (ffloor (f_of_int (iadd (idiv (iadd (imul (isub y 638) 292207) 373) 800) 1)))
     = ((y - 638) * 292207 + 373) ÷ 800 + 1) by (unwrap; apply floor_int; lia).
  rewrite E1. set (h := ((y - 638) * 292207 + 373) ÷ 800 + 1) in *.
  assert (Hh : Z.abs (h * 11 + 650) <= 2 ^ 53) by lia. clearbody h.
  assert (E2 : int_of_f (ffloor (fdiv (f_of_int (iadd (imul h 11) 650)) (f_of_int 692))) = (h * 11 + 650) / 692).
  { unwrap. apply floor_div_692. exact Hh. }
  rewrite E2. set (b := (h * 11 + 650) / 692) in *.
  assert (Hb : Z.abs b <= 2 ^ 45) by lia.
  assert (E3 : int_of_f (ffloor (f_of_int (idiv (iadd (iadd b 0) h) 30))) = (b + 0 + h) ÷ 30).
  { unwrap. apply floor_int. lia. }
  rewrite E3. clearbody b. unwrap. f_equal.
Qed.
(** The few years beyond it for which the rounding does not change a result. *)
Definition same_year (s t : SuriyaYear) : bool :=
  (sy_Year s =? sy_Year t) && (sy_BE_Year s =? sy_BE_Year t) && (sy_CS_Year s =? sy_CS_Year t) && (sy_Horakhun s =? sy_Horakhun t) &&
  (sy_Kammacubala s =? sy_Kammacubala t) && (sy_Uccabala s =? sy_Uccabala t) && (sy_Avoman s =? sy_Avoman t) &&
  (sy_Masaken s =? sy_Masaken t) && (sy_Tithi s =? sy_Tithi t).
Lemma same_year_eq s t : same_year s t = true -> s = t.
Proof. unfold same_year. rewrite !andb_true_iff, !Z.eqb_eq. destruct s, t. cbn. intros. repeat match goal with H : _ /\ _ |- _ => destruct H end. subst. reflexivity. Qed.
Fixpoint all_from (y : Z) (n : nat) : bool :=
  match n with O => true | S n => same_year (su_init_m y) (su_init y) && all_from (y + 1) n end.
Lemma all_from_spec n : forall y z, all_from y n = true -> y <= z < y + Z.of_nat n -> su_init_m z = su_init z.
Proof.
  induction n as [|n IH]; intros y z H Hz; [lia|]. cbn [all_from] in H. apply andb_true_iff in H. destruct H as [H1 H2].
  destruct (Z.eq_dec z y) as [->|N]; [apply same_year_eq; exact H1|]. apply (IH (y + 1) z H2). lia.
Qed.
Lemma rounded_after : all_from 2241797892915 275 = true. Proof. vm_compute. reflexivity. Qed.
Lemma rounded_before : all_from (-2241797892130) 492 = true. Proof. vm_compute. reflexivity. Qed.
Theorem C06_exact_range : forall y, -2241797892130 <= y <= 2241797893189 -> su_init_m y = su_init y.
Proof.
  intros y Hy. destruct (Z_lt_le_dec y (-2241797891638)); [|destruct (Z_lt_le_dec 2241797892914 y)].
  - apply (all_from_spec _ _ y rounded_before). lia.
  - apply (all_from_spec _ _ y rounded_after). lia.
  - apply exact_part. lia.
Qed.
(** One year further on either side it goes wrong: the lunar month count and the Tithi come out differently. *)
Theorem C06_beyond_refuted :
  (sy_Horakhun (su_init_m 2241797893190) = sy_Horakhun (su_init 2241797893190) /\ sy_Tithi (su_init_m 2241797893190) = sy_Tithi (su_init 2241797893190) + 1) /\
  (sy_Horakhun (su_init_m (-2241797892131)) = sy_Horakhun (su_init (-2241797892131)) /\ sy_Tithi (su_init_m (-2241797892131)) = sy_Tithi (su_init (-2241797892131)) + 1).
Proof. vm_compute. repeat split. Qed.

(** The same for days, by their Horakhun. *)
Fixpoint quotients_from (h : Z) (n : nat) : bool :=
  match n with O => true | S n => (int_of_f (ffloor (fdiv (f_of_int (h * 11 + 650)) (f_of_int 692))) =? (h * 11 + 650) / 692) && quotients_from (h + 1) n end.
Lemma quotients_spec n : forall h k, quotients_from h n = true -> h <= k < h + Z.of_nat n ->
  int_of_f (ffloor (fdiv (f_of_int (k * 11 + 650)) (f_of_int 692))) = (k * 11 + 650) / 692.
Proof.
  induction n as [|n IH]; intros h k H Hk; [lia|]. cbn [quotients_from] in H. apply andb_true_iff in H. destruct H as [H1 H2].
  destruct (Z.eq_dec k h) as [->|N]; [apply Z.eqb_eq; exact H1|]. apply (IH (h + 1) k H2). lia.
Qed.
Lemma quotients_after : quotients_from 818836295885486 353 = true. Proof. vm_compute. reflexivity. Qed.
Lemma quotients_before : quotients_from (-818836295886208) 605 = true. Proof. vm_compute. reflexivity. Qed.
Lemma quotient h : -818836295886208 <= h <= 818836295885838 ->
  int_of_f (ffloor (fdiv (f_of_int (h * 11 + 650)) (f_of_int 692))) = (h * 11 + 650) / 692.
Proof.
  intros H. destruct (Z_lt_le_dec h (-818836295885603)); [|destruct (Z_lt_le_dec 818836295885485 h)].
  - apply (quotients_spec _ _ h quotients_before). lia.
  - apply (quotients_spec _ _ h quotients_after). lia.
  - apply floor_div_692. lia.
Qed.
Theorem C06_exact_days : forall y d, -2241797892130 <= y <= 2241797893189 ->
  -818836295886208 <= sd_Horakhun (sd_ints y d) <= 818836295885838 -> sd_ints_m y d = sd_ints y d.
Proof.
  intros y d Hy. unfold sd_ints_m, sd_ints. cbv zeta. cbn [sd_Horakhun]. rewrite (C06_exact_range y Hy).
  set (t := sy_Tithi (su_init y)). set (hy := sy_Horakhun (su_init y)).
  assert (Ht : Z.abs t <= 30).
  { unfold t, su_init. cbn [sy_Tithi]. unfold_consts. lia. }
  assert (Hh : Z.abs hy <= 818836297000000).
  { unfold hy, su_init. cbn [sy_Horakhun]. unfold_consts. lia. }
  clearbody t hy. unfold_consts. intros Hd.
  assert (E1 : iadd hy (isub d t) = hy + (d - t)) by (unwrap; reflexivity).
  assert (E1' : isub d t = d - t) by (unwrap; reflexivity).
  rewrite E1, E1'. set (h := hy + (d - t)) in *.
  assert (He : Z.abs (d - t) <= 1700000000000000) by lia.
  assert (E2 : int_of_f (ffloor (fdiv (f_of_int (iadd (imul h 11) 650)) (f_of_int 692))) = (h * 11 + 650) / 692).
  { unwrap. apply quotient. lia. }
  rewrite E2. set (b := (h * 11 + 650) / 692) in *.
  assert (Hb : Z.abs b <= 2 ^ 45) by lia.
  assert (E3 : int_of_f (ffloor (f_of_int (idiv (iadd (iadd b 0) h) 30))) = (b + 0 + h) ÷ 30).
  { unwrap. apply floor_int. lia. }
  rewrite E3. clearbody b. clearbody h. unwrap. reflexivity.
Qed.
(** Both ends of it are reached from the year 2000, and one day further the Tithi is wrong. *)
Theorem C06_days_beyond_refuted : forall d h, In (d, h) [(818836295388367, 818836295885839); (-818836296383681, -818836295886209)] ->
  sd_Horakhun (sd_ints 2000 d) = h /\ sd_Horakhun (sd_ints_m 2000 d) = h /\
  sd_Tithi (sd_ints_m 2000 d) = sd_Tithi (sd_ints 2000 d) + 1.
Proof. intros d h [E|[E|[]]]; injection E as <- <-; vm_compute; repeat split. Qed.
Example C06_range_example : su_init_m 2241797893189 = mkSuriyaYear 2241797893189 2241797893732 2241797892551 818836295985814 770 2761 136 27728415996051 13.
Proof. vm_compute. reflexivity. Qed.
