(** Real-number characterisation of the float64 operations of GoFloat.v. *)
From Coq Require Import ZArith Reals Lia Lra Bool ZifyBool Psatz.
From Flocq Require Import Core Relative BinarySingleNaN.
From Verif Require Import GoInt GoFloat.
Open Scope R_scope.

Notation fexp64 := (SpecFloat.fexp 53 1024).
Definition rnd (x : R) : R := round radix2 fexp64 ZnearestE x.
Definition huge : R := bpow radix2 1000.

#[global] Instance fexp64_valid : Valid_exp fexp64.
Proof. apply (fexp_correct 53 1024). reflexivity. Qed.

Lemma rnd_le x y : x <= y -> rnd x <= rnd y.
Proof. apply round_le; typeclasses eauto. Qed.

Lemma rnd_bpow e : (-1074 <= e <= 1000)%Z -> rnd (bpow radix2 e) = bpow radix2 e.
Proof.
  intros He. apply round_generic; [typeclasses eauto|].
  apply generic_format_bpow. unfold SpecFloat.fexp, SpecFloat.emin. lia.
Qed.

Lemma format_F2R m e : (Z.abs m < 2 ^ 53)%Z -> (-1074 <= e)%Z ->
  generic_format radix2 fexp64 (F2R (Float radix2 m e)).
Proof.
  intros Hm He. apply generic_format_F2R. intros Hm0. cbn [Fnum Fexp] in *.
  unfold cexp. 
  assert (Hmag : (mag radix2 (F2R (Float radix2 m e)) <= 53 + e)%Z).
  { apply mag_le_bpow.
    - apply F2R_neq_0. exact Hm0.
    - apply F2R_lt_bpow. cbn [Fnum Fexp].
      replace (53 + e - e)%Z with 53%Z by lia. exact Hm. }
  unfold SpecFloat.fexp, SpecFloat.emin. lia.
Qed.

Lemma rnd_F2R m e : (Z.abs m < 2 ^ 53)%Z -> (-1074 <= e)%Z ->
  rnd (F2R (Float radix2 m e)) = F2R (Float radix2 m e).
Proof. intros. apply round_generic; [typeclasses eauto|]. apply format_F2R; assumption. Qed.

Lemma rnd_IZR z : (Z.abs z <= 2 ^ 53)%Z -> rnd (IZR z) = IZR z.
Proof.
  intros Hz. destruct (Z.eq_dec (Z.abs z) (2 ^ 53)) as [E|E].
  - apply round_generic; [typeclasses eauto|].
    destruct (Z_le_gt_dec 0 z).
    + replace z with (2 ^ 53)%Z by lia. change (IZR (2 ^ 53)) with (bpow radix2 53).
      apply generic_format_bpow. unfold SpecFloat.fexp, SpecFloat.emin. lia.
    + replace z with (- 2 ^ 53)%Z by lia. rewrite opp_IZR. apply generic_format_opp.
      change (IZR (2 ^ 53)) with (bpow radix2 53).
      apply generic_format_bpow. unfold SpecFloat.fexp, SpecFloat.emin. lia.
  - replace (IZR z) with (F2R (Float radix2 z 0)) by (unfold F2R; cbn; lra).
    apply rnd_F2R; lia.
Qed.

Lemma rnd_abs_le x e : (-1074 <= e <= 1000)%Z -> Rabs x <= bpow radix2 e -> Rabs (rnd x) <= bpow radix2 e.
Proof.
  intros He Hx. apply abs_round_le_generic; try typeclasses eauto; [|exact Hx].
  apply generic_format_bpow. unfold SpecFloat.fexp, SpecFloat.emin. lia.
Qed.

Lemma rnd_no_overflow x : Rabs x <= huge -> Rlt_bool (Rabs (rnd x)) (bpow radix2 1024) = true.
Proof.
  intros Hx. apply Rlt_bool_true. apply Rle_lt_trans with huge.
  - apply rnd_abs_le; [lia|exact Hx].
  - apply bpow_lt. lia.
Qed.

(** Standard error bound. *)
Lemma rnd_error x : Rabs (rnd x - x) <= / 9007199254740992 * Rabs x + bpow radix2 (-1075).
Proof.
  assert (E : fexp64 = FLT_exp (-1074) 53).
  { unfold SpecFloat.fexp, SpecFloat.emin, FLT_exp. reflexivity. }
  destruct (error_N_FLT radix2 (-1074) 53 eq_refl (fun x => negb (Z.even x)) x)
    as (eps & eta & He & Ht & _ & Hr).
  unfold rnd. rewrite E. rewrite Hr.
  replace (x * (1 + eps) + eta - x) with (x * eps + eta) by ring.
  eapply Rle_trans; [apply Rabs_triang|]. rewrite Rabs_mult.
  assert (Rabs x * Rabs eps <= Rabs x * / 9007199254740992).
  { apply Rmult_le_compat_l; [apply Rabs_pos|].
    eapply Rle_trans; [exact He|]. unfold u_ro. cbn -[IZR]. lra. }
  assert (Rabs eta <= bpow radix2 (-1075)).
  { eapply Rle_trans; [exact Ht|]. change (-1075)%Z with (-1 + -1074)%Z. rewrite bpow_plus.
    cbn [bpow]. change (Z.pow_pos radix2 1) with 2%Z. lra. }
  lra.
Qed.

(** ** Operations *)

Definition fin (x : float64) (r : R) : Prop := is_finite x = true /\ B2R x = r.

Lemma fmake_fin m e : Rabs (F2R (Float radix2 m e)) <= huge ->
  fin (fmake m e) (rnd (F2R (Float radix2 m e))).
Proof.
  intros Hb. pose proof (binary_normalize_correct 53 1024 prec53 emax1024 mode_NE m e false) as C.
  cbv zeta in C. change (round_mode mode_NE) with ZnearestE in C. fold (rnd (F2R (Float radix2 m e))) in C.
  rewrite rnd_no_overflow in C by exact Hb. destruct C as (C1 & C2 & _).
  split; [exact C2|exact C1].
Qed.

Lemma IZR_huge z : (Z.abs z <= 2 ^ 64)%Z -> Rabs (IZR z) <= huge.
Proof.
  intros Hz. rewrite <- abs_IZR. apply Rle_trans with (IZR (2 ^ 64)); [apply IZR_le; exact Hz|].
  change (IZR (2 ^ 64)) with (bpow radix2 64). apply bpow_le. lia.
Qed.

Lemma f_of_int_fin_rnd z : (Z.abs z <= 2 ^ 64)%Z -> fin (f_of_int z) (rnd (IZR z)).
Proof.
  intros Hz. unfold f_of_int. replace (IZR z) with (F2R (Float radix2 z 0)) by (unfold F2R; cbn; lra).
  apply fmake_fin. replace (F2R (Float radix2 z 0)) with (IZR z) by (unfold F2R; cbn; lra).
  apply IZR_huge. exact Hz.
Qed.

Lemma f_of_int_fin z : (Z.abs z <= 2 ^ 53)%Z -> fin (f_of_int z) (IZR z).
Proof.
  intros Hz. rewrite <- (rnd_IZR z Hz). apply f_of_int_fin_rnd. lia.
Qed.

Lemma ffloor_fin x r : fin x r -> fin (ffloor x) (IZR (Zfloor r)).
Proof.
  intros [Hf Hr]. destruct (Bnearbyint_correct 53 1024 emax1024 mode_DN x) as (C1 & C2 & _).
  split; [unfold ffloor; rewrite C2; exact Hf|].
  unfold ffloor. rewrite C1, Hr. unfold round, F2R, scaled_mantissa, cexp, FIX_exp. cbn.
  rewrite !Rmult_1_r. reflexivity.
Qed.

Lemma int_of_f_fin x z : fin x (IZR z) -> in_int64 z -> int_of_f x = z.
Proof.
  intros [Hf Hr] Hz. unfold int_of_f.
  assert (E : Btrunc x = z).
  { apply eq_IZR. rewrite (Btrunc_correct 53 1024 emax1024), Hr.
    unfold round, F2R, scaled_mantissa, cexp, FIX_exp. cbn. rewrite !Rmult_1_r, Ztrunc_IZR. reflexivity. }
  rewrite E, Hf. unfold in_int64 in Hz. cbv zeta.
  replace ((true && (- two63 <=? z)%Z && (z <? two63)%Z)%bool) with true by lia. reflexivity.
Qed.

Lemma fadd_fin x y a b : fin x a -> fin y b -> Rabs (a + b) <= huge -> fin (fadd x y) (rnd (a + b)).
Proof.
  intros [Hx Ex] [Hy Ey] Hb. pose proof (Bplus_correct 53 1024 prec53 emax1024 mode_NE x y Hx Hy) as C.
  change (round_mode mode_NE) with ZnearestE in C. rewrite Ex, Ey in C. fold (rnd (a + b)) in C.
  rewrite rnd_no_overflow in C by exact Hb. destruct C as (C1 & C2 & _). split; [exact C2|exact C1].
Qed.
Lemma fsub_fin x y a b : fin x a -> fin y b -> Rabs (a - b) <= huge -> fin (fsub x y) (rnd (a - b)).
Proof.
  intros [Hx Ex] [Hy Ey] Hb. pose proof (Bminus_correct 53 1024 prec53 emax1024 mode_NE x y Hx Hy) as C.
  change (round_mode mode_NE) with ZnearestE in C. rewrite Ex, Ey in C. fold (rnd (a - b)) in C.
  rewrite rnd_no_overflow in C by exact Hb. destruct C as (C1 & C2 & _). split; [exact C2|exact C1].
Qed.
Lemma fmul_fin x y a b : fin x a -> fin y b -> Rabs (a * b) <= huge -> fin (fmul x y) (rnd (a * b)).
Proof.
  intros [Hx Ex] [Hy Ey] Hb. pose proof (Bmult_correct 53 1024 prec53 emax1024 mode_NE x y) as C.
  change (round_mode mode_NE) with ZnearestE in C. rewrite Ex, Ey in C. fold (rnd (a * b)) in C.
  rewrite rnd_no_overflow in C by exact Hb. destruct C as (C1 & C2 & _).
  split; [unfold fmul; rewrite C2, Hx, Hy; reflexivity|exact C1].
Qed.
Lemma fdiv_fin x y a b : fin x a -> fin y b -> b <> 0 -> Rabs (a / b) <= huge -> fin (fdiv x y) (rnd (a / b)).
Proof.
  intros [Hx Ex] [Hy Ey] Hn Hb. pose proof (Bdiv_correct 53 1024 prec53 emax1024 mode_NE x y) as C.
  change (round_mode mode_NE) with ZnearestE in C. rewrite Ex, Ey in C. fold (rnd (a / b)) in C.
  specialize (C Hn). rewrite rnd_no_overflow in C by exact Hb. destruct C as (C1 & C2 & _).
  split; [unfold fdiv; rewrite C2; exact Hx|exact C1].
Qed.
Lemma fabs_fin x a : fin x a -> fin (fabs x) (Rabs a).
Proof.
  intros [Hx Ex]. split; unfold fabs; [rewrite is_finite_Babs; exact Hx|rewrite B2R_Babs, Ex; reflexivity].
Qed.
Lemma fle_fin x y a b : fin x a -> fin y b -> fle x y = Rle_bool a b.
Proof. intros [Hx Ex] [Hy Ey]. unfold fle. rewrite Bleb_correct, Ex, Ey by assumption. reflexivity. Qed.
Lemma fgt_fin x y a b : fin x a -> fin y b -> fgt x y = Rlt_bool b a.
Proof. intros [Hx Ex] [Hy Ey]. unfold fgt. rewrite Bltb_correct, Ex, Ey by assumption. reflexivity. Qed.

(** ** floor of a rounded quotient of integers *)

Lemma Zfloor_div a b : (0 < b)%Z -> Zfloor (IZR a / IZR b) = (a / b)%Z.
Proof.
  intros Hb. apply Zfloor_imp. assert (0 < IZR b) by (apply IZR_lt; exact Hb).
  pose proof (Z.div_mod a b ltac:(lia)). pose proof (Z.mod_pos_bound a b Hb).
  split.
  - apply Rmult_le_reg_r with (IZR b); [assumption|]. unfold Rdiv.
    rewrite Rmult_assoc, Rinv_l, Rmult_1_r by lra. rewrite <- mult_IZR. apply IZR_le. nia.
  - apply Rmult_lt_reg_r with (IZR b); [assumption|]. unfold Rdiv.
    rewrite Rmult_assoc, Rinv_l, Rmult_1_r by lra. rewrite <- mult_IZR. apply IZR_lt. nia.
Qed.

(** For integers [a], [b] with |a| < 2^52 / 2, 0 < b <= 1000 rounding the quotient does not cross an integer. *)
Lemma Zfloor_rnd_div a b : (Z.abs a <= 2 ^ 52)%Z -> (0 < b <= 1000)%Z ->
  Zfloor (rnd (IZR a / IZR b)) = (a / b)%Z.
Proof.
  intros Ha Hb. set (k := (a / b)%Z).
  assert (Hb0 : 0 < IZR b) by (apply IZR_lt; lia).
  pose proof (Z.div_mod a b ltac:(lia)) as Hdm. pose proof (Z.mod_pos_bound a b ltac:(lia)) as Hm.
  assert (Hk : (Z.abs k <= 2 ^ 52)%Z) by (unfold k; nia).
  apply Zfloor_imp. split.
  - rewrite <- (rnd_IZR k) by lia. apply rnd_le.
    apply Rmult_le_reg_r with (IZR b); [assumption|]. unfold Rdiv.
    rewrite Rmult_assoc, Rinv_l, Rmult_1_r by lra. rewrite <- mult_IZR. apply IZR_le. unfold k. nia.
  - set (x := IZR a / IZR b).
    assert (Hxb : x * IZR b = IZR a) by (unfold x; field; lra).
    assert (Hx1 : (IZR (k + 1) - x) * IZR b >= 1).
    { rewrite Rmult_minus_distr_r, Hxb, <- mult_IZR, <- minus_IZR. apply Rle_ge. apply IZR_le. unfold k. nia. }
    pose proof (rnd_error x) as He.
    assert (Hxa : Rabs x * IZR b <= 4503599627370496).
    { rewrite <- (Rabs_pos_eq (IZR b)) by lra. rewrite <- Rabs_mult, Hxb, <- abs_IZR. apply (IZR_le _ (2^52)%Z). exact Ha. }
    assert (Ht : bpow radix2 (-1075) <= / 4000).
    { apply Rle_trans with (bpow radix2 (-12)); [apply bpow_le; lia|]. cbn -[IZR]. lra. }
    assert (Hb1 : IZR b <= 1000) by (apply IZR_le; lia).
    assert (Hr : rnd x - x <= / 9007199254740992 * Rabs x + / 4000).
    { eapply Rle_trans; [apply Rle_abs|]. lra. }
    apply Rmult_lt_reg_r with (IZR b); [assumption|].
    assert ((rnd x - x) * IZR b <= / 9007199254740992 * (Rabs x * IZR b) + / 4000 * IZR b).
    { rewrite <- Rmult_assoc, <- Rmult_plus_distr_r. apply Rmult_le_compat_r; lra. }
    nra.
Qed.

Lemma quot_huge a b : (Z.abs a <= 2 ^ 64)%Z -> (0 < b)%Z -> Rabs (IZR a / IZR b) <= huge.
Proof.
  intros Ha Hb. assert (1 <= IZR b) by (apply IZR_le; lia).
  unfold Rdiv. rewrite Rabs_mult, Rabs_inv, (Rabs_pos_eq (IZR b)) by lra.
  apply Rle_trans with (Rabs (IZR a) * 1).
  - apply Rmult_le_compat_l; [apply Rabs_pos|]. rewrite <- Rinv_1. apply Rinv_le; lra.
  - rewrite Rmult_1_r. apply IZR_huge. exact Ha.
Qed.

(** int(math.Floor(float64(a) / b)) *)
Lemma floor_div_int a b : (Z.abs a <= 2 ^ 52)%Z -> (0 < b <= 1000)%Z ->
  int_of_f (ffloor (fdiv (f_of_int a) (f_of_int b))) = (a / b)%Z.
Proof.
  intros Ha Hb. apply int_of_f_fin.
  - rewrite <- (Zfloor_rnd_div a b Ha Hb). apply ffloor_fin. apply fdiv_fin.
    + apply f_of_int_fin. lia.
    + apply f_of_int_fin. lia.
    + apply not_0_IZR. lia.
    + apply quot_huge; lia.
  - pose proof (Z.div_mod a b ltac:(lia)). pose proof (Z.mod_pos_bound a b ltac:(lia)).
    unfold in_int64, two63. assert (Z.abs (a / b) <= 2 ^ 52)%Z by nia. lia.
Qed.

(** int(math.Floor(float64(n))) *)
Lemma floor_int n : (Z.abs n <= 2 ^ 53)%Z -> int_of_f (ffloor (f_of_int n)) = n.
Proof.
  intros Hn. apply int_of_f_fin.
  - rewrite <- (Zfloor_IZR n) at 2. apply ffloor_fin, f_of_int_fin. exact Hn.
  - unfold in_int64, two63. lia.
Qed.
