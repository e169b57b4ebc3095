(** The true positions follow the sine equations. *)
From Coq Require Import ZArith Reals Lia Lra Bool Psatz.
From Flocq Require Import Core BinarySingleNaN.
From Verif Require Import GoInt GoFloat GoSin Machine P_Float P_Machine P_Degree P_Approx P_Positions P_Sin P_SinAcc.
Open Scope R_scope.

(** A sine routine that is accurate to a millionth. *)
Definition accurate_sin (f : float64 -> float64) : Prop :=
  forall x, is_finite x = true -> Rabs (B2R x) <= 100 -> is_finite (f x) = true /\ Rabs (B2R (f x) - sin (B2R x)) <= / 1000000.
Lemma accurate_bounded f : accurate_sin f -> bounded_sin f.
Proof.
  intros A x F B. destruct (A x F B) as [Fs E]. split; [exact Fs|]. pose proof (SIN_bound (B2R x)). apply Rabs_le_inv in E. apply Rabs_le. lra.
Qed.
(** The sine of an angle in degrees. *)
Definition sind (d : R) : R := sin (d * (PI / 180)).
Lemma sind_near d x e : Rabs d <= 2000 -> Rabs (x - d * (5030569068109113 / 288230376151711744)) <= e -> Rabs (sin x - sind d) <= e + / 1000000000.
Proof.
  intros D H. unfold sind. eapply Rle_trans; [apply sin_lipschitz|].
  replace (x - d * (PI / 180)) with ((x - d * (5030569068109113 / 288230376151711744)) + d * (5030569068109113 / 288230376151711744 - PI / 180)) by ring.
  eapply Rle_trans; [apply Rabs_triang|]. rewrite (Rabs_mult d).
  assert (Q : Rabs (5030569068109113 / 288230376151711744 - PI / 180) <= / 10000000000000).
  { pose proof pi_near as P. apply Rabs_le_inv in P. apply Rabs_le. lra. }
  assert (Rabs d * Rabs (5030569068109113 / 288230376151711744 - PI / 180) <= 2000 * / 10000000000000) by (apply Rmult_le_compat; [apply Rabs_pos|apply Rabs_pos|exact D|exact Q]). lra.
Qed.
Lemma true_sun_eq f ms m : accurate_sin f -> fin ms m -> -100 <= m <= 900 ->
  exists v, fin (true_sun f ms) v /\
    m + 134 / 60 * sind (Rabs (m - 80)) - 1 / 60 - / 9700 <= v <= m + 134 / 60 * sind (Rabs (m - 80)) + / 100000.
Proof.
  intros S F B. unfold true_sun. pose proof (app_fin ms m F) as A.
  assert (A1 : app (fabs (fsub ms (f_of_int 80))) (Rabs (m - 80)) (0 + 0 + bpow radix2 (10 - 54))).
  { apply app_abs. apply (app_sub 10); [exact A|apply app_int; lia| |lia]. bp. assert (Rabs (m - 80) <= 900) by (apply Rabs_le; lra). lra. }
  set (a := fabs (fsub ms (f_of_int 80))) in *.
  assert (Am : Rabs (m - 80) <= 900) by (apply Rabs_le; lra). pose proof (Rabs_pos (m - 80)) as Ap.
  assert (A2 : app (fmul a radconv) (Rabs (m - 80) * (5030569068109113 / 288230376151711744))
     (900 * 0 + 1 * (0 + 0 + bpow radix2 (10 - 54)) + (0 + 0 + bpow radix2 (10 - 54)) * 0 + bpow radix2 (10 - 54))).
  { apply (app_mul 10 a radconv _ _ _ _ 900 1 A1 (app_fin _ _ radconv_fin)); [rewrite Rabs_pos_eq by lra; exact Am|rewrite Rabs_pos_eq by lra; lra|kk; lra|lia]. }
  pose proof A2 as [_ N2]. apply app_bound in A2 as [F2 B2]. destruct (accurate_bounded f S _ F2) as [Fs Bs].
  { apply Rabs_le. kk. lra. }
  destruct (S _ F2) as [_ Es]. { apply Rabs_le. kk. lra. }
  pose proof (sind_near (Rabs (m - 80)) _ _ ltac:(rewrite Rabs_pos_eq; lra) N2) as Sd. apply Rabs_le_inv in Es. apply Rabs_le_inv in Sd. set (D := sind (Rabs (m - 80))) in *. clearbody D. clear N2. kk.
  set (s := f (fmul a radconv)) in *. apply Rabs_le_inv in Bs.
  assert (A3 : app (fmul (f_of_int 134) s) (134 * B2R s) (134 * 0 + 2 * 0 + 0 * 0 + bpow radix2 (9 - 54))).
  { apply (app_mul 9 _ _ _ _ _ _ 134 2 (app_int 134 ltac:(lia)) (app_self s Fs)); [rewrite Rabs_pos_eq; lra|apply Rabs_le; lra|bp; lra|lia]. }
  destruct (app_floor _ _ _ A3) as (z & Fz & Bz). kk.
  assert (Hz : (-135 <= z <= 134)%Z).
  { split; [apply Z.lt_pred_le; apply lt_IZR; cbn; lra|apply Z.lt_succ_r; apply lt_IZR; cbn; lra]. }
  assert (Hzr : -135 <= IZR z <= 134) by (split; apply IZR_le; lia).
  set (b := ffloor (fmul (f_of_int 134) s)) in *.
  assert (Fb : fin (fmul b (f_of_int 10000)) (IZR (z * 10000))).
  { rewrite <- (rnd_IZR (z * 10000)) by lia. rewrite mult_IZR. apply fmul_fin; [exact Fz|apply f_of_int_fin; lia|]. apply small_huge. rewrite <- mult_IZR, <- abs_IZR. apply IZR_le. lia. }
  assert (A4 : app (fdiv (fmul b (f_of_int 10000)) (f_of_int 60)) (IZR (z * 10000) / 60) (0 / 60 + bpow radix2 (15 - 54))).
  { apply app_div_int; [apply app_fin; exact Fb|lia| |lia]. bp. assert (Rabs (IZR (z * 10000)) <= 1350000) by (rewrite mult_IZR; apply Rabs_le; lra). lra. }
  assert (A5 : app (fmul ms (f_of_int 10000)) (m * 10000) (0 * 10000 + bpow radix2 (24 - 54))).
  { apply app_mul_int; [exact A|lia| |lia]. bp. assert (Rabs m <= 900) by (apply Rabs_le; lra). lra. }
  assert (A6 : app (fadd (fmul ms (f_of_int 10000)) (fdiv (fmul b (f_of_int 10000)) (f_of_int 60))) (m * 10000 + IZR (z * 10000) / 60)
     (0 * 10000 + bpow radix2 (24 - 54) + (0 / 60 + bpow radix2 (15 - 54)) + bpow radix2 (24 - 54))).
  { apply (app_add 24); [exact A5|exact A4| |lia]. rewrite mult_IZR. kk. assert (Rabs (m * 10000 + IZR z * 10000 / 60) <= 9500000) by (apply Rabs_le; lra). lra. }
  kk. rewrite mult_IZR in A6. destruct (four_decimals _ _ _ A6) as (v & Fv & Bv); [apply Rabs_le; lra|lra|].
  exists v. split; [exact Fv|]. lra.
Qed.

Lemma true_moon_eq f mm m mu u : accurate_sin f -> fin mm m -> -300 <= m <= 360 -> app mu u (/ 1000000000) -> -10 <= u <= 1000 ->
  exists v, fin (true_moon f mm mu) v /\
    m - 296 / 60 * sind (m - u) - / 9000 <= v <= m - 296 / 60 * sind (m - u) + / 100000.
Proof.
  intros S F B U Bu. unfold true_moon. pose proof (app_fin mm m F) as A.
  assert (A1 : app (fsub mm mu) (m - u) (0 + / 1000000000 + bpow radix2 (11 - 54))).
  { apply (app_sub 11); [exact A|exact U| |lia]. bp. assert (Rabs (m - u) <= 1400) by (apply Rabs_le; lra). lra. }
  set (a := fsub mm mu) in *.
  assert (A2 : app (fmul a radconv) ((m - u) * (5030569068109113 / 288230376151711744))
     (1400 * 0 + 1 * (0 + / 1000000000 + bpow radix2 (11 - 54)) + (0 + / 1000000000 + bpow radix2 (11 - 54)) * 0 + bpow radix2 (11 - 54))).
  { apply (app_mul 11 a radconv _ _ _ _ 1400 1 A1 (app_fin _ _ radconv_fin)); [apply Rabs_le; lra|rewrite Rabs_pos_eq by lra; lra|kk; lra|lia]. }
  pose proof A2 as [_ N2]. apply app_bound in A2 as [F2 B2]. destruct (accurate_bounded f S _ F2) as [Fs Bs].
  { apply Rabs_le. kk. lra. }
  destruct (S _ F2) as [_ Es]. { apply Rabs_le. kk. lra. }
  pose proof (sind_near (m - u) _ _ ltac:(apply Rabs_le; lra) N2) as Sd. apply Rabs_le_inv in Es. apply Rabs_le_inv in Sd. set (D := sind (m - u)) in *. clearbody D. clear N2. kk.
  set (s := f (fmul a radconv)) in *. apply Rabs_le_inv in Bs.
  assert (A3 : app (fmul (f_of_int 296) s) (296 * B2R s) (296 * 0 + 2 * 0 + 0 * 0 + bpow radix2 (10 - 54))).
  { apply (app_mul 10 _ _ _ _ _ _ 296 2 (app_int 296 ltac:(lia)) (app_self s Fs)); [rewrite Rabs_pos_eq; lra|apply Rabs_le; lra|bp; lra|lia]. }
  assert (A4 : app (fdiv (fmul (f_of_int 296) s) (f_of_int 60)) (296 * B2R s / 60) ((296 * 0 + 2 * 0 + 0 * 0 + bpow radix2 (10 - 54)) / 60 + bpow radix2 (3 - 54))).
  { apply app_div_int; [exact A3|lia| |lia]. kk. assert (Rabs (296 * B2R s) <= 297) by (apply Rabs_le; lra). lra. }
  set (b := fdiv (fmul (f_of_int 296) s) (f_of_int 60)) in *.
  assert (A5 : app (fsub mm b) (m - 296 * B2R s / 60) (0 + ((296 * 0 + 2 * 0 + 0 * 0 + bpow radix2 (10 - 54)) / 60 + bpow radix2 (3 - 54)) + bpow radix2 (9 - 54))).
  { apply (app_sub 9); [exact A|exact A4| |lia]. kk. assert (Rabs (m - 296 * B2R s / 60) <= 400) by (apply Rabs_le; lra). lra. }
  assert (A6 : app (fmul (fsub mm b) (f_of_int 10000)) ((m - 296 * B2R s / 60) * 10000)
     ((0 + ((296 * 0 + 2 * 0 + 0 * 0 + bpow radix2 (10 - 54)) / 60 + bpow radix2 (3 - 54)) + bpow radix2 (9 - 54)) * 10000 + bpow radix2 (22 - 54))).
  { apply app_mul_int; [exact A5|lia| |lia]. kk. assert (Rabs (m - 296 * B2R s / 60) <= 400) by (apply Rabs_le; lra). lra. }
  kk. destruct (four_decimals _ _ _ A6) as (v & Fv & Bv); [apply Rabs_le; lra|lra|].
  exists v. split; [exact Fv|]. lra.
Qed.

