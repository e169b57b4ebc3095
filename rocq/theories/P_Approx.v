(** Error bounds for float64 expressions. *)
From Coq Require Import ZArith Reals Lia Lra Bool Psatz.
From Flocq Require Import Core BinarySingleNaN.
From Verif Require Import GoInt GoFloat SuriyaYear Machine P_Float P_Machine P_Degree.
Open Scope R_scope.

(** [x] is a finite float within [e] of [t]. *)
Definition app (x : float64) (t e : R) : Prop := is_finite x = true /\ Rabs (B2R x - t) <= e.
Lemma app_fin x r : fin x r -> app x r 0.
Proof. intros [F E]. split; [exact F|]. rewrite E. replace (r - r) with 0 by ring. rewrite Rabs_R0. lra. Qed.
Lemma app_int n : (Z.abs n <= 2 ^ 53)%Z -> app (f_of_int n) (IZR n) 0.
Proof. intros H. apply app_fin, f_of_int_fin, H. Qed.
Lemma app_weaken x t e t' e' : app x t e -> Rabs (t - t') + e <= e' -> app x t' e'.
Proof.
  intros [F E] H. split; [exact F|]. replace (B2R x - t') with ((B2R x - t) + (t - t')) by ring. eapply Rle_trans; [apply Rabs_triang|]. lra.
Qed.
Lemma app_self x : is_finite x = true -> app x (B2R x) 0.
Proof. intros F. apply app_fin. split; [exact F|reflexivity]. Qed.
Lemma to_huge r k : Rabs r < bpow radix2 k -> (k <= 100)%Z -> Rabs r <= huge.
Proof. intros H Hk. apply Rlt_le. eapply Rlt_le_trans; [exact H|]. apply bpow_le. lia. Qed.
Lemma rnd_app r t e k : Rabs (r - t) <= e -> Rabs t + e < bpow radix2 k -> (-900 <= k <= 100)%Z ->
  Rabs r <= huge /\ Rabs (rnd r - t) <= e + bpow radix2 (k - 54).
Proof.
  intros H B K. assert (R : Rabs r < bpow radix2 k).
  { replace r with ((r - t) + t) by ring. eapply Rle_lt_trans; [apply Rabs_triang|]. lra. }
  split; [apply (to_huge r k R); lia|]. pose proof (small_ulp r k R K).
  replace (rnd r - t) with ((rnd r - r) + (r - t)) by ring. eapply Rle_trans; [apply Rabs_triang|]. lra.
Qed.
Lemma app_add k x y a b ea eb : app x a ea -> app y b eb -> Rabs (a + b) + (ea + eb) < bpow radix2 k -> (-900 <= k <= 100)%Z ->
  app (fadd x y) (a + b) (ea + eb + bpow radix2 (k - 54)).
Proof.
  intros [Fx Ex] [Fy Ey] B K. assert (H : Rabs (B2R x + B2R y - (a + b)) <= ea + eb).
  { replace (B2R x + B2R y - (a + b)) with ((B2R x - a) + (B2R y - b)) by ring. eapply Rle_trans; [apply Rabs_triang|]. lra. }
  destruct (rnd_app _ _ _ k H B K) as [Hh Hr]. destruct (fadd_fin x y (B2R x) (B2R y) (conj Fx eq_refl) (conj Fy eq_refl) Hh) as [F E].
  split; [exact F|]. rewrite E. exact Hr.
Qed.
Lemma app_sub k x y a b ea eb : app x a ea -> app y b eb -> Rabs (a - b) + (ea + eb) < bpow radix2 k -> (-900 <= k <= 100)%Z ->
  app (fsub x y) (a - b) (ea + eb + bpow radix2 (k - 54)).
Proof.
  intros [Fx Ex] [Fy Ey] B K. assert (H : Rabs (B2R x - B2R y - (a - b)) <= ea + eb).
  { replace (B2R x - B2R y - (a - b)) with ((B2R x - a) + - (B2R y - b)) by ring. eapply Rle_trans; [apply Rabs_triang|]. rewrite Rabs_Ropp. lra. }
  destruct (rnd_app _ _ _ k H B K) as [Hh Hr]. destruct (fsub_fin x y (B2R x) (B2R y) (conj Fx eq_refl) (conj Fy eq_refl) Hh) as [F E].
  split; [exact F|]. rewrite E. exact Hr.
Qed.
Lemma app_mul k x y a b ea eb A B : app x a ea -> app y b eb -> Rabs a <= A -> Rabs b <= B ->
  A * B + (A * eb + B * ea + ea * eb) < bpow radix2 k -> (-900 <= k <= 100)%Z ->
  app (fmul x y) (a * b) (A * eb + B * ea + ea * eb + bpow radix2 (k - 54)).
Proof.
  intros [Fx Ex] [Fy Ey] HA HB Bd K.
  assert (Pa : 0 <= ea) by (eapply Rle_trans; [apply Rabs_pos|exact Ex]). assert (Pb : 0 <= eb) by (eapply Rle_trans; [apply Rabs_pos|exact Ey]).
  assert (H : Rabs (B2R x * B2R y - a * b) <= A * eb + B * ea + ea * eb).
  { replace (B2R x * B2R y - a * b) with (a * (B2R y - b) + b * (B2R x - a) + (B2R x - a) * (B2R y - b)) by ring.
    eapply Rle_trans; [apply Rabs_triang|]. apply Rplus_le_compat.
    - eapply Rle_trans; [apply Rabs_triang|]. rewrite !Rabs_mult. apply Rplus_le_compat; apply Rmult_le_compat; try apply Rabs_pos; assumption.
    - rewrite Rabs_mult. apply Rmult_le_compat; try apply Rabs_pos; assumption. }
  assert (M : Rabs (a * b) <= A * B) by (rewrite Rabs_mult; apply Rmult_le_compat; try apply Rabs_pos; assumption).
  destruct (rnd_app _ (a * b) _ k H ltac:(lra) K) as [Hh Hr]. destruct (fmul_fin x y (B2R x) (B2R y) (conj Fx eq_refl) (conj Fy eq_refl) Hh) as [F E].
  split; [exact F|]. rewrite E. exact Hr.
Qed.
(** Multiplication and division by a positive integer. *)
Lemma app_mul_int k x a ea n : app x a ea -> (1 <= n <= 2 ^ 53)%Z -> (Rabs a + ea) * IZR n < bpow radix2 k -> (-900 <= k <= 100)%Z ->
  app (fmul x (f_of_int n)) (a * IZR n) (ea * IZR n + bpow radix2 (k - 54)).
Proof.
  intros X N Bd K. assert (N1 : 1 <= IZR n) by (apply IZR_le; lia).
  pose proof (app_mul k x (f_of_int n) a (IZR n) ea 0 (Rabs a) (IZR n) X (app_int n ltac:(lia)) ltac:(lra) ltac:(rewrite Rabs_pos_eq; lra) ltac:(nra) K) as H.
  apply (app_weaken _ _ _ _ _ H). replace (a * IZR n - a * IZR n) with 0 by ring. rewrite Rabs_R0. lra.
Qed.
Lemma app_div_int k x a ea n : app x a ea -> (1 <= n <= 2 ^ 53)%Z -> (Rabs a + ea) / IZR n < bpow radix2 k -> (-900 <= k <= 100)%Z ->
  app (fdiv x (f_of_int n)) (a / IZR n) (ea / IZR n + bpow radix2 (k - 54)).
Proof.
  intros [Fx Ex] N Bd K. assert (N1 : 1 <= IZR n) by (apply IZR_le; lia).
  assert (Pi : 0 <= / IZR n) by (left; apply Rinv_0_lt_compat; lra).
  assert (H : Rabs (B2R x / IZR n - a / IZR n) <= ea / IZR n).
  { replace (B2R x / IZR n - a / IZR n) with ((B2R x - a) * / IZR n) by (field; lra). rewrite Rabs_mult, (Rabs_pos_eq (/ IZR n)) by exact Pi. apply Rmult_le_compat_r; assumption. }
  assert (Ha : Rabs (a / IZR n) = Rabs a / IZR n) by (unfold Rdiv; rewrite Rabs_mult, (Rabs_pos_eq (/ IZR n)) by exact Pi; reflexivity).
  destruct (rnd_app _ (a / IZR n) _ k H ltac:(rewrite Ha; lra) K) as [Hh Hr].
  destruct (fdiv_fin x (f_of_int n) (B2R x) (IZR n) (conj Fx eq_refl) (f_of_int_fin n ltac:(lia)) ltac:(lra) Hh) as [F E].
  split; [exact F|]. rewrite E. exact Hr.
Qed.
Lemma app_abs x a e : app x a e -> app (fabs x) (Rabs a) e.
Proof.
  intros [F E]. destruct (fabs_fin x (B2R x) (conj F eq_refl)) as [F' E']. split; [exact F'|]. rewrite E'. eapply Rle_trans; [apply Rabs_triang_inv2|]. exact E.
Qed.
(** Flooring to a multiple of 1/n: a value in [t - e - 1/n, t + e]. *)
Lemma app_floor x a e : app x a e -> exists z, fin (ffloor x) (IZR z) /\ a - e - 1 < IZR z <= a + e.
Proof.
  intros [F E]. exists (Zfloor (B2R x)). split; [apply ffloor_fin; split; [exact F|reflexivity]|]. apply Rabs_le_inv in E.
  pose proof (Zfloor_lb (B2R x)). pose proof (Zfloor_ub (B2R x)). lra.
Qed.
Lemma app_bound x a e : app x a e -> is_finite x = true /\ a - e <= B2R x <= a + e.
Proof. intros [F E]. apply Rabs_le_inv in E. split; [exact F|lra]. Qed.
