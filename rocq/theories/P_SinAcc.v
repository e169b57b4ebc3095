(** Go's sine routine is accurate. *)
From Coq Require Import ZArith Reals Lia Lra Bool Psatz Machin.
From Flocq Require Import Core BinarySingleNaN.
From Verif Require Import GoInt GoFloat GoSin Machine P_Float P_Machine P_Degree P_Approx P_Positions P_Sin.
Open Scope R_scope.

(** ** Pi and the Taylor polynomials *)
Lemma pi_near : Rabs (PI / 4 - 785398163397448 / 1000000000000000) <= / 1000000000000.
Proof.
  destruct (PI_2_3_7_ineq 6) as [L U]. change (S (2 * 6)) with 13%nat in L. change (2 * 6)%nat with 12%nat in U.
  unfold PI_2_3_7_tg, tg_alt, Ratan_seq in L, U. cbn [sum_f_R0 Nat.mul Nat.add] in L, U.
  repeat rewrite INR_IZR_INZ in L; repeat rewrite INR_IZR_INZ in U. cbn [Z.of_nat Pos.of_succ_nat Pos.succ] in L, U. cbn [pow] in L, U. apply Rabs_le. split; lra.
Qed.
Lemma fact_S n : INR (fact (S n)) = INR (S n) * INR (fact n).
Proof. rewrite fact_simpl, mult_INR. reflexivity. Qed.
Ltac facts H := repeat rewrite fact_S in H; change (INR (fact 0)) with 1 in H; repeat rewrite INR_IZR_INZ in H; cbn [Z.of_nat Pos.of_succ_nat Pos.succ] in H; cbn [pow] in H.
Definition sin_taylor (t : R) : R :=
  t + t * (t * t) * (((((- / 39916800 * (t * t) + / 362880) * (t * t)) + - / 5040) * (t * t) + / 120) * (t * t) + - / 6).
Definition cos_taylor (t : R) : R :=
  1 - / 2 * (t * t) + t * t * (t * t) * ((((- / 3628800 * (t * t) + / 40320) * (t * t)) + - / 720) * (t * t) + / 24).
Lemma sin_taylor_pos t : 0 <= t <= 8 / 10 -> sin_taylor t <= sin t <= sin_taylor t + / 6000000000.
Proof.
  intros B. destruct (pre_sin_bound t 2 ltac:(lra) ltac:(lra)) as [L U].
  change (2 * 2 + 1)%nat with 5%nat in L. change (2 * (2 + 1))%nat with 6%nat in U.
  unfold sin_approx, sin_term in L, U. cbn [sum_f_R0 Nat.mul Nat.add] in L, U. facts L. facts U.
  assert (W : 0 <= t * t <= 64 / 100) by nra. assert (W2 : 0 <= t * t * (t * t) <= 41 / 100) by nra.
  assert (W4 : 0 <= t * t * (t * t) * (t * t * (t * t)) <= 17 / 100) by nra.
  assert (W6 : 0 <= t * t * (t * t) * (t * t * (t * t)) * (t * t * (t * t)) * t <= 1).
  { clear L U. generalize dependent (t * t * (t * t)). intros v V V2. assert (0 <= v * v * v <= 1) by nra. nra. }
  split.
  - eapply Rle_trans; [|exact L]. apply Req_le. unfold sin_taylor. field.
  - eapply Rle_trans; [exact U|]. apply Rle_trans with (sin_taylor t + t * t * (t * t) * (t * t * (t * t)) * (t * t * (t * t)) * t / 6227020800); [apply Req_le; unfold sin_taylor; field|lra].
Qed.
Lemma sin_near t : Rabs t <= 8 / 10 -> Rabs (sin_taylor t - sin t) <= / 6000000000.
Proof.
  intros B. apply Rabs_le_inv in B. destruct (Rle_or_lt 0 t) as [P|N].
  - pose proof (sin_taylor_pos t ltac:(lra)). apply Rabs_le. lra.
  - pose proof (sin_taylor_pos (- t) ltac:(lra)) as H. rewrite sin_neg in H.
    replace (sin_taylor (- t)) with (- sin_taylor t) in H by (unfold sin_taylor; ring). apply Rabs_le. lra.
Qed.
Lemma cos_near t : Rabs t <= 8 / 10 -> Rabs (cos_taylor t - cos t) <= / 6000000000.
Proof.
  intros B. apply Rabs_le_inv in B. destruct (pre_cos_bound t 2 ltac:(lra) ltac:(lra)) as [L U].
  change (2 * 2 + 1)%nat with 5%nat in L. change (2 * (2 + 1))%nat with 6%nat in U.
  unfold cos_approx, cos_term in L, U. cbn [sum_f_R0 Nat.mul Nat.add] in L, U. facts L. facts U.
  assert (W : 0 <= t * t <= 64 / 100) by nra. assert (W2 : 0 <= t * t * (t * t) <= 41 / 100) by nra.
  assert (W4 : 0 <= t * t * (t * t) * (t * t * (t * t)) <= 17 / 100) by nra.
  assert (W6 : 0 <= t * t * (t * t) * (t * t * (t * t)) * (t * t * (t * t)) <= 7 / 100).
  { clear L U. generalize dependent (t * t * (t * t)). intros v V V2. nra. }
  assert (L' : cos_taylor t <= cos t) by (eapply Rle_trans; [|exact L]; apply Req_le; unfold cos_taylor; field).
  assert (U' : cos t <= cos_taylor t + t * t * (t * t) * (t * t * (t * t)) * (t * t * (t * t)) / 479001600)
    by (eapply Rle_trans; [exact U|]; apply Req_le; unfold cos_taylor; field).
  apply Rabs_le. lra.
Qed.

(** ** The float polynomials *)
Lemma horner_app zz w t u c g e eg : app zz w (/ 1000000000000000) -> 0 <= w <= 62 / 100 -> app t u e -> Rabs u <= / 5 -> 0 <= e <= / 1000 ->
  app c g eg -> Rabs g <= / 5 -> 0 <= eg <= / 1000 -> app (horner zz t c) (u * w + g) (63 / 100 * e + eg + / 1000000000000000).
Proof.
  intros Z W U BU He C G Hg. unfold horner.
  assert (A1 : app (fmul t zz) (u * w) (/ 5 * / 1000000000000000 + 62 / 100 * e + e * / 1000000000000000 + bpow radix2 (0 - 54))).
  { apply (app_mul 0 _ _ _ _ _ _ _ _ U Z BU); [rewrite Rabs_pos_eq; lra|bp; lra|lia]. }
  assert (P : Rabs (u * w) <= / 5 * (62 / 100)) by (rewrite Rabs_mult, (Rabs_pos_eq w) by lra; pose proof (Rabs_pos u); nra).
  assert (A2 : app (fadd (fmul t zz) c) (u * w + g) (/ 5 * / 1000000000000000 + 62 / 100 * e + e * / 1000000000000000 + bpow radix2 (0 - 54) + eg + bpow radix2 (0 - 54))).
  { apply (app_add 0); [exact A1|exact C| |lia]. kk. pose proof (Rabs_triang (u * w) g). lra. }
  apply (app_weaken _ _ _ _ _ A2). replace (u * w + g - (u * w + g)) with 0 by ring. rewrite Rabs_R0. kk. lra.
Qed.
Lemma fin_app c v r e : fin c v -> Rabs (v - r) <= e -> app c r e.
Proof. intros [F E] H. split; [exact F|]. rewrite E. exact H. Qed.
Ltac const_app := eapply fin_app; [apply fmake_exact; [vm_compute; reflexivity|lia]|bp; apply Rabs_le; lra].
Lemma sin_poly_near z t zz : fin z t -> Rabs t <= 787 / 1000 -> app zz (t * t) (/ 1000000000000000) ->
  app (sin_poly z zz) (sin_taylor t) (/ 10000000000).
Proof.
  intros Z T W. apply Rabs_le_inv in T. set (w := t * t) in *. assert (Bw : 0 <= w <= 62 / 100) by (unfold w; nra).
  unfold sin_poly. change (fadd (fmul sin_0 zz) sin_1) with (horner zz sin_0 sin_1).
  assert (C0 : app sin_0 0 (/ 5000000000)) by const_app.
  assert (C1 : app sin_1 (- / 39916800) (/ 100000000000)) by const_app.
  assert (C2 : app sin_2 (/ 362880) (/ 100000000000)) by const_app.
  assert (C3 : app sin_3 (- / 5040) (/ 100000000000)) by const_app.
  assert (C4 : app sin_4 (/ 120) (/ 100000000000)) by const_app.
  assert (C5 : app sin_5 (- / 6) (/ 100000000000)) by const_app.
  pose proof (horner_app zz w sin_0 0 sin_1 _ _ _ W Bw C0 ltac:(apply Rabs_le; lra) ltac:(lra) C1 ltac:(apply Rabs_le; lra) ltac:(lra)) as H1.
  set (u1 := 0 * w + - / 39916800) in *. assert (B1 : - / 100 <= u1 <= / 100) by (unfold u1; lra).
  pose proof (horner_app zz w _ u1 sin_2 _ _ _ W Bw H1 ltac:(apply Rabs_le; lra) ltac:(lra) C2 ltac:(apply Rabs_le; lra) ltac:(lra)) as H2.
  set (u2 := u1 * w + / 362880) in *. assert (B2 : - / 50 <= u2 <= / 50) by (unfold u2; nra).
  pose proof (horner_app zz w _ u2 sin_3 _ _ _ W Bw H2 ltac:(apply Rabs_le; lra) ltac:(lra) C3 ltac:(apply Rabs_le; lra) ltac:(lra)) as H3.
  set (u3 := u2 * w + - / 5040) in *. assert (B3 : - / 30 <= u3 <= / 30) by (unfold u3; nra).
  pose proof (horner_app zz w _ u3 sin_4 _ _ _ W Bw H3 ltac:(apply Rabs_le; lra) ltac:(lra) C4 ltac:(apply Rabs_le; lra) ltac:(lra)) as H4.
  set (u4 := u3 * w + / 120) in *. assert (B4 : - / 20 <= u4 <= / 20) by (unfold u4; nra).
  pose proof (horner_app zz w _ u4 sin_5 _ _ _ W Bw H4 ltac:(apply Rabs_le; lra) ltac:(lra) C5 ltac:(apply Rabs_le; lra) ltac:(lra)) as H5.
  set (p := u4 * w + - / 6) in *. assert (B5 : - / 4 <= p <= / 4) by (unfold p; nra).
  set (q := horner zz (horner zz (horner zz (horner zz (horner zz sin_0 sin_1) sin_2) sin_3) sin_4) sin_5) in *.
  assert (H5' : app q p (/ 10000000000)).
  { apply (app_weaken _ _ _ _ _ H5). replace (p - p) with 0 by ring. rewrite Rabs_R0. lra. }
  assert (A1 : app (fmul z zz) (t * w) (1 * / 1000000000000000 + 1 * 0 + 0 * / 1000000000000000 + bpow radix2 (1 - 54))).
  { apply (app_mul 1 z zz _ _ _ _ 1 1 (app_fin _ _ Z) W); [apply Rabs_le; lra|rewrite Rabs_pos_eq; lra|bp; lra|lia]. }
  assert (M : Rabs (t * w) <= 1 / 2) by (rewrite Rabs_mult, (Rabs_pos_eq w) by lra; assert (Rabs t <= 787 / 1000) by (apply Rabs_le; lra); pose proof (Rabs_pos t); nra).
  assert (A2 : app (fmul (fmul z zz) q) (t * w * p) (1 / 2 * / 10000000000 + / 4 * (1 * / 1000000000000000 + 1 * 0 + 0 * / 1000000000000000 + bpow radix2 (1 - 54)) + (1 * / 1000000000000000 + 1 * 0 + 0 * / 1000000000000000 + bpow radix2 (1 - 54)) * / 10000000000 + bpow radix2 (1 - 54))).
  { apply (app_mul 1 _ _ _ _ _ _ (1 / 2) (/ 4) A1 H5'); [exact M|apply Rabs_le; lra|kk; lra|lia]. }
  assert (N : Rabs (t * w * p) <= 1 / 8) by (rewrite Rabs_mult; assert (Rabs p <= / 4) by (apply Rabs_le; lra); pose proof (Rabs_pos p); pose proof (Rabs_pos (t * w)); nra).
  apply Rabs_le_inv in N.
  assert (A3 : app (fadd z (fmul (fmul z zz) q)) (t + t * w * p) (0 + (1 / 2 * / 10000000000 + / 4 * (1 * / 1000000000000000 + 1 * 0 + 0 * / 1000000000000000 + bpow radix2 (1 - 54)) + (1 * / 1000000000000000 + 1 * 0 + 0 * / 1000000000000000 + bpow radix2 (1 - 54)) * / 10000000000 + bpow radix2 (1 - 54)) + bpow radix2 (1 - 54))).
  { apply (app_add 1); [apply app_fin; exact Z|exact A2| |lia]. kk. assert (Rabs (t + t * w * p) <= 95 / 100) by (apply Rabs_le; lra). lra. }
  apply (app_weaken _ _ _ _ _ A3). replace (t + t * w * p - sin_taylor t) with 0 by (unfold p, u4, u3, u2, u1, sin_taylor, w; ring). rewrite Rabs_R0. kk. lra.
Qed.
Lemma cos_poly_near t zz : Rabs t <= 787 / 1000 -> app zz (t * t) (/ 1000000000000000) ->
  app (cos_poly zz) (cos_taylor t) (/ 2000000000).
Proof.
  intros T W. apply Rabs_le_inv in T. set (w := t * t) in *. assert (Bw : 0 <= w <= 62 / 100) by (unfold w; nra).
  unfold cos_poly. change (fadd (fmul cos_0 zz) cos_1) with (horner zz cos_0 cos_1).
  assert (C0 : app cos_0 0 (/ 5000000000)) by const_app.
  assert (C1 : app cos_1 0 (/ 450000000)) by const_app.
  assert (C2 : app cos_2 (- / 3628800) (/ 100000000000)) by const_app.
  assert (C3 : app cos_3 (/ 40320) (/ 100000000000)) by const_app.
  assert (C4 : app cos_4 (- / 720) (/ 100000000000)) by const_app.
  assert (C5 : app cos_5 (/ 24) (/ 100000000000)) by const_app.
  pose proof (horner_app zz w cos_0 0 cos_1 _ _ _ W Bw C0 ltac:(apply Rabs_le; lra) ltac:(lra) C1 ltac:(apply Rabs_le; lra) ltac:(lra)) as H1.
  set (u1 := 0 * w + 0) in *. assert (B1 : - / 100 <= u1 <= / 100) by (unfold u1; lra).
  pose proof (horner_app zz w _ u1 cos_2 _ _ _ W Bw H1 ltac:(apply Rabs_le; lra) ltac:(lra) C2 ltac:(apply Rabs_le; lra) ltac:(lra)) as H2.
  set (u2 := u1 * w + - / 3628800) in *. assert (B2 : - / 50 <= u2 <= / 50) by (unfold u2; nra).
  pose proof (horner_app zz w _ u2 cos_3 _ _ _ W Bw H2 ltac:(apply Rabs_le; lra) ltac:(lra) C3 ltac:(apply Rabs_le; lra) ltac:(lra)) as H3.
  set (u3 := u2 * w + / 40320) in *. assert (B3 : - / 30 <= u3 <= / 30) by (unfold u3; nra).
  pose proof (horner_app zz w _ u3 cos_4 _ _ _ W Bw H3 ltac:(apply Rabs_le; lra) ltac:(lra) C4 ltac:(apply Rabs_le; lra) ltac:(lra)) as H4.
  set (u4 := u3 * w + - / 720) in *. assert (B4 : - / 20 <= u4 <= / 20) by (unfold u4; nra).
  pose proof (horner_app zz w _ u4 cos_5 _ _ _ W Bw H4 ltac:(apply Rabs_le; lra) ltac:(lra) C5 ltac:(apply Rabs_le; lra) ltac:(lra)) as H5.
  set (p := u4 * w + / 24) in *. assert (B5 : - / 4 <= p <= / 4) by (unfold p; nra).
  set (q := horner zz (horner zz (horner zz (horner zz (horner zz cos_0 cos_1) cos_2) cos_3) cos_4) cos_5) in *.
  assert (H5' : app q p (/ 2200000000)).
  { apply (app_weaken _ _ _ _ _ H5). replace (p - p) with 0 by ring. rewrite Rabs_R0. lra. }
  assert (H : fin (fmake 1 (-1)) (/ 2)).
  { pose proof (fmake_exact 1 (-1) ltac:(vm_compute; reflexivity) ltac:(lia)) as E. replace (/ 2) with (1 * bpow radix2 (-1)) by (bp; lra). exact E. }
  set (e := / 1000000000000000) in *. assert (He : e = / 1000000000000000) by reflexivity.
  assert (A0 : app (fmul (fmake 1 (-1)) zz) (/ 2 * w) (1 * e + 1 * 0 + 0 * e + bpow radix2 (1 - 54))).
  { apply (app_mul 1 _ zz _ _ _ _ 1 1 (app_fin _ _ H) W); [rewrite Rabs_pos_eq; lra|rewrite Rabs_pos_eq; lra|bp; lra|lia]. }
  assert (A1 : app (fsub (f_of_int 1) (fmul (fmake 1 (-1)) zz)) (1 - / 2 * w) (0 + (1 * e + 1 * 0 + 0 * e + bpow radix2 (1 - 54)) + bpow radix2 (1 - 54))).
  { apply (app_sub 1); [apply app_int; lia|exact A0| |lia]. kk. rewrite Rabs_pos_eq by lra. lra. }
  assert (A2 : app (fmul zz zz) (w * w) (1 * e + 1 * e + e * e + bpow radix2 (1 - 54))).
  { apply (app_mul 1 zz zz _ _ _ _ 1 1 W W); [rewrite Rabs_pos_eq; lra|rewrite Rabs_pos_eq; lra|rewrite He; bp; lra|lia]. }
  assert (A2' : app (fmul zz zz) (w * w) (/ 100000000000000)).
  { apply (app_weaken _ _ _ _ _ A2). replace (w * w - w * w) with 0 by ring. rewrite Rabs_R0, He. kk. lra. }
  assert (Ww : 0 <= w * w <= 385 / 1000) by nra.
  assert (A3 : app (fmul (fmul zz zz) q) (w * w * p) (1 * / 2200000000 + 1 * / 100000000000000 + / 100000000000000 * / 2200000000 + bpow radix2 (1 - 54))).
  { apply (app_mul 1 _ _ _ _ _ _ 1 1 A2' H5'); [rewrite Rabs_pos_eq; lra|apply Rabs_le; lra|kk; lra|lia]. }
  assert (A3' : app (fmul (fmul zz zz) q) (w * w * p) (/ 2100000000)).
  { apply (app_weaken _ _ _ _ _ A3). replace (w * w * p - w * w * p) with 0 by ring. rewrite Rabs_R0. kk. lra. }
  assert (N : Rabs (w * w * p) <= 1 / 8) by (rewrite Rabs_mult, (Rabs_pos_eq (w * w)) by lra; assert (Rabs p <= / 4) by (apply Rabs_le; lra); pose proof (Rabs_pos p); nra).
  apply Rabs_le_inv in N.
  assert (A4 : app (fadd (fsub (f_of_int 1) (fmul (fmake 1 (-1)) zz)) (fmul (fmul zz zz) q)) (1 - / 2 * w + w * w * p)
     (0 + (1 * e + 1 * 0 + 0 * e + bpow radix2 (1 - 54)) + bpow radix2 (1 - 54) + / 2100000000 + bpow radix2 (1 - 54))).
  { apply (app_add 1); [exact A1|exact A3'| |lia]. rewrite He. kk. assert (Rabs (1 - / 2 * w + w * w * p) <= 13 / 10) by (apply Rabs_le; lra). lra. }
  apply (app_weaken _ _ _ _ _ A4). replace (1 - / 2 * w + w * w * p - cos_taylor t) with 0 by (unfold p, u4, u3, u2, u1, cos_taylor, w; ring). rewrite Rabs_R0, He. kk. lra.
Qed.

(** ** The whole routine *)
Lemma sin_lipschitz a b : Rabs (sin a - sin b) <= Rabs (a - b).
Proof.
  rewrite form4, !Rabs_mult, (Rabs_pos_eq 2) by lra.
  assert (C : Rabs (cos ((a + b) / 2)) <= 1) by (apply Rabs_le; pose proof (COS_bound ((a + b) / 2)); lra).
  assert (S : forall x, Rabs (sin x) <= Rabs x).
  { intros x. destruct (Rtotal_order x 0) as [H|[->|H]].
    - pose proof (sin_lt_x (- x) ltac:(lra)) as U. rewrite sin_neg in U. rewrite (Rabs_left x) by lra. destruct (Rle_or_lt (-1) x).
      + pose proof (sin_ge_0 (- x) ltac:(lra) ltac:(pose proof PI2_1; lra)) as P. rewrite sin_neg in P. apply Rabs_le. lra.
      + pose proof (SIN_bound x). apply Rabs_le. lra.
    - rewrite Rtrigo_def.sin_0. lra.
    - pose proof (sin_lt_x x H). rewrite (Rabs_pos_eq x) by lra. destruct (Rle_or_lt x 1).
      + pose proof (sin_ge_0 x ltac:(lra) ltac:(pose proof PI2_1; lra)). apply Rabs_le. lra.
      + pose proof (SIN_bound x). apply Rabs_le. lra. }
  specialize (S ((a - b) / 2)). assert (E : Rabs ((a - b) / 2) = Rabs (a - b) / 2) by (unfold Rdiv; rewrite Rabs_mult, (Rabs_pos_eq (/ 2)) by lra; reflexivity).
  rewrite E in S. pose proof (Rabs_pos (cos ((a + b) / 2))). pose proof (Rabs_pos (sin ((a - b) / 2))). nra.
Qed.
(** The sine of [t] plus [n] eighths of a turn, [n] even. *)
Lemma sin_eighths t n : (0 <= n)%Z -> Z.even n = true -> sin (t + IZR n * (PI / 4)) =
  match Z.land n 7 with 0%Z => sin t | 2%Z => cos t | 4%Z => - sin t | _ => - cos t end.
Proof.
  intros P Ev. change 7%Z with (Z.ones 3). rewrite Z.land_ones by lia. change (2 ^ 3)%Z with 8%Z.
  pose proof (Z.div_mod n 8 ltac:(lia)) as E. pose proof (Z.mod_pos_bound n 8 ltac:(lia)) as M. set (c := (n mod 8)%Z) in *. set (q := (n / 8)%Z) in *.
  assert (Q : (0 <= q)%Z) by (apply Z.div_pos; lia).
  assert (Hq : sin (t + IZR n * (PI / 4)) = sin (t + IZR c * (PI / 4))).
  { rewrite <- (sin_period (t + IZR c * (PI / 4)) (Z.to_nat q)). rewrite (INR_IZR_INZ (Z.to_nat q)), Z2Nat.id by exact Q. f_equal. rewrite E, plus_IZR, mult_IZR. lra. }
  rewrite Hq. assert (Ec : Z.even c = true).
  { replace c with (n - 8 * q)%Z by lia. rewrite Z.even_sub, Ev, Z.even_mul. reflexivity. }
  assert (C : (c = 0 \/ c = 2 \/ c = 4 \/ c = 6)%Z).
  { apply Z.even_spec in Ec as [k Ek]. lia. }
  destruct C as [-> | [-> | [-> | ->]]].
  - f_equal. lra.
  - replace (t + 2 * (PI / 4)) with (PI / 2 + t) by lra. symmetry. apply cos_sin.
  - replace (t + 4 * (PI / 4)) with (t + PI) by lra. apply neg_sin.
  - replace (t + 6 * (PI / 4)) with (PI / 2 + t + PI) by lra. rewrite neg_sin, <- cos_sin. reflexivity.
Qed.

Theorem go_sin_accurate (x : float64) : is_finite x = true -> Rabs (B2R x) <= 100 ->
  is_finite (go_sin x) = true /\ Rabs (B2R (go_sin x) - sin (B2R x)) <= / 1000000000.
Proof.
  intros F B. destruct x as [s|s| |s m e H]; try discriminate F.
  - split; [reflexivity|]. cbn. rewrite Rtrigo_def.sin_0, Rminus_0_r, Rabs_R0. lra.
  - unfold go_sin. set (x := B754_finite s m e H) in *.
    assert (Sx : B2R x = if s then - Rabs (B2R x) else Rabs (B2R x)).
    { unfold x. cbn [B2R]. rewrite <- F2R_Zabs. cbn [Z.abs cond_Zopp]. destruct s; cbn [cond_Zopp Z.opp Z.abs].
      - change (Z.neg m) with (- Z.pos m)%Z. rewrite F2R_Zopp. reflexivity.
      - reflexivity. }
    assert (X : fin (fabs x) (Rabs (B2R x))) by (apply fabs_fin; split; [exact F|reflexivity]).
    pose proof (Rabs_pos (B2R x)) as P. rewrite Sx. set (ax := fabs x) in *. clearbody ax. set (r := Rabs (B2R x)) in *. clearbody r. clear F Sx x H m e.
    destruct (reduction ax r X (conj P B)) as (j & E & J & R). rewrite E. clear E.
    assert (Main : forall n y, fin y (IZR n) -> (n = j \/ n = j + 1)%Z -> Z.even n = true ->
      let z := fsub (fsub (fsub ax (fmul y pi4a)) (fmul y pi4b)) (fmul y pi4c) in
      let '(s', j') := if (3 <? Z.land n 7)%Z then (negb s, (Z.land n 7 - 4)%Z) else (s, Z.land n 7) in
      let v := if ((j' =? 1) || (j' =? 2))%Z then cos_poly (fmul z z) else sin_poly z (fmul z z) in
      let w := if (s' : bool) then Bopp v else v in is_finite w = true /\ Rabs (B2R w - sin (if s then - r else r)) <= / 1000000000).
    { intros n y Y Hn Ev z. destruct (R y n Y Hn) as (t & T & _ & _ & Bt & Nt). fold z in T.
      assert (Z2 : app (fmul z z) (t * t) (1 * 0 + 1 * 0 + 0 * 0 + bpow radix2 (1 - 54))).
      { apply (app_mul 1 z z _ _ _ _ 1 1 (app_fin _ _ T) (app_fin _ _ T)); [apply Rabs_le; lra|apply Rabs_le; lra|bp; lra|lia]. }
      assert (Z3 : app (fmul z z) (t * t) (/ 1000000000000000)).
      { apply (app_weaken _ _ _ _ _ Z2). replace (t * t - t * t) with 0 by ring. rewrite Rabs_R0. kk. lra. }
      assert (Bt' : Rabs t <= 787 / 1000) by (apply Rabs_le; lra).
      destruct (sin_poly_near z t _ T Bt' Z3) as [Fs Es]. destruct (cos_poly_near t _ Bt' Z3) as [Fc Ec].
      pose proof (sin_near t ltac:(lra)) as S1. pose proof (cos_near t ltac:(lra)) as S2.
      set (sv := sin_poly z (fmul z z)) in *. set (cv := cos_poly (fmul z z)) in *. clearbody sv cv.
      assert (Lip : Rabs (sin (t + IZR n * (PI / 4)) - sin r) <= / 4000000000).
      { eapply Rle_trans; [apply sin_lipschitz|]. assert (Nr : 0 <= IZR n <= 129) by (split; apply IZR_le; lia).
        pose proof pi_near as Pn. apply Rabs_le_inv in Pn. apply Rabs_le_inv in Nt.
        set (p4 := PI / 4) in *. set (c4 := 785398163397448 / 1000000000000000) in *.
        replace (t + IZR n * p4 - r) with ((t - (r - IZR n * c4)) + IZR n * (p4 - c4)) by ring. apply Rabs_le.
        assert (- (129 * / 1000000000000) <= IZR n * (p4 - c4) <= 129 * / 1000000000000) by nra. lra. }
      rewrite (sin_eighths t n ltac:(lia) Ev) in Lip.
      assert (C : (Z.land n 7 = 0 \/ Z.land n 7 = 2 \/ Z.land n 7 = 4 \/ Z.land n 7 = 6)%Z).
      { change 7%Z with (Z.ones 3). rewrite Z.land_ones by lia. change (2 ^ 3)%Z with 8%Z.
        pose proof (Z.div_mod n 8 ltac:(lia)) as E. pose proof (Z.mod_pos_bound n 8 ltac:(lia)) as M. apply Z.even_spec in Ev as [k Ek]. lia. }
      apply Rabs_le_inv in Es. apply Rabs_le_inv in Ec. apply Rabs_le_inv in S1. apply Rabs_le_inv in S2.
      assert (Sg : sin (if s then - r else r) = if s then - sin r else sin r) by (destruct s; [apply sin_neg|reflexivity]). rewrite Sg. clear Sg.
      destruct C as [C|[C|[C|C]]]; rewrite C in *; cbn [Z.ltb Z.compare Pos.compare Pos.compare_cont Z.sub Z.add Z.opp Z.pos_sub Pos.pred_double Z.double Z.succ_double Z.eqb Pos.eqb orb]; apply Rabs_le_inv in Lip;
        destruct s; cbn [negb]; rewrite ?is_finite_Bopp, ?B2R_Bopp; (split; [assumption|apply Rabs_le; lra]). }
    destruct (Z.odd j) eqn:O.
    + replace (iadd j 1) with (j + 1)%Z by (unwrap; reflexivity).
      assert (Y : fin (fadd (f_of_int j) (f_of_int 1)) (IZR (j + 1))).
      { rewrite <- (rnd_IZR (j + 1)) by lia. rewrite plus_IZR. apply fadd_fin; [apply f_of_int_fin; lia|apply f_of_int_fin; lia|]. apply small_huge. rewrite <- plus_IZR, <- abs_IZR. apply IZR_le. lia. }
      assert (Ev : Z.even (j + 1) = true) by (rewrite Z.even_add, <- Z.negb_odd, O; reflexivity).
      pose proof (Main (j + 1)%Z _ Y (or_intror eq_refl) Ev) as G. cbv zeta in G. cbv zeta. destruct (3 <? Z.land (j + 1) 7)%Z; exact G.
    + assert (Y : fin (f_of_int j) (IZR j)) by (apply f_of_int_fin; lia).
      assert (Ev : Z.even j = true) by (rewrite <- Z.negb_odd, O; reflexivity).
      pose proof (Main j _ Y (or_introl eq_refl) Ev) as G. cbv zeta in G. cbv zeta. destruct (3 <? Z.land j 7)%Z; exact G.
Qed.
