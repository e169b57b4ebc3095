(** Proofs about the float-only helpers of helpers.go. *)
From Coq Require Import ZArith Reals Lia Lra Bool ZifyBool Psatz.
From Flocq Require Import Core BinarySingleNaN.
From Verif Require Import GoInt GoFloat SuriyaYear Machine P_Float P_Machine.
Open Scope R_scope.

Notation format := (generic_format radix2 fexp64).
Lemma fin_format x r : fin x r -> format r.
Proof. intros [_ <-]. apply generic_format_B2R. Qed.
Lemma rnd_format x : format x -> rnd x = x.
Proof. apply round_generic. typeclasses eauto. Qed.
Lemma format_IZR z : (Z.abs z <= 2 ^ 53)%Z -> format (IZR z).
Proof. intros H. rewrite <- (rnd_IZR z H). apply generic_format_round; typeclasses eauto. Qed.
Lemma rnd_0 : rnd 0 = 0.
Proof. apply round_0. typeclasses eauto. Qed.
Lemma rnd_nonneg x : 0 <= x -> 0 <= rnd x.
Proof. intros H. rewrite <- rnd_0. apply rnd_le. exact H. Qed.
Lemma bpow50 : bpow radix2 50 = IZR (2 ^ 50).
Proof. reflexivity. Qed.
Lemma bpow53 : bpow radix2 53 = IZR (2 ^ 53).
Proof. reflexivity. Qed.
Lemma le_huge x : Rabs x <= bpow radix2 1000 -> Rabs x <= huge.
Proof. exact (fun H => H). Qed.
Lemma small_huge x : Rabs x <= IZR (2 ^ 64) -> Rabs x <= huge.
Proof. intros H. eapply Rle_trans; [exact H|]. change (IZR (2 ^ 64)) with (bpow radix2 64). apply bpow_le. lia. Qed.

(** ** The grid of a float64 below 2^50 contains the integers *)
Lemma grid d : format d -> Rabs d <= bpow radix2 50 ->
  exists m c, d = IZR m * bpow radix2 c /\ (d <> 0 -> c = cexp radix2 fexp64 d) /\ (c <= 0)%Z.
Proof.
  intros F B. destruct (Req_dec d 0) as [Z0|N].
  - exists 0%Z, 0%Z. split; [rewrite Z0; ring|]. split; [contradiction|lia].
  - exists (Ztrunc (scaled_mantissa radix2 fexp64 d)), (cexp radix2 fexp64 d). split.
    + rewrite F at 1. reflexivity.
    + split; [intros _; reflexivity|]. assert (M : (mag radix2 d <= 51)%Z).
      { apply mag_le_bpow; [exact N|]. eapply Rle_lt_trans; [exact B|]. apply bpow_lt. lia. }
      unfold cexp, SpecFloat.fexp, SpecFloat.emin. lia.
Qed.
Lemma int_on_grid n c : (c <= 0)%Z -> IZR n = IZR (n * 2 ^ (- c)) * bpow radix2 c.
Proof.
  intros Hc. rewrite mult_IZR. replace (IZR (2 ^ (- c))) with (bpow radix2 (- c)).
  - rewrite Rmult_assoc, <- bpow_plus. replace (- c + c)%Z with 0%Z by lia. cbn. ring.
  - rewrite <- IZR_Zpower by lia. reflexivity.
Qed.
(** The difference between a float and an integer below it, when not larger than the float, is a float. *)
Lemma sub_exact d n : format d -> 0 <= d <= bpow radix2 50 -> 0 <= d - IZR n <= d -> format (d - IZR n).
Proof.
  intros F B R. destruct (grid d F) as (m & c & E & Ec & Hc); [rewrite Rabs_pos_eq; lra|].
  assert (D : d - IZR n = F2R (Float radix2 (m - n * 2 ^ (- c)) c)).
  { unfold F2R. cbn [Fnum Fexp]. rewrite minus_IZR, Rmult_minus_distr_r, <- int_on_grid, <- E by exact Hc. reflexivity. }
  destruct (Req_dec d 0) as [Z0|N].
  { replace (d - IZR n) with 0 by lra. apply generic_format_0. }
  specialize (Ec N).
  assert (Hm : (Z.abs m < 2 ^ 53)%Z).
  { apply lt_IZR. change (IZR (2 ^ 53)) with (bpow radix2 53). apply Rmult_lt_reg_r with (bpow radix2 c); [apply bpow_gt_0|].
    rewrite <- bpow_plus, abs_IZR. rewrite <- (Rabs_pos_eq (bpow radix2 c)) by apply bpow_ge_0. rewrite <- Rabs_mult, <- E.
    eapply Rlt_le_trans; [apply bpow_mag_gt|]. apply bpow_le. rewrite Ec. unfold cexp, SpecFloat.fexp, SpecFloat.emin. lia. }
  rewrite D. apply format_F2R.
  - assert (P : 0 < bpow radix2 c) by apply bpow_gt_0.
    assert (L : IZR (m - n * 2 ^ (- c)) * bpow radix2 c = d - IZR n) by (rewrite D; reflexivity).
    assert (0 <= m - n * 2 ^ (- c))%Z by (apply le_IZR; nra).
    assert (m - n * 2 ^ (- c) <= m)%Z by (apply le_IZR; nra). lia.
  - rewrite Ec. unfold cexp, SpecFloat.fexp, SpecFloat.emin. lia.
Qed.

(** ** Dividing and flooring *)
Lemma floor_quotient d c t : format d -> bpow radix2 (-1000) <= Rabs d <= bpow radix2 50 -> (2 ^ t <= c < 2 ^ (t + 1))%Z -> (0 <= t <= 20)%Z ->
  Zfloor (rnd (d / IZR c)) = Zfloor (d / IZR c).
Proof.
  intros F B C T. destruct (grid d F (proj2 B)) as (m & e & E & Ee & He).
  assert (N : d <> 0). { intros ->. rewrite Rabs_R0 in B. pose proof (bpow_gt_0 radix2 (-1000)). lra. }
  specialize (Ee N).
  assert (C0 : (0 < c)%Z) by (pose proof (Z.pow_pos_nonneg 2 t ltac:(lia) ltac:(lia)); lia).
  assert (Cp : 0 < IZR c) by (apply IZR_lt; exact C0).
  assert (C1 : 1 <= IZR c) by (apply IZR_le; lia).
  set (q := d / IZR c). set (k := Zfloor q). assert (Eq : q * IZR c = d) by (unfold q; field; lra).
  assert (Q0 : q <> 0) by (intros X; rewrite X in Eq; lra).
  pose proof (Zfloor_lb q) as K1. pose proof (Zfloor_ub q) as K2. fold k in K1, K2.
  assert (Qa : Rabs q <= Rabs d * bpow radix2 (- t)).
  { apply Rmult_le_reg_r with (IZR c); [exact Cp|]. rewrite <- (Rabs_pos_eq (IZR c)) at 1 by lra. rewrite <- Rabs_mult, Eq.
    rewrite Rmult_assoc. rewrite <- (Rmult_1_r (Rabs d)) at 1. apply Rmult_le_compat_l; [apply Rabs_pos|].
    assert (bpow radix2 t <= IZR c) by (rewrite <- IZR_Zpower by lia; apply IZR_le; cbn; lia).
    assert (Hb : bpow radix2 (- t) * bpow radix2 t = 1) by (rewrite <- bpow_plus; replace (- t + t)%Z with 0%Z by lia; reflexivity).
    pose proof (bpow_gt_0 radix2 (- t)). nra. }
  assert (Kb : (Z.abs k <= 2 ^ 53 - 1)%Z).
  { assert (Q1 : Rabs q <= IZR (2 ^ 50)). { eapply Rle_trans; [exact Qa|]. rewrite <- bpow50. rewrite <- (Rmult_1_r (bpow radix2 50)). apply Rmult_le_compat; [apply Rabs_pos|apply bpow_ge_0|apply B|].
      change 1 with (bpow radix2 0). apply bpow_le. lia. }
    apply Rabs_le_inv in Q1. assert (k <= 2 ^ 50)%Z by (apply le_IZR; lra). assert (- 2 ^ 50 - 1 <= k)%Z by (apply le_IZR; rewrite minus_IZR, opp_IZR; lra). lia. }
  apply Zfloor_imp. split.
  - rewrite <- (rnd_IZR k) by lia. apply rnd_le. exact K1.
  - set (n := (k + 1)%Z) in *. assert (Hn : q < IZR n) by (unfold n; rewrite plus_IZR; exact K2).
    set (u := bpow radix2 e) in *. assert (U0 : 0 < u) by apply bpow_gt_0.
    assert (G : u <= IZR (c * n) - d).
    { assert (X : IZR (c * n) - d = IZR (c * n * 2 ^ (- e) - m) * u) by (rewrite minus_IZR, Rmult_minus_distr_r, <- E; unfold u; rewrite <- int_on_grid by exact He; reflexivity).
      assert (P : 0 < IZR (c * n) - d) by (rewrite mult_IZR; nra).
      assert (1 <= c * n * 2 ^ (- e) - m)%Z. { apply Z.lt_pred_le. apply lt_IZR. cbn. rewrite X in P. nra. }
      rewrite X. assert (1 <= IZR (c * n * 2 ^ (- e) - m)) by (apply IZR_le; assumption). nra. }
    assert (Ue : Rabs (rnd q - q) <= / 2 * (u * bpow radix2 (- t))).
    { eapply Rle_trans; [apply error_le_half_ulp; typeclasses eauto|]. apply Rmult_le_compat_l; [lra|].
      rewrite ulp_neq_0 by exact Q0. unfold u. rewrite <- bpow_plus. apply bpow_le.
      assert (Mq : (mag radix2 q <= mag radix2 d - t)%Z).
      { replace (mag radix2 d - t)%Z with (mag radix2 (d * bpow radix2 (- t)) : Z) by (rewrite mag_mult_bpow by exact N; lia).
        apply mag_le_abs; [exact Q0|]. rewrite Rabs_mult, (Rabs_pos_eq (bpow radix2 (- t))) by apply bpow_ge_0. exact Qa. }
      assert (Md : (-999 <= mag radix2 d)%Z) by (apply mag_ge_bpow; apply B).
      rewrite Ee. unfold cexp, SpecFloat.fexp, SpecFloat.emin. lia. }
    apply Rabs_le_inv in Ue. assert (Ct : IZR c * bpow radix2 (- t) < 2).
    { apply Rmult_lt_reg_r with (bpow radix2 t); [apply bpow_gt_0|]. rewrite Rmult_assoc, <- bpow_plus. replace (- t + t)%Z with 0%Z by lia.
      change (bpow radix2 0) with 1. replace (2 * bpow radix2 t) with (bpow radix2 (t + 1)) by (rewrite bpow_plus; cbn; ring).
      rewrite Rmult_1_r. rewrite <- IZR_Zpower by lia. apply IZR_lt. cbn. lia. }
    apply Rmult_lt_reg_r with (IZR c); [exact Cp|]. replace (IZR k + 1) with (IZR n) by (unfold n; rewrite plus_IZR; reflexivity).
    rewrite mult_IZR in G. assert ((rnd q - q) * IZR c <= / 2 * (u * (IZR c * bpow radix2 (- t)))) by nra. nra.
Qed.

Lemma Zfloor_quot r n : (0 < n)%Z -> Zfloor (r / IZR n) = (Zfloor r / n)%Z.
Proof.
  intros Hn. assert (0 < IZR n) by (apply IZR_lt; exact Hn). apply Zfloor_imp.
  pose proof (Z.div_mod (Zfloor r) n ltac:(lia)) as E. pose proof (Z.mod_pos_bound (Zfloor r) n Hn).
  pose proof (Zfloor_lb r). pose proof (Zfloor_ub r). split.
  - apply Rmult_le_reg_r with (IZR n); [assumption|]. unfold Rdiv. rewrite Rmult_assoc, Rinv_l, Rmult_1_r by lra.
    apply Rle_trans with (IZR (Zfloor r)); [|lra]. rewrite <- mult_IZR. apply IZR_le. nia.
  - apply Rmult_lt_reg_r with (IZR n); [assumption|]. unfold Rdiv. rewrite Rmult_assoc, Rinv_l, Rmult_1_r by lra.
    apply Rlt_le_trans with (IZR (Zfloor r + 1)); [rewrite plus_IZR; lra|]. rewrite <- mult_IZR. apply IZR_le. nia.
Qed.
Lemma small_ulp q e : Rabs q < bpow radix2 e -> (-900 <= e <= 100)%Z -> Rabs (rnd q - q) <= bpow radix2 (e - 54).
Proof.
  intros H He. destruct (Req_dec q 0) as [->|N].
  { rewrite rnd_0. replace (0 - 0) with 0 by ring. rewrite Rabs_R0. apply bpow_ge_0. }
  eapply Rle_trans; [apply error_le_half_ulp; typeclasses eauto|]. rewrite ulp_neq_0 by exact N.
  replace (bpow radix2 (e - 54)) with (/ 2 * bpow radix2 (e - 53)) by (replace (e - 53)%Z with (1 + (e - 54))%Z by lia; rewrite bpow_plus; cbn; field).
  apply Rmult_le_compat_l; [lra|]. apply bpow_le. assert (mag radix2 q <= e)%Z by (apply mag_le_bpow; assumption).
  unfold cexp, SpecFloat.fexp, SpecFloat.emin. lia.
Qed.
Lemma floor_bound r : Rabs r <= bpow radix2 50 -> (Z.abs (Zfloor r) <= 2 ^ 50 )%Z.
Proof.
  intros B. rewrite bpow50 in B. apply Rabs_le_inv in B. pose proof (Zfloor_lb r). pose proof (Zfloor_ub r).
  assert (Zfloor r <= 2 ^ 50)%Z by (apply le_IZR; lra). assert (- 2 ^ 50 <= Zfloor r)%Z; [|lia].
  rewrite <- (Zfloor_IZR (- 2 ^ 50)). apply Zfloor_le. rewrite opp_IZR. lra.
Qed.
Lemma div_huge r n : (1 <= n)%Z -> Rabs r <= bpow radix2 50 -> Rabs (r / IZR n) <= IZR (2 ^ 50).
Proof.
  intros Hn B. assert (1 <= IZR n) by (apply IZR_le; exact Hn). unfold Rdiv. rewrite Rabs_mult, Rabs_inv, (Rabs_pos_eq (IZR n)) by lra.
  rewrite <- (Rmult_1_r (IZR (2 ^ 50))). apply Rmult_le_compat; [apply Rabs_pos| |exact B|rewrite <- Rinv_1; apply Rinv_le; lra].
  left. apply Rinv_0_lt_compat. lra.
Qed.
Lemma le_2_64 r : Rabs r <= IZR (2 ^ 50) -> Rabs r <= huge.
Proof. intros H. apply small_huge. eapply Rle_trans; [exact H|]. apply IZR_le. vm_compute. discriminate. Qed.

(** int(math.Floor(d / c)) *)
Lemma floor_div_float d r c t : fin d r -> Rabs r <= bpow radix2 50 -> 0 <= r \/ r <= - bpow radix2 (-1000) ->
  (2 ^ t <= c < 2 ^ (t + 1))%Z -> (1 <= t <= 20)%Z ->
  fin (ffloor (fdiv d (f_of_int c))) (IZR (Zfloor r / c)).
Proof.
  intros D B S C T. assert (C0 : (2 <= c <= 2 ^ 21)%Z).
  { pose proof (Z.pow_le_mono_r 2 1 t ltac:(lia) ltac:(lia)). pose proof (Z.pow_le_mono_r 2 (t + 1) 21 ltac:(lia) ltac:(lia)). lia. }
  assert (Cp : 2 <= IZR c) by (apply IZR_le; lia).
  assert (E : Zfloor (rnd (r / IZR c)) = (Zfloor r / c)%Z).
  { rewrite <- Zfloor_quot by lia. destruct (Rle_or_lt (bpow radix2 (-1000)) (Rabs r)) as [L|L].
    - apply (floor_quotient r c t); [apply (fin_format d r D)|split; assumption|exact C|lia].
    - assert (P : 0 <= r) by (destruct S as [S|S]; [exact S|]; pose proof (bpow_gt_0 radix2 (-1000)); rewrite Rabs_left in L; lra).
      rewrite Rabs_pos_eq in L by exact P.
      assert (X : 0 <= r / IZR c <= bpow radix2 (-1000)).
      { split; [apply Rmult_le_pos; [exact P|left; apply Rinv_0_lt_compat; lra]|]. apply Rmult_le_reg_r with (IZR c); [lra|].
        unfold Rdiv. rewrite Rmult_assoc, Rinv_l, Rmult_1_r by lra. pose proof (bpow_gt_0 radix2 (-1000)). nra. }
      assert (T1 : bpow radix2 (-1000) < 1) by (change 1 with (bpow radix2 0); apply bpow_lt; lia).
      rewrite (Zfloor_imp 0 (r / IZR c)) by (cbn; lra). apply Zfloor_imp. cbn. split; [apply rnd_nonneg; apply X|].
      eapply Rle_lt_trans; [apply rnd_le; apply X|]. rewrite rnd_bpow by lia. lra. }
  rewrite <- E. apply ffloor_fin. apply fdiv_fin; [exact D|apply f_of_int_fin; lia|lra|]. apply le_2_64, div_huge; [lia|exact B].
Qed.

(** int(math.Floor((d - math.Floor(d)) * 60)) for d >= 0 *)
Lemma minutes_pos d r : fin d r -> 0 <= r <= bpow radix2 50 -> exists z,
  fin (ffloor (fmul (fsub d (ffloor d)) (f_of_int 60))) (IZR z) /\ (0 <= z < 60)%Z /\
  IZR z = IZR (Zfloor (rnd ((r - IZR (Zfloor r)) * 60))) /\
  IZR z / 60 - / IZR (2 ^ 53) <= r - IZR (Zfloor r) < (IZR z + 1) / 60.
Proof.
  intros D B. pose proof (Zfloor_lb r) as L. pose proof (Zfloor_ub r) as U.
  assert (Fp : (0 <= Zfloor r)%Z) by (rewrite <- (Zfloor_IZR 0); apply Zfloor_le; apply B).
  assert (Fp' : 0 <= IZR (Zfloor r)) by (apply IZR_le; exact Fp).
  assert (Fm : format (r - IZR (Zfloor r))) by (apply sub_exact; [apply (fin_format d r D)|exact B|lra]).
  set (f := r - IZR (Zfloor r)) in *. assert (F0 : 0 <= f < 1) by (unfold f; lra).
  assert (F1 : f <= 1 - bpow radix2 (-53)).
  { change 1 with (bpow radix2 0). change (-53)%Z with (fexp64 0). rewrite <- pred_bpow. apply pred_ge_gt; try typeclasses eauto; [exact Fm|apply generic_format_bpow; vm_compute; discriminate|apply F0]. }
  change (bpow radix2 (-53)) with (/ IZR (2 ^ 53)) in F1.
  set (q := f * 60). assert (Q0 : 0 <= q < 60) by (unfold q; lra).
  assert (Er : Rabs (rnd q - q) <= bpow radix2 (-48)).
  { apply (small_ulp q 6); [|lia]. rewrite Rabs_pos_eq by lra. change (bpow radix2 6) with 64. lra. }
  change (bpow radix2 (-48)) with (/ IZR (2 ^ 48)) in Er. change (2 ^ 48)%Z with 281474976710656%Z in Er. change (2 ^ 53)%Z with 9007199254740992%Z in *.
  apply Rabs_le_inv in Er. assert (R0 : 0 <= rnd q) by (apply rnd_nonneg; lra).
  assert (R1 : rnd q < 60) by (unfold q in *; lra).
  exists (Zfloor (rnd q)). split.
  { apply ffloor_fin. apply fmul_fin.
    - rewrite <- (rnd_format f Fm). apply fsub_fin; [exact D|apply ffloor_fin; exact D|]. apply le_2_64. fold f. rewrite Rabs_pos_eq by lra. apply Rle_trans with 1; [lra|apply IZR_le; vm_compute; discriminate].
    - apply f_of_int_fin. vm_compute. discriminate.
    - apply le_2_64. fold q. rewrite Rabs_pos_eq by lra. apply Rle_trans with 60; [lra|apply IZR_le; vm_compute; discriminate]. }
  pose proof (Zfloor_lb (rnd q)) as ZL. pose proof (Zfloor_ub (rnd q)) as ZU. set (z := Zfloor (rnd q)) in *.
  split; [split|split].
  - rewrite <- (Zfloor_IZR 0). apply Zfloor_le. exact R0.
  - apply lt_IZR. lra.
  - reflexivity.
  - split; [unfold q in *; lra|]. destruct (Rlt_or_le f ((IZR z + 1) / 60)) as [X|X]; [exact X|exfalso].
    assert (Y : IZR (z + 1) <= q) by (unfold q; rewrite plus_IZR; lra). apply rnd_le in Y. rewrite rnd_IZR in Y.
    + rewrite plus_IZR in Y. lra.
    + assert (z < 60)%Z by (apply lt_IZR; lra). assert (0 <= z)%Z by (unfold z; rewrite <- (Zfloor_IZR 0); apply Zfloor_le; exact R0). lia.
Qed.

Lemma degree_to_ral_pos d r : fin d r -> 0 <= r <= bpow radix2 50 -> exists z,
  degree_to_ral d = ((Zfloor r / 30)%Z, (Zfloor r mod 30)%Z, z) /\ (0 <= z < 60)%Z /\
  z = Zfloor (rnd ((r - IZR (Zfloor r)) * 60)) /\
  IZR z / 60 - / IZR (2 ^ 53) <= r - IZR (Zfloor r) < (IZR z + 1) / 60.
Proof.
  intros D B. destruct (minutes_pos d r D B) as (z & Z1 & Z2 & Z3 & Z4). exists z.
  assert (Ba : Rabs r <= bpow radix2 50) by (rewrite Rabs_pos_eq; lra).
  assert (Fp : (0 <= Zfloor r)%Z) by (rewrite <- (Zfloor_IZR 0); apply Zfloor_le; apply B).
  pose proof (floor_bound r Ba) as Fb. split; [|split; [exact Z2|split; [apply eq_IZR; exact Z3|exact Z4]]].
  unfold degree_to_ral. rewrite (int_of_f_fin _ z Z1) by (unfold in_int64, two63; lia).
  rewrite (int_of_f_fin _ _ (floor_div_float d r 30 4 D Ba (or_introl (proj1 B)) ltac:(lia) ltac:(lia))).
  2:{ pose proof (Z.div_mod (Zfloor r) 30 ltac:(lia)). pose proof (Z.mod_pos_bound (Zfloor r) 30 ltac:(lia)). unfold in_int64, two63. lia. }
  rewrite (int_of_f_fin _ _ (ffloor_fin d r D)) by (unfold in_int64, two63; lia).
  unfold imod. rewrite Z.rem_mod_nonneg by lia. rewrite wrap64_id; [reflexivity|].
  pose proof (Z.mod_pos_bound (Zfloor r) 30 ltac:(lia)). unfold in_int64, two63. lia.
Qed.

(** Negative degrees: floor division but truncated remainder. *)
Lemma degree_to_ral_neg d r : fin d r -> - bpow radix2 50 <= r <= - bpow radix2 (-1000) -> exists z,
  degree_to_ral d = ((Zfloor r / 30)%Z, Z.rem (Zfloor r) 30, z) /\ (0 <= z <= 60)%Z /\
  Rabs (IZR z / 60 - (r - IZR (Zfloor r))) <= / 60 + / IZR (2 ^ 50) /\
  IZR z / 60 - / IZR (2 ^ 50) <= r - IZR (Zfloor r).
Proof.
  intros D B. pose proof (bpow_gt_0 radix2 (-1000)) as B0.
  assert (Ba : Rabs r <= bpow radix2 50) by (rewrite Rabs_left; lra).
  pose proof (floor_bound r Ba) as Fb. pose proof (Zfloor_lb r) as L. pose proof (Zfloor_ub r) as U.
  set (f := r - IZR (Zfloor r)). assert (F0 : 0 <= f < 1) by (unfold f; lra).
  assert (E1 : Rabs (rnd f - f) <= bpow radix2 (-53)) by (apply (small_ulp f 1); [rewrite Rabs_pos_eq by lra; change (bpow radix2 1) with 2; lra|lia]).
  assert (F1 : 0 <= rnd f <= 1). { split; [apply rnd_nonneg; lra|]. rewrite <- (rnd_IZR 1) by (vm_compute; discriminate). apply rnd_le. lra. }
  set (q := rnd f * 60). assert (Q0 : 0 <= q <= 60) by (unfold q; lra).
  assert (E2 : Rabs (rnd q - q) <= bpow radix2 (-48)) by (apply (small_ulp q 6); [rewrite Rabs_pos_eq by lra; change (bpow radix2 6) with 64; lra|lia]).
  assert (R0 : 0 <= rnd q <= 60). { split; [apply rnd_nonneg; lra|]. rewrite <- (rnd_IZR 60) by (vm_compute; discriminate). apply rnd_le. lra. }
  change (bpow radix2 (-48)) with (/ 281474976710656) in E2. change (bpow radix2 (-53)) with (/ 9007199254740992) in E1. change (2 ^ 50)%Z with 1125899906842624%Z.
  apply Rabs_le_inv in E1, E2. exists (Zfloor (rnd q)). pose proof (Zfloor_lb (rnd q)) as ZL. pose proof (Zfloor_ub (rnd q)) as ZU.
  assert (Zr : (0 <= Zfloor (rnd q) <= 60)%Z). { split; [rewrite <- (Zfloor_IZR 0); apply Zfloor_le; lra|rewrite <- (Zfloor_IZR 60); apply Zfloor_le; lra]. }
  split; [|split; [exact Zr|split; [apply Rabs_le; unfold q in *; fold f; lra|unfold q in *; fold f; lra]]].
  unfold degree_to_ral.
  assert (Z1 : fin (ffloor (fmul (fsub d (ffloor d)) (f_of_int 60))) (IZR (Zfloor (rnd q)))).
  { apply ffloor_fin. apply fmul_fin; [|apply f_of_int_fin; vm_compute; discriminate|].
    - apply fsub_fin; [exact D|apply ffloor_fin; exact D|]. apply le_2_64. fold f. rewrite Rabs_pos_eq by lra. apply Rle_trans with 1; [lra|apply IZR_le; vm_compute; discriminate].
    - apply le_2_64. fold f. fold q. rewrite Rabs_pos_eq by lra. apply Rle_trans with 60; [lra|apply IZR_le; vm_compute; discriminate]. }
  rewrite (int_of_f_fin _ _ Z1) by (unfold in_int64, two63; lia).
  rewrite (int_of_f_fin _ _ (floor_div_float d r 30 4 D Ba (or_intror (proj2 B)) ltac:(lia) ltac:(lia))).
  2:{ pose proof (Z.div_mod (Zfloor r) 30 ltac:(lia)). pose proof (Z.mod_pos_bound (Zfloor r) 30 ltac:(lia)). unfold in_int64, two63. lia. }
  rewrite (int_of_f_fin _ _ (ffloor_fin d r D)) by (unfold in_int64, two63; lia).
  unfold imod. rewrite wrap64_id; [reflexivity|]. pose proof (Z.rem_bound_abs (Zfloor r) 30 ltac:(lia)). unfold in_int64, two63. lia.
Qed.

(** ** NormalizeDegree *)
Lemma normalize_low d r : fin d r -> r <= 360 -> normalize_degree d = d.
Proof.
  intros D H. unfold normalize_degree. rewrite (fle_fin d _ r 360 D (f_of_int_fin 360 ltac:(vm_compute; discriminate))).
  rewrite Rle_bool_true by exact H. reflexivity.
Qed.
Lemma normalize_high d r : fin d r -> 360 < r <= bpow radix2 50 -> fin (normalize_degree d) (r - IZR (360 * (Zfloor r / 360))).
Proof.
  intros D H. unfold normalize_degree. rewrite (fle_fin d _ r 360 D (f_of_int_fin 360 ltac:(vm_compute; discriminate))).
  rewrite Rle_bool_false by apply H.
  assert (Ba : Rabs r <= bpow radix2 50) by (rewrite Rabs_pos_eq; lra). pose proof (floor_bound r Ba) as Fb.
  assert (Fp : (360 <= Zfloor r)%Z) by (rewrite <- (Zfloor_IZR 360); apply Zfloor_le; lra).
  pose proof (Zfloor_lb r) as L. pose proof (Zfloor_ub r) as U.
  pose proof (Z.div_mod (Zfloor r) 360 ltac:(lia)) as E. pose proof (Z.mod_pos_bound (Zfloor r) 360 ltac:(lia)) as M.
  set (k := (Zfloor r / 360)%Z) in *.
  assert (R : 0 <= r - IZR (360 * k) < 360).
  { split; [apply Rle_trans with (IZR (Zfloor r) - IZR (360 * k)); [rewrite <- minus_IZR; apply IZR_le; lia|lra]|].
    apply Rlt_le_trans with (IZR (Zfloor r + 1 - 360 * k)); [rewrite minus_IZR, plus_IZR; lra|apply IZR_le; lia]. }
  assert (K0 : 0 <= IZR (360 * k)) by (apply IZR_le; lia).
  rewrite <- (rnd_format (r - IZR (360 * k))) by (apply sub_exact; [apply (fin_format d r D)|lra|lra]).
  apply fsub_fin; [exact D| |apply le_2_64; rewrite Rabs_pos_eq by lra; apply Rle_trans with 360; [lra|apply IZR_le; vm_compute; discriminate]].
  replace (IZR (360 * k)) with (rnd (IZR k * 360)) by (rewrite <- mult_IZR, rnd_IZR by lia; f_equal; lia).
  apply fmul_fin; [|apply f_of_int_fin; vm_compute; discriminate|].
  - unfold k. apply (floor_div_float d r 360 8 D Ba); [left; lra|lia|lia].
  - apply small_huge. rewrite <- mult_IZR, <- abs_IZR. apply IZR_le. lia.
Qed.

(** ** RalToDegree *)
Lemma ral_to_degree_fin x y z : (Z.abs x <= 10 ^ 9)%Z -> (Z.abs y <= 10 ^ 9)%Z -> (Z.abs (30 * x + y) <= 10 ^ 9)%Z -> (Z.abs z <= 10 ^ 6)%Z ->
  fin (ral_to_degree x y z) (rnd (IZR (10000 * (30 * x + y) + 500 * z / 3) / 10000)).
Proof.
  intros Hx Hy HD Hz. unfold ral_to_degree.
  replace (iadd (imul 30 x) y) with (30 * x + y)%Z by (unwrap; reflexivity).
  replace (imul z 10000) with (z * 10000)%Z by (unwrap; reflexivity).
  set (D := (30 * x + y)%Z) in *. assert (HDr : Rabs (IZR D) <= 1000000000) by (rewrite <- abs_IZR; apply IZR_le; lia).
  assert (Hzr : Rabs (IZR z) <= 1000000) by (rewrite <- abs_IZR; apply IZR_le; lia). apply Rabs_le_inv in HDr, Hzr.
  assert (P1 : fin (fmul (f_of_int D) (f_of_int 10000)) (IZR (D * 10000))).
  { rewrite <- (rnd_IZR (D * 10000)) by lia. rewrite mult_IZR. apply fmul_fin; [apply f_of_int_fin; lia|apply f_of_int_fin; lia|].
    apply small_huge. rewrite <- mult_IZR, <- abs_IZR. apply IZR_le. lia. }
  set (w := IZR (z * 10000) / 60). assert (Hw : w = IZR z * 500 / 3) by (unfold w; rewrite mult_IZR; field).
  assert (P2 : fin (fdiv (f_of_int (z * 10000)) (f_of_int 60)) (rnd w)).
  { apply fdiv_fin; [apply f_of_int_fin; lia|apply f_of_int_fin; lia|lra|]. apply quot_huge; lia. }
  assert (Ww : Rabs w < bpow radix2 28) by (change (bpow radix2 28) with 268435456; apply Rabs_lt; lra).
  pose proof (small_ulp w 28 Ww ltac:(lia)) as Ew. change (bpow radix2 (28 - 54)) with (/ 67108864) in Ew. apply Rabs_le_inv in Ew.
  set (s := IZR (D * 10000) + rnd w). assert (HDm : IZR (D * 10000) = IZR D * 10000) by apply mult_IZR.
  assert (Ss : Rabs s < bpow radix2 44) by (change (bpow radix2 44) with 17592186044416; apply Rabs_lt; unfold s; lra).
  pose proof (small_ulp s 44 Ss ltac:(lia)) as Es. change (bpow radix2 (44 - 54)) with (/ 1024) in Es. apply Rabs_le_inv in Es.
  assert (P3 : fin (fadd (fmul (f_of_int D) (f_of_int 10000)) (fdiv (f_of_int (z * 10000)) (f_of_int 60))) (rnd s)).
  { apply fadd_fin; [exact P1|exact P2|]. apply small_huge. fold s. apply Rle_trans with (bpow radix2 44); [lra|]. change (bpow radix2 44) with (IZR (2 ^ 44)). apply IZR_le. vm_compute. discriminate. }
  assert (Fl : Zfloor (rnd s) = (10000 * D + 500 * z / 3)%Z).
  { pose proof (Z.div_mod (500 * z) 3 ltac:(lia)) as E3. pose proof (Z.mod_pos_bound (500 * z) 3 ltac:(lia)) as M3. set (g := (500 * z / 3)%Z) in *.
    assert (G : w = IZR g + IZR ((500 * z) mod 3) / 3).
    { rewrite Hw. apply Rmult_eq_reg_r with 3; [|lra]. replace (IZR z * 500 / 3 * 3) with (IZR (500 * z)) by (rewrite mult_IZR; field).
      rewrite E3 at 1. rewrite plus_IZR, mult_IZR. field. }
    assert (C : ((500 * z) mod 3 = 0 \/ (500 * z) mod 3 = 1 \/ (500 * z) mod 3 = 2)%Z) by lia.
    destruct C as [C|C].
    - rewrite C in *. assert (W : w = IZR g) by (rewrite G; lra). assert (Sg : s = IZR (10000 * D + g)).
      { unfold s. rewrite W, rnd_IZR by lia. rewrite <- plus_IZR. f_equal. lia. }
      rewrite Sg, rnd_IZR by lia. apply Zfloor_IZR.
    - apply Zfloor_imp. rewrite (plus_IZR (10000 * D + g) 1), plus_IZR, (mult_IZR 10000 D).
      remember (rnd s) as rs eqn:Ers. unfold s in Es. rewrite HDm in Es. clear Ers.
      destruct C as [C|C]; rewrite C in G; split; lra. }
  replace (IZR (10000 * D + 500 * z / 3) / 10000) with (IZR (Zfloor (rnd s)) / 10000) by (rewrite Fl; reflexivity).
  apply fdiv_fin; [apply ffloor_fin; exact P3|apply f_of_int_fin; lia|lra|].
  rewrite Fl. apply quot_huge; lia.
Qed.

(** ** The round trip *)
Lemma round_trip x y z : (0 <= x <= 10 ^ 6)%Z -> (0 <= y < 30)%Z -> (0 <= z < 60)%Z -> exists z',
  degree_to_ral (ral_to_degree x y z) = (x, y, z') /\ (z' = z \/ z' = z - 1)%Z /\ (z mod 3 <> 0 -> z' = z - 1)%Z /\ (0 <= z')%Z.
Proof.
  intros Hx Hy Hz. pose proof (ral_to_degree_fin x y z ltac:(lia) ltac:(lia) ltac:(lia) ltac:(lia)) as F.
  set (d := ral_to_degree x y z) in *. clearbody d. set (D := (30 * x + y)%Z) in *. assert (HD : (0 <= D <= 30000030)%Z) by lia.
  pose proof (Z.div_mod (500 * z) 3 ltac:(lia)) as E3. pose proof (Z.mod_pos_bound (500 * z) 3 ltac:(lia)) as M3.
  set (g := (500 * z / 3)%Z) in *. set (rho := ((500 * z) mod 3)%Z) in *.
  assert (Hg : (0 <= g <= 9833)%Z) by lia.
  set (v := IZR (10000 * D + g) / 10000) in *. assert (Hv : v = IZR D + IZR g / 10000) by (unfold v; rewrite plus_IZR, mult_IZR; field).
  assert (HDr : 0 <= IZR D <= 30000030) by (split; apply IZR_le; lia). assert (Hgr : 0 <= IZR g <= 9833) by (split; apply IZR_le; lia).
  assert (Ev : Rabs (rnd v - v) <= bpow radix2 (25 - 54)) by (apply small_ulp; [rewrite Rabs_pos_eq by lra; change (bpow radix2 25) with 33554432; lra|lia]).
  change (bpow radix2 (25 - 54)) with (/ 536870912) in Ev. apply Rabs_le_inv in Ev.
  assert (Lo : IZR D <= rnd v) by (rewrite <- (rnd_IZR D) by lia; apply rnd_le; lra).
  assert (Fl : Zfloor (rnd v) = D) by (apply Zfloor_imp; rewrite plus_IZR; lra).
  assert (B : 0 <= rnd v <= bpow radix2 50) by (rewrite bpow50; change (2 ^ 50)%Z with 1125899906842624%Z; lra).
  destruct (degree_to_ral_pos d (rnd v) F B) as (z' & E & R & Ez & _). rewrite Fl in *. exists z'.
  assert (Dx : (D / 30 = x)%Z) by (unfold D; Z.to_euclidean_division_equations; lia).
  assert (Dy : (D mod 30 = y)%Z) by (unfold D; Z.to_euclidean_division_equations; lia).
  split; [rewrite E, Dx, Dy; reflexivity|].
  set (q := (rnd v - IZR D) * 60) in *. assert (Hq : 0 <= q < 60) by (unfold q; lra).
  assert (Eq : Rabs (rnd q - q) <= bpow radix2 (6 - 54)) by (apply small_ulp; [rewrite Rabs_pos_eq by lra; change (bpow radix2 6) with 64; lra|lia]).
  change (bpow radix2 (6 - 54)) with (/ 281474976710656) in Eq. apply Rabs_le_inv in Eq.
  assert (Gz : IZR g * 60 / 10000 = IZR z - IZR rho / 500).
  { assert (X : IZR (500 * z) = IZR (3 * g + rho)) by (rewrite <- E3; reflexivity). rewrite plus_IZR, !mult_IZR in X. lra. }
  assert (Rr : 0 <= IZR rho <= 2) by (split; apply IZR_le; lia).
  assert (Zr : Zfloor (rnd q) = z \/ Zfloor (rnd q) = (z - 1)%Z).
  { destruct (Rle_or_lt (IZR z) (rnd q)) as [L|L]; [left|right]; apply Zfloor_imp; rewrite ?plus_IZR, ?minus_IZR; unfold q in *; lra. }
  split; [rewrite Ez; exact Zr|]. split; [|apply R].
  intros Nz. assert (Rp : 1 <= IZR rho) by (apply IZR_le; unfold rho; Z.to_euclidean_division_equations; lia).
  rewrite Ez. apply Zfloor_imp. rewrite ?plus_IZR, ?minus_IZR. unfold q in *. lra.
Qed.

(** The other way: a non-negative degree, written in signs, degrees and minutes and back. *)
Lemma there_and_back d r : fin d r -> 0 <= r <= 1000000 ->
  exists v, (let '(x, y, z) := degree_to_ral d in fin (ral_to_degree x y z) v) /\ r - 1 / 60 - 1 / 9999 <= v <= r + / 1000000000.
Proof.
  intros D B. assert (B' : 0 <= r <= bpow radix2 50) by (rewrite bpow50; change (2 ^ 50)%Z with 1125899906842624%Z; lra).
  destruct (degree_to_ral_pos d r D B') as (z & E & Hz & _ & L & U). rewrite E.
  assert (Fp : (0 <= Zfloor r <= 1000000)%Z) by (split; [rewrite <- (Zfloor_IZR 0); apply Zfloor_le; lra|rewrite <- (Zfloor_IZR 1000000); apply Zfloor_le; lra]).
  pose proof (Z.div_mod (Zfloor r) 30 ltac:(lia)) as Ed. pose proof (Z.mod_pos_bound (Zfloor r) 30 ltac:(lia)) as Em.
  pose proof (ral_to_degree_fin (Zfloor r / 30) (Zfloor r mod 30) z ltac:(lia) ltac:(lia) ltac:(lia) ltac:(lia)) as F.
  rewrite <- Ed in F. set (v := IZR (10000 * Zfloor r + 500 * z / 3) / 10000) in *. exists (rnd v). split; [exact F|].
  pose proof (Z.div_mod (500 * z) 3 ltac:(lia)) as E3. pose proof (Z.mod_pos_bound (500 * z) 3 ltac:(lia)) as M3. set (g := (500 * z / 3)%Z) in *.
  assert (Hv : v = IZR (Zfloor r) + IZR g / 10000) by (unfold v; rewrite plus_IZR, mult_IZR; field).
  assert (G3 : 500 * IZR z - 2 <= 3 * IZR g <= 500 * IZR z) by (rewrite <- !mult_IZR, <- minus_IZR; split; apply IZR_le; lia).
  assert (Hg : 0 <= IZR g) by (apply IZR_le; lia).
  assert (Hf : 0 <= IZR (Zfloor r) <= 1000000) by (split; apply IZR_le; lia). assert (Hzr : 0 <= IZR z <= 59) by (split; apply IZR_le; lia).
  assert (Ev : Rabs (rnd v - v) <= bpow radix2 (20 - 54)) by (apply small_ulp; [rewrite Rabs_pos_eq by lra; change (bpow radix2 20) with 1048576; lra|lia]).
  change (bpow radix2 (20 - 54)) with (/ 17179869184) in Ev. apply Rabs_le_inv in Ev. change (2 ^ 53)%Z with 9007199254740992%Z in *. lra.
Qed.
