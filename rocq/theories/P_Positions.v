(** Proofs about the positions of suriya_day.go. *)
From Coq Require Import ZArith Reals Lia Lra Bool Psatz.
From Flocq Require Import Core BinarySingleNaN.
From Verif Require Import GoInt GoFloat SuriyaYear SuriyaDay Machine P_Year P_Float P_Machine P_Degree P_Approx.
Open Scope R_scope.

Ltac bp := repeat match goal with
  | |- context [bpow radix2 ?k] => let v := eval vm_compute in (Z.pow 2 (Z.abs k)) in
      first [ change (bpow radix2 k) with (IZR v) | change (bpow radix2 k) with (/ IZR v) ]
  | H : context [bpow radix2 ?k] |- _ => let v := eval vm_compute in (Z.pow 2 (Z.abs k)) in
      first [ change (bpow radix2 k) with (IZR v) in H | change (bpow radix2 k) with (/ IZR v) in H ]
  end.

(** ** The mean Sun *)
Lemma mean_degree e K : (Z.abs e <= 10 ^ 9)%Z -> (Z.abs K <= 10 ^ 9)%Z -> (Z.abs (800 * e + K) <= 8 * 10 ^ 8)%Z ->
  app (mean_sun_degree e K) (360 * IZR (800 * e + K) / 292207) (/ 1000000000).
Proof.
  intros He HK Ha. unfold mean_sun_degree. unfold_consts.
  replace (iadd (imul e 800) K) with (800 * e + K)%Z by (unwrap; lia). set (a := (800 * e + K)%Z) in *.
  assert (Har : Rabs (IZR a) <= 800000000) by (rewrite <- abs_IZR; apply IZR_le; lia).
  assert (H1 : app (fdiv (f_of_int a) (f_of_int 292207)) (IZR a / 292207) (0 / 292207 + bpow radix2 (12 - 54))).
  { apply app_div_int; [apply app_int; lia|lia| |lia]. bp. lra. }
  assert (Hd : Rabs (IZR a / 292207) <= 2738) by (unfold Rdiv; rewrite Rabs_mult, (Rabs_pos_eq (/ 292207)) by lra; lra).
  assert (H2 : app (fmul (fdiv (f_of_int a) (f_of_int 292207)) (f_of_int 360)) (IZR a / 292207 * 360) ((0 / 292207 + bpow radix2 (12 - 54)) * 360 + bpow radix2 (20 - 54))).
  { apply app_mul_int; [exact H1|lia| |lia]. cbn [Z.sub Z.add Z.opp Z.pos_sub Pos.pred_double] in *. bp. lra. }
  apply (app_weaken _ _ _ _ _ H2). replace (IZR a / 292207 * 360 - 360 * IZR a / 292207) with 0 by field. rewrite Rabs_R0.
  cbn [Z.sub Z.add Z.opp Z.pos_sub Pos.pred_double]. bp. lra.
Qed.

(** The float of signs, degrees and minutes, three minutes taken away. *)
Lemma ral3 x y z D : (30 * x + y = D)%Z -> (Z.abs x <= 10 ^ 6)%Z -> (Z.abs y <= 10 ^ 6)%Z -> (Z.abs D <= 10 ^ 6)%Z -> (0 <= z <= 60)%Z ->
  exists v, fin (ral_to_degree x y (isub z 3)) v /\ IZR D + (IZR z - 3) / 60 - 1 / 14900 <= v <= IZR D + (IZR z - 3) / 60 + / 1000000000.
Proof.
  intros ED Hx Hy HD Hz. replace (isub z 3) with (z - 3)%Z by (unwrap; reflexivity).
  pose proof (ral_to_degree_fin x y (z - 3) ltac:(lia) ltac:(lia) ltac:(lia) ltac:(lia)) as F. rewrite ED in F.
  set (v := IZR (10000 * D + 500 * (z - 3) / 3) / 10000) in *. exists (rnd v). split; [exact F|].
  pose proof (Z.div_mod (500 * (z - 3)) 3 ltac:(lia)) as E3. pose proof (Z.mod_pos_bound (500 * (z - 3)) 3 ltac:(lia)) as M3. set (g := (500 * (z - 3) / 3)%Z) in *.
  assert (Hv : v = IZR D + IZR g / 10000) by (unfold v; rewrite plus_IZR, mult_IZR; field).
  assert (G3 : 500 * (IZR z - 3) - 2 <= 3 * IZR g <= 500 * (IZR z - 3)) by (rewrite <- (minus_IZR z 3), <- !mult_IZR, <- minus_IZR; split; apply IZR_le; lia).
  assert (Hf : -1000000 <= IZR D <= 1000000) by (split; apply IZR_le; lia). assert (Hzr : 0 <= IZR z <= 60) by (split; apply IZR_le; lia).
  assert (Ev : Rabs (rnd v - v) <= bpow radix2 (20 - 54)) by (apply small_ulp; [apply Rabs_lt; change (bpow radix2 20) with 1048576; lra|lia]).
  change (bpow radix2 (20 - 54)) with (/ 17179869184) in Ev. apply Rabs_le_inv in Ev. lra.
Qed.

Lemma mean_sun_pos e K : (Z.abs e <= 10 ^ 9)%Z -> (Z.abs K <= 10 ^ 9)%Z -> (1 <= 800 * e + K <= 8 * 10 ^ 8)%Z ->
  let L := 360 * IZR (800 * e + K) / 292207 in
  exists v, fin (mean_sun e K) v /\ L - 4 / 60 - 1 / 10000 <= v <= L - 3 / 60 + / 100000000.
Proof.
  intros He HK Ha L. pose proof (mean_degree e K He HK ltac:(lia)) as A. fold L in A. apply app_bound in A as [F B].
  set (d := mean_sun_degree e K) in *. set (b := B2R d) in *.
  assert (Hr : 1 <= IZR (800 * e + K) <= 800000000) by (split; apply IZR_le; lia).
  assert (HL : / 1000 <= L <= 986000) by (unfold L; lra).
  assert (B50 : 0 <= b <= bpow radix2 50) by (bp; lra).
  destruct (degree_to_ral_pos d b (conj F eq_refl) B50) as (z & E & Hz & _ & Lo & Up).
  unfold mean_sun. fold d. rewrite E.
  assert (Fp : (0 <= Zfloor b <= 986001)%Z) by (split; [rewrite <- (Zfloor_IZR 0); apply Zfloor_le; lra|rewrite <- (Zfloor_IZR 986001); apply Zfloor_le; lra]).
  pose proof (Z.div_mod (Zfloor b) 30 ltac:(lia)) as Ed. pose proof (Z.mod_pos_bound (Zfloor b) 30 ltac:(lia)) as Em.
  destruct (ral3 (Zfloor b / 30) (Zfloor b mod 30) z (Zfloor b) ltac:(lia) ltac:(lia) ltac:(lia) ltac:(lia) ltac:(lia)) as (v & Fv & Bv).
  exists v. split; [exact Fv|]. change (2 ^ 53)%Z with 9007199254740992%Z in *. lra.
Qed.
Lemma mean_sun_zero e K : (Z.abs e <= 10 ^ 9)%Z -> (Z.abs K <= 10 ^ 9)%Z -> (800 * e + K = 0)%Z ->
  exists v, fin (mean_sun e K) v /\ - 3 / 60 - 1 / 10000 <= v <= - 3 / 60 + / 100000000.
Proof.
  intros He HK Ha. assert (E : degree_to_ral (mean_sun_degree e K) = (0, 0, 0)%Z).
  { unfold mean_sun_degree. unfold_consts. replace (iadd (imul e 800) K) with 0%Z by (unwrap; lia). vm_compute. reflexivity. }
  unfold mean_sun. rewrite E. destruct (ral3 0 0 0 0 ltac:(lia) ltac:(lia) ltac:(lia) ltac:(lia) ltac:(lia)) as (v & F & B). exists v. split; [exact F|]. lra.
Qed.
Lemma mean_sun_neg e K : (Z.abs e <= 10 ^ 9)%Z -> (Z.abs K <= 10 ^ 9)%Z -> (-23500 <= 800 * e + K <= -1)%Z ->
  let L := 360 * IZR (800 * e + K) / 292207 in
  exists v, fin (mean_sun e K) v /\ L - 30 - 4 / 60 - 1 / 10000 <= v <= L - 30 - 3 / 60 + / 100000000.
Proof.
  intros He HK Ha L. pose proof (mean_degree e K He HK ltac:(lia)) as A. fold L in A. apply app_bound in A as [F B].
  set (d := mean_sun_degree e K) in *. set (b := B2R d) in *.
  assert (Hr : -23500 <= IZR (800 * e + K) <= -1) by (split; apply IZR_le; lia).
  assert (HL : - 28999 / 1000 <= L <= - / 1000) by (unfold L; lra).
  assert (B50 : - bpow radix2 50 <= b <= - bpow radix2 (-1000)).
  { split; [bp; lra|]. assert (bpow radix2 (-1000) <= bpow radix2 (-20)) by (apply bpow_le; lia). change (bpow radix2 (-20)) with (/ 1048576) in *. lra. }
  destruct (degree_to_ral_neg d b (conj F eq_refl) B50) as (z & E & Hz & Ab & Up). apply Rabs_le_inv in Ab.
  unfold mean_sun. fold d. rewrite E.
  assert (Fp : (-29 <= Zfloor b <= -1)%Z).
  { split; [rewrite <- (Zfloor_IZR (-29)); apply Zfloor_le; lra|]. apply Z.lt_succ_r. apply lt_IZR. cbn. pose proof (Zfloor_lb b). lra. }
  assert (Ed : (Zfloor b / 30 = -1)%Z) by (symmetry; apply (Z.div_unique _ 30 (-1) (Zfloor b + 30)); lia).
  assert (Em : (Z.rem (Zfloor b) 30 = Zfloor b)%Z) by (rewrite <- (Z.opp_involutive (Zfloor b)), Z.rem_opp_l, Z.rem_small by lia; reflexivity).
  rewrite Ed, Em. destruct (ral3 (-1) (Zfloor b) z (Zfloor b - 30) ltac:(lia) ltac:(lia) ltac:(lia) ltac:(lia) ltac:(lia)) as (v & Fv & Bv).
  exists v. split; [exact Fv|]. rewrite minus_IZR in Bv. change (2 ^ 50)%Z with 1125899906842624%Z in *. lra.
Qed.

(** ** The other positions, for any bounded sine *)
Definition bounded_sin (sin : float64 -> float64) : Prop :=
  forall x, is_finite x = true -> Rabs (B2R x) <= 100 -> is_finite (sin x) = true /\ Rabs (B2R (sin x)) <= 1 + / 1000000.

Ltac kk := cbn [Z.sub Z.add Z.opp Z.pos_sub Pos.pred_double Z.succ_double Z.pred_double Z.double Pos.add Pos.succ] in *; bp.
Lemma radconv_fin : fin radconv (5030569068109113 / 288230376151711744).
Proof.
  unfold radconv. replace (5030569068109113 / 288230376151711744) with (rnd (F2R (Float radix2 5030569068109113 (-58)))).
  - apply fmake_fin. apply small_huge. unfold F2R. cbn [Fnum Fexp]. bp. rewrite Rabs_pos_eq by lra. apply Rle_trans with 1; [lra|apply IZR_le; vm_compute; discriminate].
  - rewrite rnd_F2R by (vm_compute; congruence). unfold F2R. cbn [Fnum Fexp]. bp. reflexivity.
Qed.

(** Rounding down to four decimals. *)
Lemma four_decimals x t e : app x t e -> Rabs t <= 10000000 -> 0 <= e <= / 1000 ->
  exists v, fin (fdiv (ffloor x) (f_of_int 10000)) v /\ t / 10000 - e / 10000 - / 10000 - / 10000000000 <= v <= t / 10000 + e / 10000 + / 10000000000.
Proof.
  intros A T E. destruct (app_floor x t e A) as (z & Fz & Bz). apply Rabs_le_inv in T.
  assert (Az : app (fdiv (ffloor x) (f_of_int 10000)) (IZR z / 10000) (0 / 10000 + bpow radix2 (10 - 54))).
  { apply app_div_int; [apply app_fin; exact Fz|lia| |lia]. bp. assert (Rabs (IZR z) <= 10000002) by (apply Rabs_le; lra). lra. }
  apply app_bound in Az as [F B]. exists (B2R (fdiv (ffloor x) (f_of_int 10000))). split; [split; [exact F|reflexivity]|]. kk. lra.
Qed.

Lemma true_sun_near sin ms m : bounded_sin sin -> fin ms m -> -100 <= m <= 900 ->
  exists v, fin (true_sun sin ms) v /\ m - 135 / 60 - / 9999 <= v <= m + 134 / 60 + / 1000000000.
Proof.
  intros S F B. unfold true_sun. pose proof (app_fin ms m F) as A.
  assert (A1 : app (fabs (fsub ms (f_of_int 80))) (Rabs (m - 80)) (0 + 0 + bpow radix2 (10 - 54))).
  { apply app_abs. apply (app_sub 10); [exact A|apply app_int; lia| |lia]. bp. assert (Rabs (m - 80) <= 900) by (apply Rabs_le; lra). lra. }
  set (a := fabs (fsub ms (f_of_int 80))) in *.
  assert (Am : Rabs (m - 80) <= 900) by (apply Rabs_le; lra). pose proof (Rabs_pos (m - 80)) as Ap.
  assert (A2 : app (fmul a radconv) (Rabs (m - 80) * (5030569068109113 / 288230376151711744))
     (900 * 0 + 1 * (0 + 0 + bpow radix2 (10 - 54)) + (0 + 0 + bpow radix2 (10 - 54)) * 0 + bpow radix2 (10 - 54))).
  { apply (app_mul 10 a radconv _ _ _ _ 900 1 A1 (app_fin _ _ radconv_fin)); [rewrite Rabs_pos_eq by lra; exact Am|rewrite Rabs_pos_eq by lra; lra|kk; lra|lia]. }
  apply app_bound in A2 as [F2 B2]. kk. destruct (S _ F2) as [Fs Bs].
  { apply Rabs_le. lra. }
  set (s := sin (fmul a radconv)) in *. apply Rabs_le_inv in Bs.
  assert (A3 : app (fmul (f_of_int 134) s) (134 * B2R s) (134 * 0 + 2 * 0 + 0 * 0 + bpow radix2 (9 - 54))).
  { apply (app_mul 9 _ _ _ _ _ _ 134 2 (app_int 134 ltac:(lia)) (app_self s Fs)); [rewrite Rabs_pos_eq; lra|apply Rabs_le; lra|bp; lra|lia]. }
  destruct (app_floor _ _ _ A3) as (z & Fz & Bz). kk.
  assert (Hz : (-135 <= z <= 134)%Z).
  { split; [apply Z.lt_pred_le; apply lt_IZR; cbn; lra|apply Z.lt_succ_r; apply lt_IZR; cbn; lra]. }
  assert (Hzr : -135 <= IZR z <= 134) by (split; apply IZR_le; lia).
  set (b := ffloor (fmul (f_of_int 134) s)) in *.
  assert (Fb : fin (fmul b (f_of_int 10000)) (IZR (z * 10000))).
  { rewrite <- (rnd_IZR (z * 10000)) by lia. rewrite mult_IZR. apply fmul_fin; [exact Fz|apply f_of_int_fin; lia|]. apply small_huge. rewrite <- mult_IZR, <- abs_IZR. apply IZR_le. lia. }
  assert (A4 : app (fdiv (fmul b (f_of_int 10000)) (f_of_int 60)) (IZR (z * 10000) / 60) (0 / 60 + bpow radix2 (15 - 54))).
  { apply app_div_int; [apply app_fin; exact Fb|lia| |lia]. bp. assert (Rabs (IZR (z * 10000)) <= 1350000) by (rewrite mult_IZR; apply Rabs_le; lra). lra. }
  assert (A5 : app (fmul ms (f_of_int 10000)) (m * 10000) (0 * 10000 + bpow radix2 (24 - 54))).
  { apply app_mul_int; [exact A|lia| |lia]. bp. assert (Rabs m <= 900) by (apply Rabs_le; lra). lra. }
  assert (A6 : app (fadd (fmul ms (f_of_int 10000)) (fdiv (fmul b (f_of_int 10000)) (f_of_int 60))) (m * 10000 + IZR (z * 10000) / 60)
     (0 * 10000 + bpow radix2 (24 - 54) + (0 / 60 + bpow radix2 (15 - 54)) + bpow radix2 (24 - 54))).
  { apply (app_add 24); [exact A5|exact A4| |lia]. rewrite mult_IZR. kk. assert (Rabs (m * 10000 + IZR z * 10000 / 60) <= 9500000) by (apply Rabs_le; lra). lra. }
  kk. rewrite mult_IZR in A6. destruct (four_decimals _ _ _ A6) as (v & Fv & Bv); [apply Rabs_le; lra|lra|].
  exists v. split; [exact Fv|]. lra.
Qed.

Lemma mean_moon_near ts t av ti : fin ts t -> -200 <= t <= 1000 -> (0 <= av <= 691)%Z -> (0 <= ti <= 29)%Z ->
  exists v k, fin (mean_moon ts av ti) v /\ (0 <= k <= 4)%Z /\
    Rabs (v + 360 * IZR k - (t + IZR (av + av / 25) / 60 + 12 * IZR ti - 6666 / 10000)) <= / 1000000000 /\
    v <= 360 /\ (k <> 0%Z -> 0 <= v).
Proof.
  intros F B Ha Ht. unfold mean_moon.
  assert (Hav : (0 <= av / 25 <= 27)%Z) by (Z.to_euclidean_division_equations; lia).
  assert (F1 : fin (fadd (f_of_int av) (ffloor (fdiv (f_of_int av) (f_of_int 25)))) (IZR (av + av / 25))).
  { rewrite <- (rnd_IZR (av + av / 25)) by lia. rewrite plus_IZR. apply fadd_fin; [apply f_of_int_fin; lia| |].
    - rewrite <- (Zfloor_rnd_div av 25) by lia. apply ffloor_fin. apply fdiv_fin; [apply f_of_int_fin; lia|apply f_of_int_fin; lia|lra|apply quot_huge; lia].
    - apply small_huge. rewrite <- plus_IZR, <- abs_IZR. apply IZR_le. lia. }
  set (w := (av + av / 25)%Z) in *. assert (Hw : 0 <= IZR w <= 718) by (split; apply IZR_le; lia). assert (Htr : 0 <= IZR ti <= 29) by (split; apply IZR_le; lia).
  assert (A1 : app (fdiv (fadd (f_of_int av) (ffloor (fdiv (f_of_int av) (f_of_int 25)))) (f_of_int 60)) (IZR w / 60) (0 / 60 + bpow radix2 (4 - 54))).
  { apply app_div_int; [apply app_fin; exact F1|lia| |lia]. bp. rewrite Rabs_pos_eq by lra. lra. }
  set (a := fdiv (fadd (f_of_int av) (ffloor (fdiv (f_of_int av) (f_of_int 25)))) (f_of_int 60)) in *.
  assert (A2 : app (fadd ts a) (t + IZR w / 60) (0 + (0 / 60 + bpow radix2 (4 - 54)) + bpow radix2 (11 - 54))).
  { apply (app_add 11); [apply app_fin; exact F|exact A1| |lia]. kk. assert (Rabs (t + IZR w / 60) <= 1012) by (apply Rabs_le; lra). lra. }
  assert (A3 : app (fmul (f_of_int ti) (f_of_int 12)) (IZR ti * 12) 0).
  { apply app_fin. rewrite <- mult_IZR, <- (rnd_IZR (ti * 12)) by lia. rewrite mult_IZR. apply fmul_fin; [apply f_of_int_fin; lia|apply f_of_int_fin; lia|].
    apply small_huge. rewrite <- mult_IZR, <- abs_IZR. apply IZR_le. lia. }
  assert (A4 : app (fadd (fadd ts a) (fmul (f_of_int ti) (f_of_int 12))) (t + IZR w / 60 + IZR ti * 12)
     (0 + (0 / 60 + bpow radix2 (4 - 54)) + bpow radix2 (11 - 54) + 0 + bpow radix2 (11 - 54))).
  { apply (app_add 11); [exact A2|exact A3| |lia]. kk. assert (Rabs (t + IZR w / 60 + IZR ti * 12) <= 1400) by (apply Rabs_le; lra). lra. }
  assert (A5 : app (ral_to_degree 0 0 40) (6666 / 10000) (bpow radix2 (0 - 54))).
  { pose proof (ral_to_degree_fin 0 0 40 ltac:(lia) ltac:(lia) ltac:(lia) ltac:(lia)) as R. destruct R as [R1 R2]. split; [exact R1|]. rewrite R2.
    change (10000 * (30 * 0 + 0) + 500 * 40 / 3)%Z with 6666%Z. apply small_ulp; [rewrite Rabs_pos_eq by lra; change (bpow radix2 0) with 1; lra|lia]. }
  assert (A6 : app (fsub (fadd (fadd ts a) (fmul (f_of_int ti) (f_of_int 12))) (ral_to_degree 0 0 40)) (t + IZR w / 60 + IZR ti * 12 - 6666 / 10000)
     (0 + (0 / 60 + bpow radix2 (4 - 54)) + bpow radix2 (11 - 54) + 0 + bpow radix2 (11 - 54) + bpow radix2 (0 - 54) + bpow radix2 (11 - 54))).
  { apply (app_sub 11); [exact A4|exact A5| |lia]. kk. assert (Rabs (t + IZR w / 60 + IZR ti * 12 - 6666 / 10000) <= 1400) by (apply Rabs_le; lra). lra. }
  set (x := fsub (fadd (fadd ts a) (fmul (f_of_int ti) (f_of_int 12))) (ral_to_degree 0 0 40)) in *. apply app_bound in A6 as [Fx Bx]. kk.
  set (r := B2R x) in *. destruct (Rle_or_lt r 360) as [C|C].
  - exists r, 0%Z. rewrite (normalize_low x r (conj Fx eq_refl) C). repeat split; try exact Fx; try lia; try exact C. apply Rabs_le. lra.
  - pose proof (normalize_high x r (conj Fx eq_refl) ltac:(bp; lra)) as N.
    pose proof (Zfloor_lb r) as L. pose proof (Zfloor_ub r) as U.
    assert (Fr : (360 <= Zfloor r <= 1500)%Z) by (split; [rewrite <- (Zfloor_IZR 360); apply Zfloor_le; lra|rewrite <- (Zfloor_IZR 1500); apply Zfloor_le; lra]).
    pose proof (Z.div_mod (Zfloor r) 360 ltac:(lia)) as E. pose proof (Z.mod_pos_bound (Zfloor r) 360 ltac:(lia)) as M. set (k := (Zfloor r / 360)%Z) in *.
    assert (R0 : IZR (360 * k) <= IZR (Zfloor r)) by (apply IZR_le; lia). assert (R1 : IZR (Zfloor r) <= IZR (360 * k) + 359) by (rewrite <- plus_IZR; apply IZR_le; lia).
    exists (r - IZR (360 * k)), k. split; [exact N|]. split; [lia|]. rewrite mult_IZR in *. split; [apply Rabs_le; lra|split; [lra|intros _; lra]].
Qed.

Lemma mean_uccabala_near u e : (0 <= u <= 3231)%Z -> (-40 <= e <= 1000)%Z ->
  app (mean_uccabala u e) (IZR (u + e) * 90 / 808 + 2 / 60) (/ 1000000000).
Proof.
  intros Hu He. unfold mean_uccabala. replace (iadd u e) with (u + e)%Z by (unwrap; reflexivity). set (n := (u + e)%Z) in *.
  assert (Hn : -40 <= IZR n <= 4231) by (split; apply IZR_le; lia).
  assert (A1 : app (fmul (fmul (f_of_int n) (f_of_int 3)) (f_of_int 30)) (IZR (n * 3 * 30)) 0).
  { apply app_fin. rewrite <- (rnd_IZR (n * 3 * 30)) by lia. rewrite mult_IZR. apply fmul_fin; [|apply f_of_int_fin; lia|apply small_huge; rewrite <- mult_IZR, <- abs_IZR; apply IZR_le; lia].
    rewrite <- (rnd_IZR (n * 3)) by lia. rewrite mult_IZR. apply fmul_fin; [apply f_of_int_fin; lia|apply f_of_int_fin; lia|apply small_huge; rewrite <- mult_IZR, <- abs_IZR; apply IZR_le; lia]. }
  set (x := fmul (fmul (f_of_int n) (f_of_int 3)) (f_of_int 30)) in *. rewrite !mult_IZR in A1.
  assert (A2 : app (fdiv x (f_of_int 808)) (IZR n * 3 * 30 / 808) (0 / 808 + bpow radix2 (10 - 54))).
  { apply app_div_int; [exact A1|lia| |lia]. bp. assert (Rabs (IZR n * 3 * 30) <= 400000) by (apply Rabs_le; lra). lra. }
  assert (A3 : app (fmul (fdiv x (f_of_int 808)) (f_of_int 60)) (IZR n * 3 * 30 / 808 * 60) ((0 / 808 + bpow radix2 (10 - 54)) * 60 + bpow radix2 (16 - 54))).
  { apply app_mul_int; [exact A2|lia| |lia]. kk. assert (Rabs (IZR n * 3 * 30 / 808) <= 500) by (apply Rabs_le; lra). lra. }
  assert (A4 : app (fadd (fmul (fdiv x (f_of_int 808)) (f_of_int 60)) (f_of_int 2)) (IZR n * 3 * 30 / 808 * 60 + 2) ((0 / 808 + bpow radix2 (10 - 54)) * 60 + bpow radix2 (16 - 54) + 0 + bpow radix2 (16 - 54))).
  { apply (app_add 16); [exact A3|apply app_int; lia| |lia]. kk. assert (Rabs (IZR n * 3 * 30 / 808 * 60 + 2) <= 31000) by (apply Rabs_le; lra). lra. }
  assert (A5 : app (fdiv (fadd (fmul (fdiv x (f_of_int 808)) (f_of_int 60)) (f_of_int 2)) (f_of_int 60)) ((IZR n * 3 * 30 / 808 * 60 + 2) / 60) (((0 / 808 + bpow radix2 (10 - 54)) * 60 + bpow radix2 (16 - 54) + 0 + bpow radix2 (16 - 54)) / 60 + bpow radix2 (10 - 54))).
  { apply app_div_int; [exact A4|lia| |lia]. kk. assert (Rabs (IZR n * 3 * 30 / 808 * 60 + 2) <= 31000) by (apply Rabs_le; lra). lra. }
  apply (app_weaken _ _ _ _ _ A5). replace ((IZR n * 3 * 30 / 808 * 60 + 2) / 60 - (IZR n * 90 / 808 + 2 / 60)) with 0 by field. rewrite Rabs_R0. kk. lra.
Qed.

Lemma true_moon_near sin mm m mu u : bounded_sin sin -> fin mm m -> -300 <= m <= 360 -> app mu u (/ 1000000000) -> -10 <= u <= 1000 ->
  exists v, fin (true_moon sin mm mu) v /\ m - 297 / 60 <= v <= m + 297 / 60.
Proof.
  intros S F B U Bu. unfold true_moon. pose proof (app_fin mm m F) as A.
  assert (A1 : app (fsub mm mu) (m - u) (0 + / 1000000000 + bpow radix2 (11 - 54))).
  { apply (app_sub 11); [exact A|exact U| |lia]. bp. assert (Rabs (m - u) <= 1400) by (apply Rabs_le; lra). lra. }
  set (a := fsub mm mu) in *.
  assert (A2 : app (fmul a radconv) ((m - u) * (5030569068109113 / 288230376151711744))
     (1400 * 0 + 1 * (0 + / 1000000000 + bpow radix2 (11 - 54)) + (0 + / 1000000000 + bpow radix2 (11 - 54)) * 0 + bpow radix2 (11 - 54))).
  { apply (app_mul 11 a radconv _ _ _ _ 1400 1 A1 (app_fin _ _ radconv_fin)); [apply Rabs_le; lra|rewrite Rabs_pos_eq by lra; lra|kk; lra|lia]. }
  apply app_bound in A2 as [F2 B2]. kk. destruct (S _ F2) as [Fs Bs].
  { apply Rabs_le. lra. }
  set (s := sin (fmul a radconv)) in *. apply Rabs_le_inv in Bs.
  assert (A3 : app (fmul (f_of_int 296) s) (296 * B2R s) (296 * 0 + 2 * 0 + 0 * 0 + bpow radix2 (10 - 54))).
  { apply (app_mul 10 _ _ _ _ _ _ 296 2 (app_int 296 ltac:(lia)) (app_self s Fs)); [rewrite Rabs_pos_eq; lra|apply Rabs_le; lra|bp; lra|lia]. }
  assert (A4 : app (fdiv (fmul (f_of_int 296) s) (f_of_int 60)) (296 * B2R s / 60) ((296 * 0 + 2 * 0 + 0 * 0 + bpow radix2 (10 - 54)) / 60 + bpow radix2 (3 - 54))).
  { apply app_div_int; [exact A3|lia| |lia]. kk. assert (Rabs (296 * B2R s) <= 297) by (apply Rabs_le; lra). lra. }
  set (b := fdiv (fmul (f_of_int 296) s) (f_of_int 60)) in *.
  assert (A5 : app (fsub mm b) (m - 296 * B2R s / 60) (0 + ((296 * 0 + 2 * 0 + 0 * 0 + bpow radix2 (10 - 54)) / 60 + bpow radix2 (3 - 54)) + bpow radix2 (9 - 54))).
  { apply (app_sub 9); [exact A|exact A4| |lia]. kk. assert (Rabs (m - 296 * B2R s / 60) <= 400) by (apply Rabs_le; lra). lra. }
  assert (A6 : app (fmul (fsub mm b) (f_of_int 10000)) ((m - 296 * B2R s / 60) * 10000)
     ((0 + ((296 * 0 + 2 * 0 + 0 * 0 + bpow radix2 (10 - 54)) / 60 + bpow radix2 (3 - 54)) + bpow radix2 (9 - 54)) * 10000 + bpow radix2 (22 - 54))).
  { apply app_mul_int; [exact A5|lia| |lia]. kk. assert (Rabs (m - 296 * B2R s / 60) <= 400) by (apply Rabs_le; lra). lra. }
  kk. destruct (four_decimals _ _ _ A6) as (v & Fv & Bv); [apply Rabs_le; lra|lra|].
  exists v. split; [exact Fv|]. lra.
Qed.

Lemma raek_near tm t : fin tm t -> -400 <= t <= 400 ->
  exists v, fin (raek tm) v /\ Rabs (v - (t / (133333 / 10000) + 1)) <= / 1000000000.
Proof.
  intros F B. unfold raek. pose proof (ral_to_degree_fin 0 13 20 ltac:(lia) ltac:(lia) ltac:(lia) ltac:(lia)) as R.
  change (10000 * (30 * 0 + 13) + 500 * 20 / 3)%Z with 133333%Z in R. set (c := rnd (133333 / 10000)) in *.
  assert (C : Rabs (c - 133333 / 10000) <= bpow radix2 (4 - 54)) by (apply small_ulp; [rewrite Rabs_pos_eq by lra; change (bpow radix2 4) with 16; lra|lia]).
  change (bpow radix2 (4 - 54)) with (/ 1125899906842624) in C. apply Rabs_le_inv in C.
  assert (Q : Rabs (t / c - t / (133333 / 10000)) <= / 100000000000).
  { replace (t / c - t / (133333 / 10000)) with (t * (133333 / 10000 - c) * / (c * (133333 / 10000))) by (field; lra).
    assert (I : 0 <= / (c * (133333 / 10000)) <= / 100).
    { split; [left; apply Rinv_0_lt_compat; nra|]. apply Rinv_le; nra. }
    rewrite !Rabs_mult, (Rabs_pos_eq (/ _)) by apply I.
    assert (Rabs t <= 400) by (apply Rabs_le; lra). assert (Rabs (133333 / 10000 - c) <= / 1125899906842624) by (apply Rabs_le; lra).
    pose proof (Rabs_pos t). pose proof (Rabs_pos (133333 / 10000 - c)).
    apply Rle_trans with (400 * / 1125899906842624 * / 100); [|lra]. apply Rmult_le_compat; [nra|apply I|nra|apply I]. }
  assert (T : -32 <= t / (133333 / 10000) <= 32) by lra. apply Rabs_le_inv in Q.
  destruct (rnd_app (t / c) (t / (133333 / 10000)) (/ 100000000000) 6 ltac:(apply Rabs_le; lra) ltac:(bp; assert (Rabs (t / (133333 / 10000)) <= 32) by (apply Rabs_le; lra); lra) ltac:(lia)) as [Hh Hr].
  assert (A1 : app (fdiv tm (ral_to_degree 0 13 20)) (t / (133333 / 10000)) (/ 100000000000 + bpow radix2 (6 - 54))).
  { destruct (fdiv_fin tm _ t c F R ltac:(lra) Hh) as [Fq Eq]. split; [exact Fq|]. rewrite Eq. exact Hr. }
  assert (A2 : app (fadd (fdiv tm (ral_to_degree 0 13 20)) (f_of_int 1)) (t / (133333 / 10000) + 1) (/ 100000000000 + bpow radix2 (6 - 54) + 0 + bpow radix2 (6 - 54))).
  { apply (app_add 6); [exact A1|apply app_int; lia| |lia]. kk. assert (Rabs (t / (133333 / 10000) + 1) <= 33) by (apply Rabs_le; lra). lra. }
  destruct A2 as [F2 B2]. eexists. split; [split; [exact F2|reflexivity]|]. kk. lra.
Qed.
