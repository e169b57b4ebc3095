(** Proofs about fused operations. *)
From Coq Require Import ZArith Reals Lia Lra Bool Psatz.
From Flocq Require Import Core BinarySingleNaN.
From Verif Require Import GoInt GoFloat SuriyaYear SuriyaDay Machine GoSin Fused P_Year P_Float P_Machine P_Degree P_Approx P_Positions P_Sin P_SinAcc P_Equations.
Open Scope R_scope.

(** ** The operations *)
Lemma fma_fin x y z a b c : fin x a -> fin y b -> fin z c -> Rabs (a * b + c) <= huge -> fin (Bfma mode_NE x y z) (rnd (a * b + c)).
Proof.
  intros [Hx Ex] [Hy Ey] [Hz Ez] Hb. pose proof (Bfma_correct 53 1024 prec53 emax1024 mode_NE x y z Hx Hy Hz) as C.
  cbv zeta in C. change (round_mode mode_NE) with ZnearestE in C. rewrite Ex, Ey, Ez in C. fold (rnd (a * b + c)) in C.
  rewrite rnd_no_overflow in C by exact Hb. destruct C as (C1 & C2 & _). split; [exact C2|exact C1].
Qed.
Lemma fopp_fin x a : fin x a -> fin (Bopp x) (- a).
Proof. intros [F E]. split; [rewrite is_finite_Bopp; exact F|rewrite B2R_Bopp, E; reflexivity]. Qed.

(** If the product is exact, fusing makes no difference, not even to the sign of a zero. *)
Lemma muladd_exact x y z a b c : fin x a -> fin y b -> fin z c -> rnd (a * b) = a * b -> Rabs (a * b) <= huge -> Rabs (a * b + c) <= huge ->
  Bfma mode_NE x y z = fadd (fmul x y) z.
Proof.
  intros X Y Z E H1 H2. destruct (fmul_fin x y a b X Y H1) as [Fm Em]. rewrite E in Em.
  pose proof (fma_fin x y z a b c X Y Z H2) as [Ff Ef]. destruct (fadd_fin _ z _ c (conj Fm Em) Z H2) as [Fa Ea].
  destruct X as [Hx Ex], Y as [Hy Ey], Z as [Hz Ez].
  apply B2R_Bsign_inj; [exact Ff|exact Fa|rewrite Ef, Ea; reflexivity|].
  pose proof (Bfma_correct 53 1024 prec53 emax1024 mode_NE x y z Hx Hy Hz) as C.
  cbv zeta in C. change (round_mode mode_NE) with ZnearestE in C. rewrite Ex, Ey, Ez in C. fold (rnd (a * b + c)) in C.
  rewrite rnd_no_overflow in C by exact H2. destruct C as (_ & _ & ->).
  pose proof (Bplus_correct 53 1024 prec53 emax1024 mode_NE (fmul x y) z Fm Hz) as D.
  change (round_mode mode_NE) with ZnearestE in D. rewrite Em, Ez in D. fold (rnd (a * b + c)) in D.
  rewrite rnd_no_overflow in D by exact H2. destruct D as (_ & _ & D). fold (fadd (fmul x y) z) in D. rewrite D.
  destruct (Rcompare (a * b + c) 0); try reflexivity.
  pose proof (Bmult_correct 53 1024 prec53 emax1024 mode_NE x y) as M. change (round_mode mode_NE) with ZnearestE in M.
  rewrite Ex, Ey in M. fold (rnd (a * b)) in M. rewrite rnd_no_overflow in M by exact H1. destruct M as (_ & _ & M). fold (fmul x y) in M.
  rewrite M by (destruct (fmul x y); try reflexivity; discriminate Fm).
  unfold Bfma_szero. destruct (Bsign x), (Bsign y), (Bsign z); reflexivity.
Qed.
Lemma fadd_comm x y a b : fin x a -> fin y b -> Rabs (a + b) <= huge -> fadd x y = fadd y x.
Proof.
  intros X Y H. destruct (fadd_fin x y a b X Y H) as [F1 E1]. rewrite Rplus_comm in H. destruct (fadd_fin y x b a Y X H) as [F2 E2].
  apply B2R_Bsign_inj; [exact F1|exact F2|rewrite E1, E2, Rplus_comm; reflexivity|].
  destruct X as [Hx Ex], Y as [Hy Ey].
  pose proof (Bplus_correct 53 1024 prec53 emax1024 mode_NE x y Hx Hy) as C. pose proof (Bplus_correct 53 1024 prec53 emax1024 mode_NE y x Hy Hx) as D.
  change (round_mode mode_NE) with ZnearestE in C, D. rewrite Ex, Ey in C, D. rewrite (Rplus_comm a b) in C. fold (rnd (b + a)) in C, D.
  rewrite rnd_no_overflow in C, D by exact H. destruct C as (_ & _ & C), D as (_ & _ & D). fold (fadd x y) in C. fold (fadd y x) in D. rewrite C, D.
  destruct (Rcompare (b + a) 0); try reflexivity. apply andb_comm.
Qed.
Lemma muladd_same f x y z a b c : fin x a -> fin y b -> fin z c -> rnd (a * b) = a * b -> Rabs (a * b) <= huge -> Rabs (a * b + c) <= huge ->
  muladd f x y z = fadd (fmul x y) z.
Proof. intros. destruct f; [|reflexivity]. eapply muladd_exact; eassumption. Qed.
Lemma addmul_same f x y z a b c : fin x a -> fin y b -> fin z c -> rnd (a * b) = a * b -> Rabs (a * b) <= huge -> Rabs (a * b + c) <= huge ->
  addmul f z x y = fadd z (fmul x y).
Proof.
  intros X Y Z E H1 H2. destruct f; [|reflexivity]. unfold addmul. rewrite (muladd_exact x y z a b c X Y Z E H1 H2).
  destruct (fmul_fin x y a b X Y H1) as [Fm Em]. rewrite E in Em. apply (fadd_comm _ _ (a * b) c (conj Fm Em) Z H2).
Qed.
Lemma submul_same f x y z a b c : fin x a -> fin y b -> fin z c -> rnd (a * b) = a * b -> Rabs (a * b) <= huge -> Rabs (c - a * b) <= huge ->
  submul f z x y = fsub z (fmul x y).
Proof.
  intros X Y Z E H1 H2. destruct f; [|reflexivity]. unfold submul. destruct (fmul_fin x y a b X Y H1) as [Fm Em]. rewrite E in Em.
  assert (Ec : - a * b + c = c - a * b) by ring.
  assert (H3 : Rabs (- a * b + c) <= huge) by (rewrite Ec; exact H2).
  pose proof (fopp_fin x a X) as [Ho Eo].
  pose proof (fma_fin (Bopp x) y z (- a) b c (conj Ho Eo) Y Z H3) as [Ff Ef]. destruct (fsub_fin z _ c _ Z (conj Fm Em) H2) as [Fa Ea].
  destruct X as [Hx Ex], Y as [Hy Ey], Z as [Hz Ez].
  apply B2R_Bsign_inj; [exact Ff|exact Fa|rewrite Ef, Ea, Ec; reflexivity|].
  pose proof (Bfma_correct 53 1024 prec53 emax1024 mode_NE (Bopp x) y z Ho Hy Hz) as C.
  cbv zeta in C. change (round_mode mode_NE) with ZnearestE in C. rewrite Eo, Ey, Ez in C. fold (rnd (- a * b + c)) in C.
  rewrite rnd_no_overflow in C by exact H3. destruct C as (_ & _ & ->).
  pose proof (Bminus_correct 53 1024 prec53 emax1024 mode_NE z (fmul x y) Hz Fm) as D.
  change (round_mode mode_NE) with ZnearestE in D. rewrite Em, Ez in D. fold (rnd (c - a * b)) in D.
  rewrite rnd_no_overflow in D by exact H2. destruct D as (_ & _ & D). fold (fsub z (fmul x y)) in D. rewrite D, Ec.
  destruct (Rcompare (c - a * b) 0); try reflexivity.
  pose proof (Bmult_correct 53 1024 prec53 emax1024 mode_NE x y) as M. change (round_mode mode_NE) with ZnearestE in M.
  rewrite Ex, Ey in M. fold (rnd (a * b)) in M. rewrite rnd_no_overflow in M by exact H1. destruct M as (_ & _ & M). fold (fmul x y) in M.
  rewrite M by (destruct (fmul x y); try reflexivity; discriminate Fm).
  unfold Bfma_szero. rewrite Bsign_Bopp by (destruct x; try reflexivity; discriminate Hx). destruct (Bsign x), (Bsign y), (Bsign z); reflexivity.
Qed.

(** ** Error bounds: as for the product and the sum rounded one after the other *)
Lemma rnd_app' r t e k g : Rabs (r - t) <= e -> 0 <= g -> Rabs t + (e + g) < bpow radix2 k -> (-900 <= k <= 100)%Z ->
  Rabs r <= huge /\ Rabs (rnd r - t) <= e + g + bpow radix2 (k - 54).
Proof.
  intros H G B K. destruct (rnd_app r t e k H ltac:(lra) K) as [H1 H2]. split; [exact H1|lra].
Qed.
Lemma prod_near x y a b ea eb A B : Rabs (x - a) <= ea -> Rabs (y - b) <= eb -> Rabs a <= A -> Rabs b <= B ->
  Rabs (x * y - a * b) <= A * eb + B * ea + ea * eb.
Proof.
  intros Ex Ey HA HB. replace (x * y - a * b) with (a * (y - b) + b * (x - a) + (x - a) * (y - b)) by ring.
  eapply Rle_trans; [apply Rabs_triang|]. apply Rplus_le_compat.
  - eapply Rle_trans; [apply Rabs_triang|]. rewrite !Rabs_mult. apply Rplus_le_compat; apply Rmult_le_compat; try apply Rabs_pos; assumption.
  - rewrite Rabs_mult. apply Rmult_le_compat; try apply Rabs_pos; assumption.
Qed.
Lemma app_fma k1 k x y z a b c ea eb ec A B : app x a ea -> app y b eb -> app z c ec -> Rabs a <= A -> Rabs b <= B ->
  Rabs (a * b + c) + (A * eb + B * ea + ea * eb + bpow radix2 (k1 - 54) + ec) < bpow radix2 k -> (-900 <= k <= 100)%Z ->
  app (Bfma mode_NE x y z) (a * b + c) (A * eb + B * ea + ea * eb + bpow radix2 (k1 - 54) + ec + bpow radix2 (k - 54)).
Proof.
  intros [Fx Ex] [Fy Ey] [Fz Ez] HA HB Bd K. pose proof (prod_near _ _ _ _ _ _ _ _ Ex Ey HA HB) as P.
  assert (H : Rabs (B2R x * B2R y + B2R z - (a * b + c)) <= A * eb + B * ea + ea * eb + ec).
  { replace (B2R x * B2R y + B2R z - (a * b + c)) with ((B2R x * B2R y - a * b) + (B2R z - c)) by ring. eapply Rle_trans; [apply Rabs_triang|]. lra. }
  destruct (rnd_app' _ _ _ k (bpow radix2 (k1 - 54)) H (bpow_ge_0 _ _) ltac:(lra) K) as [Hh Hr].
  destruct (fma_fin x y z (B2R x) (B2R y) (B2R z) (conj Fx eq_refl) (conj Fy eq_refl) (conj Fz eq_refl) Hh) as [F E].
  split; [exact F|]. rewrite E. lra.
Qed.
Lemma app_muladd f k1 k x y z a b c ea eb ec A B : app x a ea -> app y b eb -> app z c ec -> Rabs a <= A -> Rabs b <= B ->
  A * B + (A * eb + B * ea + ea * eb) < bpow radix2 k1 -> (-900 <= k1 <= 100)%Z ->
  Rabs (a * b + c) + (A * eb + B * ea + ea * eb + bpow radix2 (k1 - 54) + ec) < bpow radix2 k -> (-900 <= k <= 100)%Z ->
  app (muladd f x y z) (a * b + c) (A * eb + B * ea + ea * eb + bpow radix2 (k1 - 54) + ec + bpow radix2 (k - 54)).
Proof.
  intros X Y Z HA HB Bd1 K1 Bd K. destruct f; [apply app_fma; assumption|]. unfold muladd.
  apply app_add; [apply app_mul; assumption|exact Z|exact Bd|exact K].
Qed.
Lemma app_addmul f k1 k x y z a b c ea eb ec A B : app x a ea -> app y b eb -> app z c ec -> Rabs a <= A -> Rabs b <= B ->
  A * B + (A * eb + B * ea + ea * eb) < bpow radix2 k1 -> (-900 <= k1 <= 100)%Z ->
  Rabs (c + a * b) + (ec + (A * eb + B * ea + ea * eb + bpow radix2 (k1 - 54))) < bpow radix2 k -> (-900 <= k <= 100)%Z ->
  app (addmul f z x y) (c + a * b) (ec + (A * eb + B * ea + ea * eb + bpow radix2 (k1 - 54)) + bpow radix2 (k - 54)).
Proof.
  intros X Y Z HA HB Bd1 K1 Bd K. destruct f.
  - unfold addmul. rewrite (Rplus_comm c), (Rplus_comm ec). apply app_fma; try assumption. rewrite (Rplus_comm (a * b)), (Rplus_comm _ ec). exact Bd.
  - unfold addmul. apply app_add; [exact Z|apply app_mul; assumption|exact Bd|exact K].
Qed.
Lemma app_opp x a e : app x a e -> app (Bopp x) (- a) e.
Proof.
  intros [F E]. split; [rewrite is_finite_Bopp; exact F|]. rewrite B2R_Bopp. replace (- B2R x - - a) with (- (B2R x - a)) by ring. rewrite Rabs_Ropp. exact E.
Qed.
Lemma app_submul f k1 k x y z a b c ea eb ec A B : app x a ea -> app y b eb -> app z c ec -> Rabs a <= A -> Rabs b <= B ->
  A * B + (A * eb + B * ea + ea * eb) < bpow radix2 k1 -> (-900 <= k1 <= 100)%Z ->
  Rabs (c - a * b) + (ec + (A * eb + B * ea + ea * eb + bpow radix2 (k1 - 54))) < bpow radix2 k -> (-900 <= k <= 100)%Z ->
  app (submul f z x y) (c - a * b) (ec + (A * eb + B * ea + ea * eb + bpow radix2 (k1 - 54)) + bpow radix2 (k - 54)).
Proof.
  intros X Y Z HA HB Bd1 K1 Bd K. destruct f.
  - unfold submul. replace (c - a * b) with (- a * b + c) in * by ring. rewrite (Rplus_comm ec). apply app_fma; try assumption.
    + apply app_opp, X.
    + rewrite Rabs_Ropp. exact HA.
    + rewrite (Rplus_comm _ ec). exact Bd.
  - unfold submul. apply app_sub; [exact Z|apply app_mul; assumption|exact Bd|exact K].
Qed.

(** ** The sine *)
Lemma reduction_f fuse x r : fin x r -> 0 <= r <= 100 -> exists j, int_of_f (fmul x m4pi) = j /\ (0 <= j <= 128)%Z /\
  forall y n, fin y (IZR n) -> (n = j \/ n = j + 1)%Z -> 
  exists t, fin (submul (fuse 7%nat) (submul (fuse 6%nat) (submul (fuse 5%nat) x y pi4a) y pi4b) y pi4c) t /\ (n = j -> - / 1000 <= t) /\ (n = (j + 1)%Z -> t <= / 1000) /\ -786 / 1000 <= t <= 786 / 1000 /\
    Rabs (t - (r - IZR n * (785398163397448 / 1000000000000000))) <= / 1000000000000.
Proof.
  intros X B.
  pose proof (fmake_exact 5734161139222659 (-52) ltac:(vm_compute; reflexivity) ltac:(lia) : fin m4pi _) as M.
  assert (Ha : exists a, fin pi4a a /\ a = 7074237412016128 / 9007199254740992).
  { eexists. split; [apply fmake_exact; [vm_compute; reflexivity|lia]|bp; lra]. }
  destruct Ha as (a & A & Ea).
  assert (Hb : exists b, fin pi4b b /\ 0 <= b <= 3774894708 / 100000000000000000 /\ 3774894707 / 100000000000000000 <= b).
  { eexists. split; [apply fmake_exact; [vm_compute; reflexivity|lia]|bp; lra]. }
  destruct Hb as (b & Bb & Eb).
  assert (Hc : exists c, fin pi4c c /\ 0 <= c <= 3 / 1000000000000000).
  { eexists. split; [apply fmake_exact; [vm_compute; reflexivity|lia]|bp; lra]. }
  destruct Hc as (c & C & Ec).
  change (bpow radix2 (-52)) with (/ 4503599627370496) in M. set (m := 5734161139222659 * / 4503599627370496) in *.
  assert (Hm : 1273239544735162 / 1000000000000000 <= m <= 1273239544735163 / 1000000000000000) by (unfold m; lra).
  assert (A1 : app (fmul x m4pi) (r * m) (100 * 0 + 2 * 0 + 0 * 0 + bpow radix2 (8 - 54))).
  { apply (app_mul 8 x m4pi _ _ _ _ 100 2 (app_fin _ _ X) (app_fin _ _ M)); [rewrite Rabs_pos_eq; lra|rewrite Rabs_pos_eq; lra|bp; lra|lia]. }
  assert (Q0 : 0 <= B2R (fmul x m4pi)).
  { destruct (fmul_fin x m4pi r m X M) as [_ E]; [apply small_huge; rewrite Rabs_pos_eq by nra; apply Rle_trans with 200; [nra|apply IZR_le; vm_compute; discriminate]|]. rewrite E. apply rnd_nonneg. nra. }
  apply app_bound in A1 as [F1 B1]. set (q := B2R (fmul x m4pi)) in *. kk.
  assert (Rm : 0 <= r * m <= 1274 / 10) by nra.
  exists (Zfloor q). pose proof (Zfloor_lb q) as L. pose proof (Zfloor_ub q) as U.
  assert (J : (0 <= Zfloor q <= 128)%Z) by (split; [rewrite <- (Zfloor_IZR 0); apply Zfloor_le; lra|rewrite <- (Zfloor_IZR 128); apply Zfloor_le; lra]).
  split; [|split; [exact J|]].
  { unfold int_of_f. assert (E : Btrunc (fmul x m4pi) = Zfloor q).
    { apply eq_IZR. rewrite (Btrunc_correct 53 1024 emax1024). fold q. unfold round, F2R, scaled_mantissa, cexp, FIX_exp. cbn. rewrite !Rmult_1_r. rewrite Ztrunc_floor by exact Q0. reflexivity. }
    cbv zeta. rewrite E, F1. assert (T : ((- two63 <=? Zfloor q) && (Zfloor q <? two63))%Z = true) by (unfold two63; lia). cbn [andb]. rewrite T. reflexivity. }
  intros y n Y Hn. assert (Nr : 0 <= IZR n <= 129) by (split; apply IZR_le; lia).
  assert (Na : 0 <= IZR n * a <= 102) by nra. assert (Nb : 0 <= IZR n * b <= / 100000) by nra. assert (Nc : 0 <= IZR n * c <= / 1000000000) by nra.
  assert (D1 : app (submul (fuse 5%nat) x y pi4a) (r - IZR n * a) (0 + (129 * 0 + 1 * 0 + 0 * 0 + bpow radix2 (8 - 54)) + bpow radix2 (8 - 54))).
  { apply (app_submul _ 8 8 _ _ _ _ _ _ _ _ _ 129 1 (app_fin _ _ Y) (app_fin _ _ A) (app_fin _ _ X)); [rewrite Rabs_pos_eq; lra|rewrite Rabs_pos_eq; lra|bp; lra|lia| |lia]. kk. assert (Rabs (r - IZR n * a) <= 110) by (apply Rabs_le; lra). lra. }
  assert (D2 : app (submul (fuse 6%nat) (submul (fuse 5%nat) x y pi4a) y pi4b) (r - IZR n * a - IZR n * b) (0 + (129 * 0 + 1 * 0 + 0 * 0 + bpow radix2 (8 - 54)) + bpow radix2 (8 - 54) + (129 * 0 + 1 * 0 + 0 * 0 + bpow radix2 (8 - 54)) + bpow radix2 (8 - 54))).
  { apply (app_submul _ 8 8 _ _ _ _ _ _ _ _ _ 129 1 (app_fin _ _ Y) (app_fin _ _ Bb) D1); [rewrite Rabs_pos_eq; lra|rewrite Rabs_pos_eq; lra|bp; lra|lia| |lia]. kk. assert (Rabs (r - IZR n * a - IZR n * b) <= 110) by (apply Rabs_le; lra). lra. }
  assert (D3 : app (submul (fuse 7%nat) (submul (fuse 6%nat) (submul (fuse 5%nat) x y pi4a) y pi4b) y pi4c) (r - IZR n * a - IZR n * b - IZR n * c) (0 + (129 * 0 + 1 * 0 + 0 * 0 + bpow radix2 (8 - 54)) + bpow radix2 (8 - 54) + (129 * 0 + 1 * 0 + 0 * 0 + bpow radix2 (8 - 54)) + bpow radix2 (8 - 54) + (129 * 0 + 1 * 0 + 0 * 0 + bpow radix2 (8 - 54)) + bpow radix2 (8 - 54))).
  { apply (app_submul _ 8 8 _ _ _ _ _ _ _ _ _ 129 1 (app_fin _ _ Y) (app_fin _ _ C) D2); [rewrite Rabs_pos_eq; lra|rewrite Rabs_pos_eq; lra|bp; lra|lia| |lia]. kk. assert (Rabs (r - IZR n * a - IZR n * b - IZR n * c) <= 110) by (apply Rabs_le; lra). lra. }
  apply app_bound in D3 as [F3 B3]. eexists. split; [split; [exact F3|reflexivity]|]. kk.
  set (t := B2R (submul (fuse 7%nat) (submul (fuse 6%nat) (submul (fuse 5%nat) x y pi4a) y pi4b) y pi4c)) in *.
  assert (Na' : IZR n * a = IZR n * (7074237412016128 / 9007199254740992)) by (rewrite Ea; reflexivity).
  unfold m in *. clear Ea. 
  assert (Near : Rabs (t - (r - IZR n * (785398163397448 / 1000000000000000))) <= / 1000000000000).
  { assert (0 <= IZR n * b - IZR n * (3774894707 / 100000000000000000) <= / 100000000000000) by (replace (IZR n * b - IZR n * (3774894707 / 100000000000000000)) with (IZR n * (b - 3774894707 / 100000000000000000)) by ring; split; [apply Rmult_le_pos; lra|apply Rle_trans with (129 * / 100000000000000000); [apply Rmult_le_compat; lra|lra]]).
    assert (0 <= IZR n * c <= 129 * (3 / 1000000000000000)) by nra. apply Rabs_le. lra. }
  clear Ec. split; [|split; [|split; [|exact Near]]]; clear Near;
  (destruct Hn as [-> | ->]; [|rewrite plus_IZR in *]); try (intros; lia); try (intros _); lra.
Qed.

Lemma horner_app_f f zz w t u c g e eg : app zz w (/ 1000000000000000) -> 0 <= w <= 62 / 100 -> app t u e -> Rabs u <= / 5 -> 0 <= e <= / 1000 ->
  app c g eg -> Rabs g <= / 5 -> 0 <= eg <= / 1000 -> app (muladd f t zz c) (u * w + g) (63 / 100 * e + eg + / 1000000000000000).
Proof.
  intros Z W U BU He C G Hg.
  assert (P : Rabs (u * w) <= / 5 * (62 / 100)) by (rewrite Rabs_mult, (Rabs_pos_eq w) by lra; pose proof (Rabs_pos u); nra).
  assert (A2 : app (muladd f t zz c) (u * w + g) (/ 5 * / 1000000000000000 + 62 / 100 * e + e * / 1000000000000000 + bpow radix2 (0 - 54) + eg + bpow radix2 (0 - 54))).
  { apply (app_muladd f 0 0 _ _ _ _ _ _ _ _ _ _ _ U Z C BU); [rewrite Rabs_pos_eq; lra|bp; lra|lia| |lia]. kk. pose proof (Rabs_triang (u * w) g). lra. }
  apply (app_weaken _ _ _ _ _ A2). replace (u * w + g - (u * w + g)) with 0 by ring. rewrite Rabs_R0. kk. lra.
Qed.
Lemma sin_poly_f_near fuse z t zz : fin z t -> Rabs t <= 787 / 1000 -> app zz (t * t) (/ 1000000000000000) ->
  app (sin_poly_f fuse z zz) (sin_taylor t) (/ 10000000000).
Proof.
  intros Z T W. apply Rabs_le_inv in T. set (w := t * t) in *. assert (Bw : 0 <= w <= 62 / 100) by (unfold w; nra).
  unfold sin_poly_f. cbv zeta.
  assert (C0 : app sin_0 0 (/ 5000000000)) by const_app.
  assert (C1 : app sin_1 (- / 39916800) (/ 100000000000)) by const_app.
  assert (C2 : app sin_2 (/ 362880) (/ 100000000000)) by const_app.
  assert (C3 : app sin_3 (- / 5040) (/ 100000000000)) by const_app.
  assert (C4 : app sin_4 (/ 120) (/ 100000000000)) by const_app.
  assert (C5 : app sin_5 (- / 6) (/ 100000000000)) by const_app.
  pose proof (horner_app_f (fuse 8%nat) zz w sin_0 0 sin_1 _ _ _ W Bw C0 ltac:(apply Rabs_le; lra) ltac:(lra) C1 ltac:(apply Rabs_le; lra) ltac:(lra)) as H1.
  set (u1 := 0 * w + - / 39916800) in *. assert (B1 : - / 100 <= u1 <= / 100) by (unfold u1; lra).
  pose proof (horner_app_f (fuse 9%nat) zz w _ u1 sin_2 _ _ _ W Bw H1 ltac:(apply Rabs_le; lra) ltac:(lra) C2 ltac:(apply Rabs_le; lra) ltac:(lra)) as H2.
  set (u2 := u1 * w + / 362880) in *. assert (B2 : - / 50 <= u2 <= / 50) by (unfold u2; nra).
  pose proof (horner_app_f (fuse 10%nat) zz w _ u2 sin_3 _ _ _ W Bw H2 ltac:(apply Rabs_le; lra) ltac:(lra) C3 ltac:(apply Rabs_le; lra) ltac:(lra)) as H3.
  set (u3 := u2 * w + - / 5040) in *. assert (B3 : - / 30 <= u3 <= / 30) by (unfold u3; nra).
  pose proof (horner_app_f (fuse 11%nat) zz w _ u3 sin_4 _ _ _ W Bw H3 ltac:(apply Rabs_le; lra) ltac:(lra) C4 ltac:(apply Rabs_le; lra) ltac:(lra)) as H4.
  set (u4 := u3 * w + / 120) in *. assert (B4 : - / 20 <= u4 <= / 20) by (unfold u4; nra).
  pose proof (horner_app_f (fuse 12%nat) zz w _ u4 sin_5 _ _ _ W Bw H4 ltac:(apply Rabs_le; lra) ltac:(lra) C5 ltac:(apply Rabs_le; lra) ltac:(lra)) as H5.
  set (p := u4 * w + - / 6) in *. assert (B5 : - / 4 <= p <= / 4) by (unfold p; nra).
  set (q := muladd (fuse 12%nat) (muladd (fuse 11%nat) (muladd (fuse 10%nat) (muladd (fuse 9%nat) (muladd (fuse 8%nat) sin_0 zz sin_1) zz sin_2) zz sin_3) zz sin_4) zz sin_5) in *.
  assert (H5' : app q p (/ 10000000000)).
  { apply (app_weaken _ _ _ _ _ H5). replace (p - p) with 0 by ring. rewrite Rabs_R0. lra. }
  assert (A1 : app (fmul z zz) (t * w) (1 * / 1000000000000000 + 1 * 0 + 0 * / 1000000000000000 + bpow radix2 (1 - 54))).
  { apply (app_mul 1 z zz _ _ _ _ 1 1 (app_fin _ _ Z) W); [apply Rabs_le; lra|rewrite Rabs_pos_eq; lra|bp; lra|lia]. }
  assert (M : Rabs (t * w) <= 1 / 2) by (rewrite Rabs_mult, (Rabs_pos_eq w) by lra; assert (Rabs t <= 787 / 1000) by (apply Rabs_le; lra); pose proof (Rabs_pos t); nra).
  assert (N : Rabs (t * w * p) <= 1 / 8) by (rewrite Rabs_mult; assert (Rabs p <= / 4) by (apply Rabs_le; lra); pose proof (Rabs_pos p); pose proof (Rabs_pos (t * w)); nra).
  apply Rabs_le_inv in N.
  assert (A3 : app (addmul (fuse 13%nat) z (fmul z zz) q) (t + t * w * p) (0 + (1 / 2 * / 10000000000 + / 4 * (1 * / 1000000000000000 + 1 * 0 + 0 * / 1000000000000000 + bpow radix2 (1 - 54)) + (1 * / 1000000000000000 + 1 * 0 + 0 * / 1000000000000000 + bpow radix2 (1 - 54)) * / 10000000000 + bpow radix2 (1 - 54)) + bpow radix2 (1 - 54))).
  { apply (app_addmul _ 1 1 _ _ _ _ _ _ _ _ _ (1 / 2) (/ 4) A1 H5' (app_fin _ _ Z)); [exact M|apply Rabs_le; lra|kk; lra|lia| |lia]. kk. assert (Rabs (t + t * w * p) <= 95 / 100) by (apply Rabs_le; lra). lra. }
  apply (app_weaken _ _ _ _ _ A3). replace (t + t * w * p - sin_taylor t) with 0 by (unfold p, u4, u3, u2, u1, sin_taylor, w; ring). rewrite Rabs_R0. kk. lra.
Qed.
Lemma cos_poly_f_near fuse t zz : Rabs t <= 787 / 1000 -> app zz (t * t) (/ 1000000000000000) ->
  app (cos_poly_f fuse zz) (cos_taylor t) (/ 2000000000).
Proof.
  intros T W. apply Rabs_le_inv in T. set (w := t * t) in *. assert (Bw : 0 <= w <= 62 / 100) by (unfold w; nra).
  unfold cos_poly_f. cbv zeta.
  assert (C0 : app cos_0 0 (/ 5000000000)) by const_app.
  assert (C1 : app cos_1 0 (/ 450000000)) by const_app.
  assert (C2 : app cos_2 (- / 3628800) (/ 100000000000)) by const_app.
  assert (C3 : app cos_3 (/ 40320) (/ 100000000000)) by const_app.
  assert (C4 : app cos_4 (- / 720) (/ 100000000000)) by const_app.
  assert (C5 : app cos_5 (/ 24) (/ 100000000000)) by const_app.
  pose proof (horner_app_f (fuse 8%nat) zz w cos_0 0 cos_1 _ _ _ W Bw C0 ltac:(apply Rabs_le; lra) ltac:(lra) C1 ltac:(apply Rabs_le; lra) ltac:(lra)) as H1.
  set (u1 := 0 * w + 0) in *. assert (B1 : - / 100 <= u1 <= / 100) by (unfold u1; lra).
  pose proof (horner_app_f (fuse 9%nat) zz w _ u1 cos_2 _ _ _ W Bw H1 ltac:(apply Rabs_le; lra) ltac:(lra) C2 ltac:(apply Rabs_le; lra) ltac:(lra)) as H2.
  set (u2 := u1 * w + - / 3628800) in *. assert (B2 : - / 50 <= u2 <= / 50) by (unfold u2; nra).
  pose proof (horner_app_f (fuse 10%nat) zz w _ u2 cos_3 _ _ _ W Bw H2 ltac:(apply Rabs_le; lra) ltac:(lra) C3 ltac:(apply Rabs_le; lra) ltac:(lra)) as H3.
  set (u3 := u2 * w + / 40320) in *. assert (B3 : - / 30 <= u3 <= / 30) by (unfold u3; nra).
  pose proof (horner_app_f (fuse 11%nat) zz w _ u3 cos_4 _ _ _ W Bw H3 ltac:(apply Rabs_le; lra) ltac:(lra) C4 ltac:(apply Rabs_le; lra) ltac:(lra)) as H4.
  set (u4 := u3 * w + - / 720) in *. assert (B4 : - / 20 <= u4 <= / 20) by (unfold u4; nra).
  pose proof (horner_app_f (fuse 12%nat) zz w _ u4 cos_5 _ _ _ W Bw H4 ltac:(apply Rabs_le; lra) ltac:(lra) C5 ltac:(apply Rabs_le; lra) ltac:(lra)) as H5.
  set (p := u4 * w + / 24) in *. assert (B5 : - / 4 <= p <= / 4) by (unfold p; nra).
  set (q := muladd (fuse 12%nat) (muladd (fuse 11%nat) (muladd (fuse 10%nat) (muladd (fuse 9%nat) (muladd (fuse 8%nat) cos_0 zz cos_1) zz cos_2) zz cos_3) zz cos_4) zz cos_5) in *.
  assert (H5' : app q p (/ 2200000000)).
  { apply (app_weaken _ _ _ _ _ H5). replace (p - p) with 0 by ring. rewrite Rabs_R0. lra. }
  assert (H : fin (fmake 1 (-1)) (/ 2)).
  { pose proof (fmake_exact 1 (-1) ltac:(vm_compute; reflexivity) ltac:(lia)) as E. replace (/ 2) with (1 * bpow radix2 (-1)) by (bp; lra). exact E. }
  set (e := / 1000000000000000) in *. assert (He : e = / 1000000000000000) by reflexivity.
  assert (A1 : app (submul (fuse 14%nat) (f_of_int 1) (fmake 1 (-1)) zz) (1 - / 2 * w) (0 + (1 * e + 1 * 0 + 0 * e + bpow radix2 (1 - 54)) + bpow radix2 (1 - 54))).
  { apply (app_submul _ 1 1 _ _ _ _ _ _ _ _ _ 1 1 (app_fin _ _ H) W (app_int 1 ltac:(lia))); [rewrite Rabs_pos_eq; lra|rewrite Rabs_pos_eq; lra|bp; lra|lia| |lia]. kk. rewrite Rabs_pos_eq by lra. lra. }
  assert (A2 : app (fmul zz zz) (w * w) (1 * e + 1 * e + e * e + bpow radix2 (1 - 54))).
  { apply (app_mul 1 zz zz _ _ _ _ 1 1 W W); [rewrite Rabs_pos_eq; lra|rewrite Rabs_pos_eq; lra|rewrite He; bp; lra|lia]. }
  assert (A2' : app (fmul zz zz) (w * w) (/ 100000000000000)).
  { apply (app_weaken _ _ _ _ _ A2). replace (w * w - w * w) with 0 by ring. rewrite Rabs_R0, He. kk. lra. }
  assert (Ww : 0 <= w * w <= 385 / 1000) by nra.
  assert (N : Rabs (w * w * p) <= 1 / 8) by (rewrite Rabs_mult, (Rabs_pos_eq (w * w)) by lra; assert (Rabs p <= / 4) by (apply Rabs_le; lra); pose proof (Rabs_pos p); nra).
  apply Rabs_le_inv in N.
  assert (A4 : app (addmul (fuse 13%nat) (submul (fuse 14%nat) (f_of_int 1) (fmake 1 (-1)) zz) (fmul zz zz) q) (1 - / 2 * w + w * w * p)
     (0 + (1 * e + 1 * 0 + 0 * e + bpow radix2 (1 - 54)) + bpow radix2 (1 - 54) + (1 * / 2200000000 + 1 * / 100000000000000 + / 100000000000000 * / 2200000000 + bpow radix2 (1 - 54)) + bpow radix2 (1 - 54))).
  { apply (app_addmul _ 1 1 _ _ _ _ _ _ _ _ _ 1 1 A2' H5' A1); [rewrite Rabs_pos_eq; lra|apply Rabs_le; lra|kk; lra|lia| |lia]. rewrite He. kk. assert (Rabs (1 - / 2 * w + w * w * p) <= 13 / 10) by (apply Rabs_le; lra). lra. }
  apply (app_weaken _ _ _ _ _ A4). replace (1 - / 2 * w + w * w * p - cos_taylor t) with 0 by (unfold p, u4, u3, u2, u1, cos_taylor, w; ring). rewrite Rabs_R0, He. kk. lra.
Qed.
Theorem go_sin_f_accurate fuse (x : float64) : is_finite x = true -> Rabs (B2R x) <= 100 ->
  is_finite (go_sin_f fuse x) = true /\ Rabs (B2R (go_sin_f fuse x) - sin (B2R x)) <= / 1000000000.
Proof.
  intros F B. destruct x as [s|s| |s m e H]; try discriminate F.
  - split; [reflexivity|]. cbn. rewrite Rtrigo_def.sin_0, Rminus_0_r, Rabs_R0. lra.
  - unfold go_sin_f. set (x := B754_finite s m e H) in *.
    assert (Sx : B2R x = if s then - Rabs (B2R x) else Rabs (B2R x)).
    { unfold x. cbn [B2R]. rewrite <- F2R_Zabs. cbn [Z.abs cond_Zopp]. destruct s; cbn [cond_Zopp Z.opp Z.abs].
      - change (Z.neg m) with (- Z.pos m)%Z. rewrite F2R_Zopp. reflexivity.
      - reflexivity. }
    assert (X : fin (fabs x) (Rabs (B2R x))) by (apply fabs_fin; split; [exact F|reflexivity]).
    pose proof (Rabs_pos (B2R x)) as P. rewrite Sx. set (ax := fabs x) in *. clearbody ax. set (r := Rabs (B2R x)) in *. clearbody r. clear F Sx x H m e.
    destruct (reduction_f fuse ax r X (conj P B)) as (j & E & J & R). rewrite E. clear E.
    assert (Main : forall n y, fin y (IZR n) -> (n = j \/ n = j + 1)%Z -> Z.even n = true ->
      let z := submul (fuse 7%nat) (submul (fuse 6%nat) (submul (fuse 5%nat) ax y pi4a) y pi4b) y pi4c in
      let '(s', j') := if (3 <? Z.land n 7)%Z then (negb s, (Z.land n 7 - 4)%Z) else (s, Z.land n 7) in
      let v := if ((j' =? 1) || (j' =? 2))%Z then cos_poly_f fuse (fmul z z) else sin_poly_f fuse z (fmul z z) in
      let w := if (s' : bool) then Bopp v else v in is_finite w = true /\ Rabs (B2R w - sin (if s then - r else r)) <= / 1000000000).
    { intros n y Y Hn Ev z. destruct (R y n Y Hn) as (t & T & _ & _ & Bt & Nt). fold z in T.
      assert (Z2 : app (fmul z z) (t * t) (1 * 0 + 1 * 0 + 0 * 0 + bpow radix2 (1 - 54))).
      { apply (app_mul 1 z z _ _ _ _ 1 1 (app_fin _ _ T) (app_fin _ _ T)); [apply Rabs_le; lra|apply Rabs_le; lra|bp; lra|lia]. }
      assert (Z3 : app (fmul z z) (t * t) (/ 1000000000000000)).
      { apply (app_weaken _ _ _ _ _ Z2). replace (t * t - t * t) with 0 by ring. rewrite Rabs_R0. kk. lra. }
      assert (Bt' : Rabs t <= 787 / 1000) by (apply Rabs_le; lra).
      destruct (sin_poly_f_near fuse z t _ T Bt' Z3) as [Fs Es]. destruct (cos_poly_f_near fuse t _ Bt' Z3) as [Fc Ec].
      pose proof (sin_near t ltac:(lra)) as S1. pose proof (cos_near t ltac:(lra)) as S2.
      set (sv := sin_poly_f fuse z (fmul z z)) in *. set (cv := cos_poly_f fuse (fmul z z)) in *. clearbody sv cv.
      assert (Lip : Rabs (sin (t + IZR n * (PI / 4)) - sin r) <= / 4000000000).
      { eapply Rle_trans; [apply sin_lipschitz|]. assert (Nr : 0 <= IZR n <= 129) by (split; apply IZR_le; lia).
        pose proof pi_near as Pn. apply Rabs_le_inv in Pn. apply Rabs_le_inv in Nt.
        set (p4 := PI / 4) in *. set (c4 := 785398163397448 / 1000000000000000) in *.
        replace (t + IZR n * p4 - r) with ((t - (r - IZR n * c4)) + IZR n * (p4 - c4)) by ring. apply Rabs_le.
        assert (- (129 * / 1000000000000) <= IZR n * (p4 - c4) <= 129 * / 1000000000000) by nra. lra. }
      rewrite (sin_eighths t n ltac:(lia) Ev) in Lip.
      assert (C : (Z.land n 7 = 0 \/ Z.land n 7 = 2 \/ Z.land n 7 = 4 \/ Z.land n 7 = 6)%Z).
      { change 7%Z with (Z.ones 3). rewrite Z.land_ones by lia. change (2 ^ 3)%Z with 8%Z.
        pose proof (Z.div_mod n 8 ltac:(lia)) as E. pose proof (Z.mod_pos_bound n 8 ltac:(lia)) as M. apply Z.even_spec in Ev as [k Ek]. lia. }
      apply Rabs_le_inv in Es. apply Rabs_le_inv in Ec. apply Rabs_le_inv in S1. apply Rabs_le_inv in S2.
      assert (Sg : sin (if s then - r else r) = if s then - sin r else sin r) by (destruct s; [apply sin_neg|reflexivity]). rewrite Sg. clear Sg.
      destruct C as [C|[C|[C|C]]]; rewrite C in *; cbn [Z.ltb Z.compare Pos.compare Pos.compare_cont Z.sub Z.add Z.opp Z.pos_sub Pos.pred_double Z.double Z.succ_double Z.eqb Pos.eqb orb]; apply Rabs_le_inv in Lip;
        destruct s; cbn [negb]; rewrite ?is_finite_Bopp, ?B2R_Bopp; (split; [assumption|apply Rabs_le; lra]). }
    destruct (Z.odd j) eqn:O.
    + replace (iadd j 1) with (j + 1)%Z by (unwrap; reflexivity).
      assert (Y : fin (fadd (f_of_int j) (f_of_int 1)) (IZR (j + 1))).
      { rewrite <- (rnd_IZR (j + 1)) by lia. rewrite plus_IZR. apply fadd_fin; [apply f_of_int_fin; lia|apply f_of_int_fin; lia|]. apply small_huge. rewrite <- plus_IZR, <- abs_IZR. apply IZR_le. lia. }
      assert (Ev : Z.even (j + 1) = true) by (rewrite Z.even_add, <- Z.negb_odd, O; reflexivity).
      pose proof (Main (j + 1)%Z _ Y (or_intror eq_refl) Ev) as G. cbv zeta in G. cbv zeta. destruct (3 <? Z.land (j + 1) 7)%Z; exact G.
    + assert (Y : fin (f_of_int j) (IZR j)) by (apply f_of_int_fin; lia).
      assert (Ev : Z.even j = true) by (rewrite <- Z.negb_odd, O; reflexivity).
      pose proof (Main j _ Y (or_introl eq_refl) Ev) as G. cbv zeta in G. cbv zeta. destruct (3 <? Z.land j 7)%Z; exact G.
Qed.

(** ** The parts whose products are exact *)
Ltac smallR := apply small_huge; (eapply Rle_trans; [|apply IZR_le; instantiate (1 := (2 ^ 60)%Z); vm_compute; discriminate]); change (IZR (2 ^ 60)) with 1152921504606846976.
Lemma ral_to_degree_same fuse x y z : (Z.abs x <= 10 ^ 9)%Z -> (Z.abs y <= 10 ^ 9)%Z -> (Z.abs (30 * x + y) <= 10 ^ 9)%Z -> (Z.abs z <= 10 ^ 6)%Z ->
  ral_to_degree_f fuse x y z = ral_to_degree x y z.
Proof.
  intros Hx Hy HD Hz. unfold ral_to_degree_f, ral_to_degree.
  replace (iadd (imul 30 x) y) with (30 * x + y)%Z by (unwrap; reflexivity).
  replace (imul z 10000) with (z * 10000)%Z by (unwrap; reflexivity).
  set (D := (30 * x + y)%Z) in *. assert (HDr : Rabs (IZR D) <= 1000000000) by (rewrite <- abs_IZR; apply IZR_le; lia).
  assert (Hzr : Rabs (IZR z) <= 1000000) by (rewrite <- abs_IZR; apply IZR_le; lia). apply Rabs_le_inv in HDr, Hzr.
  set (w := IZR (z * 10000) / 60). assert (Hw : w = IZR z * 500 / 3) by (unfold w; rewrite mult_IZR; field).
  assert (P2 : fin (fdiv (f_of_int (z * 10000)) (f_of_int 60)) (rnd w)).
  { apply fdiv_fin; [apply f_of_int_fin; lia|apply f_of_int_fin; lia|lra|]. apply quot_huge; lia. }
  assert (Ww : Rabs w < bpow radix2 28) by (change (bpow radix2 28) with 268435456; apply Rabs_lt; lra).
  pose proof (small_ulp w 28 Ww ltac:(lia)) as Ew. change (bpow radix2 (28 - 54)) with (/ 67108864) in Ew. apply Rabs_le_inv in Ew.
  do 2 f_equal. apply (muladd_same _ _ _ _ (IZR D) 10000 (rnd w)).
  - apply f_of_int_fin; lia.
  - apply f_of_int_fin; lia.
  - exact P2.
  - rewrite <- mult_IZR. apply rnd_IZR. lia.
  - smallR. apply Rabs_le. lra.
  - smallR. apply Rabs_le. lra.
Qed.
Lemma normalize_same fuse d r : fin d r -> Rabs r <= bpow radix2 40 -> normalize_degree_f fuse d = normalize_degree d.
Proof.
  intros D H. unfold normalize_degree_f, normalize_degree. destruct (fle d (f_of_int 360)); [reflexivity|].
  apply Rabs_le_inv in H. change (bpow radix2 40) with 1099511627776 in H.
  assert (Q : fin (fdiv d (f_of_int 360)) (rnd (r / 360))).
  { apply fdiv_fin; [exact D|apply f_of_int_fin; lia|lra|]. smallR. apply Rabs_le. lra. }
  assert (B : Rabs (rnd (r / 360)) <= bpow radix2 40) by (apply rnd_abs_le; [lia|apply Rabs_le; change (bpow radix2 40) with 1099511627776; lra]).
  apply Rabs_le_inv in B. change (bpow radix2 40) with 1099511627776 in B.
  set (k := Zfloor (rnd (r / 360))).
  assert (K : (-1099511627776 <= k <= 1099511627776)%Z).
  { unfold k. split; [rewrite <- (Zfloor_IZR (-1099511627776)); apply Zfloor_le; lra|rewrite <- (Zfloor_IZR 1099511627776); apply Zfloor_le; lra]. }
  assert (Kr : -1099511627776 <= IZR k <= 1099511627776) by (split; apply IZR_le; lia).
  apply (submul_same _ _ _ _ (IZR k) 360 r).
  - apply ffloor_fin, Q.
  - apply f_of_int_fin; lia.
  - exact D.
  - rewrite <- mult_IZR. apply rnd_IZR. lia.
  - smallR. apply Rabs_le. lra.
  - smallR. apply Rabs_le. lra.
Qed.
(** The signs, degrees and minutes of the mean Sun. *)
Lemma mean_sun_ral e K : (Z.abs e <= 10 ^ 9)%Z -> (Z.abs K <= 10 ^ 9)%Z -> (-23500 <= 800 * e + K <= 8 * 10 ^ 8)%Z ->
  exists x y z, degree_to_ral (mean_sun_degree e K) = (x, y, z) /\ (Z.abs x <= 10 ^ 6)%Z /\ (Z.abs y <= 10 ^ 6)%Z /\ (0 <= z <= 60)%Z /\
    (Z.abs (30 * x + y) <= 10 ^ 6)%Z /\ ((0 <= 800 * e + K)%Z -> (0 <= 30 * x + y)%Z) /\ ((0 <= 800 * e + K <= 324000)%Z -> (30 * x + y < 400)%Z).
Proof.
  intros He HK Ha. assert (C : (800 * e + K = 0 \/ 1 <= 800 * e + K \/ 800 * e + K <= -1)%Z) by lia. destruct C as [C|[C|C]].
  - exists 0%Z, 0%Z, 0%Z. split; [|lia]. unfold mean_sun_degree. unfold_consts. replace (iadd (imul e 800) K) with 0%Z by (unwrap; lia). vm_compute. reflexivity.
  - pose proof (mean_degree e K He HK ltac:(lia)) as A. set (L := 360 * IZR (800 * e + K) / 292207) in A. apply app_bound in A as [F B].
    set (d := mean_sun_degree e K) in *. set (b := B2R d) in *.
    assert (Hr : 1 <= IZR (800 * e + K) <= 800000000) by (split; apply IZR_le; lia).
    assert (HL : / 1000 <= L <= 986000) by (unfold L; lra).
    assert (B50 : 0 <= b <= bpow radix2 50) by (bp; lra).
    destruct (degree_to_ral_pos d b (conj F eq_refl) B50) as (z & E & Hz & _ & Lo & Up).
    assert (Fp : (0 <= Zfloor b <= 986001)%Z) by (split; [rewrite <- (Zfloor_IZR 0); apply Zfloor_le; lra|rewrite <- (Zfloor_IZR 986001); apply Zfloor_le; lra]).
    pose proof (Z.div_mod (Zfloor b) 30 ltac:(lia)) as Ed. pose proof (Z.mod_pos_bound (Zfloor b) 30 ltac:(lia)) as Em.
    exists (Zfloor b / 30)%Z, (Zfloor b mod 30)%Z, z. split; [exact E|]. repeat split; try lia. intros U.
    rewrite <- Ed. apply lt_IZR. pose proof (Zfloor_lb b).
    assert (IZR (800 * e + K) <= 324000) by (apply IZR_le; lia). unfold L in *. lra.
  - pose proof (mean_degree e K He HK ltac:(lia)) as A. set (L := 360 * IZR (800 * e + K) / 292207) in A. apply app_bound in A as [F B].
    set (d := mean_sun_degree e K) in *. set (b := B2R d) in *.
    assert (Hr : -23500 <= IZR (800 * e + K) <= -1) by (split; apply IZR_le; lia).
    assert (HL : - 28999 / 1000 <= L <= - / 1000) by (unfold L; lra).
    assert (B50 : - bpow radix2 50 <= b <= - bpow radix2 (-1000)).
    { split; [bp; lra|]. assert (bpow radix2 (-1000) <= bpow radix2 (-20)) by (apply bpow_le; lia). change (bpow radix2 (-20)) with (/ 1048576) in *. lra. }
    destruct (degree_to_ral_neg d b (conj F eq_refl) B50) as (z & E & Hz & _ & _).
    assert (Fp : (-29 <= Zfloor b <= -1)%Z).
    { split; [rewrite <- (Zfloor_IZR (-29)); apply Zfloor_le; lra|]. apply Z.lt_succ_r. apply lt_IZR. cbn. pose proof (Zfloor_lb b). lra. }
    assert (Ed : (Zfloor b / 30 = -1)%Z) by (symmetry; apply (Z.div_unique _ 30 (-1) (Zfloor b + 30)); lia).
    assert (Em : (Z.rem (Zfloor b) 30 = Zfloor b)%Z) by (rewrite <- (Z.opp_involutive (Zfloor b)), Z.rem_opp_l, Z.rem_small by lia; reflexivity).
    exists (Zfloor b / 30)%Z, (Z.rem (Zfloor b) 30), z. split; [exact E|]. rewrite Ed, Em. lia.
Qed.
(** The minutes of the mean Sun: 21600 a / 292207 is an integer or at least 1/292207 from one. *)
Lemma minutes_same c a : (Z.abs a <= 8 * 10 ^ 8)%Z -> let q := fdiv (f_of_int a) (f_of_int 292207) in let d := fmul q (f_of_int 360) in
  int_of_f (ffloor (fmul (mulsub c q (f_of_int 360) (ffloor d)) (f_of_int 60))) = int_of_f (ffloor (fmul (fsub d (ffloor d)) (f_of_int 60))).
Proof.
  intros Ha q d. destruct (Z.eq_dec (a mod 292207) 0) as [M|M].
  - assert (exists k, a = 292207 * k)%Z as [k Ek] by (exists (a / 292207)%Z; pose proof (Z.div_mod a 292207 ltac:(lia)); lia).
    assert (Fq : fin q (IZR k)).
    { rewrite <- (rnd_IZR k) by lia. replace (IZR k) with (IZR a / 292207) by (rewrite Ek, mult_IZR; field). apply fdiv_fin; [apply f_of_int_fin; lia|apply f_of_int_fin; lia|lra|].
      apply small_huge. replace (IZR a / 292207) with (IZR k) by (rewrite Ek, mult_IZR; field). rewrite <- abs_IZR. apply IZR_le. lia. }
    assert (Fd : fin d (IZR (k * 360))).
    { rewrite <- (rnd_IZR (k * 360)) by lia. rewrite mult_IZR. apply fmul_fin; [exact Fq|apply f_of_int_fin; lia|]. apply small_huge. rewrite <- mult_IZR, <- abs_IZR. apply IZR_le. lia. }
    pose proof (ffloor_fin d _ Fd) as Ff. rewrite Zfloor_IZR in Ff. set (w := ffloor d) in *. clearbody w.
    assert (G : forall v, fin v 0 -> int_of_f (ffloor (fmul v (f_of_int 60))) = 0%Z).
    { intros v Fv. apply int_of_f_fin; [|unfold in_int64, two63; lia]. rewrite <- (Zfloor_IZR 0). apply ffloor_fin. rewrite <- (rnd_IZR 0) by lia.
      replace (IZR 0) with (0 * 60) by ring. apply fmul_fin; [exact Fv|apply f_of_int_fin; lia|]. apply small_huge. replace (0 * 60) with 0 by ring. rewrite Rabs_R0. apply IZR_le. lia. }
    assert (Z0 : fin (fsub d w) 0).
    { rewrite <- (rnd_IZR 0) by lia. replace (IZR 0) with (IZR (k * 360) - IZR (k * 360)) by ring. apply fsub_fin; [exact Fd|exact Ff|].
      apply small_huge. replace (IZR (k * 360) - IZR (k * 360)) with 0 by ring. rewrite Rabs_R0. apply IZR_le. lia. }
    rewrite (G _ Z0). apply G. destruct c; [|exact Z0]. unfold mulsub.
    rewrite <- (rnd_IZR 0) by lia. replace (IZR 0) with (IZR k * 360 + - IZR (k * 360)) by (rewrite mult_IZR; ring).
    apply fma_fin; [exact Fq|apply f_of_int_fin; lia| |].
    + destruct Ff as [W1 W2]. split; [rewrite is_finite_Bopp; exact W1|rewrite B2R_Bopp, W2; reflexivity].
    + apply small_huge. replace (IZR k * 360 + - IZR (k * 360)) with 0 by (rewrite mult_IZR; ring). rewrite Rabs_R0. apply IZR_le. lia.
  - assert (Har : Rabs (IZR a) <= 800000000) by (rewrite <- abs_IZR; apply IZR_le; lia).
    assert (H1 : app q (IZR a / 292207) (0 / 292207 + bpow radix2 (12 - 54))).
    { apply app_div_int; [apply app_int; lia|lia| |lia]. bp. lra. }
    assert (Hd : Rabs (IZR a / 292207) <= 2738) by (unfold Rdiv; rewrite Rabs_mult, (Rabs_pos_eq (/ 292207)) by lra; lra).
    assert (H2 : app d (IZR a / 292207 * 360) ((0 / 292207 + bpow radix2 (12 - 54)) * 360 + bpow radix2 (20 - 54))).
    { apply app_mul_int; [exact H1|lia| |lia]. kk. lra. }
    pose proof (app_bound _ _ _ H2) as [Fd Bd]. pose proof (ffloor_fin d _ (conj Fd eq_refl)) as Ff.
    pose proof (Zfloor_lb (B2R d)) as Lb. pose proof (Zfloor_ub (B2R d)) as Ub. set (n := Zfloor (B2R d)) in *. set (w := ffloor d) in *. clearbody w.
    set (t := IZR a / 292207 * 360 - IZR n). assert (Bt : Rabs t <= 2) by (apply Rabs_le; unfold t; kk; lra).
    assert (Q : forall v, app v t (/ 1000000000) -> int_of_f (ffloor (fmul v (f_of_int 60))) = ((21600 * a - 60 * 292207 * n) / 292207)%Z).
    { intros v Av. assert (A3 : app (fmul v (f_of_int 60)) (t * 60) (/ 1000000000 * 60 + bpow radix2 (8 - 54))) by (apply app_mul_int; [exact Av|lia|bp; lra|lia]).
      destruct (app_floor _ _ _ A3) as (z & Fz & Bz). kk.
      set (N := (21600 * a - 60 * 292207 * n)%Z). assert (EN : t * 60 = IZR N / 292207) by (unfold N, t; rewrite minus_IZR, !mult_IZR; field).
      assert (R0 : (N mod 292207 <> 0)%Z).
      { unfold N. replace (21600 * a - 60 * 292207 * n)%Z with (21600 * a + (- (60 * n)) * 292207)%Z by ring. rewrite Z.mod_add by lia. intro C.
        apply M. apply Z.mod_divide; [lia|]. apply Z.gauss with 21600%Z; [apply Z.mod_divide; [lia|exact C]|vm_compute; reflexivity]. }
      pose proof (Z.div_mod N 292207 ltac:(lia)) as Dm. pose proof (Z.mod_pos_bound N 292207 ltac:(lia)) as Mb. set (p := (N / 292207)%Z) in *. set (r := (N mod 292207)%Z) in *.
      assert (EN' : t * 60 = IZR p + IZR r / 292207) by (rewrite EN, Dm, plus_IZR, mult_IZR; field).
      assert (Rr : 1 <= IZR r <= 292206) by (split; apply IZR_le; lia). rewrite EN' in Bz.
      assert (z = p). { assert (z < p + 1)%Z by (apply lt_IZR; rewrite plus_IZR; lra). assert (p - 1 < z)%Z by (apply lt_IZR; rewrite minus_IZR; lra). lia. }
      subst z. apply int_of_f_fin; [exact Fz|]. apply Rabs_le_inv in Bt.
      assert (-200 < p)%Z by (apply lt_IZR; lra). assert (p < 200)%Z by (apply lt_IZR; lra). unfold in_int64, two63. lia. }
    assert (S1 : app (fsub d w) t (/ 1000000000)).
    { assert (X : app (fsub d w) t (((0 / 292207 + bpow radix2 (12 - 54)) * 360 + bpow radix2 (20 - 54)) + 0 + bpow radix2 (2 - 54))) by (apply (app_sub 2); [exact H2|apply app_fin; exact Ff|kk; fold t; lra|lia]).
      destruct X as [X1 X2]. split; [exact X1|]. kk. lra. }
    rewrite (Q _ S1). apply Q. destruct c; [|exact S1]. unfold mulsub.
    assert (Fo : app (Bopp w) (- IZR n) 0) by (apply app_fin; destruct Ff as [W1 W2]; split; [rewrite is_finite_Bopp; exact W1|rewrite B2R_Bopp, W2; reflexivity]).
    assert (Y : app (Bfma mode_NE q (f_of_int 360) (Bopp w)) (IZR a / 292207 * 360 + - IZR n)
       (2738 * 0 + 360 * (0 / 292207 + bpow radix2 (12 - 54)) + (0 / 292207 + bpow radix2 (12 - 54)) * 0 + bpow radix2 (2 - 54) + 0 + bpow radix2 (2 - 54))).
    { apply (app_fma 2 2 _ _ _ _ _ _ _ _ _ 2738 360 H1 (app_int 360 ltac:(lia)) Fo Hd); [rewrite Rabs_pos_eq; lra| |lia]. change (IZR a / 292207 * 360 + - IZR n) with t. kk. lra. }
    change (IZR a / 292207 * 360 + - IZR n) with t in Y. destruct Y as [Y1 Y2]. split; [exact Y1|]. kk. lra.
Qed.
Lemma mean_sun_same fuse e K : (Z.abs e <= 10 ^ 9)%Z -> (Z.abs K <= 10 ^ 9)%Z -> (-23500 <= 800 * e + K <= 8 * 10 ^ 8)%Z ->
  mean_sun_f fuse e K = mean_sun e K.
Proof.
  intros He HK Ha. destruct (mean_sun_ral e K He HK Ha) as (x & y & z & E & Hx & Hy & Hz & HD & _). unfold mean_sun_f, mean_sun. rewrite E.
  unfold degree_to_ral, mean_sun_degree in E. cbv zeta in *. unfold_consts.
  replace (iadd (imul e 800) K) with (800 * e + K)%Z in * by (unwrap; lia).
  rewrite (minutes_same (fuse 15%nat) (800 * e + K)) by lia.
  pose proof (f_equal (fun t => fst (fst t)) E) as E1. pose proof (f_equal (fun t => snd (fst t)) E) as E2. pose proof (f_equal snd E) as E3. cbn [fst snd] in E1, E2, E3.
  rewrite E1, E2, E3.
  replace (isub z 3) with (z - 3)%Z by (unwrap; reflexivity). apply ral_to_degree_same; lia.
Qed.
Lemma mean_moon_same fuse ts t av ti : fin ts t -> -200 <= t <= 1000 -> (0 <= av <= 691)%Z -> (0 <= ti <= 29)%Z ->
  mean_moon_f fuse ts av ti = mean_moon ts av ti.
Proof.
  intros F B Ha Ht. unfold mean_moon_f, mean_moon. rewrite (ral_to_degree_same fuse 0 0 40) by lia.
  assert (Hav : (0 <= av / 25 <= 27)%Z) by (Z.to_euclidean_division_equations; lia).
  assert (F1 : fin (fadd (f_of_int av) (ffloor (fdiv (f_of_int av) (f_of_int 25)))) (IZR (av + av / 25))).
  { rewrite <- (rnd_IZR (av + av / 25)) by lia. rewrite plus_IZR. apply fadd_fin; [apply f_of_int_fin; lia| |].
    - rewrite <- (Zfloor_rnd_div av 25) by lia. apply ffloor_fin. apply fdiv_fin; [apply f_of_int_fin; lia|apply f_of_int_fin; lia|lra|apply quot_huge; lia].
    - apply small_huge. rewrite <- plus_IZR, <- abs_IZR. apply IZR_le. lia. }
  set (w := (av + av / 25)%Z) in *. assert (Hw : 0 <= IZR w <= 718) by (split; apply IZR_le; lia). assert (Htr : 0 <= IZR ti <= 29) by (split; apply IZR_le; lia).
  assert (A1 : app (fdiv (fadd (f_of_int av) (ffloor (fdiv (f_of_int av) (f_of_int 25)))) (f_of_int 60)) (IZR w / 60) (0 / 60 + bpow radix2 (4 - 54))).
  { apply app_div_int; [apply app_fin; exact F1|lia| |lia]. bp. rewrite Rabs_pos_eq by lra. lra. }
  set (a := fdiv (fadd (f_of_int av) (ffloor (fdiv (f_of_int av) (f_of_int 25)))) (f_of_int 60)) in *.
  assert (A2 : app (fadd ts a) (t + IZR w / 60) (0 + (0 / 60 + bpow radix2 (4 - 54)) + bpow radix2 (11 - 54))).
  { apply (app_add 11); [apply app_fin; exact F|exact A1| |lia]. kk. assert (Rabs (t + IZR w / 60) <= 1012) by (apply Rabs_le; lra). lra. }
  apply app_bound in A2 as [F2 B2]. kk.
  assert (Es : addmul (fuse 3%nat) (fadd ts a) (f_of_int ti) (f_of_int 12) = fadd (fadd ts a) (fmul (f_of_int ti) (f_of_int 12))).
  { apply (addmul_same _ _ _ _ (IZR ti) 12 (B2R (fadd ts a))).
    - apply f_of_int_fin; lia.
    - apply f_of_int_fin; lia.
    - split; [exact F2|reflexivity].
    - rewrite <- mult_IZR. apply rnd_IZR. lia.
    - smallR. apply Rabs_le. lra.
    - smallR. apply Rabs_le. lra. }
  rewrite Es.
  assert (A3 : app (fmul (f_of_int ti) (f_of_int 12)) (IZR ti * 12) 0).
  { apply app_fin. rewrite <- mult_IZR, <- (rnd_IZR (ti * 12)) by lia. rewrite mult_IZR. apply fmul_fin; [apply f_of_int_fin; lia|apply f_of_int_fin; lia|].
    apply small_huge. rewrite <- mult_IZR, <- abs_IZR. apply IZR_le. lia. }
  assert (A4 : app (fadd (fadd ts a) (fmul (f_of_int ti) (f_of_int 12))) (B2R (fadd ts a) + IZR ti * 12) (0 + 0 + bpow radix2 (11 - 54))).
  { apply (app_add 11); [apply app_self; exact F2|exact A3| |lia]. kk. assert (Rabs (B2R (fadd ts a) + IZR ti * 12) <= 1400) by (apply Rabs_le; lra). lra. }
  assert (A5 : app (ral_to_degree 0 0 40) (6666 / 10000) (bpow radix2 (0 - 54))).
  { pose proof (ral_to_degree_fin 0 0 40 ltac:(lia) ltac:(lia) ltac:(lia) ltac:(lia)) as R. destruct R as [R1 R2]. split; [exact R1|]. rewrite R2.
    change (10000 * (30 * 0 + 0) + 500 * 40 / 3)%Z with 6666%Z. apply small_ulp; [rewrite Rabs_pos_eq by lra; change (bpow radix2 0) with 1; lra|lia]. }
  assert (A6 : app (fsub (fadd (fadd ts a) (fmul (f_of_int ti) (f_of_int 12))) (ral_to_degree 0 0 40)) (B2R (fadd ts a) + IZR ti * 12 - 6666 / 10000)
     (0 + 0 + bpow radix2 (11 - 54) + bpow radix2 (0 - 54) + bpow radix2 (11 - 54))).
  { apply (app_sub 11); [exact A4|exact A5| |lia]. kk. assert (Rabs (B2R (fadd ts a) + IZR ti * 12 - 6666 / 10000) <= 1400) by (apply Rabs_le; lra). lra. }
  apply app_bound in A6 as [F6 B6]. kk. apply (normalize_same _ _ _ (conj F6 eq_refl)). bp. apply Rabs_le. lra.
Qed.
Lemma raek_same fuse tm : raek_f fuse tm = raek tm.
Proof. unfold raek_f, raek. rewrite (ral_to_degree_same fuse 0 13 20) by lia. reflexivity. Qed.

(** ** The parts that may differ in the last place *)
Lemma true_sun_eq_f fuse f ms m : accurate_sin f -> fin ms m -> -100 <= m <= 900 ->
  exists v, fin (true_sun_f fuse f ms) v /\
    m + 134 / 60 * sind (Rabs (m - 80)) - 1 / 60 - / 9700 <= v <= m + 134 / 60 * sind (Rabs (m - 80)) + / 100000.
Proof.
  intros S F B. unfold true_sun_f. pose proof (app_fin ms m F) as A.
  assert (A1 : app (fabs (fsub ms (f_of_int 80))) (Rabs (m - 80)) (0 + 0 + bpow radix2 (10 - 54))).
  { apply app_abs. apply (app_sub 10); [exact A|apply app_int; lia| |lia]. bp. assert (Rabs (m - 80) <= 900) by (apply Rabs_le; lra). lra. }
  set (a := fabs (fsub ms (f_of_int 80))) in *.
  assert (Am : Rabs (m - 80) <= 900) by (apply Rabs_le; lra). pose proof (Rabs_pos (m - 80)) as Ap.
  assert (A2 : app (fmul a radconv) (Rabs (m - 80) * (5030569068109113 / 288230376151711744))
     (900 * 0 + 1 * (0 + 0 + bpow radix2 (10 - 54)) + (0 + 0 + bpow radix2 (10 - 54)) * 0 + bpow radix2 (10 - 54))).
  { apply (app_mul 10 a radconv _ _ _ _ 900 1 A1 (app_fin _ _ radconv_fin)); [rewrite Rabs_pos_eq by lra; exact Am|rewrite Rabs_pos_eq by lra; lra|kk; lra|lia]. }
  pose proof A2 as [_ N2]. apply app_bound in A2 as [F2 B2]. destruct (accurate_bounded f S _ F2) as [Fs Bs].
  { apply Rabs_le. kk. lra. }
  destruct (S _ F2) as [_ Es]. { apply Rabs_le. kk. lra. }
  pose proof (sind_near (Rabs (m - 80)) _ _ ltac:(rewrite Rabs_pos_eq; lra) N2) as Sd. apply Rabs_le_inv in Es. apply Rabs_le_inv in Sd. set (D := sind (Rabs (m - 80))) in *. clearbody D. clear N2. kk.
  set (s := f (fmul a radconv)) in *. apply Rabs_le_inv in Bs.
  assert (A3 : app (fmul (f_of_int 134) s) (134 * B2R s) (134 * 0 + 2 * 0 + 0 * 0 + bpow radix2 (9 - 54))).
  { apply (app_mul 9 _ _ _ _ _ _ 134 2 (app_int 134 ltac:(lia)) (app_self s Fs)); [rewrite Rabs_pos_eq; lra|apply Rabs_le; lra|bp; lra|lia]. }
  destruct (app_floor _ _ _ A3) as (z & Fz & Bz). kk.
  assert (Hz : (-135 <= z <= 134)%Z).
  { split; [apply Z.lt_pred_le; apply lt_IZR; cbn; lra|apply Z.lt_succ_r; apply lt_IZR; cbn; lra]. }
  assert (Hzr : -135 <= IZR z <= 134) by (split; apply IZR_le; lia).
  set (b := ffloor (fmul (f_of_int 134) s)) in *.
  assert (Fb : fin (fmul b (f_of_int 10000)) (IZR (z * 10000))).
  { rewrite <- (rnd_IZR (z * 10000)) by lia. rewrite mult_IZR. apply fmul_fin; [exact Fz|apply f_of_int_fin; lia|]. apply small_huge. rewrite <- mult_IZR, <- abs_IZR. apply IZR_le. lia. }
  assert (A4 : app (fdiv (fmul b (f_of_int 10000)) (f_of_int 60)) (IZR (z * 10000) / 60) (0 / 60 + bpow radix2 (15 - 54))).
  { apply app_div_int; [apply app_fin; exact Fb|lia| |lia]. bp. assert (Rabs (IZR (z * 10000)) <= 1350000) by (rewrite mult_IZR; apply Rabs_le; lra). lra. }
  assert (A6 : app (muladd (fuse 2%nat) ms (f_of_int 10000) (fdiv (fmul b (f_of_int 10000)) (f_of_int 60))) (m * 10000 + IZR (z * 10000) / 60)
     (900 * 0 + 10000 * 0 + 0 * 0 + bpow radix2 (24 - 54) + (0 / 60 + bpow radix2 (15 - 54)) + bpow radix2 (24 - 54))).
  { apply (app_muladd _ 24 24 _ _ _ _ _ _ _ _ _ 900 10000 A (app_int 10000 ltac:(lia)) A4); [apply Rabs_le; lra|rewrite Rabs_pos_eq; lra|bp; lra|lia| |lia]. rewrite mult_IZR. kk. assert (Rabs (m * 10000 + IZR z * 10000 / 60) <= 9500000) by (apply Rabs_le; lra). lra. }
  kk. rewrite mult_IZR in A6. destruct (four_decimals _ _ _ A6) as (v & Fv & Bv); [apply Rabs_le; lra|lra|].
  exists v. split; [exact Fv|]. lra.
Qed.
Lemma mean_uccabala_near_f fuse u e : (0 <= u <= 3231)%Z -> (-40 <= e <= 1000)%Z ->
  app (mean_uccabala_f fuse u e) (IZR (u + e) * 90 / 808 + 2 / 60) (/ 1000000000).
Proof.
  intros Hu He. unfold mean_uccabala_f. replace (iadd u e) with (u + e)%Z by (unwrap; reflexivity). set (n := (u + e)%Z) in *.
  assert (Hn : -40 <= IZR n <= 4231) by (split; apply IZR_le; lia).
  assert (A1 : app (fmul (fmul (f_of_int n) (f_of_int 3)) (f_of_int 30)) (IZR (n * 3 * 30)) 0).
  { apply app_fin. rewrite <- (rnd_IZR (n * 3 * 30)) by lia. rewrite mult_IZR. apply fmul_fin; [|apply f_of_int_fin; lia|apply small_huge; rewrite <- mult_IZR, <- abs_IZR; apply IZR_le; lia].
    rewrite <- (rnd_IZR (n * 3)) by lia. rewrite mult_IZR. apply fmul_fin; [apply f_of_int_fin; lia|apply f_of_int_fin; lia|apply small_huge; rewrite <- mult_IZR, <- abs_IZR; apply IZR_le; lia]. }
  set (x := fmul (fmul (f_of_int n) (f_of_int 3)) (f_of_int 30)) in *. rewrite !mult_IZR in A1.
  assert (A2 : app (fdiv x (f_of_int 808)) (IZR n * 3 * 30 / 808) (0 / 808 + bpow radix2 (10 - 54))).
  { apply app_div_int; [exact A1|lia| |lia]. bp. assert (Rabs (IZR n * 3 * 30) <= 400000) by (apply Rabs_le; lra). lra. }
  assert (A4 : app (muladd (fuse 4%nat) (fdiv x (f_of_int 808)) (f_of_int 60) (f_of_int 2)) (IZR n * 3 * 30 / 808 * 60 + 2) (500 * 0 + 60 * (0 / 808 + bpow radix2 (10 - 54)) + (0 / 808 + bpow radix2 (10 - 54)) * 0 + bpow radix2 (16 - 54) + 0 + bpow radix2 (16 - 54))).
  { apply (app_muladd _ 16 16 _ _ _ _ _ _ _ _ _ 500 60 A2 (app_int 60 ltac:(lia)) (app_int 2 ltac:(lia))); [apply Rabs_le; lra|rewrite Rabs_pos_eq; lra|kk; lra|lia| |lia]. kk. assert (Rabs (IZR n * 3 * 30 / 808 * 60 + 2) <= 31000) by (apply Rabs_le; lra). lra. }
  assert (A5 : app (fdiv (muladd (fuse 4%nat) (fdiv x (f_of_int 808)) (f_of_int 60) (f_of_int 2)) (f_of_int 60)) ((IZR n * 3 * 30 / 808 * 60 + 2) / 60) ((500 * 0 + 60 * (0 / 808 + bpow radix2 (10 - 54)) + (0 / 808 + bpow radix2 (10 - 54)) * 0 + bpow radix2 (16 - 54) + 0 + bpow radix2 (16 - 54)) / 60 + bpow radix2 (10 - 54))).
  { apply app_div_int; [exact A4|lia| |lia]. kk. assert (Rabs (IZR n * 3 * 30 / 808 * 60 + 2) <= 31000) by (apply Rabs_le; lra). lra. }
  apply (app_weaken _ _ _ _ _ A5). replace ((IZR n * 3 * 30 / 808 * 60 + 2) / 60 - (IZR n * 90 / 808 + 2 / 60)) with 0 by field. rewrite Rabs_R0. kk. lra.
Qed.

(** ** The true Sun from New Year's day on: fusing makes no difference *)
(** Rounding just below an integer [S], [g] the distance of the doubles there. *)
Lemma nearest_even M t : Z.even M = true -> 0 <= t <= 1 -> ZnearestE (IZR M - t) = if Rle_bool t (/ 2) then M else (M - 1)%Z.
Proof.
  intros Ev Ht. destruct (Req_dec t 0) as [->|N0].
  { rewrite Rminus_0_r, Znearest_imp with (n := M). - rewrite Rle_bool_true by lra. reflexivity. - replace (IZR M - IZR M) with 0 by ring. rewrite Rabs_R0. lra. }
  destruct (Rle_bool_spec t (/ 2)) as [C|C].
  - destruct (Rle_lt_or_eq_dec _ _ C) as [L|E].
    + apply Znearest_imp. apply Rabs_lt. lra.
    + assert (Fl : Zfloor (IZR M - t) = (M - 1)%Z) by (apply Zfloor_imp; rewrite plus_IZR, minus_IZR; lra).
      unfold Znearest. rewrite Fl, Rcompare_Eq by (rewrite minus_IZR; lra).
      replace (Z.even (M - 1)) with false by (rewrite Z.even_sub, Ev; reflexivity). cbn [negb].
      apply Zceil_imp. rewrite minus_IZR. lra.
  - apply Znearest_imp. rewrite minus_IZR. apply Rabs_lt. lra.
Qed.
Lemma rnd_below S k t : (0 <= k <= 50)%Z -> bpow radix2 (k - 1) < IZR S <= bpow radix2 k -> 0 <= t <= bpow radix2 (k - 53) ->
  rnd (IZR S - t) = if Rle_bool t (bpow radix2 (k - 54)) then IZR S else IZR S - bpow radix2 (k - 53).
Proof.
  intros K HS Ht. set (g := bpow radix2 (k - 53)) in *. assert (G0 : 0 < g) by apply bpow_gt_0.
  assert (Gh : bpow radix2 (k - 54) = g / 2) by (unfold g; replace (k - 53)%Z with (1 + (k - 54))%Z by lia; rewrite bpow_plus; change (bpow radix2 1) with 2; field).
  assert (S53 : (Z.abs S <= 2 ^ 53)%Z).
  { pose proof (bpow_gt_0 radix2 (k - 1)). assert (bpow radix2 k <= bpow radix2 53) by (apply bpow_le; lia). rewrite bpow53 in *.
    assert (0 <= S)%Z by (apply le_IZR; lra). assert (S <= 2 ^ 53)%Z by (apply le_IZR; lra). lia. }
  destruct (Req_dec t 0) as [->|N0].
  { rewrite Rminus_0_r, rnd_IZR by exact S53. rewrite Rle_bool_true by (rewrite Gh; lra). reflexivity. }
  set (M := (S * 2 ^ (53 - k))%Z).
  assert (EM : IZR M * g = IZR S).
  { unfold M. rewrite mult_IZR. change 2%Z with (radix_val radix2) at 1. rewrite IZR_Zpower by lia. unfold g. rewrite Rmult_assoc, <- bpow_plus.
    replace (53 - k + (k - 53))%Z with 0%Z by lia. cbn [bpow]. ring. }
  assert (Ev : Z.even M = true).
  { unfold M. rewrite Z.even_mul, Z.even_pow by lia. rewrite orb_true_r. reflexivity. }
  set (tau := t / g). assert (Et : tau * g = t) by (unfold tau; field; lra).
  assert (Htau : 0 <= tau <= 1) by nra.
  assert (Lo : bpow radix2 (k - 1) <= IZR S - t).
  { assert (S1 : exists P, IZR S - bpow radix2 (k - 1) = IZR P * g /\ (0 < P)%Z).
    { exists (M - 2 ^ 52)%Z. assert (E52 : IZR (2 ^ 52) * g = bpow radix2 (k - 1)).
      { change (IZR (2 ^ 52)) with (bpow radix2 52). unfold g. rewrite <- bpow_plus. f_equal. lia. }
      split; [rewrite minus_IZR, Rmult_minus_distr_r, EM, E52; reflexivity|].
      assert (2 ^ 52 < M)%Z; [|lia]. apply lt_IZR. apply Rmult_lt_reg_r with g; [exact G0|]. rewrite E52, EM. apply HS. }
    destruct S1 as (P & EP & HP). assert (1 <= IZR P) by (apply IZR_le; lia). nra. }
  assert (Hi : IZR S - t < bpow radix2 k) by lra.
  assert (Mg : mag radix2 (IZR S - t) = k :> Z) by (apply mag_unique_pos; split; assumption).
  assert (Cx : cexp radix2 fexp64 (IZR S - t) = (k - 53)%Z) by (unfold cexp; rewrite Mg; unfold SpecFloat.fexp, SpecFloat.emin; lia).
  unfold rnd, round, scaled_mantissa. rewrite Cx. unfold F2R. cbn [Fnum Fexp]. fold g.
  replace ((IZR S - t) * bpow radix2 (- (k - 53))) with (IZR M - tau).
  - rewrite (nearest_even M tau Ev Htau), Gh.
    destruct (Rle_bool_spec tau (/ 2)), (Rle_bool_spec t (g / 2)); try (exfalso; nra); [exact EM|rewrite minus_IZR, Rmult_minus_distr_r, EM; ring].
  - assert (Gi : g * bpow radix2 (- (k - 53)) = 1) by (unfold g; rewrite <- bpow_plus; replace (k - 53 + - (k - 53))%Z with 0%Z by lia; reflexivity).
    rewrite <- EM, <- Et. replace ((IZR M * g - tau * g) * bpow radix2 (- (k - 53))) with ((IZR M - tau) * (g * bpow radix2 (- (k - 53)))) by ring. rewrite Gi. ring.
Qed.
Lemma binade n : (1 <= n <= 2 ^ 30)%Z -> exists k, (0 <= k <= 30)%Z /\ bpow radix2 (k - 1) < IZR n <= bpow radix2 k.
Proof.
  intros H. destruct (Z.eq_dec n 1) as [->|N].
  - exists 0%Z. split; [lia|]. cbn. lra.
  - exists (Z.log2_up n). pose proof (Z.log2_up_spec n ltac:(lia)) as Sp. pose proof (Z.log2_up_le_mono n (2 ^ 30) ltac:(lia)) as U.
    rewrite Z.log2_up_pow2 in U by lia. pose proof (Z.log2_up_pos n ltac:(lia)) as P. split; [lia|].
    rewrite <- !IZR_Zpower by lia. change (radix_val radix2) with 2%Z. replace (Z.pred (Z.log2_up n)) with (Z.log2_up n - 1)%Z in Sp by lia.
    split; [apply IZR_lt|apply IZR_le]; apply Sp.
Qed.
Lemma binade_le m n k l : bpow radix2 (k - 1) < IZR m <= bpow radix2 k -> bpow radix2 (l - 1) < IZR n <= bpow radix2 l -> (m <= n)%Z -> (k <= l)%Z.
Proof.
  intros M N H. apply IZR_le in H. assert (bpow radix2 (k - 1) < bpow radix2 l) by lra. apply lt_bpow in H0. lia.
Qed.

(** The sum before it is rounded down to a ten-thousandth of a degree; [N] is the mean Sun in ten-thousandths, [b] the correction in minutes. *)
Lemma sun_sum N b : (-500 <= N <= 2 ^ 22)%Z -> (Z.abs b <= 135)%Z ->
  ((1 <= N)%Z /\ (0 <= b)%Z) \/ (2 ^ 21 + 22500 < N)%Z \/ ((N <= 0)%Z /\ b = 131%Z) \/ ((500 <= N)%Z /\ (-2 <= b)%Z) ->
  let x := rnd (IZR N / 10000) * 10000 in
  let w := rnd (IZR (b * 10000) / 60) in
  0 < rnd x + w /\ 0 < x + w /\ x + w <= 5000000 /\ rnd x + w <= 5000000 /\ Zfloor (rnd (rnd x + w)) = Zfloor (rnd (x + w)).
Proof.
  intros HN Hb C x w.
  assert (Nr : -500 <= IZR N <= 4194304) by (split; apply IZR_le; lia).
  assert (Br : -135 <= IZR b <= 135) by (split; apply IZR_le; lia).
  assert (Ev : Rabs (rnd (IZR N / 10000) - IZR N / 10000) <= bpow radix2 (10 - 54)) by (apply small_ulp; [apply Rabs_lt; change (bpow radix2 10) with 1024; lra|lia]).
  change (bpow radix2 (10 - 54)) with (/ 17592186044416) in Ev. apply Rabs_le_inv in Ev.
  assert (Ex : - / 1000000000 <= x - IZR N <= / 1000000000) by (unfold x; lra).
  assert (Erx : Rabs (rnd x - x) <= bpow radix2 (24 - 54)) by (apply small_ulp; [apply Rabs_lt; change (bpow radix2 24) with 16777216; lra|lia]).
  change (bpow radix2 (24 - 54)) with (/ 1073741824) in Erx. apply Rabs_le_inv in Erx.
  assert (Ew : Rabs (w - IZR (b * 10000) / 60) <= bpow radix2 (16 - 54)) by (apply small_ulp; [rewrite mult_IZR; apply Rabs_lt; change (bpow radix2 16) with 65536; lra|lia]).
  change (bpow radix2 (16 - 54)) with (/ 274877906944) in Ew. apply Rabs_le_inv in Ew.
  assert (Wb : IZR (b * 10000) / 60 = IZR b * (500 / 3)) by (rewrite mult_IZR; field). rewrite Wb in Ew.
  assert (Es : forall s, -1 <= s <= 5000000 -> Rabs (rnd s - s) <= / 1073741824).
  { intros s Hs. change (/ 1073741824) with (bpow radix2 (24 - 54)). apply small_ulp; [apply Rabs_lt; change (bpow radix2 24) with 16777216; lra|lia]. }
  assert (Pos : 1 <= IZR N + IZR b * (500 / 3)).
  { destruct C as [[C1 C2]|[C|[[C1 C2]|[C1 C2]]]].
    - assert (1 <= IZR N) by (apply IZR_le; lia). assert (0 <= IZR b) by (apply IZR_le; lia). lra.
    - assert (2000000 <= IZR N) by (apply IZR_le; lia). lra.
    - rewrite C2. lra.
    - assert (500 <= IZR N) by (apply IZR_le; lia). assert (-2 <= IZR b) by (apply IZR_le; lia). lra. }
  split; [lra|]. split; [lra|]. split; [lra|]. split; [lra|].
  pose proof (Es (rnd x + w) ltac:(lra)) as E1. pose proof (Es (x + w) ltac:(lra)) as E2. apply Rabs_le_inv in E1, E2.
  pose proof (Z.div_mod b 3 ltac:(lia)) as D3. pose proof (Z.mod_pos_bound b 3 ltac:(lia)) as M3. set (q := (b / 3)%Z) in *. set (r := (b mod 3)%Z) in *.
  assert (C3 : (r = 0 \/ r = 1 \/ r = 2)%Z) by lia.
  assert (Dr : IZR b = 3 * IZR q + IZR r) by (rewrite D3, plus_IZR, mult_IZR; reflexivity).
  destruct C3 as [R0|[R1|R2]].
  2: { rewrite (Zfloor_imp (N + 500 * q + 166)), (Zfloor_imp (N + 500 * q + 166)); [reflexivity| |]; rewrite !plus_IZR, !mult_IZR; rewrite R1 in Dr; lra. }
  2: { rewrite (Zfloor_imp (N + 500 * q + 333)), (Zfloor_imp (N + 500 * q + 333)); [reflexivity| |]; rewrite !plus_IZR, !mult_IZR; rewrite R2 in Dr; lra. }
  rewrite R0 in Dr. set (S := (N + 500 * q)%Z).
  assert (Ww : w = IZR (500 * q)).
  { unfold w. rewrite Wb, Dr. replace ((3 * IZR q + 0) * (500 / 3)) with (500 * IZR q) by field. rewrite <- mult_IZR. apply rnd_IZR. lia. }
  assert (SN : IZR S = IZR N + w) by (unfold S; rewrite plus_IZR, Ww; reflexivity).
  destruct (Rle_or_lt (IZR N) x) as [D|D].
  { (* not below the integer *)
    assert (IZR N <= rnd x) by (rewrite <- (rnd_IZR N) by lia; apply rnd_le; exact D).
    assert (H1 : IZR S <= rnd (rnd x + w)) by (rewrite <- (rnd_IZR S) by (unfold S; lia); apply rnd_le; lra).
    assert (H2 : IZR S <= rnd (x + w)) by (rewrite <- (rnd_IZR S) by (unfold S; lia); apply rnd_le; lra).
    rewrite (Zfloor_imp S), (Zfloor_imp S); [reflexivity| |]; rewrite plus_IZR; lra. }
  destruct (Z.eq_dec q 0) as [Q0|Q0].
  { assert (W0 : w = 0) by (rewrite Ww, Q0; reflexivity). rewrite W0, !Rplus_0_r. f_equal. apply rnd_format. apply generic_format_round; typeclasses eauto. }
  assert (N1 : (1 <= N)%Z).
  { destruct C as [[C1 C2]|[C|[[C1 C2]|[C1 C2]]]]; [exact C1|lia| |lia]. exfalso. subst b. unfold r in R0. discriminate R0. }
  assert (S1 : (1 <= S)%Z) by (apply le_IZR; rewrite SN, Ww, mult_IZR; lra).
  destruct (binade N ltac:(lia)) as (kN & KN & BN). destruct (binade S ltac:(unfold S in *; lia)) as (kS & KS & BS).
  assert (Kle : (kN <= kS)%Z).
  { destruct C as [[C1 C2]|[C|[[C1 C2]|[C1 C2]]]].
    - apply (binade_le N S kN kS BN BS). unfold S. lia.
    - assert (kN <= 22)%Z. { apply (binade_le N (2 ^ 22) kN 22 BN); [|lia]. split; [change (bpow radix2 (22 - 1)) with 2097152; change (IZR (2 ^ 22)) with 4194304; lra|change (bpow radix2 22) with (IZR (2 ^ 22)); lra]. }
      assert (22 <= kS)%Z; [|lia]. apply (binade_le (2 ^ 21 + 1) S 22 kS); [|exact BS|unfold S; lia]. change (bpow radix2 (22 - 1)) with 2097152. change (bpow radix2 22) with 4194304. change (IZR (2 ^ 21 + 1)) with 2097153. lra.
    - lia.
    - apply (binade_le N S kN kS BN BS). unfold S. lia. }
  set (t := IZR N - x) in *. set (g := bpow radix2 (kN - 53)).
  assert (Gg : g <= bpow radix2 (kS - 53)) by (apply bpow_le; lia).
  assert (Ht : 0 < t <= 611 / 1000 * g).
  { split; [unfold t; lra|]. assert (U : Rabs (rnd (IZR N / 10000) - IZR N / 10000) <= bpow radix2 (kN - 13 - 54)).
    { apply small_ulp; [|lia]. rewrite Rabs_pos_eq by (assert (1 <= IZR N) by (apply IZR_le; lia); lra).
      replace (bpow radix2 (kN - 13)) with (bpow radix2 kN / 8192) by (unfold Z.sub; rewrite bpow_plus; change (bpow radix2 (- (13))) with (/ 8192); reflexivity).
      pose proof (bpow_gt_0 radix2 kN). lra. }
    replace (bpow radix2 (kN - 13 - 54)) with (g / 16384) in U.
    2: { unfold g. replace (kN - 13 - 54)%Z with (kN - 53 + - (14))%Z by lia. rewrite bpow_plus. change (bpow radix2 (- (14))) with (/ 16384). reflexivity. }
    apply Rabs_le_inv in U. pose proof (bpow_gt_0 radix2 (kN - 53)) as G0. fold g in G0. unfold t, x. lra. }
  assert (G0 : 0 < g) by apply bpow_gt_0.
  assert (Hg2 : bpow radix2 (kN - 54) = g / 2) by (unfold g; replace (kN - 53)%Z with (1 + (kN - 54))%Z by lia; rewrite bpow_plus; change (bpow radix2 1) with 2; field).
  pose proof (rnd_below N kN t ltac:(lia) BN ltac:(fold g; lra)) as RN. replace (IZR N - t) with x in RN by (unfold t; ring). rewrite Hg2 in RN.
  pose proof (rnd_below S kS t ltac:(lia) BS ltac:(lra)) as RS. replace (IZR S - t) with (x + w) in RS by (unfold t; lra).
  assert (G54 : bpow radix2 (kN - 54) <= bpow radix2 (kS - 54)) by (apply bpow_le; lia). rewrite Hg2 in G54.
  destruct (Rle_bool_spec t (g / 2)) as [L|L].
  { (* both give S *)
    rewrite Rle_bool_true in RS by lra. rewrite RN, RS. rewrite <- SN. rewrite rnd_IZR by (unfold S; lia). reflexivity. }
  fold g in RN. pose proof (rnd_below S kS g ltac:(lia) BS ltac:(lra)) as RG.
  rewrite RN. replace (IZR N - g + w) with (IZR S - g) by lra.
  destruct (Z.eq_dec kN kS) as [Ek|Ek].
  - (* the same spacing: both give S - 1 *)
    rewrite <- Ek, Hg2 in RS, RG. rewrite Rle_bool_false in RS by lra. rewrite Rle_bool_false in RG by lra. rewrite RS, RG. reflexivity.
  - (* a wider spacing: both give S *)
    assert (G2 : g <= bpow radix2 (kS - 54)) by (apply bpow_le; lia).
    rewrite Rle_bool_true in RS by lra. rewrite Rle_bool_true in RG by lra. rewrite RS, RG. reflexivity.
Qed.

Lemma floor_eq x y a b : fin x a -> fin y b -> Zfloor a = Zfloor b -> Bsign x = false -> Bsign y = false -> ffloor x = ffloor y.
Proof.
  intros X Y E Sx Sy. destruct (ffloor_fin x a X) as [F1 E1], (ffloor_fin y b Y) as [F2 E2].
  apply B2R_Bsign_inj; [exact F1|exact F2|rewrite E1, E2, E; reflexivity|].
  destruct (Bnearbyint_correct 53 1024 emax1024 mode_DN x) as (_ & _ & C1), (Bnearbyint_correct 53 1024 emax1024 mode_DN y) as (_ & _ & C2).
  unfold ffloor in *. rewrite C1, C2, Sx, Sy; try reflexivity.
  - destruct (Bnearbyint mode_DN y); try reflexivity; discriminate F2.
  - destruct (Bnearbyint mode_DN x); try reflexivity; discriminate F1.
Qed.
(** Near 80 degrees the sine is between 131/134 and 132/134. *)
Lemma sind_80 m : -6 / 100 <= m <= 6 / 100 -> 98458 / 100000 <= sind (Rabs (m - 80)) <= 98502 / 100000.
Proof.
  intros H. rewrite Rabs_left by lra. unfold sind. replace (- (m - 80) * (PI / 180)) with (PI / 2 - (10 + m) * (PI / 180)) by field.
  rewrite sin_shift. pose proof pi_near as P. apply Rabs_le_inv in P.
  assert (P1 : 1745329 / 100000000 <= PI / 180 <= 174533 / 10000000) by lra. set (t := (10 + m) * (PI / 180)).
  assert (T : 17348 / 100000 <= t <= 17559 / 100000).
  { split; [apply Rle_trans with (994 / 100 * (1745329 / 100000000)); [lra|]|apply Rle_trans with (1006 / 100 * (174533 / 10000000)); [|lra]]; apply Rmult_le_compat; lra. }
  pose proof (cos_near t ltac:(apply Rabs_le; lra)) as C. apply Rabs_le_inv in C. unfold cos_taylor in C.
  assert (W : 30095 / 1000000 <= t * t <= 30832 / 1000000) by nra. set (w := t * t) in *. clearbody w. clear T P.
  assert (V : 41 / 1000 <= (((- / 3628800 * w + / 40320) * w + - / 720) * w + / 24) <= 42 / 1000) by nra.
  set (v := ((- / 3628800 * w + / 40320) * w + - / 720) * w + / 24) in *. clearbody v. assert (0 <= w * w <= 951 / 1000000) by nra. assert (0 <= w * w * v <= 951 / 1000000 * (42 / 1000)) by nra. lra.
Qed.
Lemma true_sun_same fuse f e K : accurate_sin f -> (Z.abs e <= 10 ^ 9)%Z -> (Z.abs K <= 10 ^ 9)%Z -> (0 <= 800 * e + K <= 324000)%Z ->
  true_sun_f fuse f (mean_sun e K) = true_sun f (mean_sun e K).
Proof.
  intros Sn He HK Ha. destruct (mean_sun_ral e K He HK ltac:(lia)) as (x & y & z & Er & Hx & Hy & Hz & HD & D0 & D1). specialize (D0 ltac:(lia)). specialize (D1 Ha).
  assert (Ms : exists N, fin (mean_sun e K) (rnd (IZR N / 10000)) /\ (-500 <= N <= 4010000)%Z).
  { exists (10000 * (30 * x + y) + 500 * (z - 3) / 3)%Z. split.
    - unfold mean_sun. rewrite Er. replace (isub z 3) with (z - 3)%Z by (unwrap; reflexivity). apply ral_to_degree_fin; lia.
    - Z.to_euclidean_division_equations. lia. }
  destruct Ms as (N & F & HN). set (ms := mean_sun e K) in *. clearbody ms. clear Er Hx Hy Hz HD D0 D1 x y z He HK Ha e K.
  assert (Nr : -500 <= IZR N <= 4010000) by (split; apply IZR_le; lia).
  assert (Ev : Rabs (rnd (IZR N / 10000) - IZR N / 10000) <= bpow radix2 (10 - 54)) by (apply small_ulp; [apply Rabs_lt; change (bpow radix2 10) with 1024; lra|lia]).
  change (bpow radix2 (10 - 54)) with (/ 17592186044416) in Ev. apply Rabs_le_inv in Ev.
  set (m := rnd (IZR N / 10000)) in *. assert (B : -100 <= m <= 900) by lra.
  unfold true_sun_f, true_sun. pose proof (app_fin ms m F) as A.
  assert (A1 : app (fabs (fsub ms (f_of_int 80))) (Rabs (m - 80)) (0 + 0 + bpow radix2 (10 - 54))).
  { apply app_abs. apply (app_sub 10); [exact A|apply app_int; lia| |lia]. bp. assert (Rabs (m - 80) <= 900) by (apply Rabs_le; lra). lra. }
  set (a := fabs (fsub ms (f_of_int 80))) in *.
  assert (Am : Rabs (m - 80) <= 900) by (apply Rabs_le; lra). pose proof (Rabs_pos (m - 80)) as Ap.
  assert (A2 : app (fmul a radconv) (Rabs (m - 80) * (5030569068109113 / 288230376151711744))
     (900 * 0 + 1 * (0 + 0 + bpow radix2 (10 - 54)) + (0 + 0 + bpow radix2 (10 - 54)) * 0 + bpow radix2 (10 - 54))).
  { apply (app_mul 10 a radconv _ _ _ _ 900 1 A1 (app_fin _ _ radconv_fin)); [rewrite Rabs_pos_eq by lra; exact Am|rewrite Rabs_pos_eq by lra; lra|kk; lra|lia]. }
  pose proof A2 as [_ N2]. apply app_bound in A2 as [F2 B2]. destruct (accurate_bounded f Sn _ F2) as [Fs Bs].
  { apply Rabs_le. kk. lra. }
  destruct (Sn _ F2) as [_ Es]. { apply Rabs_le. kk. lra. }
  pose proof (sind_near (Rabs (m - 80)) _ _ ltac:(rewrite Rabs_pos_eq; lra) N2) as Sd. apply Rabs_le_inv in Es. apply Rabs_le_inv in Sd.
  pose proof (sind_80 m) as S80.
  assert (S180 : Rabs (m - 80) <= 180 -> 0 <= sind (Rabs (m - 80))).
  { intros H. unfold sind. pose proof PI_RGT_0. apply sin_ge_0; nra. }
  set (D := sind (Rabs (m - 80))) in *. clearbody D. clear N2. kk.
  set (s := f (fmul a radconv)) in *. apply Rabs_le_inv in Bs.
  assert (A3 : app (fmul (f_of_int 134) s) (134 * B2R s) (134 * 0 + 2 * 0 + 0 * 0 + bpow radix2 (9 - 54))).
  { apply (app_mul 9 _ _ _ _ _ _ 134 2 (app_int 134 ltac:(lia)) (app_self s Fs)); [rewrite Rabs_pos_eq; lra|apply Rabs_le; lra|bp; lra|lia]. }
  destruct (app_floor _ _ _ A3) as (z & Fz & Bz). kk.
  assert (Hz : (-135 <= z <= 134)%Z).
  { split; [apply Z.lt_pred_le; apply lt_IZR; cbn; lra|apply Z.lt_succ_r; apply lt_IZR; cbn; lra]. }
  assert (Hzr : -135 <= IZR z <= 134) by (split; apply IZR_le; lia).
  set (b := ffloor (fmul (f_of_int 134) s)) in *.
  assert (Fb : fin (fmul b (f_of_int 10000)) (IZR (z * 10000))).
  { rewrite <- (rnd_IZR (z * 10000)) by lia. rewrite mult_IZR. apply fmul_fin; [exact Fz|apply f_of_int_fin; lia|]. apply small_huge. rewrite <- mult_IZR, <- abs_IZR. apply IZR_le. lia. }
  assert (Fw : fin (fdiv (fmul b (f_of_int 10000)) (f_of_int 60)) (rnd (IZR (z * 10000) / 60))).
  { apply fdiv_fin; [exact Fb|apply f_of_int_fin; lia|lra|]. rewrite mult_IZR. smallR. apply Rabs_le. lra. }
  assert (Case : ((1 <= N)%Z /\ (0 <= z)%Z) \/ (2 ^ 21 + 22500 < N)%Z \/ ((N <= 0)%Z /\ z = 131%Z) \/ ((500 <= N)%Z /\ (-2 <= z)%Z)).
  { destruct (Z_lt_le_dec N 500) as [L|L].
    - assert (IZR N <= 500) by (apply IZR_le; lia). specialize (S80 ltac:(lra)).
      assert (z = 131)%Z. { assert (z < 132)%Z by (apply lt_IZR; lra). assert (130 < z)%Z by (apply lt_IZR; lra). lia. }
      lia.
    - destruct (Z_lt_le_dec z (-2)) as [Zn|Zn]; [|lia]. assert (IZR z <= -3) by (apply IZR_le; lia).
      right. left. apply lt_IZR. change (IZR (2 ^ 21 + 22500)) with 2119652.
      destruct (Rle_or_lt (Rabs (m - 80)) 180) as [C|C]; [specialize (S180 C); lra|].
      assert (500 <= IZR N) by (apply IZR_le; lia). unfold Rabs in C. destruct (Rcase_abs (m - 80)); lra. }
  destruct (sun_sum N z ltac:(lia) ltac:(lia) Case) as (P1 & P2 & U2 & U1 & Fl). fold m in P1, P2, U1, U2, Fl.
  set (w := rnd (IZR (z * 10000) / 60)) in *. set (fw := fdiv (fmul b (f_of_int 10000)) (f_of_int 60)) in *. f_equal.
  destruct (fuse 2%nat); [|reflexivity]. unfold muladd.
  assert (Fm : fin (fmul ms (f_of_int 10000)) (rnd (m * 10000))) by (apply fmul_fin; [exact F|apply f_of_int_fin; lia|smallR; apply Rabs_le; lra]).
  assert (X1 : fin (fadd (fmul ms (f_of_int 10000)) fw) (rnd (rnd (m * 10000) + w))) by (apply fadd_fin; [exact Fm|exact Fw|smallR; apply Rabs_le; lra]).
  assert (X2 : fin (Bfma mode_NE ms (f_of_int 10000) fw) (rnd (m * 10000 + w))) by (apply fma_fin; [exact F|apply f_of_int_fin; lia|exact Fw|smallR; apply Rabs_le; lra]).
  apply floor_eq with (1 := X2) (2 := X1); [symmetry; exact Fl| |].
  - destruct F as [F0 E0], Fw as [F0' E0']. assert (T : fin (f_of_int 10000) 10000) by (apply f_of_int_fin; lia). destruct T as [T0 T1].
    pose proof (Bfma_correct 53 1024 prec53 emax1024 mode_NE ms (f_of_int 10000) fw F0 T0 F0') as C. cbv zeta in C.
    change (round_mode mode_NE) with ZnearestE in C. rewrite E0, E0', T1 in C. fold (rnd (m * 10000 + w)) in C.
    rewrite rnd_no_overflow in C by (smallR; apply Rabs_le; lra). destruct C as (_ & _ & ->). rewrite Rcompare_Gt by exact P2. reflexivity.
  - destruct Fm as [F0 E0], Fw as [F0' E0'].
    pose proof (Bplus_correct 53 1024 prec53 emax1024 mode_NE (fmul ms (f_of_int 10000)) fw F0 F0') as C.
    change (round_mode mode_NE) with ZnearestE in C. rewrite E0, E0' in C. fold (rnd (rnd (m * 10000) + w)) in C.
    rewrite rnd_no_overflow in C by (smallR; apply Rabs_le; lra). destruct C as (_ & _ & C). fold (fadd (fmul ms (f_of_int 10000)) fw) in C. rewrite C. rewrite Rcompare_Gt by exact P1. reflexivity.
Qed.

(** Two sines that are accurate give the same TrueSun unless 134 times the sine is close to an integer. *)
Lemma sign_neg (x : float64) : is_finite x = true -> B2R x <> 0 -> Bsign x = Rlt_bool (B2R x) 0.
Proof.
  intros F N. destruct x as [s| | |s m e H]; try discriminate F; [exfalso; apply N; reflexivity|]. cbn [Bsign B2R]. symmetry.
  destruct s; cbn [cond_Zopp SpecFloat.cond_Zopp]; [apply Rlt_bool_true, F2R_lt_0; reflexivity|apply Rlt_bool_false, F2R_ge_0; cbn; lia].
Qed.
Lemma floor_eq_signs x y : is_finite x = true -> is_finite y = true -> Zfloor (B2R x) = Zfloor (B2R y) -> Bsign x = Bsign y -> ffloor x = ffloor y.
Proof.
  intros X Y E S. destruct (ffloor_fin x _ (conj X eq_refl)) as [F1 E1], (ffloor_fin y _ (conj Y eq_refl)) as [F2 E2].
  apply B2R_Bsign_inj; [exact F1|exact F2|rewrite E1, E2, E; reflexivity|].
  destruct (Bnearbyint_correct 53 1024 emax1024 mode_DN x) as (_ & _ & C1), (Bnearbyint_correct 53 1024 emax1024 mode_DN y) as (_ & _ & C2).
  unfold ffloor in *. rewrite C1, C2; [exact S| |].
  - destruct (Bnearbyint mode_DN y); try reflexivity; discriminate F2.
  - destruct (Bnearbyint mode_DN x); try reflexivity; discriminate F1.
Qed.
Lemma sun_product f ms m : accurate_sin f -> fin ms m -> -100 <= m <= 900 ->
  app (fmul (f_of_int 134) (f (fmul (fabs (fsub ms (f_of_int 80))) radconv))) (134 * sind (Rabs (m - 80))) (/ 7000).
Proof.
  intros Sn F B. pose proof (app_fin ms m F) as A.
  assert (A1 : app (fabs (fsub ms (f_of_int 80))) (Rabs (m - 80)) (0 + 0 + bpow radix2 (10 - 54))).
  { apply app_abs. apply (app_sub 10); [exact A|apply app_int; lia| |lia]. bp. assert (Rabs (m - 80) <= 900) by (apply Rabs_le; lra). lra. }
  set (a := fabs (fsub ms (f_of_int 80))) in *.
  assert (Am : Rabs (m - 80) <= 900) by (apply Rabs_le; lra). pose proof (Rabs_pos (m - 80)) as Ap.
  assert (A2 : app (fmul a radconv) (Rabs (m - 80) * (5030569068109113 / 288230376151711744))
     (900 * 0 + 1 * (0 + 0 + bpow radix2 (10 - 54)) + (0 + 0 + bpow radix2 (10 - 54)) * 0 + bpow radix2 (10 - 54))).
  { apply (app_mul 10 a radconv _ _ _ _ 900 1 A1 (app_fin _ _ radconv_fin)); [rewrite Rabs_pos_eq by lra; exact Am|rewrite Rabs_pos_eq by lra; lra|kk; lra|lia]. }
  pose proof A2 as [_ N2]. apply app_bound in A2 as [F2 B2]. destruct (accurate_bounded f Sn _ F2) as [Fs Bs].
  { apply Rabs_le. kk. lra. }
  destruct (Sn _ F2) as [_ Es]. { apply Rabs_le. kk. lra. }
  pose proof (sind_near (Rabs (m - 80)) _ _ ltac:(rewrite Rabs_pos_eq; lra) N2) as Sd. apply Rabs_le_inv in Es. apply Rabs_le_inv in Sd.
  set (D := sind (Rabs (m - 80))) in *. clearbody D. clear N2. kk.
  set (s := f (fmul a radconv)) in *. apply Rabs_le_inv in Bs.
  assert (A3 : app (fmul (f_of_int 134) s) (134 * B2R s) (134 * 0 + 2 * 0 + 0 * 0 + bpow radix2 (9 - 54))).
  { apply (app_mul 9 _ _ _ _ _ _ 134 2 (app_int 134 ltac:(lia)) (app_self s Fs)); [rewrite Rabs_pos_eq; lra|apply Rabs_le; lra|bp; lra|lia]. }
  kk. destruct A3 as [F3 E3]. split; [exact F3|]. apply Rabs_le_inv in E3. apply Rabs_le. lra.
Qed.
Lemma true_sun_sines f g ms m : accurate_sin f -> accurate_sin g -> fin ms m -> -100 <= m <= 900 ->
  (forall k, / 7000 < Rabs (134 * sind (Rabs (m - 80)) - IZR k)) -> true_sun f ms = true_sun g ms.
Proof.
  intros Sf Sg F B H. unfold true_sun. cbv zeta. destruct (sun_product f ms m Sf F B) as [F1 E1], (sun_product g ms m Sg F B) as [F2 E2].
  set (x := fmul _ (f _)) in *. set (y := fmul _ (g _)) in *. clearbody x y. set (v := 134 * sind (Rabs (m - 80))) in *. clearbody v.
  apply Rabs_le_inv in E1. apply Rabs_le_inv in E2.
  assert (Hf : v - / 7000 > IZR (Zfloor v) /\ v + / 7000 < IZR (Zfloor v) + 1).
  { pose proof (Zfloor_lb v). pose proof (Zfloor_ub v). pose proof (H (Zfloor v)) as Q1. pose proof (H (Zfloor v + 1)%Z) as Q2. rewrite plus_IZR in Q2.
    rewrite Rabs_pos_eq in Q1 by lra. rewrite Rabs_left in Q2 by lra. lra. }
  assert (Hs : 0 < B2R x * B2R y /\ B2R x <> 0 /\ B2R y <> 0).
  { pose proof (H 0%Z) as H0. replace (v - 0) with v in H0 by ring. unfold Rabs in H0. destruct (Rcase_abs v); repeat split; nra. }
  replace (ffloor x) with (ffloor y); [reflexivity|]. symmetry. apply floor_eq_signs; [exact F1|exact F2| |].
  - rewrite (Zfloor_imp (Zfloor v)) by (rewrite plus_IZR; lra). symmetry. apply Zfloor_imp. rewrite plus_IZR. lra.
  - destruct Hs as (Hs & Nx & Ny). rewrite (sign_neg x F1 Nx), (sign_neg y F2 Ny). case Rlt_bool_spec; intros; case Rlt_bool_spec; intros; try reflexivity; exfalso; nra.
Qed.
