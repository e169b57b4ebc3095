(** Go's sine routine is bounded. *)
From Coq Require Import ZArith Reals Lia Lra Bool Psatz.
From Flocq Require Import Core BinarySingleNaN.
From Verif Require Import GoInt GoFloat GoSin Machine P_Float P_Machine P_Degree P_Approx P_Positions.
Open Scope R_scope.

Lemma fmake_exact m e : (Z.abs m < 2 ^ 53)%Z -> (-200 <= e <= 0)%Z -> fin (fmake m e) (IZR m * bpow radix2 e).
Proof.
  intros Hm He. pose proof (rnd_F2R m e Hm ltac:(lia)) as E. unfold F2R in E. cbn [Fnum Fexp] in E. rewrite <- E.
  apply fmake_fin. apply small_huge. unfold F2R. cbn [Fnum Fexp]. rewrite Rabs_mult, (Rabs_pos_eq (bpow radix2 e)) by apply bpow_ge_0.
  apply Rle_trans with (Rabs (IZR m) * 1).
  - apply Rmult_le_compat_l; [apply Rabs_pos|]. change 1 with (bpow radix2 0). apply bpow_le. lia.
  - rewrite Rmult_1_r, <- abs_IZR. apply IZR_le. lia.
Qed.
Ltac const := eexists; split; [apply fmake_exact; [vm_compute; reflexivity|lia]|bp; lra].
Lemma sin_0_in : exists c, fin sin_0 c /\ - / 1000 <= c <= / 1000. Proof. const. Qed.
Lemma sin_1_in : exists c, fin sin_1 c /\ - / 1000 <= c <= / 1000. Proof. const. Qed.
Lemma sin_2_in : exists c, fin sin_2 c /\ - / 1000 <= c <= / 1000. Proof. const. Qed.
Lemma sin_3_in : exists c, fin sin_3 c /\ - / 1000 <= c <= / 1000. Proof. const. Qed.
Lemma sin_4_in : exists c, fin sin_4 c /\ 8 / 1000 <= c <= 9 / 1000. Proof. const. Qed.
Lemma sin_5_in : exists c, fin sin_5 c /\ - 167 / 1000 <= c <= - 166 / 1000. Proof. const. Qed.
Lemma cos_0_in : exists c, fin cos_0 c /\ - / 1000 <= c <= / 1000. Proof. const. Qed.
Lemma cos_1_in : exists c, fin cos_1 c /\ - / 1000 <= c <= / 1000. Proof. const. Qed.
Lemma cos_2_in : exists c, fin cos_2 c /\ - / 1000 <= c <= / 1000. Proof. const. Qed.
Lemma cos_3_in : exists c, fin cos_3 c /\ - / 1000 <= c <= / 1000. Proof. const. Qed.
Lemma cos_4_in : exists c, fin cos_4 c /\ - 2 / 1000 <= c <= - 1 / 1000. Proof. const. Qed.
Lemma cos_5_in : exists c, fin cos_5 c /\ 41 / 1000 <= c <= 42 / 1000. Proof. const. Qed.

(** One step of the Horner scheme. *)
Lemma horner_in zz w t u c g T : fin zz w -> 0 <= w <= 62 / 100 -> fin t u -> Rabs u <= T -> T <= 1 -> fin c g -> Rabs g <= 1 ->
  exists v, fin (horner zz t c) v /\ g - 62 / 100 * T - / 1000000000 <= v <= g + 62 / 100 * T + / 1000000000.
Proof.
  intros Z W U BT HT C G. unfold horner. pose proof (Rabs_pos u). apply Rabs_le_inv in G.
  assert (A1 : app (fmul t zz) (u * w) (1 * 0 + 1 * 0 + 0 * 0 + bpow radix2 (1 - 54))).
  { apply (app_mul 1 t zz _ _ _ _ 1 1 (app_fin _ _ U) (app_fin _ _ Z)); [lra|rewrite Rabs_pos_eq; lra|bp; lra|lia]. }
  assert (P : Rabs (u * w) <= 62 / 100 * T) by (rewrite Rabs_mult, (Rabs_pos_eq w) by lra; nra). apply Rabs_le_inv in P.
  assert (A2 : app (fadd (fmul t zz) c) (u * w + g) (1 * 0 + 1 * 0 + 0 * 0 + bpow radix2 (1 - 54) + 0 + bpow radix2 (2 - 54))).
  { apply (app_add 2); [exact A1|apply app_fin; exact C| |lia]. kk. assert (Rabs (u * w + g) <= 2) by (apply Rabs_le; lra). lra. }
  apply app_bound in A2 as [F B]. eexists. split; [split; [exact F|reflexivity]|]. kk. lra.
Qed.
Lemma sin_poly_in z t zz w : fin z t -> -8 / 10 <= t <= 8 / 10 -> fin zz w -> 0 <= w <= 62 / 100 ->
  exists v, fin (sin_poly z zz) v /\ -1 <= v <= 1.
Proof.
  intros Z T W Bw. destruct sin_0_in as (c0 & C0 & B0), sin_1_in as (c1 & C1 & B1), sin_2_in as (c2 & C2 & B2), sin_3_in as (c3 & C3 & B3), sin_4_in as (c4 & C4 & B4), sin_5_in as (c5 & C5 & B5).
  unfold sin_poly. change (fadd (fmul sin_0 zz) sin_1) with (horner zz sin_0 sin_1).
  destruct (horner_in zz w sin_0 c0 sin_1 c1 (1 / 1000) W Bw C0 ltac:(apply Rabs_le; lra) ltac:(lra) C1 ltac:(apply Rabs_le; lra)) as (u1 & U1 & D1).
  destruct (horner_in zz w _ u1 sin_2 c2 (2 / 1000) W Bw U1 ltac:(apply Rabs_le; lra) ltac:(lra) C2 ltac:(apply Rabs_le; lra)) as (u2 & U2 & D2).
  destruct (horner_in zz w _ u2 sin_3 c3 (3 / 1000) W Bw U2 ltac:(apply Rabs_le; lra) ltac:(lra) C3 ltac:(apply Rabs_le; lra)) as (u3 & U3 & D3).
  destruct (horner_in zz w _ u3 sin_4 c4 (4 / 1000) W Bw U3 ltac:(apply Rabs_le; lra) ltac:(lra) C4 ltac:(apply Rabs_le; lra)) as (u4 & U4 & D4).
  destruct (horner_in zz w _ u4 sin_5 c5 (20 / 1000) W Bw U4 ltac:(apply Rabs_le; lra) ltac:(lra) C5 ltac:(apply Rabs_le; lra)) as (p & P & D5).
  set (q := horner zz (horner zz (horner zz (horner zz (horner zz sin_0 sin_1) sin_2) sin_3) sin_4) sin_5) in *.
  assert (A1 : app (fmul z zz) (t * w) (1 * 0 + 1 * 0 + 0 * 0 + bpow radix2 (1 - 54))).
  { apply (app_mul 1 z zz _ _ _ _ 1 1 (app_fin _ _ Z) (app_fin _ _ W)); [apply Rabs_le; lra|rewrite Rabs_pos_eq; lra|bp; lra|lia]. }
  assert (M : Rabs (t * w) <= 1 / 2) by (rewrite Rabs_mult, (Rabs_pos_eq w) by lra; assert (Rabs t <= 8 / 10) by (apply Rabs_le; lra); pose proof (Rabs_pos t); nra).
  assert (A2 : app (fmul (fmul z zz) q) (t * w * p) (1 / 2 * 0 + 2 / 10 * (1 * 0 + 1 * 0 + 0 * 0 + bpow radix2 (1 - 54)) + (1 * 0 + 1 * 0 + 0 * 0 + bpow radix2 (1 - 54)) * 0 + bpow radix2 (1 - 54))).
  { apply (app_mul 1 _ _ _ _ _ _ (1 / 2) (2 / 10) A1 (app_fin _ _ P)); [exact M|apply Rabs_le; lra|kk; lra|lia]. }
  assert (N : Rabs (t * w * p) <= 1 / 10) by (rewrite Rabs_mult; assert (Rabs p <= 2 / 10) by (apply Rabs_le; lra); pose proof (Rabs_pos p); pose proof (Rabs_pos (t * w)); nra).
  apply Rabs_le_inv in N. assert (A3 : app (fadd z (fmul (fmul z zz) q)) (t + t * w * p) (0 + (1 / 2 * 0 + 2 / 10 * (1 * 0 + 1 * 0 + 0 * 0 + bpow radix2 (1 - 54)) + (1 * 0 + 1 * 0 + 0 * 0 + bpow radix2 (1 - 54)) * 0 + bpow radix2 (1 - 54)) + bpow radix2 (1 - 54))).
  { apply (app_add 1); [apply app_fin; exact Z|exact A2| |lia]. kk. assert (Rabs (t + t * w * p) <= 9 / 10) by (apply Rabs_le; lra). lra. }
  apply app_bound in A3 as [F B]. eexists. split; [split; [exact F|reflexivity]|]. kk. lra.
Qed.
Lemma cos_poly_in zz w : fin zz w -> 0 <= w <= 62 / 100 ->
  exists v, fin (cos_poly zz) v /\ 0 <= v <= 1 + / 100000000.
Proof.
  intros W Bw. destruct cos_0_in as (c0 & C0 & B0), cos_1_in as (c1 & C1 & B1), cos_2_in as (c2 & C2 & B2), cos_3_in as (c3 & C3 & B3), cos_4_in as (c4 & C4 & B4), cos_5_in as (c5 & C5 & B5).
  unfold cos_poly. change (fadd (fmul cos_0 zz) cos_1) with (horner zz cos_0 cos_1).
  destruct (horner_in zz w cos_0 c0 cos_1 c1 (1 / 1000) W Bw C0 ltac:(apply Rabs_le; lra) ltac:(lra) C1 ltac:(apply Rabs_le; lra)) as (u1 & U1 & D1).
  destruct (horner_in zz w _ u1 cos_2 c2 (2 / 1000) W Bw U1 ltac:(apply Rabs_le; lra) ltac:(lra) C2 ltac:(apply Rabs_le; lra)) as (u2 & U2 & D2).
  destruct (horner_in zz w _ u2 cos_3 c3 (3 / 1000) W Bw U2 ltac:(apply Rabs_le; lra) ltac:(lra) C3 ltac:(apply Rabs_le; lra)) as (u3 & U3 & D3).
  destruct (horner_in zz w _ u3 cos_4 c4 (4 / 1000) W Bw U3 ltac:(apply Rabs_le; lra) ltac:(lra) C4 ltac:(apply Rabs_le; lra)) as (u4 & U4 & D4).
  destruct (horner_in zz w _ u4 cos_5 c5 (20 / 1000) W Bw U4 ltac:(apply Rabs_le; lra) ltac:(lra) C5 ltac:(apply Rabs_le; lra)) as (p & P & D5).
  set (q := horner zz (horner zz (horner zz (horner zz (horner zz cos_0 cos_1) cos_2) cos_3) cos_4) cos_5) in *.
  assert (H : fin (fmake 1 (-1)) (/ 2)).
  { pose proof (fmake_exact 1 (-1) ltac:(vm_compute; reflexivity) ltac:(lia)) as E. replace (/ 2) with (1 * bpow radix2 (-1)) by (bp; lra). exact E. }
  assert (A0 : app (fmul (fmake 1 (-1)) zz) (/ 2 * w) (1 * 0 + 1 * 0 + 0 * 0 + bpow radix2 (1 - 54))).
  { apply (app_mul 1 _ zz _ _ _ _ 1 1 (app_fin _ _ H) (app_fin _ _ W)); [rewrite Rabs_pos_eq; lra|rewrite Rabs_pos_eq; lra|bp; lra|lia]. }
  assert (A1 : app (fsub (f_of_int 1) (fmul (fmake 1 (-1)) zz)) (1 - / 2 * w) (0 + (1 * 0 + 1 * 0 + 0 * 0 + bpow radix2 (1 - 54)) + bpow radix2 (1 - 54))).
  { apply (app_sub 1); [apply app_int; lia|exact A0| |lia]. kk. rewrite Rabs_pos_eq by lra. lra. }
  assert (A2 : app (fmul zz zz) (w * w) (1 * 0 + 1 * 0 + 0 * 0 + bpow radix2 (1 - 54))).
  { apply (app_mul 1 zz zz _ _ _ _ 1 1 (app_fin _ _ W) (app_fin _ _ W)); [rewrite Rabs_pos_eq; lra|rewrite Rabs_pos_eq; lra|bp; lra|lia]. }
  assert (A3 : app (fmul (fmul zz zz) q) (w * w * p) (1 * 0 + 1 * (1 * 0 + 1 * 0 + 0 * 0 + bpow radix2 (1 - 54)) + (1 * 0 + 1 * 0 + 0 * 0 + bpow radix2 (1 - 54)) * 0 + bpow radix2 (1 - 54))).
  { apply (app_mul 1 _ _ _ _ _ _ 1 1 A2 (app_fin _ _ P)); [rewrite Rabs_pos_eq; nra|apply Rabs_le; lra|kk; lra|lia]. }
  assert (N : 0 <= w * w * p <= w / 10).
  { assert (0 <= w * p <= 1 / 10) by nra. replace (w * w * p) with (w * (w * p)) by ring. nra. }
  assert (A4 : app (fadd (fsub (f_of_int 1) (fmul (fmake 1 (-1)) zz)) (fmul (fmul zz zz) q)) (1 - / 2 * w + w * w * p)
     (0 + (1 * 0 + 1 * 0 + 0 * 0 + bpow radix2 (1 - 54)) + bpow radix2 (1 - 54) + (1 * 0 + 1 * (1 * 0 + 1 * 0 + 0 * 0 + bpow radix2 (1 - 54)) + (1 * 0 + 1 * 0 + 0 * 0 + bpow radix2 (1 - 54)) * 0 + bpow radix2 (1 - 54)) + bpow radix2 (1 - 54))).
  { apply (app_add 1); [exact A1|exact A3| |lia]. kk. rewrite Rabs_pos_eq by lra. lra. }
  apply app_bound in A4 as [F B]. eexists. split; [split; [exact F|reflexivity]|]. kk. lra.
Qed.

Lemma reduction x r : fin x r -> 0 <= r <= 100 -> exists j, int_of_f (fmul x m4pi) = j /\ (0 <= j <= 128)%Z /\
  forall y n, fin y (IZR n) -> (n = j \/ n = j + 1)%Z -> 
  exists t, fin (fsub (fsub (fsub x (fmul y pi4a)) (fmul y pi4b)) (fmul y pi4c)) t /\ (n = j -> - / 1000 <= t) /\ (n = (j + 1)%Z -> t <= / 1000) /\ -786 / 1000 <= t <= 786 / 1000 /\
    Rabs (t - (r - IZR n * (785398163397448 / 1000000000000000))) <= / 1000000000000.
Proof.
  intros X B.
  pose proof (fmake_exact 5734161139222659 (-52) ltac:(vm_compute; reflexivity) ltac:(lia) : fin m4pi _) as M.
  assert (Ha : exists a, fin pi4a a /\ a = 7074237412016128 / 9007199254740992).
  { eexists. split; [apply fmake_exact; [vm_compute; reflexivity|lia]|bp; lra]. }
  destruct Ha as (a & A & Ea).
  assert (Hb : exists b, fin pi4b b /\ 0 <= b <= 3774894708 / 100000000000000000 /\ 3774894707 / 100000000000000000 <= b).
  { eexists. split; [apply fmake_exact; [vm_compute; reflexivity|lia]|bp; lra]. }
  destruct Hb as (b & Bb & Eb).
  assert (Hc : exists c, fin pi4c c /\ 0 <= c <= 3 / 1000000000000000).
  { eexists. split; [apply fmake_exact; [vm_compute; reflexivity|lia]|bp; lra]. }
  destruct Hc as (c & C & Ec).
  change (bpow radix2 (-52)) with (/ 4503599627370496) in M. set (m := 5734161139222659 * / 4503599627370496) in *.
  assert (Hm : 1273239544735162 / 1000000000000000 <= m <= 1273239544735163 / 1000000000000000) by (unfold m; lra).
  assert (A1 : app (fmul x m4pi) (r * m) (100 * 0 + 2 * 0 + 0 * 0 + bpow radix2 (8 - 54))).
  { apply (app_mul 8 x m4pi _ _ _ _ 100 2 (app_fin _ _ X) (app_fin _ _ M)); [rewrite Rabs_pos_eq; lra|rewrite Rabs_pos_eq; lra|bp; lra|lia]. }
  assert (Q0 : 0 <= B2R (fmul x m4pi)).
  { destruct (fmul_fin x m4pi r m X M) as [_ E]; [apply small_huge; rewrite Rabs_pos_eq by nra; apply Rle_trans with 200; [nra|apply IZR_le; vm_compute; discriminate]|]. rewrite E. apply rnd_nonneg. nra. }
  apply app_bound in A1 as [F1 B1]. set (q := B2R (fmul x m4pi)) in *. kk.
  assert (Rm : 0 <= r * m <= 1274 / 10) by nra.
  exists (Zfloor q). pose proof (Zfloor_lb q) as L. pose proof (Zfloor_ub q) as U.
  assert (J : (0 <= Zfloor q <= 128)%Z) by (split; [rewrite <- (Zfloor_IZR 0); apply Zfloor_le; lra|rewrite <- (Zfloor_IZR 128); apply Zfloor_le; lra]).
  split; [|split; [exact J|]].
  { unfold int_of_f. assert (E : Btrunc (fmul x m4pi) = Zfloor q).
    { apply eq_IZR. rewrite (Btrunc_correct 53 1024 emax1024). fold q. unfold round, F2R, scaled_mantissa, cexp, FIX_exp. cbn. rewrite !Rmult_1_r. rewrite Ztrunc_floor by exact Q0. reflexivity. }
    cbv zeta. rewrite E, F1. assert (T : ((- two63 <=? Zfloor q) && (Zfloor q <? two63))%Z = true) by (unfold two63; lia). cbn [andb]. rewrite T. reflexivity. }
  intros y n Y Hn. assert (Nr : 0 <= IZR n <= 129) by (split; apply IZR_le; lia).
  assert (C1 : app (fmul y pi4a) (IZR n * a) (129 * 0 + 1 * 0 + 0 * 0 + bpow radix2 (8 - 54))).
  { apply (app_mul 8 _ _ _ _ _ _ 129 1 (app_fin _ _ Y) (app_fin _ _ A)); [rewrite Rabs_pos_eq; lra|rewrite Rabs_pos_eq; lra|bp; lra|lia]. }
  assert (C2 : app (fmul y pi4b) (IZR n * b) (129 * 0 + 1 * 0 + 0 * 0 + bpow radix2 (8 - 54))).
  { apply (app_mul 8 _ _ _ _ _ _ 129 1 (app_fin _ _ Y) (app_fin _ _ Bb)); [rewrite Rabs_pos_eq; lra|rewrite Rabs_pos_eq; lra|bp; lra|lia]. }
  assert (C3 : app (fmul y pi4c) (IZR n * c) (129 * 0 + 1 * 0 + 0 * 0 + bpow radix2 (8 - 54))).
  { apply (app_mul 8 _ _ _ _ _ _ 129 1 (app_fin _ _ Y) (app_fin _ _ C)); [rewrite Rabs_pos_eq; lra|rewrite Rabs_pos_eq; lra|bp; lra|lia]. }
  assert (Na : 0 <= IZR n * a <= 102) by nra. assert (Nb : 0 <= IZR n * b <= / 100000) by nra. assert (Nc : 0 <= IZR n * c <= / 1000000000) by nra.
  assert (D1 : app (fsub x (fmul y pi4a)) (r - IZR n * a) (0 + (129 * 0 + 1 * 0 + 0 * 0 + bpow radix2 (8 - 54)) + bpow radix2 (8 - 54))).
  { apply (app_sub 8); [apply app_fin; exact X|exact C1| |lia]. kk. assert (Rabs (r - IZR n * a) <= 110) by (apply Rabs_le; lra). lra. }
  assert (D2 : app (fsub (fsub x (fmul y pi4a)) (fmul y pi4b)) (r - IZR n * a - IZR n * b) (0 + (129 * 0 + 1 * 0 + 0 * 0 + bpow radix2 (8 - 54)) + bpow radix2 (8 - 54) + (129 * 0 + 1 * 0 + 0 * 0 + bpow radix2 (8 - 54)) + bpow radix2 (8 - 54))).
  { apply (app_sub 8); [exact D1|exact C2| |lia]. kk. assert (Rabs (r - IZR n * a - IZR n * b) <= 110) by (apply Rabs_le; lra). lra. }
  assert (D3 : app (fsub (fsub (fsub x (fmul y pi4a)) (fmul y pi4b)) (fmul y pi4c)) (r - IZR n * a - IZR n * b - IZR n * c) (0 + (129 * 0 + 1 * 0 + 0 * 0 + bpow radix2 (8 - 54)) + bpow radix2 (8 - 54) + (129 * 0 + 1 * 0 + 0 * 0 + bpow radix2 (8 - 54)) + bpow radix2 (8 - 54) + (129 * 0 + 1 * 0 + 0 * 0 + bpow radix2 (8 - 54)) + bpow radix2 (8 - 54))).
  { apply (app_sub 8); [exact D2|exact C3| |lia]. kk. assert (Rabs (r - IZR n * a - IZR n * b - IZR n * c) <= 110) by (apply Rabs_le; lra). lra. }
  apply app_bound in D3 as [F3 B3]. eexists. split; [split; [exact F3|reflexivity]|]. kk.
  set (t := B2R (fsub (fsub (fsub x (fmul y pi4a)) (fmul y pi4b)) (fmul y pi4c))) in *.
  assert (Na' : IZR n * a = IZR n * (7074237412016128 / 9007199254740992)) by (rewrite Ea; reflexivity).
  unfold m in *. clear Ea. 
  assert (Near : Rabs (t - (r - IZR n * (785398163397448 / 1000000000000000))) <= / 1000000000000).
  { assert (0 <= IZR n * b - IZR n * (3774894707 / 100000000000000000) <= / 100000000000000) by (replace (IZR n * b - IZR n * (3774894707 / 100000000000000000)) with (IZR n * (b - 3774894707 / 100000000000000000)) by ring; split; [apply Rmult_le_pos; lra|apply Rle_trans with (129 * / 100000000000000000); [apply Rmult_le_compat; lra|lra]]).
    assert (0 <= IZR n * c <= 129 * (3 / 1000000000000000)) by nra. apply Rabs_le. lra. }
  clear Ec. split; [|split; [|split; [|exact Near]]]; clear Near;
  (destruct Hn as [-> | ->]; [|rewrite plus_IZR in *]); try (intros; lia); try (intros _); lra.
Qed.

Theorem go_sin_bounded : bounded_sin go_sin.
Proof.
  intros x F B. destruct x as [s|s| |s m e H]; try discriminate F.
  - split; [reflexivity|]. cbn. rewrite Rabs_R0. lra.
  - unfold go_sin. set (x := B754_finite s m e H) in *.
    assert (X : fin (fabs x) (Rabs (B2R x))) by (apply fabs_fin; split; [exact F|reflexivity]).
    pose proof (Rabs_pos (B2R x)) as P. set (ax := fabs x) in *. clearbody ax. set (r := Rabs (B2R x)) in *. clearbody r. clear F x H m e.
    destruct (reduction ax r X (conj P B)) as (j & E & J & R). rewrite E. clear E.
    assert (Main : forall n y j' s', fin y (IZR n) -> (n = j \/ n = j + 1)%Z ->
      let z := fsub (fsub (fsub ax (fmul y pi4a)) (fmul y pi4b)) (fmul y pi4c) in
      let v := if ((j' =? 1) || (j' =? 2))%Z then cos_poly (fmul z z) else sin_poly z (fmul z z) in
      let w := if (s' : bool) then Bopp v else v in is_finite w = true /\ Rabs (B2R w) <= 1 + / 1000000).
    { intros n y j' s' Y Hn z v w. destruct (R y n Y Hn) as (t & T & _ & _ & Bt & _). fold z in T.
      assert (Z2 : app (fmul z z) (t * t) (1 * 0 + 1 * 0 + 0 * 0 + bpow radix2 (1 - 54))).
      { apply (app_mul 1 z z _ _ _ _ 1 1 (app_fin _ _ T) (app_fin _ _ T)); [apply Rabs_le; lra|apply Rabs_le; lra|bp; lra|lia]. }
      assert (Z0 : 0 <= B2R (fmul z z)).
      { destruct (fmul_fin z z t t T T) as [_ E]; [apply small_huge; rewrite Rabs_pos_eq by nra; apply Rle_trans with 1; [nra|apply IZR_le; vm_compute; discriminate]|]. rewrite E. apply rnd_nonneg. nra. }
      apply app_bound in Z2 as [Fz Bz]. kk. assert (Bw : 0 <= B2R (fmul z z) <= 62 / 100) by nra.
      assert (V : exists q, fin v q /\ -1 <= q <= 1 + / 100000000).
      { unfold v. destruct ((j' =? 1) || (j' =? 2))%Z.
        - destruct (cos_poly_in (fmul z z) _ (conj Fz eq_refl) Bw) as (q & Q & Bq). exists q. split; [exact Q|lra].
        - destruct (sin_poly_in z t (fmul z z) _ T ltac:(lra) (conj Fz eq_refl) Bw) as (q & Q & Bq). exists q. split; [exact Q|lra]. }
      destruct V as (q & [Fq Eq] & Bq). unfold w. destruct s'.
      - rewrite is_finite_Bopp, B2R_Bopp, Rabs_Ropp, Eq. split; [exact Fq|apply Rabs_le; lra].
      - rewrite Eq. split; [exact Fq|apply Rabs_le; lra]. }
    destruct (Z.odd j) eqn:O.
    + replace (iadd j 1) with (j + 1)%Z by (unwrap; reflexivity).
      assert (Y : fin (fadd (f_of_int j) (f_of_int 1)) (IZR (j + 1))).
      { rewrite <- (rnd_IZR (j + 1)) by lia. rewrite plus_IZR. apply fadd_fin; [apply f_of_int_fin; lia|apply f_of_int_fin; lia|]. apply small_huge. rewrite <- plus_IZR, <- abs_IZR. apply IZR_le. lia. }
      destruct (3 <? Z.land (j + 1) 7)%Z; apply (Main (j + 1)%Z _ _ _ Y); right; reflexivity.
    + assert (Y : fin (f_of_int j) (IZR j)) by (apply f_of_int_fin; lia).
      destruct (3 <? Z.land j 7)%Z; apply (Main j _ _ _ Y); left; reflexivity.
Qed.
