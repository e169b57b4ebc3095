(** SuriyaDay's integer fields, and the second route to Asalha Puja (C18, C39). *)
From Coq Require Import ZArith Lia Bool ZifyBool.
From Verif Require Import GoTime SuriyaYear SuriyaDay Helpers Spec P_Time P_Year P_Counts P_Kattika.
Open Scope Z_scope.
Ltac Zify.zify_post_hook ::= Z.div_mod_to_equations.

Lemma sd_Horakhun_eq y d : sd_Horakhun (sd_ints y d) = Hor y + (d - T y).
Proof. reflexivity. Qed.

Lemma sd_moon y d : 0 <= sd_Horakhun (sd_ints y d) ->
  let h := sd_Horakhun (sd_ints y d) in
  692 * (30 * sd_Masaken (sd_ints y d) + sd_Tithi (sd_ints y d)) + sd_Avoman (sd_ints y d) = 703 * h + 650
  /\ 0 <= sd_Tithi (sd_ints y d) < 30 /\ 0 <= sd_Avoman (sd_ints y d) < 692
  /\ 0 <= sd_Masaken (sd_ints y d)
  /\ sd_Uccabala (sd_ints y d) = (h + 2611) mod 3232.
Proof.
  unfold sd_ints; cbn [sd_Horakhun sd_Masaken sd_Tithi sd_Avoman sd_Uccabala].
  set (h := _ + (_ - _)). clearbody h. intros Hh. unfold_consts. cbv zeta.
  rewrite !Z.quot_div_nonneg, !Z.rem_mod_nonneg by lia. lia.
Qed.

Lemma sd_tithi_age y d : 0 <= sd_Horakhun (sd_ints y d) ->
  sd_Tithi (sd_ints y d) = moon_age (sd_Horakhun (sd_ints y d)).
Proof.
  intros Hh. pose proof (sd_moon y d Hh) as Hm. cbv zeta in Hm.
  unfold moon_age, tithis_elapsed. lia.
Qed.

Lemma sd_kammacubala y d : 638 <= y -> sd_Kammacubala (sd_ints y d) = K y + 800 * (d - T y).
Proof.
  intros Hy. unfold sd_ints, K, T; cbn [sd_Kammacubala]. unfold su_init; cbn [sy_Kammacubala].
  unfold_consts. lia.
Qed.

(** The day of the year's own record. *)
Lemma sd_new_year y : 638 <= y ->
  sd_Horakhun (sd_ints y (T y)) = Hor y /\ sd_Kammacubala (sd_ints y (T y)) = K y /\
  sd_Uccabala (sd_ints y (T y)) = sy_Uccabala (su_init y) /\ sd_Avoman (sd_ints y (T y)) = Av y /\
  sd_Masaken (sd_ints y (T y)) = M y /\ sd_Tithi (sd_ints y (T y)) = T y.
Proof.
  intros Hy. pose proof (HK_spec y Hy) as (_ & _ & HH). pose proof (NA_spec y Hy) as HN.
  assert (E : sd_Horakhun (sd_ints y (T y)) = Hor y) by (rewrite sd_Horakhun_eq; lia).
  pose proof (sd_moon y (T y) ltac:(lia)) as Hm. cbv zeta in Hm. rewrite E in Hm.
  rewrite sd_kammacubala by assumption. rewrite (U_spec y Hy). lia.
Qed.

(** ** Asalha Puja *)

Lemma asalha_puja_eq cfg y :
  asalha_puja cfg (su_init y) =
  Some (midnight (kday cfg y + 236 + (if am y then 30 else if is_adhikavara cfg (su_init y) then 1 else 0))).
Proof.
  unfold asalha_puja. rewrite sy_Year_init, previous_kattika_eq. fold (am y). cbv zeta.
  rewrite midnight_add24. do 2 f_equal.
  destruct (am y), (is_adhikavara cfg (su_init y)); lia.
Qed.

(** The lunar-year day number of the Asalha full moon. *)
Definition asalha_day (y : Z) : Z :=
  103 + (if av y && negb (ca y) then 1 else 0) + (if am y && (24 <=? T y) then 30 else 0).

Lemma asalha_routes cfg y : UseExceptions cfg = false -> 640 <= y ->
  asalha_puja cfg (su_init y) =
  Some (midnight (hdate (sd_Horakhun (sd_ints y (asalha_day y))) + surplus y)).
Proof.
  intros Ho Hy. rewrite asalha_puja_eq. do 2 f_equal.
  rewrite (kday_closed cfg y Ho Hy), (adhikavara_default_off cfg y Ho).
  rewrite sd_Horakhun_eq. unfold closed, hdate, asalha_day.
  pose proof (amT y ltac:(lia)) as Ham. pose proof (T_small_am y ltac:(lia)) as Hs.
  pose proof (NA_spec y ltac:(lia)) as (_ & HT & _).
  pose proof (am_not_adjacent (y - 1) ltac:(lia)) as Hn. replace (y - 1 + 1) with y in Hn by lia.
  rewrite av_eq, ca_eq. unfold one_if, b2z.
  destruct (am (y - 1)), (wv (y - 1)), (am y), (wv y), (Z.leb_spec (T y) 5), (Z.leb_spec 24 (T y)); cbn [andb orb negb];
    try lia; try (specialize (Hn eq_refl); discriminate); try (specialize (Hs ltac:(lia)); discriminate).
Qed.

Lemma asalha_age y : 640 <= y ->
  14 <= sd_Tithi (sd_ints y (asalha_day y)) <= 15.
Proof.
  intros Hy. pose proof (NA_spec y ltac:(lia)) as HN. pose proof (HK_spec y ltac:(lia)) as HK.
  assert (Hnn : 0 <= sd_Horakhun (sd_ints y (asalha_day y))).
  { rewrite sd_Horakhun_eq. unfold asalha_day. destruct (_ && _), (_ && _); lia. }
  pose proof (sd_moon y (asalha_day y) Hnn) as Hm. cbv zeta in Hm. rewrite sd_Horakhun_eq in Hm.
  pose proof (amT y ltac:(lia)) as Ham.
  pose proof (wav_spec y) as Hw. fold (wv y) in Hw.
  pose proof (lp_spec y) as Hl.
  set (d := asalha_day y) in *. set (sd := sd_ints y d) in *.
  set (q := 30 * (sd_Masaken sd - M y) + sd_Tithi sd - d).
  assert (Hq : 692 * q = 11 * (d - T y) + Av y - sd_Avoman sd) by (unfold q; lia).
  assert (Hd : d = 103 /\ 1 <= q <= 2 \/ d = 104 /\ 1 <= q <= 1 \/ d = 133 /\ 1 <= q <= 2).
  { unfold d, asalha_day in *. rewrite av_eq in *.
    destruct Hm as (_ & _ & HA & _). destruct HN as (_ & HT & HAv & _). clearbody q sd. clear Hnn HK.
    destruct (am y); cbn [andb negb orb] in *; [destruct (Z.leb_spec 24 (T y)) as [H24|H24]|
      destruct (ca y); [|destruct (wv y)]]; cbn [andb negb orb] in *; lia. }
  unfold q in Hd. lia.
Qed.

(** the years of zero drift *)
Lemma asalha_routes_agree cfg y : UseExceptions cfg = false -> 640 <= y <= 4098 -> y <> 3578 ->
  asalha_puja cfg (su_init y) = Some (midnight (hdate (sd_Horakhun (sd_ints y (asalha_day y))))).
Proof.
  intros Ho Hy Hne. rewrite asalha_routes by (assumption || lia). rewrite surplus_zero by assumption.
  do 2 f_equal. lia.
Qed.
