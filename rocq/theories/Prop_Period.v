(** Theorem C68: the calendar repeats after exactly 16608000 years. *)
From Coq Require Import ZArith Znumtheory Lia Bool List ZifyBool.
From Verif Require Import GoTime SuriyaYear SuriyaDay Helpers Spec P_Time P_Year P_Counts P_Kattika P_Period Prop_Kattika.
Import ListNotations.
Open Scope Z_scope.

(** * C68 Every combination of the three numbers of a year comes once in 16608000 years, and not before that does the calendar repeat *)
Theorem C68_every_state_once : forall y k a t, 638 <= y -> 1 <= k <= 800 -> 0 <= a < 692 -> 0 <= t < 30 ->
  exists z, (y <= z < y + 16608000 /\
    sy_Kammacubala (su_init z) = k /\ sy_Avoman (su_init z) = a /\ sy_Tithi (su_init z) = t) /\
  forall z', y <= z' < y + 16608000 -> sy_Kammacubala (su_init z') = k -> sy_Avoman (su_init z') = a -> sy_Tithi (su_init z') = t -> z' = z.
Proof.
  intros y k a t Hy Hk Ha Ht. assert (I : In (k, (a, t)) all_states).
  { unfold all_states. rewrite !in_prod_iff, !zrange_in. lia. }
  apply (Permutation.Permutation_in _ (Permutation.Permutation_sym (states_permutation y Hy))) in I.
  apply in_map_iff in I. destruct I as (z & E & I). rewrite zrange_in in I. rewrite Z2Nat.id in I by (unfold period; lia).
  change period with 16608000 in I. unfold state in E. injection E as E1 E2 E3. exists z. split; [auto|].
  intros z' R F1 F2 F3. fold (K z') in F1. fold (Av z') in F2. fold (T z') in F3.
  assert (S : state z = state z') by (unfold state; congruence).
  apply state_eq in S; [|lia|lia]. destruct S as (j & S). change period with 16608000 in S. lia.
Qed.
Theorem C68_period : forall y z, 638 <= y -> 638 <= z ->
  (sy_Kammacubala (su_init z) = sy_Kammacubala (su_init y) /\ sy_Avoman (su_init z) = sy_Avoman (su_init y) /\
   sy_Tithi (su_init z) = sy_Tithi (su_init y)) <-> (16608000 | z - y).
Proof.
  intros y z Hy Hz. fold (K z) (K y) (Av z) (Av y) (T z) (T y). pose proof (state_eq y z Hy Hz) as S.
  change period with 16608000 in S. unfold state in S. split.
  - intros (E1 & E2 & E3). assert (E : (K y, (Av y, T y)) = (K z, (Av z, T z))) by congruence.
    apply S in E. destruct E as (j & E). exists j. lia.
  - intros (j & E). assert (X : exists j, z - y = 16608000 * j) by (exists j; lia). apply S in X.
    injection X as -> -> ->. auto.
Qed.

Lemma K_period y : 638 <= y -> K (y + 16608000) = K y.
Proof. intros H. pose proof (state_period y H) as S. unfold state in S. change period with 16608000 in S. congruence. Qed.
Lemma Av_period y : 638 <= y -> Av (y + 16608000) = Av y.
Proof. intros H. pose proof (state_period y H) as S. unfold state in S. change period with 16608000 in S. congruence. Qed.
Lemma T_period y : 638 <= y -> T (y + 16608000) = T y.
Proof. intros H. pose proof (state_period y H) as S. unfold state in S. change period with 16608000 in S. congruence. Qed.
Lemma am_period y : 638 <= y -> am (y + 16608000) = am y.
Proof. intros H. rewrite !am_of_state by lia. rewrite K_period, Av_period, T_period by exact H. reflexivity. Qed.
Lemma wv_period y : 638 <= y -> wv (y + 16608000) = wv y.
Proof.
  intros H. unfold wv, would_be_adhikavara, is_suriya_leap. fold (K (y + 16608000)) (Av (y + 16608000)) (K y) (Av y).
  rewrite K_period, Av_period by exact H. reflexivity.
Qed.
Lemma av_period y : 639 <= y -> av (y + 16608000) = av y.
Proof.
  intros H. rewrite !av_eq, !ca_eq. replace (y + 16608000 - 1) with (y - 1 + 16608000) by lia.
  rewrite !am_period, !wv_period by lia. reflexivity.
Qed.
Lemma edge_period y : 638 <= y -> edge (y + 16608000) = edge y.
Proof. intros H. rewrite !edge_of_state, K_period, Av_period by exact H. reflexivity. Qed.

Theorem C68_types : forall cfg y, UseExceptions cfg = false -> 639 <= y ->
  is_adhikamasa (su_init (y + 16608000)) = is_adhikamasa (su_init y) /\
  is_adhikavara cfg (su_init (y + 16608000)) = is_adhikavara cfg (su_init y) /\
  year_length cfg (su_init (y + 16608000)) = year_length cfg (su_init y).
Proof.
  intros cfg y O H. fold (am (y + 16608000)) (am y). fold (len cfg (y + 16608000)) (len cfg y).
  rewrite !(len_off cfg _ O), !(adhikavara_default_off cfg _ O), am_period, av_period by lia. auto.
Qed.

(** The years with an extra month have no shorter period, from whatever year on. *)
Lemma blocks p (n : nat) y0 c : (forall a, y0 <= a -> count_years p a n = c) ->
  forall k a, y0 <= a -> count_years p a (k * n) = Z.of_nat k * c.
Proof.
  intros H k. induction k as [|k IH]; intros a Ha; [reflexivity|].
  change (S k * n)%nat with (n + k * n)%nat. rewrite count_years_add, H, IH by lia. lia.
Qed.
Lemma count_shift p q a n : (forall y, a <= y -> p (y + q) = p y) -> count_years p (a + q) n = count_years p a n.
Proof.
  revert a. induction n as [|n IH]; intros a H; cbn [count_years]; [reflexivity|].
  rewrite H by lia. replace (a + q + 1) with (a + 1 + q) by lia. rewrite IH; [reflexivity|]. intros; apply H; lia.
Qed.
Lemma am_per_period a : 638 <= a -> count_years am a (Z.to_nat 16608000) = 6125521.
Proof.
  intros H. rewrite am_count by exact H. rewrite Z2Nat.id by lia. rewrite T_period by exact H.
  pose proof (HK_spec a H) as (E1 & _). pose proof (HK_spec (a + 16608000) ltac:(lia)) as (E2 & _). rewrite K_period in E2 by exact H.
  pose proof (NA_spec a H) as (N1 & _). pose proof (NA_spec (a + 16608000) ltac:(lia)) as (N2 & _).
  rewrite T_period, Av_period in N2 by exact H. lia.
Qed.
Theorem C68_no_shorter : forall y0 q, 638 <= y0 -> 0 < q ->
  (forall y, y0 <= y -> is_adhikamasa (su_init (y + q)) = is_adhikamasa (su_init y)) -> (16608000 | q).
Proof.
  intros y0 q H Q P. set (p := fun z => is_adhikamasa (su_init z)).
  assert (A : count_years p y0 (Z.to_nat q * Z.to_nat 16608000) = q * 6125521).
  { rewrite (blocks p _ y0 6125521); [lia| |lia]. intros a Ha. apply am_per_period. lia. }
  assert (B : count_years p y0 (Z.to_nat 16608000 * Z.to_nat q) = 16608000 * count_years p y0 (Z.to_nat q)).
  { rewrite (blocks p _ y0 (count_years p y0 (Z.to_nat q))); [lia| |lia]. intros a Ha.
    assert (S : forall k, count_years p (y0 + Z.of_nat k) (Z.to_nat q) = count_years p y0 (Z.to_nat q)).
    { induction k as [|k IH]; [f_equal; lia|]. rewrite <- IH.
      assert (C1 := count_years_add p (y0 + Z.of_nat k) 1 (Z.to_nat q)). assert (C2 := count_years_add p (y0 + Z.of_nat k) (Z.to_nat q) 1).
      replace (Z.to_nat q + 1)%nat with (1 + Z.to_nat q)%nat in C2 by lia. cbn [count_years] in C1, C2.
      replace (y0 + Z.of_nat k + Z.of_nat (Z.to_nat q)) with (y0 + Z.of_nat k + q) in C2 by lia.
      change (p (y0 + Z.of_nat k + q)) with (is_adhikamasa (su_init (y0 + Z.of_nat k + q))) in C2. rewrite P in C2 by lia.
      fold (p (y0 + Z.of_nat k)) in C2. replace (y0 + Z.of_nat (S k)) with (y0 + Z.of_nat k + Z.of_nat 1) by lia. lia. }
    specialize (S (Z.to_nat (a - y0))). replace (y0 + Z.of_nat (Z.to_nat (a - y0))) with a in S by lia. exact S. }
  rewrite Nat.mul_comm in B. apply Gauss with 6125521; [|apply Zgcd_1_rel_prime; reflexivity].
  exists (count_years p y0 (Z.to_nat q)). lia.
Qed.

(** The days of a full period, and what the boundary years add to them. *)
Lemma surplus_period y : 640 <= y -> surplus (y + 16608000) = surplus y + 3726.
Proof.
  intros H. unfold surplus. replace (Z.to_nat (y + 16608000 - 640)) with (Z.to_nat 16608000 + Z.to_nat (y - 640))%nat by lia.
  rewrite count_years_add. pose proof (edges_in_period 640 ltac:(lia)) as E. change period with 16608000 in E. rewrite E. clear E.
  replace (640 + Z.of_nat (Z.to_nat 16608000)) with (640 + 16608000) by lia.
  rewrite (count_shift _ 16608000) by (intros z Hz; rewrite edge_period, am_period by lia; reflexivity).
  replace (y + 16608000 - 1) with (y - 1 + 16608000) by lia. rewrite edge_period, am_period by lia.
  destruct (Z.ltb_spec 640 y), (Z.ltb_spec 640 (y + 16608000)); try lia.
  replace (y - 1) with 639 by lia. replace (edge 639) with false by reflexivity. cbn [andb one_if]. lia.
Qed.
Theorem C68_drift : forall y, 640 <= y -> drift (y + 16608000) = drift y + 3726.
Proof. intros y H. rewrite !drift_surplus by lia. apply surplus_period. exact H. Qed.
Lemma kday_period cfg y : UseExceptions cfg = false -> 640 <= y -> kday cfg (y + 16608000) = kday cfg y + 6066221046.
Proof.
  intros O H. rewrite !(kday_closed cfg _ O), surplus_period by lia. unfold closed.
  pose proof (HK_spec y ltac:(lia)) as (E1 & _). pose proof (HK_spec (y + 16608000) ltac:(lia)) as (E2 & _). rewrite K_period in E2 by lia.
  rewrite T_period, !ca_eq by lia. replace (y + 16608000 - 1) with (y - 1 + 16608000) by lia. rewrite am_period, wv_period by lia.
  unfold hdate. lia.
Qed.
Theorem C68_days : forall cfg y, UseExceptions cfg = false -> 640 <= y -> exists k,
  previous_kattika cfg y = Some k /\ previous_kattika cfg (y + 16608000) = Some (time_add k (6066221046 * (24 * hour_ns))).
Proof.
  intros cfg y O H. rewrite !previous_kattika_eq, kday_period by assumption. eexists. split; [reflexivity|].
  f_equal. apply time_eq; cbn [midnight time_add t_ns t_off]; unfold day_ns, hour_ns; lia.
Qed.
Lemma sum_len_counts cfg n : UseExceptions cfg = false -> forall a, sum_len cfg a n = 354 * Z.of_nat n + 30 * count_years am a n + count_years av a n.
Proof.
  intros O. induction n as [|n IH]; intros a; [reflexivity|]. cbn [sum_len count_years]. rewrite IH, (len_off cfg a O). unfold b2z.
  destruct (am a), (av a); lia.
Qed.
Theorem C68_counts : forall y, 640 <= y ->
  count_years (fun z => is_adhikamasa (su_init z)) y (Z.to_nat 16608000) = 6125521 /\
  count_years (fun z => is_adhikavara_pure (su_init z)) y (Z.to_nat 16608000) = 3223416.
Proof.
  intros y H. pose proof (am_per_period y ltac:(lia)) as A. split; [exact A|].
  pose proof (kday_off_sum cfg_default y (Z.to_nat 16608000)) as S. rewrite (sum_len_counts cfg_default _ eq_refl), A in S.
  rewrite Z2Nat.id in S by lia. rewrite (kday_period cfg_default y eq_refl H) in S.
  change (count_years av y (Z.to_nat 16608000) = 3223416). lia.
Qed.
(** So the dates do not keep to the moon for ever: by the year 62000 the full moon of Kattika is put on a new moon. *)
Lemma surplus_62002 : surplus 62002 = 15.
Proof.
  unfold surplus. rewrite <- run_count by lia.
  assert (R : run (Z.to_nat (62002 - 640)) (K 640) (Av 640) (T 640) = 15) by (vm_cast_no_check (eq_refl 15)).
  rewrite R. replace (edge (62002 - 1)) with false by reflexivity. reflexivity.
Qed.
Theorem C68_moon_kept_refuted : exists y h,
  previous_kattika cfg_default y = Some (time_date 1963 7 (5 + (h - 484049)) 0 0) /\ moon_age h = 0.
Proof.
  exists 62002, (kattika_horakhun 62002 + 15). split.
  - rewrite C16_kattika_closed_form by (reflexivity || lia). rewrite drift_surplus, surplus_62002 by lia.
    generalize (kattika_horakhun 62002). intros h. replace (5 + (h + 15 - 484049)) with (5 + (h - 484049) + 15) by lia. reflexivity.
  - vm_compute. reflexivity.
Qed.
Example C68_example :
  map (fun y => (sy_Kammacubala (su_init y), sy_Avoman (su_init y), sy_Tithi (su_init y))) [2016; 2016 + 8304000; 2016 + 16608000] =
    [(781, 566, 9); (781, 566, 24); (781, 566, 9)] /\
  map (fun y => year_length cfg_default (su_init y)) [2015; 2015 + 8304000; 2015 + 16608000] = [384; 355; 384].
Proof. vm_compute. split; reflexivity. Qed.
