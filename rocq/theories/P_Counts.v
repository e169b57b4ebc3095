(** Distances between and counts of adhikamasa and adhikavara years (C07, C08, C11, C12). *)
From Coq Require Import ZArith Lia Bool ZifyBool.
From Verif Require Import GoTime SuriyaYear Spec P_Year.
Open Scope Z_scope.
Ltac Zify.zify_post_hook ::= Z.div_mod_to_equations.

Lemma count_years_snoc p a n :
  count_years p a (S n) = count_years p a n + one_if (p (a + Z.of_nat n)).
Proof.
  revert a. induction n as [|n IH]; intros a.
  - cbn [count_years]. change (Z.of_nat 0) with 0. rewrite !Z.add_0_r. reflexivity.
  - change (count_years p a (S (S n))) with ((if p a then 1 else 0) + count_years p (a + 1) (S n)).
    rewrite IH. cbn [count_years]. replace (a + 1 + Z.of_nat n) with (a + Z.of_nat (S n)) by lia. lia.
Qed.

Lemma count_years_bounds p a n : 0 <= count_years p a n <= Z.of_nat n.
Proof.
  revert a. induction n as [|n IH]; intros a; cbn [count_years]; [lia|].
  specialize (IH (a + 1)). destruct (p a); lia.
Qed.

Lemma count_years_ext p q a n :
  (forall y, a <= y < a + Z.of_nat n -> p y = q y) -> count_years p a n = count_years q a n.
Proof.
  revert a. induction n as [|n IH]; intros a Hpq; cbn [count_years]; [reflexivity|].
  rewrite (Hpq a) by lia. rewrite (IH (a + 1)); [reflexivity|]. intros y Hy. apply Hpq. lia.
Qed.

Lemma count_years_add p a n m :
  count_years p a (n + m) = count_years p a n + count_years p (a + Z.of_nat n) m.
Proof.
  revert a. induction n as [|n IH]; intros a; cbn [count_years plus].
  - change (Z.of_nat 0) with 0. rewrite !Z.add_0_r. lia.
  - rewrite IH. replace (a + 1 + Z.of_nat n) with (a + Z.of_nat (S n)) by lia. lia.
Qed.

(** ** Adhikamasa *)

Lemma am_three y : 638 <= y -> am y = true \/ am (y + 1) = true \/ am (y + 2) = true.
Proof.
  intros Hy.
  assert (Hb : 0 <= b2z (am y) + b2z (am (y + 1)) + b2z (am (y + 2)) - 1).
  { pose proof (M_am_step y Hy) as E1. pose proof (M_am_step (y + 1) ltac:(lia)) as E2.
    pose proof (M_am_step (y + 2) ltac:(lia)) as E3.
    replace (y + 1 + 1) with (y + 2) in * by lia. replace (y + 2 + 1) with (y + 3) in * by lia.
    destruct (T_step y Hy) as (d1 & c1 & D1). destruct (T_step (y + 1) ltac:(lia)) as (d2 & c2 & D2).
    destruct (T_step (y + 2) ltac:(lia)) as (d3 & c3 & D3).
    replace (y + 1 + 1) with (y + 2) in * by lia. replace (y + 2 + 1) with (y + 3) in * by lia.
    pose proof (NA_spec y Hy). pose proof (NA_spec (y + 1) ltac:(lia)).
    pose proof (NA_spec (y + 2) ltac:(lia)). pose proof (NA_spec (y + 3) ltac:(lia)).
    unfold b2z in *.
    destruct (Z.leb_spec (T y) 5), (Z.leb_spec (T (y + 3)) 5); lia. }
  destruct (am y); [now left|]. destruct (am (y + 1)); [now right; left|].
  destruct (am (y + 2)); [now right; right|]. cbn in Hb. lia.
Qed.

Lemma am_next y1 y2 : 638 <= y1 -> am y1 = true -> next_after am y1 y2 -> y2 = y1 + 2 \/ y2 = y1 + 3.
Proof.
  intros Hy Ha (Hlt & Ha2 & Hno).
  pose proof (am_not_adjacent y1 Hy Ha) as Hn1.
  destruct (am_three (y1 + 1) ltac:(lia)) as [E|[E|E]];
    replace (y1 + 1 + 1) with (y1 + 2) in * by lia; replace (y1 + 1 + 2) with (y1 + 3) in * by lia.
  - congruence.
  - destruct (Z.lt_trichotomy y2 (y1 + 2)) as [?|[->|?]]; [|now left|].
    + replace y2 with (y1 + 1) in * by lia. congruence.
    + rewrite Hno in E by lia. discriminate.
  - destruct (Z.lt_trichotomy y2 (y1 + 3)) as [?|[->|?]]; [|now right|].
    + destruct (Z.eq_dec y2 (y1 + 1)) as [->|]; [congruence|]. left. lia.
    + rewrite Hno in E by lia. discriminate.
Qed.

Lemma am_next_exists y1 : 638 <= y1 -> exists y2, next_after am y1 y2 /\ y2 <= y1 + 3.
Proof.
  intros Hy. pose proof (am_three (y1 + 1) ltac:(lia)) as H3.
  replace (y1 + 1 + 1) with (y1 + 2) in * by lia. replace (y1 + 1 + 2) with (y1 + 3) in * by lia.
  destruct (am (y1 + 1)) eqn:E1; [|destruct (am (y1 + 2)) eqn:E2].
  - exists (y1 + 1). repeat split; try assumption; try lia.
  - exists (y1 + 2). repeat split; try assumption; try lia.
    intros z Hz. replace z with (y1 + 1) by lia. assumption.
  - exists (y1 + 3). destruct H3 as [?|[?|?]]; try discriminate. repeat split; try assumption; try lia.
    intros z Hz. destruct (Z.eq_dec z (y1 + 1)) as [->|]; [assumption|].
    replace z with (y1 + 2) by lia. assumption.
Qed.

(** The search loop finds the latest earlier year, if there is one within the limit. *)
Lemma delta_loop_spec test limit y0 : forall fuel k d,
  0 < k <= d -> d <= limit + 1 -> (Z.to_nat (d - k) < fuel)%nat ->
  test (su_init (y0 - d)) = true ->
  (forall z, y0 - d < z <= y0 - k -> test (su_init z) = false) ->
  delta_loop test limit y0 fuel (y0 - k) = Some d.
Proof.
  induction fuel as [|fuel IH]; intros k d Hk Hd Hf Ht Hno; [lia|].
  cbn [delta_loop]. rewrite sy_Year_init.
  destruct (Z.eq_dec k d) as [->|Hne].
  - rewrite Ht. f_equal. lia.
  - rewrite Hno by lia. destruct (Z.ltb_spec limit (y0 - (y0 - k))); [lia|].
    replace (y0 - k - 1) with (y0 - (k + 1)) by lia. apply IH; try assumption; try lia.
    intros z Hz. apply Hno. lia.
Qed.

Lemma delta_am y : 641 <= y -> exists d, 1 <= d <= 3 /\
  delta_adhikamasa (su_init y) = Some d /\ latest_before am y (y - d).
Proof.
  intros Hy.
  assert (Hex : exists d, 1 <= d <= 3 /\ am (y - d) = true /\ forall z, y - d < z <= y - 1 -> am z = false).
  { pose proof (am_three (y - 3) ltac:(lia)) as H3.
    replace (y - 3 + 1) with (y - 2) in * by lia. replace (y - 3 + 2) with (y - 1) in * by lia.
    destruct (am (y - 1)) eqn:E1; [|destruct (am (y - 2)) eqn:E2].
    - exists 1. repeat split; try assumption; lia.
    - exists 2. repeat split; try assumption; try lia. intros z Hz. replace z with (y - 1) by lia. assumption.
    - exists 3. destruct H3 as [?|[?|?]]; try discriminate. repeat split; try assumption; try lia.
      intros z Hz. destruct (Z.eq_dec z (y - 1)) as [->|]; [assumption|]. replace z with (y - 2) by lia. assumption. }
  destruct Hex as (d & Hd & Ht & Hno). exists d. split; [assumption|]. split.
  - unfold delta_adhikamasa. rewrite sy_Year_init. apply delta_loop_spec; try lia; assumption.
  - repeat split; try assumption; try lia. intros z Hz. apply Hno. lia.
Qed.

Lemma am_count a n : 638 <= a ->
  count_years am a n =
  (M (a + Z.of_nat n) - one_if (T (a + Z.of_nat n) <=? 5)) - (M a - one_if (T a <=? 5)) - 12 * Z.of_nat n.
Proof.
  intros Ha. induction n as [|n IH].
  - cbn [count_years]. change (Z.of_nat 0) with 0. rewrite !Z.add_0_r. lia.
  - rewrite count_years_snoc, IH. pose proof (M_am_step (a + Z.of_nat n) ltac:(lia)) as E.
    replace (a + Z.of_nat (S n)) with (a + Z.of_nat n + 1) by lia. unfold b2z, one_if in *. lia.
Qed.

Lemma am_count_19 a : 638 <= a -> 6 <= count_years am a 19 <= 8.
Proof.
  intros Ha. rewrite am_count by assumption. change (Z.of_nat 19) with 19.
  pose proof (HK_spec a Ha). pose proof (HK_spec (a + 19) ltac:(lia)).
  pose proof (NA_spec a Ha). pose proof (NA_spec (a + 19) ltac:(lia)).
  unfold one_if. destruct (Z.leb_spec (T (a + 19)) 5), (Z.leb_spec (T a) 5); lia.
Qed.

(** ** Adhikavara *)

Lemma av_cases y : 639 <= y ->
  av y = true <-> (am y = false /\ wv y = true) \/ (am (y - 1) = true /\ wv (y - 1) = true).
Proof.
  intros Hy. rewrite av_eq, ca_eq.
  pose proof (am_not_adjacent (y - 1) ltac:(lia)) as Hn. replace (y - 1 + 1) with y in Hn by lia.
  destruct (am y), (am (y - 1)), (wv y), (wv (y - 1)); cbn [andb orb negb];
    intuition congruence.
Qed.

(** A year counted once although two would-be years point at it. *)
Definition lost (y : Z) : bool := ca y && wv y.

Lemma lost_edge y : 639 <= y -> lost y = am (y - 1) && edge (y - 1).
Proof.
  intros Hy. unfold lost. rewrite ca_eq.
  pose proof (wv_adjacent (y - 1) ltac:(lia)) as Hw. replace (y - 1 + 1) with y in Hw by lia.
  rewrite <- Hw. destruct (am (y - 1)), (wv (y - 1)), (wv y); reflexivity.
Qed.

Lemma av_step y : 639 <= y ->
  one_if (av y) + one_if (ca (y + 1)) + one_if (lost y) = one_if (ca y) + one_if (wv y).
Proof.
  intros Hy. unfold lost. rewrite av_eq, !ca_eq.
  pose proof (am_not_adjacent (y - 1) ltac:(lia)) as Hn. replace (y - 1 + 1) with y in Hn by lia.
  replace (y + 1 - 1) with y by lia.
  destruct (am y), (am (y - 1)), (wv y), (wv (y - 1)); cbn; try reflexivity;
    specialize (Hn eq_refl); discriminate.
Qed.

Lemma av_count a n : 639 <= a ->
  count_years av a n + one_if (ca (a + Z.of_nat n)) + count_years lost a n =
  one_if (ca a) + count_years wv a n.
Proof.
  intros Ha. induction n as [|n IH].
  - cbn [count_years]. change (Z.of_nat 0) with 0. rewrite !Z.add_0_r. lia.
  - rewrite !count_years_snoc. pose proof (av_step (a + Z.of_nat n) ltac:(lia)).
    replace (a + Z.of_nat (S n)) with (a + Z.of_nat n + 1) by lia. lia.
Qed.

Lemma wv_count a n : 638 <= a ->
  count_years wv a n = count_years gain5 a n + count_years edge a n.
Proof.
  intros Ha. induction n as [|n IH]; [reflexivity|].
  rewrite !count_years_snoc, IH. destruct (wv_gain (a + Z.of_nat n) ltac:(lia)) as [E1 E2].
  rewrite E1. destruct (gain5 _), (edge _); cbn in *; try discriminate; lia.
Qed.

(** Every six consecutive years contain a would-be adhikavara. *)
Lemma wv_six y : 638 <= y -> exists k, 0 <= k <= 5 /\ wv (y + k) = true.
Proof.
  intros Hy.
  assert (Hs : forall z, 638 <= z -> wv z = false -> Av (z + 1) <= Av z - 126).
  { intros z Hz Hw. destruct (NA_gain z Hz) as [_ HA]. destruct (wv_gain z Hz) as [Hwg _].
    rewrite Hw in Hwg. pose proof (lp_spec z).
    destruct (gain5 z); [discriminate|]. cbn [b2z] in HA. lia. }
  assert (Hw : forall k, wv (y + k) = false \/ wv (y + k) = true) by (intros; destruct (wv _); auto).
  destruct (Hw 0) as [W0|?]; [|exists 0; intuition lia]. destruct (Hw 1) as [W1|?]; [|exists 1; intuition lia].
  destruct (Hw 2) as [W2|?]; [|exists 2; intuition lia]. destruct (Hw 3) as [W3|?]; [|exists 3; intuition lia].
  destruct (Hw 4) as [W4|?]; [|exists 4; intuition lia]. destruct (Hw 5) as [W5|?]; [|exists 5; intuition lia].
  exfalso.
  pose proof (Hs (y + 0) ltac:(lia) W0). pose proof (Hs (y + 1) ltac:(lia) W1).
  pose proof (Hs (y + 2) ltac:(lia) W2). pose proof (Hs (y + 3) ltac:(lia) W3).
  pose proof (Hs (y + 4) ltac:(lia) W4). pose proof (Hs (y + 5) ltac:(lia) W5).
  pose proof (NA_spec (y + 0) ltac:(lia)) as (_ & _ & ? & _).
  pose proof (NA_spec (y + 5 + 1) ltac:(lia)) as (_ & _ & ? & _).
  replace (y + 0 + 1) with (y + 1) in * by lia. replace (y + 1 + 1) with (y + 2) in * by lia.
  replace (y + 2 + 1) with (y + 3) in * by lia. replace (y + 3 + 1) with (y + 4) in * by lia.
  replace (y + 4 + 1) with (y + 5) in * by lia. lia.
Qed.

Lemma av_seven y : 638 <= y -> exists k, 0 <= k <= 6 /\ av (y + k) = true.
Proof.
  intros Hy. destruct (wv_six y Hy) as (k & Hk & Hw).
  destruct (am (y + k)) eqn:Ea.
  - exists (k + 1). split; [lia|]. rewrite (av_cases (y + (k + 1))) by lia. right.
    replace (y + (k + 1) - 1) with (y + k) by lia. auto.
  - exists k. split; [lia|]. rewrite av_eq, Ea, Hw. cbn. apply orb_true_r.
Qed.

(** Least [d] in a range with a property. *)
Lemma least_from (p : Z -> bool) n : forall k, (exists j, k <= j < k + Z.of_nat n /\ p j = true) ->
  exists d, k <= d < k + Z.of_nat n /\ p d = true /\ forall j, k <= j < d -> p j = false.
Proof.
  induction n as [|n IH]; intros k (j & Hj & Hp); [lia|].
  destruct (p k) eqn:E.
  - exists k. repeat split; try assumption; try lia.
  - destruct (IH (k + 1)) as (d & Hd & Hpd & Hno).
    + exists j. split; [|assumption]. destruct (Z.eq_dec j k) as [->|]; [congruence|lia].
    + exists d. repeat split; try assumption; try lia. intros i Hi.
      destruct (Z.eq_dec i k) as [->|]; [assumption|]. apply Hno. lia.
Qed.

Lemma delta_av_gen cfg y d : 1 <= d <= 13 ->
  latest_before (fun z => is_adhikavara cfg (su_init z)) y (y - d) ->
  delta_adhikavara cfg (su_init y) = Some d.
Proof.
  intros Hd (Hlt & Ht & Hno). unfold delta_adhikavara. rewrite sy_Year_init.
  apply delta_loop_spec; try lia; [assumption|]. intros z Hz. apply Hno. lia.
Qed.

Lemma av_latest y : 645 <= y -> exists d, 1 <= d <= 7 /\ latest_before av y (y - d).
Proof.
  intros Hy. destruct (least_from (fun j => av (y - j)) 7 1) as (d & Hd & Hp & Hno).
  - destruct (av_seven (y - 7) ltac:(lia)) as (k & Hk & Ha).
    exists (7 - k). split; [lia|]. replace (y - (7 - k)) with (y - 7 + k) by lia. assumption.
  - exists d. split; [lia|]. repeat split; try assumption; try lia.
    intros z Hz. specialize (Hno (y - z) ltac:(lia)). cbn beta in Hno.
    replace (y - (y - z)) with z in Hno by lia. assumption.
Qed.

Lemma adhikavara_default_off cfg y : UseExceptions cfg = false -> is_adhikavara cfg (su_init y) = av y.
Proof. unfold is_adhikavara. intros ->. reflexivity. Qed.

(** Would-be years are one (only at an edge) or at least five years apart. *)
Lemma wv_gap y k : 638 <= y -> wv y = true -> edge y = false -> 1 <= k <= 4 -> wv (y + k) = false.
Proof.
  intros Hy Hw He Hk.
  destruct (wv_gain y Hy) as [Hg _]. rewrite Hw, He, orb_false_r in Hg.
  destruct (NA_gain y Hy) as [_ HA]. rewrite <- Hg in HA. cbn [b2z] in HA.
  pose proof (NA_spec y Hy) as (_ & _ & HA0 & _). pose proof (lp_spec y).
  assert (Hs : forall z, 638 <= z -> 137 <= Av z -> wv z = false /\ Av z - 137 <= Av (z + 1)).
  { intros z Hz Hge. pose proof (wav_spec z) as Hwz. fold (wv z) in Hwz. pose proof (lp_spec z).
    assert (Hf : wv z = false) by (destruct (wv z); [lia|reflexivity]).
    split; [assumption|].
    destruct (NA_gain z Hz) as [_ HAz]. destruct (wv_gain z Hz) as [Hwg _].
    rewrite Hf in Hwg. destruct (gain5 z); [discriminate|]. cbn [b2z] in HAz. lia. }
  destruct (Hs (y + 1) ltac:(lia) ltac:(lia)) as [W1 A1].
  destruct (Hs (y + 1 + 1) ltac:(lia) ltac:(lia)) as [W2 A2].
  destruct (Hs (y + 1 + 1 + 1) ltac:(lia) ltac:(lia)) as [W3 A3].
  destruct (Hs (y + 1 + 1 + 1 + 1) ltac:(lia) ltac:(lia)) as [W4 A4].
  assert (k = 1 \/ k = 2 \/ k = 3 \/ k = 4) as [->|[->|[->| ->]]] by lia;
    [exact W1 | replace (y + 2) with (y + 1 + 1) by lia; exact W2
    | replace (y + 3) with (y + 1 + 1 + 1) by lia; exact W3
    | replace (y + 4) with (y + 1 + 1 + 1 + 1) by lia; exact W4].
Qed.
