(** Remaining lemmas about year types: exceptions, cycle positions (C09, C12, C13, C14). *)
From Coq Require Import ZArith Lia Bool ZifyBool.
From Verif Require Import GoTime SuriyaYear Helpers Spec P_Time P_Year P_Counts P_Kattika.
Open Scope Z_scope.
Ltac Zify.zify_post_hook ::= Z.to_euclidean_division_equations.

Definition avc (cfg : config) (y : Z) : bool := is_adhikavara cfg (su_init y).

Definition latest_b (p : Z -> bool) (y d : Z) : bool :=
  (0 <? d) && p (y - d) && all_years (fun z => negb (p z)) (y - d + 1) (Z.to_nat (d - 1)).
Lemma latest_b_spec p y d : latest_b p y d = true -> latest_before p y (y - d).
Proof.
  unfold latest_b. intros Hb. apply andb_true_iff in Hb. destruct Hb as [Hb Ha].
  apply andb_true_iff in Hb. destruct Hb as [Hd Hp].
  repeat split; [lia|exact Hp|]. intros z Hz.
  pose proof (all_years_spec _ _ _ Ha z ltac:(lia)) as Hn. cbn beta in Hn. destruct (p z); [discriminate|reflexivity].
Qed.

Definition exc_p (y : Z) : bool := if y =? 1994 then false else if y =? 1997 then true else av y.
Definition exc_d (y : Z) : Z :=
  if y <=? 1997 then y - 1989 else if y <=? 2000 then y - 1997 else y - 2000.
Lemma exc_check : all_years (fun y => latest_b exc_p y (exc_d y)) 1995 10 = true.
Proof. vm_cast_no_check (eq_refl true). Qed.

Lemma latest_before_ext p q y x : (forall z, x <= z < y -> p z = q z) -> latest_before p y x -> latest_before q y x.
Proof.
  intros Hpq (Hl & Hp & Hn). repeat split; [exact Hl| |].
  - rewrite <- Hpq by lia. exact Hp.
  - intros z Hz. rewrite <- Hpq by lia. apply Hn. exact Hz.
Qed.

Lemma av_latest_shipped cfg y : shipped cfg -> 645 <= y ->
  exists d, 1 <= d <= 8 /\ (UseExceptions cfg = false -> d <= 7) /\ latest_before (avc cfg) y (y - d).
Proof.
  intros Hs Hy. destruct (UseExceptions cfg) eqn:Hu.
  - destruct Hs as [Hs|Hs]; [congruence|].
    assert (Ext : forall z, exc_p z = avc cfg z) by
      (intros z; unfold avc; rewrite (is_av_exceptions cfg z Hu Hs); reflexivity).
    destruct (Z_le_gt_dec 1995 y) as [H1|H1]; [destruct (Z_le_gt_dec y 2004) as [H2|H2]|].
    + exists (exc_d y). pose proof (all_years_spec _ _ _ exc_check y ltac:(lia)) as Hc. cbn beta in Hc.
      split; [unfold exc_d; destruct (Z.leb_spec y 1997), (Z.leb_spec y 2000); lia|]. split; [discriminate|].
      apply (latest_before_ext exc_p); [intros; apply Ext|]. apply latest_b_spec. exact Hc.
    + destruct (av_latest y Hy) as (d & Hd & Hlb). exists d. split; [lia|]. split; [discriminate|].
      apply (latest_before_ext av); [|exact Hlb]. intros z Hz. rewrite <- Ext. unfold exc_p.
      destruct (Z.eqb_spec z 1994), (Z.eqb_spec z 1997); try lia. reflexivity.
    + destruct (av_latest y Hy) as (d & Hd & Hlb). exists d. split; [lia|]. split; [discriminate|].
      apply (latest_before_ext av); [|exact Hlb]. intros z Hz. rewrite <- Ext. unfold exc_p.
      destruct (Z.eqb_spec z 1994), (Z.eqb_spec z 1997); try lia. reflexivity.
  - destruct (av_latest y Hy) as (d & Hd & Hlb). exists d. split; [lia|]. split; [lia|].
    apply (latest_before_ext av); [|exact Hlb]. intros z Hz. unfold avc. symmetry.
    apply adhikavara_default_off. exact Hu.
Qed.

Lemma am_av_exclusive cfg y : shipped cfg -> am y && avc cfg y = false.
Proof.
  intros Hs. unfold avc. destruct (UseExceptions cfg) eqn:Hu.
  - destruct Hs as [Hs|Hs]; [congruence|]. rewrite (is_av_exceptions cfg y Hu Hs).
    pose proof years_1994_1997 as (Y1 & Y2 & Y3 & Y4).
    destruct (Z.eqb_spec y 1994) as [->|]; [apply andb_false_r|].
    destruct (Z.eqb_spec y 1997) as [->|]; [rewrite Y3; reflexivity|].
    rewrite av_eq. destruct (am y); reflexivity.
  - rewrite (adhikavara_default_off cfg y Hu), av_eq. destruct (am y); reflexivity.
Qed.

Lemma cycle_pos_57 y : 1 <= adhikavara_cycle_pos (su_init y) <= 57 /\
  (1414 <= y -> (adhikavara_cycle_pos (su_init y) - 1 - (y - 1984)) mod 57 = 0) /\
  (y <= 1414 -> (adhikavara_cycle_pos (su_init y) - 1 + (y - 1984)) mod 57 = 0).
Proof. unfold adhikavara_cycle_pos. rewrite sy_Year_init. lia. Qed.

Lemma cycle_pos_19 y : 1 <= adhikamasa_cycle_pos (su_init y) <= 19 /\
  (1794 <= y -> (adhikamasa_cycle_pos (su_init y) - 1 - (y - 1984)) mod 19 = 0) /\
  (y <= 1794 -> (adhikamasa_cycle_pos (su_init y) - 1 + (y - 1984)) mod 19 = 0).
Proof. unfold adhikamasa_cycle_pos. rewrite sy_Year_init. lia. Qed.

(** Consecutive adhikavara years. *)
Lemma av_gap y1 y2 : 640 <= y1 -> av y1 = true -> next_after av y1 y2 ->
  y2 - y1 <= 7 /\ y2 - y1 <> 3 /\
  (y2 - y1 <= 2 -> edge y1 = true \/ edge (y1 - 1) = true).
Proof.
  intros Hy Ha (Hlt & Ha2 & Hno).
  assert (H7 : y2 - y1 <= 7).
  { destruct (av_seven (y1 + 1) ltac:(lia)) as (k & Hk & Hav).
    destruct (Z_le_gt_dec (y2 - y1) 7); [assumption|]. rewrite Hno in Hav by lia. discriminate. }
  assert (Hw1 : exists a, y1 - 1 <= a <= y1 /\ wv a = true).
  { apply av_cases in Ha; [|lia]. destruct Ha as [[_ Hw]|[_ Hw]]; [exists y1|exists (y1 - 1)]; split; try lia; exact Hw. }
  assert (Hw2 : exists b, y2 - 1 <= b <= y2 /\ wv b = true /\ (b = y2 - 1 -> am b = true)).
  { apply av_cases in Ha2; [|lia]. destruct Ha2 as [[_ Hw]|[Hx Hw]]; [exists y2|exists (y2 - 1)]; repeat split; try lia; try exact Hw.
    intros _. exact Hx. }
  destruct Hw1 as (a & Ha' & Hwa). destruct Hw2 as (b & Hb' & Hwb & Hbm).
  assert (Hcase : y2 - y1 <= 3 -> edge a = true).
  { intros H3. destruct (edge a) eqn:He; [reflexivity|].
    assert (Hab : a < b).
    { destruct (Z_lt_le_dec a b) as [?|Hge]; [assumption|]. exfalso.
      assert (a = y1 /\ b = y1 /\ y2 = y1 + 1) as (-> & -> & ->) by lia.
      specialize (Hbm ltac:(lia)). rewrite av_eq, Hbm in Ha. discriminate. }
    pose proof (wv_gap a (b - a) ltac:(lia) Hwa He ltac:(lia)) as Hf.
    replace (a + (b - a)) with b in Hf by lia. congruence. }
  split; [exact H7|]. split.
  - intros H3. specialize (Hcase ltac:(lia)).
    (* edge a: wv (a+1); b >= a + 2 must be >= a + 6 *)
    pose proof (wv_adjacent a ltac:(lia)) as Hadj. rewrite Hcase in Hadj.
    apply andb_true_iff in Hadj. destruct Hadj as [_ Hw1].
    assert (He1 : edge (a + 1) = false).
    { pose proof (NA_gain a ltac:(lia)) as [_ HA].
      pose proof (wv_gain a ltac:(lia)) as [_ Hx].
      assert (He : lp a = 1 /\ Av a = 126) by (unfold edge in Hcase; lia).
      rewrite Hcase, andb_true_r in Hx. rewrite Hx in HA. cbn [b2z] in HA.
      unfold edge. destruct He as [Hl1 Hl2]. rewrite Hl1, Hl2 in HA.
      replace (Av (a + 1) =? 126) with false by lia. apply andb_false_r. }
    assert (Hb2 : a + 2 <= b) by lia.
    pose proof (wv_gap (a + 1) (b - (a + 1)) ltac:(lia) Hw1 He1 ltac:(lia)) as Hf.
    replace (a + 1 + (b - (a + 1))) with b in Hf by lia. congruence.
  - intros H2. specialize (Hcase ltac:(lia)).
    destruct (Z.eq_dec a y1) as [->|]; [left; exact Hcase|right].
    replace (y1 - 1) with a by lia. exact Hcase.
Qed.
