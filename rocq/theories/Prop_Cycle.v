(** Theorem C69: how far the cycle positions tell the type of a year. *)
From Coq Require Import ZArith Znumtheory Lia Bool List.
From Verif Require Import GoTime SuriyaYear Spec P_Year P_Counts P_Kattika P_Period Prop_Year Prop_Period.
Import ListNotations.
Open Scope Z_scope.

(** * C69 The 332-3332 pattern of the 19 year cycle and the pattern of the 57 year cycle hold for the years around 1984-2040 *)
Definition one_of (l : list Z) (x : Z) : bool := existsb (Z.eqb x) l.
(** Distances 3 3 2 3 3 3 2. *)
Definition months_pattern : list Z := [2; 5; 8; 10; 13; 16; 19].
Definition days_pattern : list Z := [1; 6; 11; 17; 22; 26; 33; 37; 42; 47; 52].
Lemma months_check : all_years (fun y => Bool.eqb (am y) (one_of months_pattern (adhikamasa_cycle_pos (su_init y)))) 1976 177 = true.
Proof. vm_cast_no_check (eq_refl true). Qed.
Lemma days_check : all_years (fun y => Bool.eqb (av y) (one_of days_pattern (adhikavara_cycle_pos (su_init y)))) 1955 116 = true.
Proof. vm_cast_no_check (eq_refl true). Qed.
Theorem C69_months : forall y, 1976 <= y <= 2152 ->
  is_adhikamasa (su_init y) = one_of months_pattern (adhikamasa_cycle_pos (su_init y)).
Proof. intros y H. apply eqb_prop. exact (all_years_spec _ _ _ months_check y ltac:(lia)). Qed.
Theorem C69_days : forall cfg y, UseExceptions cfg = false -> 1955 <= y <= 2070 ->
  is_adhikavara cfg (su_init y) = one_of days_pattern (adhikavara_cycle_pos (su_init y)).
Proof.
  intros cfg y O H. rewrite (adhikavara_default_off cfg y O). apply eqb_prop. exact (all_years_spec _ _ _ days_check y ltac:(lia)).
Qed.
Theorem C69_ranges_are_sharp_refuted :
  map (fun y => (is_adhikamasa (su_init y), one_of months_pattern (adhikamasa_cycle_pos (su_init y)))) [1975; 2153] = [(true, false); (true, false)] /\
  map (fun y => (is_adhikavara cfg_default (su_init y), one_of days_pattern (adhikavara_cycle_pos (su_init y)))) [1954; 2071] = [(true, false); (true, false)].
Proof. vm_compute. split; reflexivity. Qed.

Lemma agree_or_not (p q : Z -> bool) n : forall a, (forall y, a <= y < a + Z.of_nat n -> p y = q y) \/ (exists y, a <= y < a + Z.of_nat n /\ p y <> q y).
Proof.
  induction n as [|n IH]; intros a; [left; lia|]. destruct (bool_dec (p a) (q a)) as [E|E]; [|right; exists a; split; [lia|exact E]].
  destruct (IH (a + 1)) as [H|(y & H & N)]; [left|right; exists y; split; [lia|exact N]].
  intros y Y. destruct (Z.eq_dec y a) as [->|]; [exact E|]. apply H. lia.
Qed.
(** No set of positions, this one or another, is right from some year on. *)
Theorem C69_no_pattern : forall (p : Z -> bool) y0, exists y, y0 <= y /\
  is_adhikamasa (su_init y) <> p (adhikamasa_cycle_pos (su_init y)).
Proof.
  intros p y0. set (a := Z.max y0 1794).
  destruct (agree_or_not (fun y => is_adhikamasa (su_init y)) (fun y => p (adhikamasa_cycle_pos (su_init y))) (Z.to_nat (16608000 + 19)) a)
    as [H|(y & Y & N)]; [|exists y; split; [lia|exact N]].
  rewrite Z2Nat.id in H by lia. exfalso.
  assert (P : forall y, a <= y < a + 16608000 -> am (y + 19) = am y).
  { intros y Y. unfold am. rewrite (H y), (H (y + 19)) by lia. f_equal.
    pose proof (C13_cycle_positions y) as (_ & _ & _ & A). pose proof (C13_cycle_positions (y + 19)) as (_ & _ & _ & B).
    replace (y + 19 - 1984) with (y - 1984 + 1 * 19) in B by lia. rewrite Z.mod_add in B by lia. lia. }
  assert (Q : forall n y, a <= y < a + 16608000 + Z.of_nat n * 16608000 -> am (y + 19) = am y).
  { induction n as [|n IH]; intros y Y; [apply P; lia|].
    destruct (Z_lt_le_dec y (a + 16608000)); [apply P; lia|].
    replace y with (y - 16608000 + 16608000) by lia. rewrite am_period by lia.
    replace (y - 16608000 + 16608000 + 19) with (y - 16608000 + 19 + 16608000) by lia. rewrite am_period by lia. apply IH. lia. }
  assert (D : (16608000 | 19)).
  { apply (C68_no_shorter a); [lia|lia|]. intros y Y. apply (Q (Z.to_nat (y - a))). lia. }
  apply Z.divide_pos_le in D; lia.
Qed.
(** The comment of utils/years-csv.go on 1984 and 1985 says "diff 6" and "diff 3"; the second is 2, 3 is the distance to the next. The exceptions in use break the pattern in 1994 and 1997. *)
Example C69_example :
  is_adhikavara cfg_default (su_init 1984) = true /\ delta_adhikavara cfg_default (su_init 1984) = Some 6 /\
  is_adhikamasa (su_init 1985) = true /\ delta_adhikamasa (su_init 1985) = Some 2 /\
  filter (fun y => xorb (is_adhikavara cfg_exceptions (su_init y)) (one_of days_pattern (adhikavara_cycle_pos (su_init y))))
    [1990; 1991; 1992; 1993; 1994; 1995; 1996; 1997; 1998; 1999] = [1994; 1997].
Proof. vm_compute. repeat split. Qed.
