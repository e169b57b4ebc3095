(** The int64/float64 transcriptions equal the unbounded-integer model (C06, C19). *)
From Coq Require Import ZArith Reals Lia Lra Bool ZifyBool.
From Flocq Require Import Core BinarySingleNaN.
From Verif Require Import GoInt GoFloat GoTime SuriyaYear SuriyaDay Machine P_Time P_Year P_Float.
Open Scope Z_scope.
Ltac Zify.zify_post_hook ::= Z.to_euclidean_division_equations.

Ltac unwrap :=
  repeat match goal with
  | |- context [iadd ?a ?b] => rewrite (wrap64_id (a + b) : in_int64 (a + b) -> iadd a b = a + b) by (unfold in_int64, two63; lia)
  | |- context [isub ?a ?b] => rewrite (wrap64_id (a - b) : in_int64 (a - b) -> isub a b = a - b) by (unfold in_int64, two63; lia)
  | |- context [imul ?a ?b] => rewrite (wrap64_id (a * b) : in_int64 (a * b) -> imul a b = a * b) by (unfold in_int64, two63; lia)
  | |- context [idiv ?a ?b] => rewrite (wrap64_id (Z.quot a b) : in_int64 (Z.quot a b) -> idiv a b = Z.quot a b) by (unfold in_int64, two63; lia)
  | |- context [imod ?a ?b] => rewrite (wrap64_id (Z.rem a b) : in_int64 (Z.rem a b) -> imod a b = Z.rem a b) by (unfold in_int64, two63; lia)
  end.

Lemma su_init_machine y : Z.abs y <= 10 ^ 12 -> su_init_m y = su_init y.
Proof.
  intros Hy. unfold su_init_m, su_init. cbv zeta. unfold_consts.
  assert (E1 : int_of_f (ffloor (f_of_int (iadd (idiv (iadd (imul (isub y 638) 292207) 373) 800) 1)))
     = ((y - 638) * 292207 + 373) ÷ 800 + 1) by (unwrap; apply floor_int; lia).
  rewrite E1. set (h := ((y - 638) * 292207 + 373) ÷ 800 + 1) in *.
  assert (Hh : Z.abs h <= 365258752000000) by lia.
  assert (E2 : int_of_f (ffloor (fdiv (f_of_int (iadd (imul h 11) 650)) (f_of_int 692))) = (h * 11 + 650) / 692).
  { unwrap. apply floor_div_int; lia. }
  rewrite E2. set (b := (h * 11 + 650) / 692) in *.
  assert (Hb : Z.abs b <= 5900000000000) by lia.
  assert (E3 : int_of_f (ffloor (f_of_int (idiv (iadd (iadd b 0) h) 30))) = (b + 0 + h) ÷ 30).
  { unwrap. apply floor_int. lia. }
  rewrite E3. clearbody b. unwrap. f_equal.
Qed.

Lemma sd_ints_machine y d : Z.abs y <= 10 ^ 12 -> Z.abs d <= 10 ^ 12 -> sd_ints_m y d = sd_ints y d.
Proof.
  intros Hy Hd. unfold sd_ints_m, sd_ints. cbv zeta. rewrite (su_init_machine y Hy).
  set (t := sy_Tithi (su_init y)). set (hy := sy_Horakhun (su_init y)).
  assert (Ht : Z.abs t <= 30).
  { unfold t, su_init. cbn [sy_Tithi]. unfold_consts. lia. }
  assert (Hh : Z.abs hy <= 365258752000000).
  { unfold hy, su_init. cbn [sy_Horakhun]. unfold_consts. lia. }
  clearbody t hy. unfold_consts.
  assert (E1 : iadd hy (isub d t) = hy + (d - t)) by (unwrap; reflexivity).
  assert (E1' : isub d t = d - t) by (unwrap; reflexivity).
  rewrite E1, E1'. set (h := hy + (d - t)) in *.
  assert (Hh2 : Z.abs h <= 366258752000100) by lia.
  assert (E2 : int_of_f (ffloor (fdiv (f_of_int (iadd (imul h 11) 650)) (f_of_int 692))) = (h * 11 + 650) / 692).
  { unwrap. apply floor_div_int; lia. }
  rewrite E2. set (b := (h * 11 + 650) / 692) in *.
  assert (Hb : Z.abs b <= 5900000000000) by lia.
  assert (E3 : int_of_f (ffloor (f_of_int (idiv (iadd (iadd b 0) h) 30))) = (b + 0 + h) ÷ 30).
  { unwrap. apply floor_int. lia. }
  rewrite E3. clearbody b. clearbody h. unwrap. reflexivity.
Qed.

Lemma abs_int n : Z.abs n <= 2 ^ 53 -> int_of_f (fabs (f_of_int n)) = Z.abs n.
Proof.
  intros Hn. apply int_of_f_fin.
  - rewrite abs_IZR. apply fabs_fin, f_of_int_fin. exact Hn.
  - unfold in_int64, two63. lia.
Qed.

Lemma cycle_pos_machine su : Z.abs (sy_Year su) <= 10 ^ 12 ->
  adhikavara_cycle_pos_m su = adhikavara_cycle_pos su /\
  adhikamasa_cycle_pos_m su = adhikamasa_cycle_pos su.
Proof.
  intros Hy. unfold adhikavara_cycle_pos_m, adhikamasa_cycle_pos_m, adhikavara_cycle_pos, adhikamasa_cycle_pos.
  set (y := sy_Year su) in *. clearbody y.
  assert (E1 : int_of_f (fabs (f_of_int (isub (1984 - 57 * 10) y))) = Z.abs (1984 - 57 * 10 - y)).
  { unwrap. apply abs_int. lia. }
  assert (E2 : int_of_f (fabs (f_of_int (isub (1984 - 19 * 10) y))) = Z.abs (1984 - 19 * 10 - y)).
  { unwrap. apply abs_int. lia. }
  rewrite E1, E2. unwrap. split; reflexivity.
Qed.

(** ** HorakhunToDate *)

Lemma fgt_abs n m : Z.abs n <= 2 ^ 53 -> 0 <= m <= 2 ^ 53 ->
  fgt (fabs (f_of_int n)) (f_of_int m) = (m <? Z.abs n).
Proof.
  intros Hn Hm. rewrite (fgt_fin _ _ (Rabs (IZR n)) (IZR m)).
  - rewrite <- abs_IZR. destruct (Z.ltb_spec m (Z.abs n)) as [Hl|Hl].
    + apply Rlt_bool_true. apply IZR_lt. exact Hl.
    + apply Rlt_bool_false. apply IZR_le. exact Hl.
  - apply fabs_fin, f_of_int_fin. exact Hn.
  - apply f_of_int_fin. lia.
Qed.

Lemma hours24_id n : Z.abs n <= 106751 -> hours24 n = n * day_ns.
Proof.
  intros Hn. unfold hours24, hour_ns, day_ns. unwrap. lia.
Qed.

Lemma step_days_val : step_days = 103240.
Proof. reflexivity. Qed.

Lemma horakhun_loop_spec fuel : forall direction delta date,
  (direction = 1 /\ 0 <= delta \/ direction = -1 /\ delta <= 0) -> Z.abs delta <= 2 ^ 53 ->
  Z.abs delta / step_days < Z.of_nat fuel ->
  exists delta' date', horakhun_loop fuel direction delta date = Some (delta', date') /\
    Z.abs delta' <= step_days /\ time_add date' (delta' * day_ns) = time_add date (delta * day_ns).
Proof.
  rewrite step_days_val.
  induction fuel as [|fuel IH]; intros direction delta date Hd Hb Hf; [lia|].
  cbn [horakhun_loop]. rewrite fgt_abs by (rewrite ?step_days_val; lia).
  destruct (Z.ltb_spec step_days (Z.abs delta)) as [Hl|Hl]; rewrite step_days_val in Hl.
  - rewrite step_days_val.
    assert (E1 : iadd delta (imul (imul direction (-1)) 103240) = delta - direction * 103240)
      by (destruct Hd as [[-> ?]|[-> ?]]; unwrap; lia).
    assert (E2 : hours24 (imul direction 103240) = direction * 103240 * day_ns).
    { replace (imul direction 103240) with (direction * 103240) by (destruct Hd as [[-> ?]|[-> ?]]; unwrap; lia).
      apply hours24_id. lia. }
    rewrite E1, E2.
    destruct (IH direction (delta - direction * 103240) (time_add date (direction * 103240 * day_ns)))
      as (delta' & date' & E & Hs & Ht); [lia|lia|lia|].
    exists delta', date'. split; [exact E|]. split; [exact Hs|]. rewrite Ht.
    apply time_eq; cbn [time_add t_ns t_off]; [ring|reflexivity].
  - exists delta, date. split; [reflexivity|]. split; [lia|reflexivity].
Qed.

(** day number of the Horakhun day, 23:59:59 of it *)
Lemma horakhun_to_date_spec h : Z.abs h <= 10 ^ 15 ->
  horakhun_to_date h =
  Some (mkTime ((day_number 1963 7 5 + (h - 484049)) * day_ns + 86399 * second_ns) 0).
Proof.
  intros Hh. unfold horakhun_to_date. cbv zeta.
  assert (E : isub h horakhun_ref = h - 484049) by (unfold horakhun_ref; unwrap; reflexivity).
  rewrite E. set (date := time_add (time_date 1963 7 5 0 0) _).
  destruct (horakhun_loop_spec (Z.to_nat (Z.abs (h - 484049) / step_days + 1))
              (if h - 484049 <? 0 then -1 else 1) (h - 484049) date) as (delta' & date' & El & Hs & Ht).
  - destruct (Z.ltb_spec (h - 484049) 0); lia.
  - lia.
  - rewrite step_days_val. lia.
  - rewrite El. rewrite hours24_id by (rewrite step_days_val in Hs; lia). rewrite Ht. f_equal.
    apply time_eq; cbn [time_add t_ns t_off date time_date]; [|reflexivity].
    unfold hour_ns, day_ns, second_ns. ring.
Qed.
