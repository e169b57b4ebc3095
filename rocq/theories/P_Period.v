(** The state (Kammacubala, Avoman, Tithi) of a year runs through all its values: lemmas for C68. *)
From Coq Require Import ZArith Znumtheory Lia Bool List Permutation ZifyBool.
From Verif Require Import GoTime SuriyaYear Spec P_Year P_Counts P_Kattika.
Import ListNotations.
Open Scope Z_scope.

Definition period : Z := 800 * 20760.
Definition state (y : Z) : Z * (Z * Z) := (K y, (Av y, T y)).

Lemma state_eq y z : 638 <= y -> 638 <= z -> (state y = state z <-> exists j, z - y = period * j).
Proof.
  intros Hy Hz. pose proof (HK_spec y Hy) as (EY & KY & _). pose proof (HK_spec z Hz) as (EZ & KZ & _).
  pose proof (NA_spec y Hy) as (NY & TY & AY & _). pose proof (NA_spec z Hz) as (NZ & TZ & AZ & _).
  unfold state, period. split.
  - intros E. injection E as E1 E2 E3.
    assert (D : (800 | z - y)).
    { apply Gauss with 292207; [|apply Zgcd_1_rel_prime; reflexivity]. exists (Hor z - Hor y). lia. }
    destruct D as (i & Hi).
    assert (EH : Hor z - Hor y = 292207 * i) by lia.
    assert (D : (20760 | i)).
    { apply Gauss with (703 * 292207); [|apply Zgcd_1_rel_prime; reflexivity]. exists (M z - M y). lia. }
    destruct D as (j & Hj). exists j. lia.
  - intros (j & E).
    assert (E1 : K y = K z) by lia.
    assert (EH : Hor z - Hor y = 292207 * 20760 * j) by lia.
    assert (E2 : 692 * T z + Av z - (692 * T y + Av y) = 20760 * (703 * 292207 * j - (M z - M y))) by lia.
    assert (E3 : 692 * T z + Av z = 692 * T y + Av y) by lia.
    assert (E4 : T z = T y) by lia. assert (E5 : Av z = Av y) by lia. congruence.
Qed.
Lemma state_period y : 638 <= y -> state (y + period) = state y.
Proof. intros H. symmetry. apply state_eq; [exact H|unfold period; lia|]. exists 1. lia. Qed.

(** All states, and a span of years, as lists. *)
Fixpoint zrange (a : Z) (n : nat) : list Z := match n with O => [] | S m => a :: zrange (a + 1) m end.
Lemma zrange_in n : forall a x, In x (zrange a n) <-> a <= x < a + Z.of_nat n.
Proof. induction n as [|n IH]; intros a x; cbn [zrange In]; [lia|]. rewrite IH. lia. Qed.
Lemma zrange_length n : forall a, length (zrange a n) = n.
Proof. induction n; intros; cbn [zrange length]; congruence. Qed.
Lemma zrange_nodup n : forall a, NoDup (zrange a n).
Proof.
  induction n as [|n IH]; intros a; cbn [zrange]; constructor; [|apply IH]. rewrite zrange_in. lia.
Qed.
Definition all_states : list (Z * (Z * Z)) := list_prod (zrange 1 800) (list_prod (zrange 0 692) (zrange 0 30)).
Lemma state_in y : 638 <= y -> In (state y) all_states.
Proof.
  intros Hy. pose proof (HK_spec y Hy) as (_ & KY & _). pose proof (NA_spec y Hy) as (_ & TY & AY & _).
  unfold state, all_states. rewrite !in_prod_iff, !zrange_in. lia.
Qed.
Lemma all_states_length : Z.of_nat (length all_states) = period.
Proof. unfold all_states. rewrite !prod_length, !zrange_length, !Nat2Z.inj_mul. reflexivity. Qed.
Lemma map_nodup {A B} (f : A -> B) l : (forall x y, In x l -> In y l -> f x = f y -> x = y) -> NoDup l -> NoDup (map f l).
Proof.
  intros I N. induction N as [|x l H N IH]; cbn [map]; constructor.
  - rewrite in_map_iff. intros (y & E & Y). apply H. rewrite <- (I y x); auto using in_eq, in_cons.
  - apply IH. intros; apply I; auto using in_cons.
Qed.
Lemma states_permutation y : 638 <= y -> Permutation (map state (zrange y (Z.to_nat period))) all_states.
Proof.
  intros Hy. assert (NP : 0 <= period) by (unfold period; lia). apply NoDup_Permutation_bis.
  - apply map_nodup; [|apply zrange_nodup]. intros a b A B E.
    rewrite zrange_in in A, B. rewrite Z2Nat.id in A, B by exact NP.
    apply state_eq in E; [|lia|lia]. destruct E as (j & E). unfold period in *. lia.
  - rewrite map_length, zrange_length. apply Nat2Z.inj_le. rewrite all_states_length, Z2Nat.id by exact NP. lia.
  - intros s I. apply in_map_iff in I. destruct I as (z & <- & I). rewrite zrange_in in I. apply state_in. lia.
Qed.

(** Counting. *)
Fixpoint total {A} (f : A -> Z) (l : list A) : Z := match l with [] => 0 | x :: r => f x + total f r end.
Lemma total_app {A} (f : A -> Z) l r : total f (l ++ r) = total f l + total f r.
Proof. induction l as [|x l IH]; cbn [app total]; [lia|]. rewrite IH. lia. Qed.
Lemma total_ext {A} (f g : A -> Z) l : (forall x, In x l -> f x = g x) -> total f l = total g l.
Proof. induction l as [|x l IH]; intros H; cbn [total]; [reflexivity|]. rewrite (H x), IH; auto using in_eq, in_cons. Qed.
Lemma total_perm {A} (f : A -> Z) l r : Permutation l r -> total f l = total f r.
Proof. induction 1; cbn [total]; lia. Qed.
Lemma total_map {A B} (g : A -> B) (f : B -> Z) l : total f (map g l) = total (fun x => f (g x)) l.
Proof. induction l as [|x l IH]; cbn [map total]; congruence. Qed.
Lemma total_prod {A B} (f : A * B -> Z) (l : list A) (r : list B) : total f (list_prod l r) = total (fun a => total (fun b => f (a, b)) r) l.
Proof.
  induction l as [|x l IH]; cbn [list_prod total]; [reflexivity|]. rewrite total_app, total_map, IH. reflexivity.
Qed.
Lemma total_zero {A} (f : A -> Z) l : (forall x, In x l -> f x = 0) -> total f l = 0.
Proof. induction l as [|x l IH]; intros H; cbn [total]; [reflexivity|]. rewrite (H x), IH; auto using in_eq, in_cons. Qed.
Lemma total_one (f : Z -> Z) v n : forall a, a <= v < a + Z.of_nat n -> (forall x, x <> v -> f x = 0) -> total f (zrange a n) = f v.
Proof.
  induction n as [|n IH]; intros a H Z0; [lia|]. cbn [zrange total]. destruct (Z.eq_dec a v) as [->|N].
  - rewrite total_zero; [lia|]. intros x I. rewrite zrange_in in I. apply Z0. lia.
  - rewrite (Z0 a N), IH; [lia|lia|exact Z0].
Qed.
Lemma count_total p n : forall a, count_years p a n = total (fun z => if p z then 1 else 0) (zrange a n).
Proof. induction n as [|n IH]; intros a; cbn [count_years zrange total]; [reflexivity|]. rewrite IH. reflexivity. Qed.
Lemma count_states (p : Z -> bool) (q : Z * (Z * Z) -> bool) y : 638 <= y -> (forall z, y <= z -> p z = q (state z)) ->
  count_years p y (Z.to_nat period) = total (fun k => total (fun a => total (fun t => if q (k, (a, t)) then 1 else 0) (zrange 0 30)) (zrange 0 692)) (zrange 1 800).
Proof.
  intros Hy E. rewrite count_total. rewrite (total_ext _ (fun z => if q (state z) then 1 else 0)).
  - rewrite <- (total_map state (fun s => if q s then 1 else 0)). rewrite (total_perm _ _ _ (states_permutation y Hy)).
    unfold all_states. rewrite total_prod. apply total_ext. intros k _. rewrite total_prod. reflexivity.
  - intros z I. rewrite zrange_in in I. rewrite E by lia. reflexivity.
Qed.

(** The step from one state to the next. *)
Definition days_of (k : Z) : Z := if k <=? 207 then 366 else 365.
Lemma state_step y : 638 <= y ->
  K (y + 1) = (if K y <=? 207 then K y + 593 else K y - 207) /\
  Av (y + 1) = (692 * T y + Av y + 703 * days_of (K y)) mod 692 /\
  T (y + 1) = (692 * T y + Av y + 703 * days_of (K y)) / 692 mod 30.
Proof.
  intros Hy. pose proof (H_step y Hy) as (HS & KS). pose proof (lp_spec y) as L.
  pose proof (NA_spec y Hy) as (NY & TY & AY & _). pose proof (NA_spec (y + 1) ltac:(lia)) as (NZ & TZ & AZ & _).
  unfold days_of.
  assert (S : 692 * T y + Av y + 703 * (if K y <=? 207 then 366 else 365) = 692 * (30 * (M (y + 1) - M y) + T (y + 1)) + Av (y + 1))
    by (destruct (Z.leb_spec (K y) 207); lia).
  rewrite S. split; [destruct (Z.leb_spec (K y) 207); lia|]. clear - TZ AZ. rewrite (Z.mul_comm 692).
  rewrite Z.div_add_l, (Z.div_small (Av (y + 1))) by lia. rewrite Z.add_0_r. generalize (M (y + 1) - M y). intros m. lia.
Qed.

(** The type of a year from its state. *)
Definition near (t : Z) : bool := (24 <=? t) || (t <=? 5).
Definition am_state (k a t : Z) : bool :=
  near t && negb (near ((692 * t + a + 703 * days_of k) / 692 mod 30)).
Lemma am_of_state y : 638 <= y -> am y = am_state (K y) (Av y) (T y).
Proof.
  intros Hy. pose proof (amT y Hy) as A. pose proof (NA_spec y Hy) as (_ & TY & _).
  pose proof (NA_spec (y + 1) ltac:(lia)) as (_ & TZ & _). destruct (state_step y Hy) as (_ & _ & E).
  unfold am_state. rewrite <- E. unfold near.
  destruct (am y), (Z.leb_spec 24 (T y)), (Z.leb_spec (T y) 5), (Z.leb_spec 24 (T (y + 1))), (Z.leb_spec (T (y + 1)) 5);
    cbn [orb andb negb]; try reflexivity; exfalso; destruct A as [A1 A2]; try (specialize (A1 eq_refl); lia); try (discriminate A2; lia); try lia.
Qed.
Lemma edge_of_state y : edge y = (K y <=? 207) && (Av y =? 126).
Proof. unfold edge, lp, is_suriya_leap. fold (K y) (Av y). destruct (K y <=? 207); reflexivity. Qed.
Definition edge_free (s : Z * (Z * Z)) : bool :=
  let '(k, (a, t)) := s in (k <=? 207) && (a =? 126) && negb (am_state k a t).
Lemma edges_in_period y : 638 <= y -> count_years (fun e => edge e && negb (am e)) y (Z.to_nat period) = 3726.
Proof.
  intros Hy. rewrite (count_states _ edge_free y Hy).
  - rewrite (total_ext _ (fun k => if k <=? 207 then total (fun t => if am_state k 126 t then 0 else 1) (zrange 0 30) else 0)).
    + vm_compute. reflexivity.
    + intros k _. unfold edge_free. destruct (k <=? 207); cbn [andb].
      * rewrite (total_one _ 126).
        -- apply total_ext. intros t _. change (126 =? 126) with true. cbn [andb]. destruct (am_state k 126 t); reflexivity.
        -- lia.
        -- intros x N. destruct (Z.eqb_spec x 126); [contradiction|]. apply total_zero. reflexivity.
      * apply total_zero. intros a _. apply total_zero. reflexivity.
  - intros z Z. unfold edge_free, state. rewrite <- am_of_state by lia. rewrite edge_of_state. reflexivity.
Qed.

(** Counting the free boundary years by running the states. *)
Fixpoint run (n : nat) (k a t : Z) : Z :=
  match n with
  | O => 0
  | S m =>
      let s := 692 * t + a + 703 * days_of k in
      let c := if a =? 126 then if k <=? 207 then if am_state k a t then 0 else 1 else 0 else 0 in
      c + run m (if k <=? 207 then k + 593 else k - 207) (s mod 692) (s / 692 mod 30)
  end.
Lemma run_count n : forall y, 638 <= y -> run n (K y) (Av y) (T y) = count_years (fun e => edge e && negb (am e)) y n.
Proof.
  induction n as [|n IH]; intros y Hy; [reflexivity|]. cbn [run count_years]. cbv zeta.
  destruct (state_step y Hy) as (<- & <- & <-). rewrite IH by lia. f_equal.
  rewrite edge_of_state, am_of_state by exact Hy. destruct (Av y =? 126), (K y <=? 207), (am_state (K y) (Av y) (T y)); reflexivity.
Qed.
