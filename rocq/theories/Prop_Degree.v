(** C34, C35, C37: degrees, and signs, degrees and minutes, in float64 arithmetic. *)
From Coq Require Import ZArith Reals Lia Lra Bool Psatz.
From Flocq Require Import Core BinarySingleNaN.
From Verif Require Import GoInt GoFloat SuriyaYear Machine P_Float P_Machine P_Degree.
Open Scope R_scope.

(** ** C34: RalToDegree, then DegreeToRal *)
Theorem C34_round_trip x y z : (0 <= x <= 10 ^ 6)%Z -> (0 <= y < 30)%Z -> (0 <= z < 60)%Z ->
  exists z', degree_to_ral (ral_to_degree x y z) = (x, y, z') /\ (0 <= z')%Z /\ (z' = z \/ z' = z - 1)%Z /\ (z mod 3 <> 0 -> z' = z - 1)%Z.
Proof.
  intros Hx Hy Hz. destruct (round_trip x y z Hx Hy Hz) as (z' & E & O & N & P). exists z'. auto.
Qed.
(** So the two are not inverse, not even when the minutes are a multiple of 3. *)
Theorem C34_inverse_refuted :
  degree_to_ral (ral_to_degree 0 0 1) = (0, 0, 0)%Z /\ degree_to_ral (ral_to_degree 2 19 33) = (2, 19, 32)%Z.
Proof. vm_compute. auto. Qed.
Example C34_example : degree_to_ral (ral_to_degree 8 11 6) = (8, 11, 5)%Z /\ degree_to_ral (ral_to_degree 2 19 30) = (2, 19, 30)%Z.
Proof. vm_compute. auto. Qed.

(** ** C35: DegreeToRal *)
(** The angle written x signs, y degrees, z minutes. *)
Definition angle (x y z : Z) : R := 30 * IZR x + IZR y + IZR z / 60.
Theorem C35_nonnegative (d : float64) : is_finite d = true -> 0 <= B2R d <= IZR (2 ^ 50) ->
  exists x y z, degree_to_ral d = (x, y, z) /\ (0 <= x)%Z /\ (0 <= y < 30)%Z /\ (0 <= z < 60)%Z /\
    IZR (30 * x + y) <= B2R d < IZR (30 * x + y + 1) /\
    - / IZR (2 ^ 53) <= B2R d - angle x y z < 1 / 60.
Proof.
  intros F B. destruct (degree_to_ral_pos d (B2R d) (conj F eq_refl) B) as (z & E & Hz & _ & L & U).
  set (D := Zfloor (B2R d)) in *. exists (D / 30)%Z, (D mod 30)%Z, z. split; [exact E|].
  assert (Dp : (0 <= D)%Z) by (unfold D; rewrite <- (Zfloor_IZR 0); apply Zfloor_le; apply B).
  pose proof (Z.div_mod D 30 ltac:(lia)) as Ed. pose proof (Z.mod_pos_bound D 30 ltac:(lia)) as Em.
  assert (0 <= D / 30)%Z by (apply Z.div_pos; lia). repeat split; try lia.
  - rewrite <- Ed. apply Zfloor_lb.
  - rewrite <- Ed, plus_IZR. apply Zfloor_ub.
  - unfold angle. rewrite <- mult_IZR, <- plus_IZR, <- Ed. lra.
  - unfold angle. rewrite <- mult_IZR, <- plus_IZR, <- Ed. lra.
Qed.
(** Negative degrees come out 30 degrees too low, unless their floor is a multiple of 30. *)
Theorem C35_negative (d : float64) : is_finite d = true -> - IZR (2 ^ 50) <= B2R d <= - / IZR (2 ^ 1000) ->
  exists x y z, degree_to_ral d = (x, y, z) /\ (0 <= z <= 60)%Z /\
    let excess := if (Zfloor (B2R d) mod 30 =? 0)%Z then 0 else 30 in
    - / IZR (2 ^ 50) <= B2R d - excess - angle x y z <= 1 / 60 + / IZR (2 ^ 50).
Proof.
  intros F B. assert (B' : - bpow radix2 50 <= B2R d <= - bpow radix2 (-1000)) by exact B.
  destruct (degree_to_ral_neg d (B2R d) (conj F eq_refl) B') as (z & E & Hz & A & U). apply Rabs_le_inv in A.
  set (D := Zfloor (B2R d)) in *. exists (D / 30)%Z, (Z.rem D 30), z. split; [exact E|]. split; [exact Hz|].
  assert (Dn : (D < 0)%Z).
  { apply lt_IZR. pose proof (Zfloor_lb (B2R d)). fold D in H. pose proof (bpow_gt_0 radix2 (-1000)). lra. }
  pose proof (Z.div_mod D 30 ltac:(lia)) as Ed. pose proof (Z.mod_pos_bound D 30 ltac:(lia)) as Em.
  assert (Er : (30 * (D / 30) + Z.rem D 30 = D - (if D mod 30 =? 0 then 0 else 30))%Z).
  { pose proof (Z.rem_bound_abs D 30 ltac:(lia)). pose proof (Z.quot_rem' D 30) as Q. pose proof (Z.rem_nonpos D 30 ltac:(lia) ltac:(lia)) as Rn.
    destruct (Z.eqb_spec (D mod 30) 0) as [M|M]; nia. }
  assert (An : angle (D / 30) (Z.rem D 30) z = IZR D - (if (D mod 30 =? 0)%Z then 0 else 30) + IZR z / 60).
  { unfold angle. rewrite <- mult_IZR, <- plus_IZR, Er, minus_IZR. destruct (D mod 30 =? 0)%Z; reflexivity. }
  cbv zeta. rewrite An. destruct (D mod 30 =? 0)%Z; lra.
Qed.
(** 79.5282796... degrees are 2 signs, 19 degrees and 31 minutes (suriya_day.go:86); -0.5 degrees
    come out as -1 sign, -1 degree and 30 minutes, that is -30.5 degrees; a tiny negative angle has
    60 minutes. *)
Example C35_example :
  degree_to_ral (fmul (fdiv (f_of_int 64552) (f_of_int 292207)) (f_of_int 360)) = (2, 19, 31)%Z /\
  degree_to_ral (fdiv (f_of_int (-1)) (f_of_int 2)) = (-1, -1, 30)%Z /\
  degree_to_ral (f_of_int (-30)) = (-1, 0, 0)%Z /\
  degree_to_ral (fmake (-1) (-60)) = (-1, -1, 60)%Z.
Proof. vm_compute. auto. Qed.

(** Back to degrees: at most a minute and a ten-thousandth is lost. *)
Theorem C35_back (d : float64) x y z : is_finite d = true -> 0 <= B2R d <= 1000000 -> degree_to_ral d = (x, y, z) ->
  is_finite (ral_to_degree x y z) = true /\ B2R d - 1 / 60 - 1 / 9999 <= B2R (ral_to_degree x y z) <= B2R d + / 1000000000.
Proof.
  intros F B E. destruct (there_and_back d (B2R d) (conj F eq_refl) B) as (v & V & R). rewrite E in V. destruct V as [Fv Ev]. rewrite Ev. auto.
Qed.
Example C35_back_example :
  B2SF (ral_to_degree 2 19 31) = B2SF (fdiv (f_of_int 795166) (f_of_int 10000)).
Proof. vm_compute. reflexivity. Qed.

(** ** C37: NormalizeDegree *)
Theorem C37_above (d : float64) : is_finite d = true -> 360 < B2R d <= IZR (2 ^ 50) ->
  is_finite (normalize_degree d) = true /\ 0 <= B2R (normalize_degree d) < 360 /\
  exists k, (1 <= k)%Z /\ B2R d = B2R (normalize_degree d) + 360 * IZR k.
Proof.
  intros F B. destruct (normalize_high d (B2R d) (conj F eq_refl) B) as [F' E]. rewrite E. split; [exact F'|].
  pose proof (Zfloor_lb (B2R d)) as L. pose proof (Zfloor_ub (B2R d)) as U. set (D := Zfloor (B2R d)) in *.
  assert (Dp : (360 <= D)%Z) by (unfold D; rewrite <- (Zfloor_IZR 360); apply Zfloor_le; lra).
  pose proof (Z.div_mod D 360 ltac:(lia)) as Ed. pose proof (Z.mod_pos_bound D 360 ltac:(lia)) as Em.
  assert (R0 : IZR (360 * (D / 360)) <= IZR D) by (apply IZR_le; lia). assert (R1 : IZR D <= IZR (360 * (D / 360)) + 359) by (rewrite <- plus_IZR; apply IZR_le; lia).
  split; [lra|]. exists (D / 360)%Z. split; [apply Z.div_le_lower_bound; lia|]. rewrite mult_IZR. ring.
Qed.
Theorem C37_below (d : float64) : is_finite d = true -> B2R d <= 360 -> normalize_degree d = d.
Proof. intros F B. apply (normalize_low d (B2R d)); [split; [exact F|reflexivity]|exact B]. Qed.
(** So 360 itself and negative degrees are not brought into [0, 360). *)
Theorem C37_range_refuted : exists d : float64, is_finite d = true /\ B2R (normalize_degree d) < 0.
Proof.
  exists (f_of_int (-30)). split; [reflexivity|]. destruct (f_of_int_fin (-30) ltac:(lia)) as [F E]. rewrite C37_below; [rewrite E; lra|exact F|rewrite E; lra].
Qed.
Example C37_example :
  B2SF (normalize_degree (fdiv (f_of_int 8505) (f_of_int 10))) = B2SF (fdiv (f_of_int 1305) (f_of_int 10)) /\
  B2SF (normalize_degree (f_of_int 720)) = B2SF (f_of_int 0) /\ B2SF (normalize_degree (f_of_int 360)) = B2SF (f_of_int 360).
Proof. vm_compute. auto. Qed.
