(** The age of the moon at the generated uposathas (C49). *)
From Coq Require Import ZArith Lia Bool ZifyBool List String.
From Verif Require Import GoTime SuriyaYear Helpers UposathaMoon CalDay Spec SpecCal.
From Verif Require Import P_Time P_Year P_Counts P_Kattika P_Chain P_Gen P_Gen2 Prop_Kattika.
Import ListNotations.
Open Scope Z_scope.
Ltac Zify.zify_post_hook ::= Z.div_mod_to_equations.

(** Horakhun of the Kattika moon that the program uses in 640..4098. *)
Definition kh (y : Z) : Z := kattika_horakhun y + one_if (edge (y - 1) && am (y - 1)).

Lemma kday_kh cfg y : UseExceptions cfg = false -> 640 <= y <= 4098 -> kday cfg y = hdate (kh y).
Proof.
  intros Ho Hy. rewrite (kday_closed cfg y Ho ltac:(lia)), <- kh_closed.
  rewrite <- (drift_surplus y ltac:(lia)). unfold kh, hdate, drift.
  rewrite count_years_zero.
  - rewrite boundary_edge. fold (am (y - 1)). destruct (Z.ltb_spec 640 y); [lia|].
    replace (y - 1) with 639 by lia. replace (edge 639) with false by (vm_compute; reflexivity). cbn [andb one_if]. lia.
  - intros z Hz. rewrite boundary_edge. destruct (edge z) eqn:E; [|reflexivity].
    apply no_edge in E; [|lia]. subst z. fold (am 3577). rewrite am_3577. reflexivity.
Qed.

(** Position of the moon at day [h] in 692nds of a tithi, modulo a lunation. *)
Definition pos (h : Z) : Z := (703 * h + 650) mod 20760.

Lemma pos_kh y : 640 <= y -> 9916 <= pos (kh y) <= 10816 /\ (av y = true -> pos (kh y) <= 10371).
Proof.
  intros Hy. unfold kh, kattika_horakhun. cbv zeta. fold (Hor y) (T y) (am (y - 1)) (wv (y - 1)).
  pose proof (NA_spec y ltac:(lia)) as (HN & HT & HA & _).
  pose proof (NA_gain (y - 1) ltac:(lia)) as (HG & HGA). replace (y - 1 + 1) with y in * by lia.
  pose proof (NA_spec (y - 1) ltac:(lia)) as (_ & HT' & HA' & _).
  pose proof (amT (y - 1) ltac:(lia)) as Ham. replace (y - 1 + 1) with y in * by lia.
  pose proof (wv_gain (y - 1) ltac:(lia)) as (Hw & He'). rewrite av_eq, ca_eq.
  pose proof (wav_spec y) as Hwy. fold (wv y) in Hwy. pose proof (lp_spec y) as Hly.
  rewrite Hw. clear Hw.
  pose proof (lp_spec (y - 1)) as Hl. unfold edge in *.
  unfold pos, b2z, one_if in *.
  set (g := gain5 (y - 1)) in *. clearbody g.
  set (a := am (y - 1)) in *. clearbody a. set (ay := am y) in *. clearbody ay. set (w := wv y) in *. clearbody w.
  set (lpy := lp (y - 1)) in *. set (lpz := lp y) in *. set (Ay := Av y) in *. set (Ay' := Av (y - 1)) in *.
  set (Ty := T y) in *. set (Ty' := T (y - 1)) in *. set (My := M y) in *. set (My' := M (y - 1)) in *. set (Hy' := Hor y) in *.
  clearbody lpy lpz Ay Ay' Ty Ty' My My' Hy'.
  set (ed := (lpy =? 1) && (Ay' =? 126)) in *.
  set (c := (if a && (g || ed) then 1 else 0)). set (d := (if ed && a then 1 else 0)).
  assert (Hcd : c - d = 0 /\ (a = true -> g = false) \/ c - d = 1 /\ a = true /\ g = true).
  { unfold c, d. destruct a, g, ed; cbn [andb orb] in *; try discriminate; auto; left; split; auto; discriminate. }
  set (e := (if Ty <=? 5 then 163 else 133)) in *.
  assert (He : Ty <= 5 /\ e = 163 \/ 6 <= Ty /\ e = 133) by (unfold e; destruct (Z.leb_spec Ty 5); lia).
  clearbody c d e.
  assert (Eq : (703 * (Hy' - Ty - e - c + d) + 650) mod 20760 = (Ay - 11 * Ty - 703 * (e + (c - d))) mod 20760).
  { replace (703 * (Hy' - Ty - e - c + d) + 650) with
      ((Ay - 11 * Ty - 703 * (e + (c - d))) + My * 20760) by lia. apply Z_mod_plus_full. }
  rewrite Eq. clear Eq.
  destruct Hcd as [[Hc Hag]|(Hc & -> & ->)]; rewrite Hc; clear Hc.
  - assert (B : (Ty <= 16 -> g = true \/ Ay <= 566)).
    { intros. destruct g; [left; reflexivity|right]. lia. }
    assert (Hr : (Ay - 11 * Ty - 703 * (e + 0)) mod 20760 = Ay - 11 * Ty + (if Ty <=? 5 then 9971 else 10301)).
    { destruct He as [[? ->]|[? ->]]; destruct (Z.leb_spec Ty 5); lia. }
    rewrite Hr. clear Hr. split.
    + split; [destruct (Z.leb_spec Ty 5); lia|]. 
      destruct (Z.leb_spec Ty 5); [lia|].
      destruct (Z_le_gt_dec Ty 16); [|lia]. destruct B as [->|B]; [lia| |lia]. destruct a; [specialize (Hag eq_refl); discriminate|]. lia.
    + intros Hav. destruct (Z.leb_spec Ty 5);
      destruct a, g, ay, w, ed eqn:Eed; cbn [andb orb negb] in *; try discriminate; try (specialize (Hag eq_refl); discriminate); unfold ed in Eed; lia.
  - assert (Hr : (Ay - 11 * Ty - 703 * (e + 1)) mod 20760 = Ay - 11 * Ty + (if Ty <=? 5 then 9268 else 9598)).
    { destruct He as [[? ->]|[? ->]]; destruct (Z.leb_spec Ty 5); lia. }
    rewrite Hr. clear Hr. destruct (Z.leb_spec Ty 5); lia.
Qed.

(** ** Ages along the chain *)

(** The number of full moons up to a row: its month's place in the year. *)
Fixpoint row_devs (n : Z) (l : list row) : list (bool * Z) :=
  match l with
  | [] => []
  | r :: l' => (r_full r, 703 * r_off r - 20760 * (if r_full r then n + 1 else n))
               :: row_devs (if r_full r then n + 1 else n) l'
  end.

(** bounds on the deviations, as a check *)
Definition dev_ok (flo fhi nlo nhi : Z) (p : bool * Z) : bool :=
  if fst p then (flo <=? snd p) && (snd p <=? fhi) else (nlo <=? snd p) && (snd p <=? nhi).

Lemma devs_common : forallb (dev_ok (-258) 330 9957 10545) (row_devs 0 (year_rows false false)) = true.
Proof. vm_compute. reflexivity. Qed.
Lemma devs_av : forallb (dev_ok (-129) 861 10086 11076) (row_devs 0 (year_rows false true)) = true.
Proof. vm_compute. reflexivity. Qed.
Lemma devs_am : forallb (dev_ok (-172) 488 10043 10703) (row_devs 0 (year_rows true false)) = true.
Proof. vm_compute. reflexivity. Qed.
Lemma devs_first : forallb (dev_ok (-86) 330 10129 10545) (row_devs 0 first_rows) = true.
Proof. vm_compute. reflexivity. Qed.

Lemma row_devs_in l : forall n r, In r l -> exists m, In (r_full r, 703 * r_off r - 20760 * m) (row_devs n l).
Proof.
  induction l as [|x l IH]; intros n r; cbn [In row_devs]; [tauto|]. intros [->|Hi].
  - eexists. left. reflexivity.
  - destruct (IH (if r_full x then n + 1 else n) r Hi) as [m Hm]. exists m. right. exact Hm.
Qed.

Definition age_ok (full : bool) (h : Z) : Prop :=
  if full then 14 <= moon_age h <= 16 else moon_age h = 28 \/ moon_age h = 29 \/ moon_age h = 0.

Lemma age_of_dev h r m flo fhi nlo nhi :
  dev_ok flo fhi nlo nhi (r_full r, 703 * r_off r - 20760 * m) = true ->
  9688 <= pos h + flo -> pos h + fhi < 11764 -> 19376 <= pos h + nlo -> pos h + nhi < 21452 ->
  age_ok (r_full r) (h + r_off r).
Proof.
  unfold dev_ok, age_ok, moon_age, tithis_elapsed, pos. cbn [fst snd]. intros Hd H1 H2 H3 H4.
  set (X := (703 * h + 650) mod 20760) in *.
  assert (EX : 703 * h + 650 = 20760 * ((703 * h + 650) / 20760) + X) by (unfold X; apply Z.div_mod; lia).
  set (q := (703 * h + 650) / 20760) in *. clearbody q X.
  assert (Ee : (703 * (h + r_off r) + 650) / 692 = 30 * (q + m) + (X + (703 * r_off r - 20760 * m)) / 692).
  { replace (703 * (h + r_off r) + 650) with ((30 * (q + m)) * 692 + (X + (703 * r_off r - 20760 * m))) by lia.
    rewrite Z.div_add_l by lia. reflexivity. }
  rewrite Ee. replace (30 * (q + m)) with ((q + m) * 30) by lia.
  rewrite (Z.add_comm ((q + m) * 30)), Z_mod_plus_full.
  set (D := 703 * r_off r - 20760 * m) in *. clearbody D.
  destruct (r_full r); lia.
Qed.

Lemma age_rows cfg y : UseExceptions cfg = false -> 640 <= y <= 4097 ->
  (forall r, In r (year_rows (am y) (av y)) -> age_ok (r_full r) (kh y + r_off r)) /\
  (forall r, In r first_rows -> age_ok (r_full r) (kh (y + 1) + r_off r)).
Proof.
  intros Ho Hy. pose proof (pos_kh y ltac:(lia)) as (P1 & P2). pose proof (pos_kh (y + 1) ltac:(lia)) as (P1' & _).
  assert (Hk : kh (y + 1) = kh y + lunar_days (am y) (av y)).
  { pose proof (kday_kh cfg y Ho ltac:(lia)) as E1. pose proof (kday_kh cfg (y + 1) Ho ltac:(lia)) as E2.
    rewrite kday_step, len_days, (adhikavara_default_off cfg y Ho) in E2. unfold hdate in *. lia. }
  assert (Hp : pos (kh (y + 1)) = (pos (kh y) + 703 * lunar_days (am y) (av y)) mod 20760).
  { unfold pos. rewrite Hk. rewrite Zplus_mod_idemp_l. f_equal. lia. }
  split.
  - intros r Hr. pose proof (shipped_exclusive cfg y (or_introl Ho)) as Hx. unfold exclusive in Hx. fold (am y) in Hx.
    rewrite (adhikavara_default_off cfg y Ho) in Hx.
    destruct (row_devs_in _ 0 r Hr) as [m Hm].
    destruct (am y), (av y); cbn [andb] in Hx; try discriminate; unfold lunar_days in Hp.
    + pose proof devs_am as D. rewrite forallb_forall in D. apply (age_of_dev _ r m _ _ _ _ (D _ Hm)); lia.
    + pose proof devs_av as D. rewrite forallb_forall in D. specialize (P2 eq_refl).
      apply (age_of_dev _ r m _ _ _ _ (D _ Hm)); lia.
    + pose proof devs_common as D. rewrite forallb_forall in D. apply (age_of_dev _ r m _ _ _ _ (D _ Hm)); lia.
  - intros r Hr. destruct (row_devs_in _ 0 r Hr) as [m Hm].
    pose proof devs_first as D. rewrite forallb_forall in D. apply (age_of_dev _ r m _ _ _ _ (D _ Hm)); lia.
Qed.
