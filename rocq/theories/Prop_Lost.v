(** C23, continued: a full moon among the uposathas of no year. *)
From Coq Require Import ZArith Lia Bool ZifyBool List String.
From Verif Require Import GoTime SuriyaYear Helpers UposathaMoon CalDay Spec SpecCal P_Time P_Year P_Counts P_Kattika P_Chain P_Gen P_Gen2 P_Day Prop_Kattika P_Age Prop_Calendar.
Import ListNotations.
Open Scope Z_scope.

(** When the Kattika a year is counted from falls into that year, it is among the uposathas of no year: the year before ends before it, and the year itself
    starts with the moon after it. *)
Theorem C23_kattika_lost : forall cfg y k, previous_kattika cfg y = Some k -> time_year k = y ->
  forall y' u, In u (uposathas_of (events_of_year cfg y')) -> u_Date u <> k.
Proof.
  intros cfg y k E Y y' u Hu D. pose proof (C23_each_in_its_year cfg y' u Hu) as [Yu _]. rewrite D, Y in Yu. subst y'.
  rewrite previous_kattika_eq in E. apply some_inj' in E. subst k.
  destruct (year_filter cfg y) as (p & F). rewrite (F p ltac:(lia)) in Hu. apply in_map_iff in Hu. destruct Hu as (x & <- & Hx).
  apply filter_In in Hx. destruct Hx as [Hx _]. destruct (moons_dates cfg (seed cfg y) (kday cfg y) p eq_refl x Hx) as (d & Ed & Hd).
  cbn [confirmed u_Date] in D. rewrite Ed in D. apply (f_equal t_ns) in D. cbn [midnight t_ns] in D. unfold day_ns in D. lia.
Qed.
(** So from 4116 on the uposathas of consecutive years are not all the moons: the full moon of 2 January 4117, the 26th moon after the Kattika of 4115, is missing. *)
Theorem C23_4117_refuted : exists k, previous_kattika cfg_default 4116 = Some k /\ time_year k = 4115 /\
  u_Date (nth_moon cfg_default (kattika_moon k) 26) = time_date 4117 1 2 0 0 /\ u_Phase (nth_moon cfg_default (kattika_moon k) 26) = "full"%string /\
  forall y u, In u (uposathas_of (events_of_year cfg_default y)) -> u_Date u <> time_date 4117 1 2 0 0.
Proof.
  assert (K6 : kday cfg_default 4116 = 1502955).
  { pose proof (kday_step cfg_default 4116) as E. change (4116 + 1) with 4117 in E. rewrite kday_4117 in E.
    assert (L : len cfg_default 4116 = 384) by (vm_cast_no_check (eq_refl 384)). rewrite L in E. revert E.
    generalize (kday cfg_default 4116). intros z E. lia. }
  exists (midnight 1502955). rewrite previous_kattika_eq, K6. split; [reflexivity|]. split; [reflexivity|].
  split; [vm_compute; reflexivity|]. split; [vm_compute; reflexivity|].
  apply (C23_kattika_lost cfg_default 4117); [rewrite previous_kattika_eq, kday_4117; vm_compute; reflexivity|reflexivity].
Qed.
