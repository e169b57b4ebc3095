(** Theorems C39 (SuriyaDay) and C48 (name tables). *)
From Coq Require Import ZArith Lia Bool ZifyBool List String.
From Verif Require Import GoTime SuriyaYear SuriyaDay Helpers Spec.
From Verif Require Import P_Time P_Year P_Counts P_Kattika P_Day.
Import ListNotations.
Open Scope Z_scope.
Ltac Zify.zify_post_hook ::= Z.div_mod_to_equations.

(** * C39 SuriyaDay counts days linearly and agrees with the year record *)
Theorem C39_day_names : forall y d, let sd := sd_ints y d in
  sd_Year sd = y /\ sd_Day sd = d /\ sd_BE_Year sd = y + 543 /\ sd_CS_Year sd = y - 638.
Proof. intros y d. repeat split. Qed.
Theorem C39_day_linear : forall y d,
  sd_Horakhun (sd_ints y d) = sy_Horakhun (su_init y) + d - sy_Tithi (su_init y).
Proof. intros y d. rewrite sd_Horakhun_eq. unfold Hor, T. lia. Qed.
Theorem C39_day_of_year_record : forall y, 638 <= y ->
  let su := su_init y in let sd := sd_ints y (sy_Tithi su) in
  sd_Horakhun sd = sy_Horakhun su /\ sd_Kammacubala sd = sy_Kammacubala su /\
  sd_Uccabala sd = sy_Uccabala su /\ sd_Avoman sd = sy_Avoman su /\
  sd_Masaken sd = sy_Masaken su /\ sd_Tithi sd = sy_Tithi su.
Proof. exact sd_new_year. Qed.
Theorem C39_day_moon : forall y d, let sd := sd_ints y d in 0 <= sd_Horakhun sd ->
  692 * (30 * sd_Masaken sd + sd_Tithi sd) + sd_Avoman sd = 703 * sd_Horakhun sd + 650 /\
  0 <= sd_Tithi sd < 30 /\ 0 <= sd_Avoman sd < 692 /\ 0 <= sd_Uccabala sd < 3232.
Proof. intros y d sd Hh. pose proof (sd_moon y d Hh) as Hm. cbv zeta in Hm. fold sd in Hm. lia. Qed.
(** The day of the Moon's apogee: Uccabala counts the days of a round of 3232 days which begins
    621 days after the start of the era. *)
Theorem C39_apogee : forall y d, let sd := sd_ints y d in 0 <= sd_Horakhun sd ->
  forall u, (0 <= u < 3232 /\ exists rounds, sd_Horakhun sd = 621 + 3232 * rounds + u) <-> u = sd_Uccabala sd.
Proof.
  intros y d sd Hh u. pose proof (sd_moon y d Hh) as Hm. cbv zeta in Hm. fold sd in Hm. destruct Hm as (_ & _ & _ & _ & U).
  fold sd in U. rewrite U. clear U. revert Hh. generalize (sd_Horakhun sd). intros h Hh. split.
  - intros (B & r & ->). replace (621 + 3232 * r + u + 2611) with (u + (r + 1) * 3232) by ring. rewrite Z.mod_add by lia. symmetry. apply Z.mod_small. exact B.
  - intros ->. pose proof (Z.mod_pos_bound (h + 2611) 3232 ltac:(lia)) as B. split; [exact B|].
    exists ((h + 2611) / 3232 - 1). pose proof (Z.div_mod (h + 2611) 3232 ltac:(lia)). lia.
Qed.
Example C39_apogee_example : sd_Uccabala (sd_ints 1963 23) = 1780 /\ sy_Uccabala (su_init 1963) = 1780 /\ 483969 = 621 + 3232 * 149 + 1780.
Proof. vm_compute. auto. Qed.
(** The same day reached from two years has the same lunar values. *)
Theorem C39_same_day : forall y d y' d', let sd := sd_ints y d in let sd' := sd_ints y' d' in
  sd_Horakhun sd = sd_Horakhun sd' ->
  sd_Avoman sd = sd_Avoman sd' /\ sd_Masaken sd = sd_Masaken sd' /\ sd_Tithi sd = sd_Tithi sd' /\
  sd_Uccabala sd = sd_Uccabala sd'.
Proof.
  intros y d y' d'. cbv zeta. unfold sd_ints. cbn [sd_Horakhun sd_Masaken sd_Tithi sd_Avoman sd_Uccabala].
  intros ->. auto.
Qed.
(** Kammacubala continues linearly at 800 a day and so runs on from one year to the next:
    the last day of a year as day of year [y] or as a day of year [y+1] differ by one
    revolution of 292207. *)
Theorem C39_kammacubala : forall y d d', 638 <= y ->
  sd_Horakhun (sd_ints y d) = sd_Horakhun (sd_ints (y + 1) d') ->
  sd_Kammacubala (sd_ints y d) = sd_Kammacubala (sd_ints (y + 1) d') + 292207.
Proof.
  intros y d d' Hy. rewrite !sd_kammacubala by lia. rewrite !sd_Horakhun_eq.
  pose proof (HK_spec y Hy). pose proof (HK_spec (y + 1) ltac:(lia)). lia.
Qed.
Example C39_example : sd_Horakhun (sd_ints 1963 103) = 484049 /\ sd_Tithi (sd_ints 1963 103) = 14 /\
  sd_Horakhun (sd_ints 1963 386) = sd_Horakhun (sd_ints 1964 1) /\ sy_Tithi (su_init 1963) = 23.
Proof. vm_compute. auto. Qed.

(** * C48 Name tables *)
Lemma map_get_notin l k : ~ In k (map fst l) -> map_get l k = 0.
Proof.
  induction l as [|[k' v] l IH]; cbn [map_get map In fst]; intros Hn; [reflexivity|].
  destruct (String.eqb_spec k k'); [subst; tauto|]. apply IH. tauto.
Qed.
Definition month_names : list string :=
  ["magasira"; "phussa"; "magha"; "phagguna"; "citta"; "vesakha"; "jettha"; "asalha";
   "2nd asalha"; "savana"; "bhaddapada"; "assayuja"; "kattika"]%string.
Theorem C48_months : forall s,
  (In s month_names -> 1 <= month_to_int s <= 13) /\ (~ In s month_names -> month_to_int s = 0) /\
  (forall s', In s month_names -> month_to_int s = month_to_int s' -> s = s').
Proof.
  intros s.
  assert (A : In s month_names -> 1 <= month_to_int s <= 13).
  { intros Hi. repeat (destruct Hi as [<-|Hi]; [cbn; lia|]). destruct Hi. }
  assert (B : forall s, ~ In s month_names -> month_to_int s = 0).
  { intros t Hn. unfold month_to_int. destruct (String.eqb_spec t "null") as [->|]; [reflexivity|].
    apply map_get_notin. cbn [map fst monthToInt In]. cbn [month_names In] in Hn. intuition congruence. }
  split; [exact A|]. split; [exact (B s)|]. intros s' Hi E.
  destruct (in_dec string_dec s' month_names) as [Hi'|Hn']; [|specialize (A Hi); rewrite (B s' Hn') in E; lia].
  repeat (destruct Hi as [<-|Hi]; [repeat (destruct Hi' as [<-|Hi']; [try reflexivity; discriminate E|]); destruct Hi'|]).
  destruct Hi.
Qed.
Theorem C48_seasons : forall s, 0 <= season_to_int s <= 3 /\
  (season_to_int s = 1 <-> s = "hemanta"%string) /\ (season_to_int s = 2 <-> s = "gimhana"%string) /\
  (season_to_int s = 3 <-> s = "vassana"%string).
Proof.
  intros s. unfold season_to_int, seasonToInt; cbn [map_get].
  destruct (String.eqb_spec s "null") as [->|]; [intuition (lia || discriminate)|].
  destruct (String.eqb_spec s "hemanta") as [->|]; [intuition (lia || discriminate)|].
  destruct (String.eqb_spec s "gimhana") as [->|]; [intuition (lia || discriminate)|].
  destruct (String.eqb_spec s "vassana") as [->|]; [intuition (lia || discriminate)|].
  intuition (lia || congruence).
Qed.
(** 0 is both the first value and the result for an unknown name. *)
Theorem C48_calendars_statuses : forall s,
  (calendar_to_int s = 1 <-> s = "dhammayut"%string) /\ (calendar_to_int s = 2 <-> s = "srilanka"%string) /\
  (calendar_to_int s = 3 <-> s = "myanmar"%string) /\
  (calendar_to_int s = 0 <-> s <> "dhammayut" /\ s <> "srilanka" /\ s <> "myanmar")%string /\
  (status_to_int s = 1 <-> s = "predicted"%string) /\ (status_to_int s = 2 <-> s = "confirmed"%string) /\
  (status_to_int s = 0 <-> s <> "predicted" /\ s <> "confirmed")%string.
Proof.
  intros s. unfold calendar_to_int, calendarToInt, status_to_int, statusToInt; cbn [map_get].
  destruct (String.eqb_spec s "mahanikaya") as [->|]; [cbn; intuition (lia || discriminate)|].
  destruct (String.eqb_spec s "dhammayut") as [->|]; [cbn; intuition (lia || congruence || discriminate)|].
  destruct (String.eqb_spec s "srilanka") as [->|]; [cbn; intuition (lia || congruence || discriminate)|].
  destruct (String.eqb_spec s "myanmar") as [->|]; [cbn; intuition (lia || congruence || discriminate)|].
  destruct (String.eqb_spec s "draft") as [->|]; [cbn; intuition (lia || congruence || discriminate)|].
  destruct (String.eqb_spec s "predicted") as [->|]; [cbn; intuition (lia || congruence || discriminate)|].
  destruct (String.eqb_spec s "confirmed") as [->|]; cbn; intuition (lia || congruence || discriminate).
Qed.
Theorem C48_unknown_names_refuted : exists s, s <> "mahanikaya"%string /\
  calendar_to_int s = calendar_to_int "mahanikaya" /\ s <> "draft"%string /\ status_to_int s = status_to_int "draft".
Proof. exists "Dhammayut"%string. repeat split; discriminate || reflexivity. Qed.
Example C48_example : month_to_int "2nd asalha" = 13 /\ month_to_int "Magha" = 0 /\ season_to_int "gimhana" = 2.
Proof. auto. Qed.
