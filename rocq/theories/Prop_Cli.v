(** Theorems C43, C44, C47 and C50: the command line program and the texts it shows. *)
From Coq Require Import ZArith Lia Bool ZifyBool List String Ascii Permutation Sorted.
From Verif Require Import GoTime SuriyaYear Helpers UposathaMoon CalDay AstroMoon AstroFS Text Cli Spec SpecCal SpecAstro SpecText.
From Verif Require Import P_Time P_Year P_Counts P_Kattika P_Chain P_Gen P_Gen2 P_CalDays P_CalDays2 P_Text P_Date P_Cli Prop_Kattika Prop_Days Prop_CalDay.
Import ListNotations.
Open Scope Z_scope.

(** * C47 Moon summaries determine what they display *)
Theorem C47_empty : forall u, uposatha_string u = ""%string <-> u_Phase u = ""%string.
Proof.
  intros u. unfold uposatha_string. destruct (String.eqb_spec (u_Phase u) "") as [->|N]; [tauto|]. split; [|contradiction].
  intros E. apply (f_equal String.length) in E. rewrite !string_length_app in E. cbn in E. lia.
Qed.
Theorem C47_empty_moon : forall p, moon_string p = ""%string <-> p = ""%string.
Proof.
  intros p. unfold moon_string. destruct (String.eqb_spec p "") as [->|N]; [tauto|]. split; [|contradiction].
  intros E. apply (f_equal String.length) in E. rewrite !string_length_app in E. cbn in E. lia.
Qed.
(** A day is shown as the summaries of its three moons, in this order; an absent moon leaves its place empty. *)
Theorem C47_day : forall l, calday_string (run l) =
  String.concat ", "
    [match last_of (uposathas_of (map put l)) with u :: _ => ev_string (EvUposatha u) | [] => ""%string end;
     match last_of (astros_of (map put l)) with a :: _ => ev_string (EvAstro a) | [] => ""%string end;
     match last_of (halves_of (map put l)) with h :: _ => ev_string (EvHalf h) | [] => ""%string end].
Proof.
  intros l. unfold calday_string. destruct (C40_accessors l) as (_ & _ & _ & _ & _ & _ & -> & -> & ->).
  destruct (last_of (uposathas_of _)), (last_of (astros_of _)), (last_of (halves_of _)); reflexivity.
Qed.
Theorem C47_injective : forall u v,
  (u_Phase u = "new" \/ u_Phase u = "full")%string -> (u_Phase v = "new" \/ u_Phase v = "full")%string ->
  1 <= u_LunarSeason u <= 3 -> 1 <= u_LunarSeason v <= 3 ->
  uposatha_string u = uposatha_string v ->
  u_Phase u = u_Phase v /\ u_U_Days u = u_U_Days v /\ u_LunarSeason u = u_LunarSeason v /\
  u_S_Number u = u_S_Number v /\ u_S_Total u = u_S_Total v.
Proof.
  intros u v Pu Pv Su Sv. unfold uposatha_string.
  assert (T : forall p q r r' : string, (p = "new" \/ p = "full")%string -> (q = "new" \/ q = "full")%string ->
    (title p ++ " Moon - " ++ r = title q ++ " Moon - " ++ r')%string -> p = q /\ r = r').
  { intros p q r r' [->| ->] [->| ->] E; cbn in E; try discriminate E; injection E as ->; split; reflexivity. }
  assert (Se : forall a b r r', 1 <= a <= 3 -> 1 <= b <= 3 ->
    (season_name a ++ " " ++ r = season_name b ++ " " ++ r')%string -> a = b /\ r = r').
  { intros a b r r' Ha Hb E. assert (Ca : a = 1 \/ a = 2 \/ a = 3) by lia. assert (Cb : b = 1 \/ b = 2 \/ b = 3) by lia.
    destruct Ca as [->|[->| ->]], Cb as [->|[->| ->]]; cbn in E; try discriminate E; injection E as ->; split; reflexivity. }
  replace (String.eqb (u_Phase u) "") with false by (destruct Pu as [->| ->]; reflexivity).
  replace (String.eqb (u_Phase v) "") with false by (destruct Pv as [->| ->]; reflexivity).
  intros E. apply T in E; [|assumption..]. destruct E as [E1 E].
  apply fmt_d_split in E; [|reflexivity..]. destruct E as [E2 E]. cbn [append] in E. injection E as E.
  apply Se in E; [|assumption..]. destruct E as [E3 E].
  apply fmt_d_split in E; [|reflexivity..]. destruct E as [E4 E]. cbn [append] in E. injection E as E.
  apply fmt_d_inj in E. auto.
Qed.
(** The summaries of the uposathas of a lunar year: a common year, one with an extra day (15 days instead of 14 before
    the eighth new moon uposatha) and one with an extra month (ten uposathas in Gimha). *)
Definition common_texts : list string :=
  ["New Moon - 15 day Hemanta 1/8"; "Full Moon - 15 day Hemanta 2/8"; "New Moon - 14 day Hemanta 3/8"; "Full Moon - 15 day Hemanta 4/8";
   "New Moon - 15 day Hemanta 5/8"; "Full Moon - 15 day Hemanta 6/8"; "New Moon - 14 day Hemanta 7/8"; "Full Moon - 15 day Hemanta 8/8";
   "New Moon - 15 day Gimha 1/8"; "Full Moon - 15 day Gimha 2/8"; "New Moon - 14 day Gimha 3/8"; "Full Moon - 15 day Gimha 4/8";
   "New Moon - 15 day Gimha 5/8"; "Full Moon - 15 day Gimha 6/8"; "New Moon - 14 day Gimha 7/8"; "Full Moon - 15 day Gimha 8/8";
   "New Moon - 15 day Vassāna 1/8"; "Full Moon - 15 day Vassāna 2/8"; "New Moon - 14 day Vassāna 3/8"; "Full Moon - 15 day Vassāna 4/8";
   "New Moon - 15 day Vassāna 5/8"; "Full Moon - 15 day Vassāna 6/8"; "New Moon - 14 day Vassāna 7/8"; "Full Moon - 15 day Vassāna 8/8"]%string.
Definition long_month_texts : list string :=
  ["New Moon - 15 day Hemanta 1/8"; "Full Moon - 15 day Hemanta 2/8"; "New Moon - 14 day Hemanta 3/8"; "Full Moon - 15 day Hemanta 4/8";
   "New Moon - 15 day Hemanta 5/8"; "Full Moon - 15 day Hemanta 6/8"; "New Moon - 14 day Hemanta 7/8"; "Full Moon - 15 day Hemanta 8/8";
   "New Moon - 15 day Gimha 1/8"; "Full Moon - 15 day Gimha 2/8"; "New Moon - 14 day Gimha 3/8"; "Full Moon - 15 day Gimha 4/8";
   "New Moon - 15 day Gimha 5/8"; "Full Moon - 15 day Gimha 6/8"; "New Moon - 15 day Gimha 7/8"; "Full Moon - 15 day Gimha 8/8";
   "New Moon - 15 day Vassāna 1/8"; "Full Moon - 15 day Vassāna 2/8"; "New Moon - 14 day Vassāna 3/8"; "Full Moon - 15 day Vassāna 4/8";
   "New Moon - 15 day Vassāna 5/8"; "Full Moon - 15 day Vassāna 6/8"; "New Moon - 14 day Vassāna 7/8"; "Full Moon - 15 day Vassāna 8/8"]%string.
Definition extra_month_texts : list string :=
  ["New Moon - 15 day Hemanta 1/8"; "Full Moon - 15 day Hemanta 2/8"; "New Moon - 14 day Hemanta 3/8"; "Full Moon - 15 day Hemanta 4/8";
   "New Moon - 15 day Hemanta 5/8"; "Full Moon - 15 day Hemanta 6/8"; "New Moon - 14 day Hemanta 7/8"; "Full Moon - 15 day Hemanta 8/8";
   "New Moon - 15 day Gimha 1/10"; "Full Moon - 15 day Gimha 2/10"; "New Moon - 14 day Gimha 3/10"; "Full Moon - 15 day Gimha 4/10";
   "New Moon - 15 day Gimha 5/10"; "Full Moon - 15 day Gimha 6/10"; "New Moon - 14 day Gimha 7/10"; "Full Moon - 15 day Gimha 8/10";
   "New Moon - 15 day Gimha 9/10"; "Full Moon - 15 day Gimha 10/10"; "New Moon - 15 day Vassāna 1/8"; "Full Moon - 15 day Vassāna 2/8";
   "New Moon - 14 day Vassāna 3/8"; "Full Moon - 15 day Vassāna 4/8"; "New Moon - 15 day Vassāna 5/8"; "Full Moon - 15 day Vassāna 6/8";
   "New Moon - 14 day Vassāna 7/8"; "Full Moon - 15 day Vassāna 8/8"]%string.
Theorem C47_year : forall cfg y k,
  kattika_within cfg 1 118 y -> (exists hi, kattika_within cfg 1 hi (y + 1)) -> exclusive cfg y ->
  previous_kattika cfg y = Some k ->
  let a := is_adhikamasa (su_init y) in let v := is_adhikavara cfg (su_init y) in
  map uposatha_string (chain cfg (kattika_moon k) 1 (if a then 26 else 24)) =
    if a then extra_month_texts else if v then long_month_texts else common_texts.
Proof.
  intros cfg y k H1 [hi H2] Hx E. rewrite previous_kattika_eq in E. apply some_inj' in E. rewrite E. cbv zeta.
  rewrite kattika_moon_seed, <- moons_chain.
  pose proof (lunar_year cfg y (valid_within cfg y hi H1 H2 Hx)) as [L _]. cbv zeta in L. unfold moon_count in L. unfold am in L.
  rewrite L. clear L. unfold exclusive in Hx. rewrite !map_map. generalize (kday cfg y). intros kd.
  destruct (is_adhikamasa (su_init y)), (is_adhikavara cfg (su_init y)); try discriminate Hx; vm_compute; reflexivity.
Qed.
(** Numbers outside the seasons have no name. *)
Theorem C47_no_season : forall n, season_name n = ""%string <-> n < 1 \/ 3 < n.
Proof.
  intros n. unfold season_name. destruct (Z.eqb_spec n 1), (Z.eqb_spec n 2), (Z.eqb_spec n 3); split; try discriminate; try lia; reflexivity.
Qed.
Example C47_example :
  uposatha_string (mkUposatha (time_date 2016 7 19 0 0) 0 2 "full" "asalha" 8 8 15 29 8 2 2559 false "" "")
    = "Full Moon - 15 day Gimha 8/8"%string.
Proof. reflexivity. Qed.
(** CalDay.String keeps its separators when there is nothing to separate. *)
Example C47_empty_day : calday_string zero_calday = ", , "%string.
Proof. reflexivity. Qed.

(** * C50 The command line accepts exactly the valid dates *)
Theorem C50_accepts : forall s t, parse_date s = Some t <->
  exists y m d, 0 <= y <= 9999 /\ civil_date y m d /\ s = iso_date y m d /\ t = time_date y m d 0 0.
Proof.
  intros s t. split; [apply parse_sound|]. intros (y & m & d & Hy & Hc & -> & ->). apply parse_complete; assumption.
Qed.
(** The date parsed is the one written: nothing is normalised. *)
Theorem C50_reads_back : forall y m d, 0 <= y <= 9999 -> civil_date y m d ->
  exists t, parse_date (iso_date y m d) = Some t /\ time_year t = y /\ time_month t = m /\ time_mday t = d /\
    clock_ns t = 0 /\ t_off t = 0 /\ format_date t = iso_date y m d.
Proof.
  intros y m d Hy Hc. exists (time_date y m d 0 0). split; [apply parse_complete; assumption|].
  destruct (day_number_parts y m d Hc) as (E1 & E2 & E3).
  assert (L : local_day (time_date y m d 0 0) = day_number y m d) by (rewrite day_number_date, local_day_midnight; reflexivity).
  assert (Y : time_year (time_date y m d 0 0) = y) by (unfold time_year; rewrite L; exact E1).
  assert (M : time_month (time_date y m d 0 0) = m) by (unfold time_month; rewrite L; exact E2).
  assert (D : time_mday (time_date y m d 0 0) = d) by (unfold time_mday; rewrite L; exact E3).
  split; [exact Y|]. split; [exact M|]. split; [exact D|]. split.
  { unfold clock_ns, local_ns, time_date. cbn [t_ns t_off]. replace (day_number y m d * day_ns + 0 - 0 * second_ns + 0 * second_ns) with (day_number y m d * day_ns) by lia.
    apply Z_mod_mult. }
  split; [reflexivity|]. unfold format_date. rewrite Y, M, D. apply civil_iff in Hc. destruct Hc as [Hm Hd].
  assert (d <= 31).
  { rewrite days_in_length in Hd by exact Hm. pose proof (month_length_31 (is_leap y) m Hm). lia. }
  unfold iso_date. rewrite four_padded, !two_padded by lia. reflexivity.
Qed.
(** The range of a run: each flag if given, else the first resp. last day of this year. *)
Theorem C50_range : forall now from to f t, cli_init now from to = Some (f, t) <->
  (if String.eqb from "" then f = time_date now 1 1 0 0 else parse_date from = Some f) /\
  (if String.eqb to "" then t = time_date now 12 31 0 0 else parse_date to = Some t).
Proof.
  intros now from to f t. unfold cli_init, flag_date. destruct (String.eqb from ""), (String.eqb to "").
  - split; [intros E; injection E as <- <-; split; reflexivity|intros [-> ->]; reflexivity].
  - destruct (parse_date to); split; [intros E; injection E as <- <-; split; reflexivity|intros [-> E]; congruence|discriminate|intros [_ E]; discriminate].
  - destruct (parse_date from); split; [intros E; injection E as <- <-; split; reflexivity|intros [E ->]; congruence|discriminate|intros [E _]; discriminate].
  - destruct (parse_date from), (parse_date to); split; try discriminate; try (intros [E1 E2]; congruence).
    intros E; injection E as <- <-; split; reflexivity.
Qed.
(** Without flags the output has every uposatha and half moon of the year... *)
Theorem C50_default_year : forall cfg fs now f t l, cli_init now "" "" = Some (f, t) -> get_cal_days cfg fs f t = Some (Ok l) ->
  (forall u, In u (uposathas_of (events_of_year cfg now)) -> exists c, In c l /\ utc_day (cd_Date c) = utc_day (u_Date u) /\ cd_Uposatha c = [u]) /\
  (forall h, In h (halves_of (events_of_year cfg now)) -> exists c, In c l /\ utc_day (cd_Date c) = utc_day (h_Date h) /\ cd_Half c = [h]).
Proof.
  intros cfg fs now f t l E H. injection E as <- <-.
  destruct (C28_no_moon_missed cfg fs (time_date now 1 1 0 0) (time_date now 12 31 0 0) l eq_refl eq_refl H) as [Hu Hh].
  assert (R : forall d, year_of_day d = now -> time_before (midnight d) (time_date now 1 1 0 0) = false /\ time_after (midnight d) (time_date now 12 31 0 0) = false).
  { intros d Hd. apply year_of_day_iff in Hd. rewrite !day_number_date. unfold time_before, time_after, midnight. cbn [t_ns].
    pose proof (days_before_year_succ now) as S.
    rewrite day_number_jan1, day_number_dec31. unfold day_ns. lia. }
  split.
  - intros u Hi. destruct (year_uposatha_date cfg now u Hi) as (d & Ed & Ey). destruct (R d Ey). apply (Hu now u Hi); rewrite Ed; assumption.
  - intros u Hi. destruct (year_half_date cfg now u Hi) as (d & Ed & Ey). destruct (R d Ey). apply (Hh now u Hi); rewrite Ed; assumption.
Qed.
Example C50_example : parse_date "2016-02-29" = Some (time_date 2016 2 29 0 0) /\ parse_date "2015-02-29" = None /\
  parse_date "2015-2-28" = None /\ parse_date "2015-02-28 " = None /\ parse_date "+015-02-28" = None.
Proof. repeat split; reflexivity. Qed.

(** * C43 caldays groups every day under its own year exactly once *)
Lemma same_key d y : String.eqb (group_key d) (numeral y) = (time_year (cd_Date d) =? y).
Proof.
  unfold group_key. change (numeral y) with (fmt_d y). destruct (String.eqb_spec (fmt_d (time_year (cd_Date d))) (fmt_d y)) as [E|N].
  - apply fmt_d_inj in E. symmetry. apply Z.eqb_eq. exact E.
  - symmetry. apply Z.eqb_neq. congruence.
Qed.
Theorem C43_groups : forall l,
  NoDup (map fst (days_by_year l)) /\
  forall k ds, In (k, ds) (days_by_year l) <->
    exists y, k = numeral y /\ ds = filter (fun d => time_year (cd_Date d) =? y) l /\ ds <> [].
Proof.
  intros l. destruct (group_spec group_key l) as [Hn Hg]. split; [exact Hn|]. intros k ds. change (days_by_year l) with (group_all group_key l). rewrite Hg. split.
  - intros [E N]. destruct ds as [|c ds]; [congruence|].
    assert (I : In c (filter (fun d => (group_key d =? k)%string) l)) by (rewrite <- E; left; reflexivity).
    apply filter_In in I. destruct I as [_ I]. apply String.eqb_eq in I. exists (time_year (cd_Date c)).
    split; [symmetry; exact I|]. split; [|exact N]. rewrite E, <- I. apply filter_ext. intros d. apply same_key.
  - intros (y & -> & E & N). split; [|exact N]. rewrite E. apply filter_ext. intros d. symmetry. apply same_key.
Qed.
(** With four-digit years the groups, in the order json.Marshal writes them, are the result
    cut into years. *)
Theorem C43_concatenation : forall cfg fs from to l,
  get_cal_days cfg fs from to = Some (Ok l) ->
  (forall c, In c l -> 1000 <= time_year (cd_Date c) <= 9999) ->
  flat_map snd (sort_keys (days_by_year l)) = l.
Proof.
  intros cfg fs from to l H Hy. destruct (cal_days_merged cfg fs from to l H) as (ms & _ & (_ & Hm & _) & Hs).
  destruct (group_spec group_key l) as [Hn Hg]. fold (days_by_year l) in Hn, Hg.
  assert (F : flat_map snd (sort_keys (days_by_year l)) = flat_map (fun k => filter (fun d => String.eqb (group_key d) k) l) (map fst (sort_keys (days_by_year l)))).
  { assert (G : forall m, (forall p, In p m -> In p (days_by_year l)) -> flat_map snd m = flat_map (fun k => filter (fun d => String.eqb (group_key d) k) l) (map fst m)).
    { induction m as [|[k ds] m IH]; intros Hi; [reflexivity|]. cbn [flat_map map fst snd]. rewrite IH by (intros p Hp; apply Hi; right; exact Hp).
      f_equal. apply (Hg k ds). apply Hi. left. reflexivity. }
    apply G. intros p Hp. apply (Permutation_in _ (Permutation_sym (sort_keys_perm _)) Hp). }
  rewrite F. apply (regroup group_key).
  - exact (sorted_map before_key key_lt fst _ (fun a b H => H) (sort_keys_sorted _ Hn)).
  - intros c Hc. apply (Permutation_in _ (Permutation_map fst (sort_keys_perm _))).
    apply in_map_iff. exists (group_key c, filter (fun d => String.eqb (group_key d) (group_key c)) l). split; [reflexivity|]. apply Hg. split; [reflexivity|].
    intros E. assert (I : In c (filter (fun d => String.eqb (group_key d) (group_key c)) l)) by (apply filter_In; split; [exact Hc|apply String.eqb_refl]).
    rewrite E in I. destruct I.
  - eapply sorted_weaken; [|exact Hs]. intros a b Ha Hb Hab. unfold group_key.
    destruct (Hm a Ha) as (_ & Oa & _). destruct (Hm b Hb) as (_ & Ob & _).
    assert (L : time_year (cd_Date a) <= time_year (cd_Date b)).
    { rewrite !year_utc by assumption. apply year_of_day_mono. apply before_day. exact Hab. }
    destruct (Z.eq_dec (time_year (cd_Date a)) (time_year (cd_Date b))) as [->|N]; [left; reflexivity|]. right.
    pose proof (Hy a Ha). pose proof (Hy b Hb). apply numeral_order; lia.
Qed.
(** Not so with years of different lengths: "1000" is written before "999". *)
Theorem C43_key_order_refuted :
  match get_cal_days cfg_default embedded_fs (time_date 999 12 25 0 0) (time_date 1000 1 10 0 0) with
  | Some (Ok l) => map (fun c => time_year (cd_Date c)) l = [999; 1000] /\ map fst (sort_keys (days_by_year l)) = ["1000"; "999"]%string
  | _ => False
  end.
Proof. vm_compute. auto. Qed.
Example C43_example :
  match get_cal_days cfg_default embedded_fs (time_date 2016 12 20 0 0) (time_date 2017 1 14 0 0) with
  | Some (Ok l) => map (fun p => (fst p, List.length (snd p))) (sort_keys (days_by_year l)) = [("2016", 4%nat); ("2017", 2%nat)]%string
  | _ => False
  end.
Proof. vm_compute. reflexivity. Qed.

(** * C44 ical *)
(** ** Lemmas *)
Lemma perm_by_key {A} (f : A -> Z) (l : list A) : forall m,
  (forall d, Permutation (filter (fun x => f x =? d) l) (filter (fun x => f x =? d) m)) -> Permutation l m.
Proof.
  induction l as [|a l IH]; intros m H.
  - destruct m as [|b m]; [constructor|]. specialize (H (f b)). cbn [filter] in H. rewrite Z.eqb_refl in H. apply Permutation_nil in H. discriminate.
  - assert (I : In a m).
    { specialize (H (f a)). cbn [filter] in H. rewrite Z.eqb_refl in H. assert (X : In a (filter (fun x => f x =? f a) m)) by (apply (Permutation_in _ H); left; reflexivity).
      apply filter_In in X. apply X. }
    apply in_split in I. destruct I as (m1 & m2 & ->). apply Permutation_cons_app. apply IH. intros d. specialize (H d).
    rewrite filter_app in H |- *. cbn [filter] in H. destruct (f a =? d); [apply (Permutation_cons_app_inv _ _ H)|exact H].
Qed.
Definition tagged (es : list CalendarEvent) : list CalendarEvent :=
  map EvUposatha (uposathas_of es) ++ map EvHalf (halves_of es) ++ map EvMajor (majors_of es).
Definition library_event (e : CalendarEvent) : Prop := match e with EvAstro _ | EvEvent _ => False | _ => True end.
Lemma tagged_perm es : Forall library_event es -> Permutation es (tagged es).
Proof.
  unfold tagged. induction 1 as [|e es He Hes IH]; [constructor|]. destruct e; cbn [library_event] in He; try contradiction; cbn [uposathas_of halves_of majors_of map app].
  - apply perm_skip. exact IH.
  - apply Permutation_cons_app. exact IH.
  - rewrite app_assoc. apply Permutation_cons_app. rewrite <- app_assoc. exact IH.
Qed.
Lemma year_library cfg y : Forall library_event (events_of_year cfg y).
Proof.
  unfold events_of_year. destruct (generate_spec cfg y) as (p & E & _). rewrite E. clear E.
  induction (moons cfg p (kattika_seed (midnight (kday cfg y)))) as [|u l IH]; cbn [flat_map]; [constructor|]. apply Forall_app. split; [|exact IH].
  unfold uposatha_events, major_events. repeat (apply Forall_app; split);
    repeat match goal with |- context [if ?b then _ else _] => destruct b end;
    repeat (apply Forall_app; split); repeat (apply Forall_cons || apply Forall_nil); exact I.
Qed.
Lemma generated_library cfg from to : Forall library_event (generated cfg from to).
Proof.
  unfold generated. apply Forall_forall. intros e He. apply filter_In in He. destruct He as [He _].
  apply in_flat_map in He. destruct He as (y & _ & He). pose proof (year_library cfg y) as H. rewrite Forall_forall in H. apply H. exact He.
Qed.
Lemma library_plain es : Forall library_event es -> plain_events_of es = [].
Proof. induction 1 as [|e es He _ IH]; [reflexivity|]. destruct e; cbn [library_event] in He; try contradiction; exact IH. Qed.
Lemma plain_in l u : In u (plain_events_of l) -> In (EvEvent u) l.
Proof.
  induction l as [|e l IH]; [intros []|]. destruct e; cbn [plain_events_of]; try (intros H; right; exact (IH H)).
  intros [->|H]; [left; reflexivity|right; exact (IH H)].
Qed.

Lemma ical_day_entry es : ical_day (entry_of es) =
  map ical_event (map EvUposatha (last_of (uposathas_of es)) ++ map EvHalf (last_of (halves_of es)) ++ map EvMajor (majors_of es) ++ map EvEvent (plain_events_of es)).
Proof.
  unfold ical_day, entry_of. cbn [cd_Uposatha cd_Half cd_Major cd_Events]. rewrite !map_app, !map_map. f_equal; [|f_equal].
  - destruct (last_of_cases (uposathas_of es)) as [-> |[x ->]]; reflexivity.
  - destruct (last_of_cases (halves_of es)) as [-> |[x ->]]; reflexivity.
Qed.
Lemma ical_day_from es v : In v (ical_day (entry_of es)) -> exists e, In e es /\ v = ical_event e.
Proof.
  rewrite ical_day_entry. intros H. apply in_map_iff in H. destruct H as (e & <- & H). exists e. split; [|reflexivity].
  apply in_app_or in H. destruct H as [H|H]; [apply in_map_iff in H; destruct H as (x & <- & H); apply uposathas_in; apply last_of_in; exact H|].
  apply in_app_or in H. destruct H as [H|H]; [apply in_map_iff in H; destruct H as (x & <- & H); apply halves_in; apply last_of_in; exact H|].
  apply in_app_or in H. destruct H as [H|H]; apply in_map_iff in H; destruct H as (x & <- & H); [apply majors_in; exact H|apply plain_in; exact H].
Qed.
Definition vday (v : VEvent) : Z := utc_day (v_start v).
Lemma ical_day_date evs l c v : merged evs l -> In c l -> In v (ical_day c) -> vday v = dayof c.
Proof.
  intros (_ & Hm & _) Hc Hv. destruct (Hm c Hc) as (E & _ & _). rewrite E in Hv. destruct (ical_day_from _ v Hv) as (e & He & ->).
  unfold events_on in He. apply filter_In in He. destruct He as [_ He]. apply Z.eqb_eq in He. exact He.
Qed.
Lemma ical_filter evs l d : merged evs l -> filter (fun v => vday v =? d) (ical_events l) = flat_map ical_day (entries_on d l).
Proof.
  intros M. unfold ical_events. assert (G : forall l', (forall c, In c l' -> In c l) ->
    filter (fun v => vday v =? d) (flat_map ical_day l') = flat_map ical_day (entries_on d l')).
  { induction l' as [|c l' IH]; intros Hi; [reflexivity|]. cbn [flat_map entries_on filter]. rewrite filter_app, IH by (intros x Hx; apply Hi; right; exact Hx).
    assert (D : forall v, In v (ical_day c) -> vday v = dayof c) by (intros v Hv; apply (ical_day_date evs l c v M (Hi c (or_introl eq_refl)) Hv)).
    fold (dayof c). fold (entries_on d l'). destruct (Z.eqb_spec (dayof c) d) as [E|N]; cbn [flat_map].
    - f_equal. clear - D E. induction (ical_day c) as [|v vs IH]; [reflexivity|]. cbn [filter]. rewrite (D v (or_introl eq_refl)), E, Z.eqb_refl.
      f_equal. apply IH. intros w Hw. apply D. right. exact Hw.
    - replace (filter (fun v => vday v =? d) (ical_day c)) with (@nil VEvent); [reflexivity|]. clear - D N. induction (ical_day c) as [|v vs IH]; [reflexivity|]. cbn [filter].
      rewrite (D v (or_introl eq_refl)). apply Z.eqb_neq in N. rewrite N. apply IH. intros w Hw. apply D. right. exact Hw. }
  apply G. trivial.
Qed.
Lemma last_of_small {A} (l : list A) : (forall x, In x l -> l = [x]) -> last_of l = l.
Proof. destruct l as [|x l]; [reflexivity|]. intros H. rewrite (H x (or_introl eq_refl)). reflexivity. Qed.

(** For a range in UTC, the iCalendar events of each day are those of the uposatha, the half
    moon and the major events of that day, in this order; nothing for astro moons. *)
Theorem C44_day : forall cfg fs from to l d, t_off from = 0 -> t_off to = 0 ->
  get_cal_days cfg fs from to = Some (Ok l) ->
  let evs := events_on d (generated cfg from to) in
  filter (fun v => utc_day (v_start v) =? d) (ical_events l) =
  map ical_event (map EvUposatha (uposathas_of evs) ++ map EvHalf (halves_of evs) ++ map EvMajor (majors_of evs)).
Proof.
  intros cfg fs from to l d Hf Ht H evs. destruct (cal_days_merged cfg fs from to l H) as (ms & _ & M & _).
  change (fun v => utc_day (v_start v) =? d) with (fun v => vday v =? d). rewrite (ical_filter _ l d M), (merged_on _ l d M).
  unfold all_events. rewrite events_on_app. fold evs. destruct (astro_none ms d) as (A1 & A2 & A3 & A4).
  assert (U : last_of (uposathas_of evs) = uposathas_of evs).
  { unfold evs. rewrite uposathas_on by assumption. destruct (day_in from to d); [apply last_of_one_up|reflexivity]. }
  assert (V : last_of (halves_of evs) = halves_of evs).
  { unfold evs. rewrite halves_on by assumption. destruct (day_in from to d); [apply last_of_one_half|reflexivity]. }
  assert (P : plain_events_of evs = []).
  { apply library_plain. unfold evs, events_on. apply Forall_forall. intros e He. apply filter_In in He. destruct He as [He _].
    pose proof (generated_library cfg from to) as L. rewrite Forall_forall in L. exact (L e He). }
  set (as_ := events_on d (map EvAstro ms)) in *.
  assert (G : ical_day (entry_of (as_ ++ evs)) = map ical_event (map EvUposatha (uposathas_of evs) ++ map EvHalf (halves_of evs) ++ map EvMajor (majors_of evs))).
  { rewrite ical_day_entry, uposathas_app, halves_app, majors_app, plain_app, A1, A2, A3, A4. cbn [app]. rewrite U, V, P. cbn [map]. rewrite app_nil_r. reflexivity. }
  destruct (as_ ++ evs) as [|e es] eqn:E.
  - apply app_eq_nil in E. destruct E as [_ ->]. reflexivity.
  - cbn [flat_map]. rewrite app_nil_r. exact G.
Qed.
(** One iCalendar event for each generated event in the range, and no other. *)
Theorem C44_exact : forall cfg fs from to l, t_off from = 0 -> t_off to = 0 ->
  get_cal_days cfg fs from to = Some (Ok l) ->
  Permutation (ical_events l) (map ical_event (generated cfg from to)).
Proof.
  intros cfg fs from to l Hf Ht H. apply (perm_by_key vday). intros d.
  change (fun x => vday x =? d) with (fun v => utc_day (v_start v) =? d). rewrite (C44_day cfg fs from to l d Hf Ht H). cbv zeta.
  assert (F : forall es, filter (fun v => utc_day (v_start v) =? d) (map ical_event es) = map ical_event (events_on d es)).
  { induction es as [|e es IH]; [reflexivity|]. cbn [map filter events_on]. unfold ical_event at 1. cbn [v_start].
    destruct (utc_day (ev_date e) =? d); cbn [map]; rewrite IH; reflexivity. }
  rewrite F. apply Permutation_map. apply Permutation_sym. apply (tagged_perm (events_on d (generated cfg from to))).
  unfold events_on. apply Forall_forall. intros e He. apply filter_In in He. destruct He as [He _].
  pose proof (generated_library cfg from to) as L. rewrite Forall_forall in L. exact (L e He).
Qed.
(** In date order, all at midnight UTC, lasting a day. *)
Theorem C44_order : forall cfg fs from to l, t_off from = 0 -> t_off to = 0 ->
  get_cal_days cfg fs from to = Some (Ok l) ->
  StronglySorted (fun a b => time_after (v_start a) (v_start b) = false) (ical_events l) /\
  forall v, In v (ical_events l) -> exists d, v_start v = midnight d /\ v_end v = midnight (d + 1).
Proof.
  intros cfg fs from to l Hf Ht H.
  assert (Mid : forall v, In v (ical_events l) -> exists d, v_start v = midnight d /\ v_end v = midnight (d + 1)).
  { intros v Hv. apply (Permutation_in _ (C44_exact cfg fs from to l Hf Ht H)) in Hv. apply in_map_iff in Hv. destruct Hv as (e & <- & He).
    pose proof (generated_midnight cfg from to) as L. rewrite Forall_forall in L. destruct (L e He) as [d Ed]. exists d. unfold ical_event. cbn [v_start v_end]. rewrite Ed. split; [reflexivity|].
    change (24 * hour_ns) with (1 * day_ns). apply midnight_add. }
  split; [|exact Mid]. destruct (cal_days_merged cfg fs from to l H) as (ms & _ & M & Hs). pose proof M as (Hn & _).
  pose proof (sorted_days l Hs Hn) as Hd.
  assert (D : forall c v, In c l -> In v (ical_day c) -> vday v = dayof c) by (intros c v; apply (ical_day_date _ l c v M)).
  assert (S : StronglySorted (fun a b => vday a <= vday b) (ical_events l)).
  { clear - Hd D. unfold ical_events. induction Hd as [|c l Hd IH Hc]; cbn [flat_map]; [constructor|].
    assert (Dc : forall v, In v (ical_day c) -> vday v = dayof c) by (intros v; apply D; left; reflexivity).
    assert (R : Forall (fun w => dayof c < vday w) (flat_map ical_day l)).
    { apply Forall_forall. intros w Hw. apply in_flat_map in Hw. destruct Hw as (c' & Hc' & Hw). rewrite (D c' w (or_intror Hc') Hw).
      rewrite Forall_forall in Hc. exact (Hc c' Hc'). }
    specialize (IH (fun c' v Hc' => D c' v (or_intror Hc'))). induction (ical_day c) as [|v vs IHv]; cbn [app]; [exact IH|]. constructor.
    - apply IHv. intros w Hw. apply Dc. right. exact Hw.
    - apply Forall_app. split.
      + apply Forall_forall. intros w Hw. rewrite (Dc v (or_introl eq_refl)), (Dc w (or_intror Hw)). lia.
      + eapply Forall_impl; [|exact R]. intros w Hw. cbv beta in Hw |- *. rewrite (Dc v (or_introl eq_refl)). lia. }
  eapply sorted_weaken; [|exact S]. intros a b Ha Hb Hab. unfold vday in Hab. destruct (Mid a Ha) as (x & Ea & _). destruct (Mid b Hb) as (y & Eb & _).
  rewrite Ea, Eb, !utc_day_midnight in Hab. rewrite Ea, Eb. unfold time_after, midnight. cbn [t_ns]. unfold day_ns. lia.
Qed.
Example C44_example :
  match get_cal_days cfg_default embedded_fs (time_date 2016 10 10 0 0) (time_date 2016 10 20 0 0) with
  | Some (Ok l) => map (fun v => (v_start v, v_summary v)) (ical_events l) =
      [(time_date 2016 10 16 0 0, "Full Moon - 15 day Vassāna 6/8"); (time_date 2016 10 16 0 0, "Pavāraṇā Day");
       (time_date 2016 10 16 0 0, "Last day of Vassa")]%string
  | _ => False
  end.
Proof. vm_compute. reflexivity. Qed.
