(** Theorem C51: what the caldays command prints. *)
From Coq Require Import ZArith Lia Bool ZifyBool List String Ascii Permutation Sorted.
From Verif Require Import GoTime SuriyaYear Helpers UposathaMoon CalDay AstroMoon AstroFS Text Cli Spec SpecCal SpecAstro SpecText.
From Verif Require Import P_Time P_CalDays P_CalDays2 P_Text P_Date P_Cli P_Json Prop_Days Prop_Astro Prop_Cli.
Import ListNotations.
Open Scope Z_scope.

(** ** Lemmas *)
Definition times (c : CalDay) : list time :=
  cd_Date c :: map u_Date (cd_Uposatha c) ++ map h_Date (cd_Half c) ++ map a_Date (cd_Astro c) ++ map e_Date (cd_Major c) ++ map e_Date (cd_Events c).
Lemma astros_in l u : In u (astros_of l) -> In (EvAstro u) l.
Proof.
  induction l as [|e l IH]; [intros []|]. destruct e; cbn [astros_of]; try (intros H; right; exact (IH H)).
  intros [->|H]; [left; reflexivity|right; exact (IH H)].
Qed.
Lemma entry_times es t : es <> [] -> In t (times (entry_of es)) -> exists e, In e es /\ t = ev_date e.
Proof.
  intros N [<-|H]; [apply entry_last; exact N|]. cbn [entry_of cd_Uposatha cd_Half cd_Astro cd_Major cd_Events] in H.
  apply in_app_or in H. destruct H as [H|H].
  { apply in_map_iff in H. destruct H as (x & <- & H). apply last_of_in, uposathas_in in H. eexists. split; [exact H|reflexivity]. }
  apply in_app_or in H. destruct H as [H|H].
  { apply in_map_iff in H. destruct H as (x & <- & H). apply last_of_in, halves_in in H. eexists. split; [exact H|reflexivity]. }
  apply in_app_or in H. destruct H as [H|H].
  { apply in_map_iff in H. destruct H as (x & <- & H). apply last_of_in, astros_in in H. eexists. split; [exact H|reflexivity]. }
  apply in_app_or in H. destruct H as [H|H].
  { apply in_map_iff in H. destruct H as (x & <- & H). apply majors_in in H. eexists. split; [exact H|reflexivity]. }
  apply in_map_iff in H. destruct H as (x & <- & H). apply plain_in in H. eexists. split; [exact H|reflexivity].
Qed.
Lemma times_range cfg fs from to l c t : get_cal_days cfg fs from to = Some (Ok l) -> In c l -> In t (times c) ->
  t_off t = 0 /\ t_ns from <= t_ns t <= t_ns to.
Proof.
  intros H Hc Ht. destruct (cal_days_merged cfg fs from to l H) as (ms & A & (_ & Hm & _) & _). destruct (Hm c Hc) as (E & _ & N). rewrite E in Ht.
  destruct (entry_times _ t N Ht) as (e & He & ->). unfold events_on in He. apply filter_In in He. destruct He as [He _].
  pose proof (all_events_utc cfg fs from to ms A) as U. rewrite Forall_forall in U. split; [exact (U e He)|].
  unfold all_events in He. apply in_app_or in He. destruct He as [He|He].
  - apply in_map_iff in He. destruct He as (a & <- & Ha). cbn [ev_date].
    destruct (C30_exact fs from to) as [[E' _]|[E' _]]; rewrite A in E'; [|discriminate]. injection E' as ->.
    apply in_flat_map in Ha. destruct Ha as (y & _ & Ha). apply in_map_iff in Ha. destruct Ha as (m & <- & Ha). apply filter_In in Ha. destruct Ha as [_ Ha].
    unfold in_period in Ha. unfold moon_of, time_utc. cbn [a_Date t_ns]. lia.
  - unfold generated in He. apply filter_In in He. destruct He as [_ He]. unfold in_range' in He. lia.
Qed.
Lemma utc_result cfg fs from to l c : get_cal_days cfg fs from to = Some (Ok l) -> In c l -> utc_calday c.
Proof.
  intros H Hc. assert (U : forall t, In t (times c) -> t_off t = 0) by (intros t Ht; apply (times_range cfg fs from to l c t H Hc Ht)).
  unfold times in U. unfold utc_calday. split; [apply U; left; reflexivity|].
  repeat split; apply Forall_forall; intros x Hx; apply U; right; repeat rewrite in_app_iff; 
    [left|right; left|right; right; left|right; right; right; left|right; right; right; right]; apply in_map; exact Hx.
Qed.
Lemma all_some_total {A B} (f : A -> option B) l : (forall x, In x l -> exists y, f x = Some y) -> exists ys, all_some (map f l) = Some ys.
Proof.
  induction l as [|x l IH]; intros H; [exists []; reflexivity|]. destruct (H x (or_introl eq_refl)) as [y Hy].
  destruct (IH (fun z Hz => H z (or_intror Hz))) as [ys Hys]. exists (y :: ys). cbn [map all_some]. rewrite Hy, Hys. reflexivity.
Qed.
Lemma json_list_total {A} (f : A -> option json) l : (forall x, In x l -> exists y, f x = Some y) -> exists j, json_list f l = Some j.
Proof. intros H. destruct (all_some_total f l H) as [ys E]. exists (JArr ys). unfold json_list. rewrite E. reflexivity. Qed.
Lemma json_field_total {A} n (f : A -> option json) l : (forall x, In x l -> exists y, f x = Some y) -> exists j, json_field n f l = Some j.
Proof.
  intros H. unfold json_field. destruct l as [|x l]; [eexists; reflexivity|]. destruct (json_list_total f (x :: l) H) as [j ->]. eexists. reflexivity.
Qed.
Lemma json_time_total t : 0 <= time_year t <= 9999 -> exists j, json_time t = Some j.
Proof. intros H. unfold json_time. replace ((0 <=? time_year t) && (time_year t <=? 9999)) with true by lia. eexists. reflexivity. Qed.
Lemma json_calday_total c : (forall t, In t (times c) -> 0 <= time_year t <= 9999) -> exists j, json_calday c = Some j.
Proof.
  unfold times. intros H. unfold json_calday.
  destruct (json_time_total _ (H _ (or_introl eq_refl))) as [t ->].
  destruct (json_field_total "UposathaMoon" json_uposatha (cd_Uposatha c)) as [u ->].
  { intros x Hx. unfold json_uposatha. destruct (json_time_total (u_Date x)) as [d ->]; [|eexists; reflexivity].
    apply H. right. apply in_or_app. left. apply in_map. exact Hx. }
  destruct (json_field_total "HalfMoon" json_half (cd_Half c)) as [h ->].
  { intros x Hx. unfold json_half. destruct (json_time_total (h_Date x)) as [d ->]; [|eexists; reflexivity].
    apply H. right. rewrite !in_app_iff. right. left. apply in_map. exact Hx. }
  destruct (json_field_total "AstroMoon" json_astro (cd_Astro c)) as [a ->].
  { intros x Hx. unfold json_astro. destruct (json_time_total (a_Date x)) as [d ->]; [|eexists; reflexivity].
    apply H. right. rewrite !in_app_iff. right. right. left. apply in_map. exact Hx. }
  destruct (json_field_total "MajorEvents" json_event (cd_Major c)) as [m ->].
  { intros x Hx. unfold json_event. destruct (json_time_total (e_Date x)) as [d ->]; [|eexists; reflexivity].
    apply H. right. rewrite !in_app_iff. right. right. right. left. apply in_map. exact Hx. }
  destruct (json_field_total "Events" json_event (cd_Events c)) as [e ->].
  { intros x Hx. unfold json_event. destruct (json_time_total (e_Date x)) as [d ->]; [|eexists; reflexivity].
    apply H. right. rewrite !in_app_iff. right. right. right. right. apply in_map. exact Hx. }
  eexists. reflexivity.
Qed.
Lemma sorted_group_in l k ds : In (k, ds) (sort_keys (days_by_year l)) <-> In (k, ds) (days_by_year l).
Proof. split; apply Permutation_in; [apply Permutation_sym|]; apply sort_keys_perm. Qed.
Lemma group_members l k ds c : In (k, ds) (sort_keys (days_by_year l)) -> In c ds -> In c l.
Proof.
  intros H Hc. apply sorted_group_in in H. apply (proj2 (C43_groups l)) in H. destruct H as (y & _ & -> & _). apply filter_In in Hc. apply Hc.
Qed.
Lemma year_between a b t : t_off a = 0 -> t_off b = 0 -> t_off t = 0 -> t_ns a <= t_ns t <= t_ns b -> time_year a <= time_year t <= time_year b.
Proof.
  intros Ha Hb Ht H. rewrite !year_utc by assumption. unfold utc_day. split; apply year_of_day_mono; apply Z.div_le_mono; (reflexivity || lia).
Qed.
Lemma flag_years now from to f t : 0 <= now <= 9999 -> cli_init now from to = Some (f, t) ->
  t_off f = 0 /\ t_off t = 0 /\ 0 <= time_year f /\ time_year t <= 9999.
Proof.
  intros Hn H. apply C50_range in H. destruct H as [Hf Ht].
  assert (Y : forall m d, civil_date now m d -> time_year (time_date now m d 0 0) = now).
  { intros m d Hc. rewrite day_number_date, time_year_midnight. apply (day_number_parts now m d Hc). }
  assert (Z : forall s x, parse_date s = Some x -> t_off x = 0 /\ 0 <= time_year x <= 9999).
  { intros s x Hx. destruct (parse_sound s x Hx) as (y & m & d & Hy & Hc & _ & ->). split; [reflexivity|].
    rewrite day_number_date, time_year_midnight, (proj1 (day_number_parts y m d Hc)). exact Hy. }
  assert (A : t_off f = 0 /\ 0 <= time_year f <= 9999).
  { destruct (String.eqb from ""); [|exact (Z _ _ Hf)]. subst f. split; [reflexivity|]. rewrite Y; [exact Hn|]. apply civil_iff. unfold days_in. destruct (is_leap now); vm_compute; intuition discriminate. }
  assert (B : t_off t = 0 /\ 0 <= time_year t <= 9999).
  { destruct (String.eqb to ""); [|exact (Z _ _ Ht)]. subst t. split; [reflexivity|]. rewrite Y; [exact Hn|]. apply civil_iff. unfold days_in. destruct (is_leap now); vm_compute; intuition discriminate. }
  lia.
Qed.
Lemma json_of_days_total cfg fs f t l : t_off f = 0 -> t_off t = 0 -> 0 <= time_year f -> time_year t <= 9999 ->
  get_cal_days cfg fs f t = Some (Ok l) -> exists j, json_of_days l = Some j.
Proof.
  intros Of Ot Yf Yt G. unfold json_of_days. destruct (all_some_total json_group (sort_keys (days_by_year l))) as [ys ->]; [|eexists; reflexivity].
  intros [k ds] Hp. unfold json_group. cbn [fst snd]. destruct (json_list_total json_calday ds) as [j ->]; [|eexists; reflexivity].
  intros c Hc. apply json_calday_total. intros x Hx. destruct (times_range cfg fs f t l c x G (group_members l k ds c Hp Hc) Hx) as [O R].
  pose proof (year_between f t x Of Ot O R). lia.
Qed.

(** * C51 The caldays command *)
(** With the embedded data the command prints for every pair of accepted flags; it never
    panics, loops or fails for them. *)
Theorem C51_always_prints : forall cfg now from to, 0 <= now <= 9999 ->
  (exists s, caldays_command cfg embedded_fs now from to = Some (Printed s)) <->
  ((from = "" \/ parse_date from <> None) /\ (to = "" \/ parse_date to <> None))%string.
Proof.
  intros cfg now from to Hn. split.
  - intros [s H]. unfold caldays_command in H. destruct (cli_init now from to) as [[f t]|] eqn:E; [|discriminate]. apply C50_range in E. destruct E as [Ef Et].
    split.
    + destruct (String.eqb_spec from "") as [->|]; [left; reflexivity|right; congruence].
    + destruct (String.eqb_spec to "") as [->|]; [left; reflexivity|right; congruence].
  - intros [Hf Ht]. assert (C : exists f t, cli_init now from to = Some (f, t)).
    { unfold cli_init, flag_date. destruct (String.eqb_spec from "") as [->|Nf], (String.eqb_spec to "") as [->|Nt].
      - eexists. eexists. reflexivity.
      - destruct Ht as [|Ht]; [contradiction|]. destruct (parse_date to); [eexists; eexists; reflexivity|congruence].
      - destruct Hf as [|Hf]; [contradiction|]. destruct (parse_date from); [eexists; eexists; reflexivity|congruence].
      - destruct Hf as [|Hf]; [contradiction|]. destruct Ht as [|Ht]; [contradiction|].
        destruct (parse_date from); [|congruence]. destruct (parse_date to); [eexists; eexists; reflexivity|congruence]. }
    destruct C as (f & t & C). destruct (flag_years now from to f t Hn C) as (Of & Ot & Yf & Yt).
    unfold caldays_command. rewrite C. destruct (C32_never_panics f t) as [ms Em].
    assert (G : exists l, get_cal_days cfg embedded_fs f t = Some (Ok l)) by (rewrite cal_days_eq, Em; eexists; reflexivity).
    destruct G as [l G]. rewrite G. destruct (json_of_days_total cfg embedded_fs f t l Of Ot Yf Yt G) as [j ->]. eexists. reflexivity.
Qed.
(** Nothing is lost in the output: the same text means the same days, whatever the flags,
    settings and files of the two runs. *)
Theorem C51_output_determines_days : forall s cfg fs now from to f t l cfg' fs' now' from' to' f' t' l',
  cli_init now from to = Some (f, t) -> get_cal_days cfg fs f t = Some (Ok l) ->
  cli_init now' from' to' = Some (f', t') -> get_cal_days cfg' fs' f' t' = Some (Ok l') ->
  caldays_command cfg fs now from to = Some (Printed s) -> caldays_command cfg' fs' now' from' to' = Some (Printed s) ->
  l = l'.
Proof.
  intros s cfg fs now from to f t l cfg' fs' now' from' to' f' t' l' C G C' G'. unfold caldays_command. rewrite C, G, C', G'.
  destruct (json_of_days l) as [j|] eqn:J; [|discriminate]. destruct (json_of_days l') as [j'|] eqn:J'; [|discriminate].
  intros E E'. assert (P : (print_json j ++ String (ascii_of_nat 10) "" = print_json j' ++ String (ascii_of_nat 10) "")%string) by congruence. clear E E' C C'.
  assert (j = j').
  { apply print_json_inj. pose proof (f_equal String.length P) as L. rewrite !string_length_app in L. cbn [String.length] in L.
    apply (app_inj_length _ _ (String (ascii_of_nat 10) "") (String (ascii_of_nat 10) "")); [lia|exact P]. }
  subst j'. clear P. unfold json_of_days in J, J'.
  destruct (all_some (map json_group (sort_keys (days_by_year l)))) as [ys|] eqn:A; [|discriminate].
  destruct (all_some (map json_group (sort_keys (days_by_year l')))) as [ys'|] eqn:A'; [|discriminate].
  cbn [option_map] in J, J'. assert (ys = ys') by congruence. subst ys'. clear J J' j.
  assert (Gr : sort_keys (days_by_year l) = sort_keys (days_by_year l')).
  { apply (all_some_inj json_group _ _ ys); [|exact A|exact A']. intros [k ds] [k' ds'] y Hp Hp' E E'. unfold json_group in E, E'. cbn [fst snd] in E, E'.
    destruct (json_list json_calday ds) as [x|] eqn:X; [|discriminate]. destruct (json_list json_calday ds') as [x'|] eqn:X'; [|discriminate].
    cbn [option_map] in E, E'. rewrite <- E in E'. injection E' as -> ->. f_equal. apply (json_list_inj json_calday ds ds' x); [|exact X|exact X'].
    intros c c' z Hc Hc'. apply json_calday_inj; [apply (utc_result cfg fs f t l c G)|apply (utc_result cfg' fs' f' t' l' c' G')];
      [apply (group_members l k ds); assumption|apply (group_members l' k ds'); assumption]. }
  clear A A' ys.
  assert (M : forall l1 l2, sort_keys (days_by_year l1) = sort_keys (days_by_year l2) -> forall c, In c l1 -> In c l2).
  { intros l1 l2 E c Hc. assert (I : In c (filter (fun d => time_year (cd_Date d) =? time_year (cd_Date c)) l1)) by (apply filter_In; split; [exact Hc|apply Z.eqb_refl]).
    assert (K : In (numeral (time_year (cd_Date c)), filter (fun d => time_year (cd_Date d) =? time_year (cd_Date c)) l1) (sort_keys (days_by_year l1))).
    { apply sorted_group_in. apply (proj2 (C43_groups l1)). exists (time_year (cd_Date c)). split; [reflexivity|]. split; [reflexivity|]. intros X. rewrite X in I. destruct I. }
    rewrite E in K. apply (group_members l2 _ _ c K I). }
  assert (N : forall cfg fs f t l, get_cal_days cfg fs f t = Some (Ok l) -> NoDup l /\ StronglySorted before l).
  { intros cfg0 fs0 f0 t0 l0 G0. destruct (cal_days_merged _ _ _ _ _ G0) as (ms & _ & (Hn & _) & Hs). split; [exact (NoDup_map_inv _ _ Hn)|exact Hs]. }
  destruct (N _ _ _ _ _ G) as [N1 S1]. destruct (N _ _ _ _ _ G') as [N2 S2].
  apply sorted_unique; [|exact S1|exact S2]. apply NoDup_Permutation; [exact N1|exact N2|].
  intros c. split; apply M; [exact Gr|symmetry; exact Gr].
Qed.
(** A recorded run is reproduced in Golden.v. *)
Example C51_example : caldays_command cfg_default embedded_fs 2016 "2016-07-20" "2016-07-21" = Some (Printed "{""2016"":[{""Date"":""2016-07-20T00:00:00Z"",""MajorEvents"":[{""Date"":""2016-07-20T00:00:00Z"",""Calendar"":0,""Summary"":""First day of Vassa"",""Description"":""First day of Vassa""}]}]}
")%string /\
  caldays_command cfg_default embedded_fs 2016 "2016-07-20" "2016-07-32" = Some Failed.
Proof. vm_compute. split; reflexivity. Qed.
