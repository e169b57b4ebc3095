(** GetCalDays as a function of its events (C27-C29). *)
From Coq Require Import ZArith Lia Bool ZifyBool List String Permutation Sorted.
From Verif Require Import GoTime SuriyaYear Helpers UposathaMoon CalDay AstroMoon Spec SpecCal.
From Verif Require Import P_Time P_Year P_Counts P_Kattika P_Chain P_Gen P_Gen2.
Import ListNotations.
Open Scope Z_scope.

(** ** One entry *)
Lemma last_of_app {A} (l : list A) x : last_of (l ++ [x]) = [x].
Proof. induction l as [|y l IH]; [reflexivity|]. cbn [app last_of]. destruct l; [reflexivity|exact IH]. Qed.
Lemma last_of_cases {A} (l : list A) : last_of l = [] \/ exists x, last_of l = [x].
Proof. induction l as [|y l IH]; [auto|]. cbn [last_of]. destruct l; [right; exists y; reflexivity|exact IH]. Qed.
Lemma last_of_nil {A} (l : list A) : last_of l = [] -> l = [].
Proof. induction l as [|y l IH]; [auto|]. cbn [last_of]. destruct l; [discriminate|]. intros H. discriminate (IH H). Qed.
Lemma last_of_in {A} (l : list A) x : In x (last_of l) -> In x l.
Proof.
  induction l as [|y l IH]; [auto|]. cbn [last_of]. destruct l as [|z l]; [auto|]. intros H. right. exact (IH H).
Qed.
Lemma set_single_last {A} (l : list A) x : set_single (last_of l) x = last_of (l ++ [x]).
Proof. rewrite last_of_app. destruct (last_of_cases l) as [->|[y ->]]; reflexivity. Qed.

Lemma astros_app l m : astros_of (l ++ m) = astros_of l ++ astros_of m.
Proof. induction l as [|[] l IH]; cbn [app astros_of]; rewrite ?IH; reflexivity. Qed.
Lemma plain_app l m : plain_events_of (l ++ m) = plain_events_of l ++ plain_events_of m.
Proof. induction l as [|[] l IH]; cbn [app plain_events_of]; rewrite ?IH; reflexivity. Qed.

Lemma add_to_day_entry evs e : add_to_day e (entry_of evs) = entry_of (evs ++ [e]).
Proof.
  unfold entry_of. rewrite last_of_app, uposathas_app, halves_app, astros_app, majors_app, plain_app.
  destruct e; unfold add_to_day, set_uposatha, set_half, set_astro, set_date; cbn [ev_date cd_Date cd_Uposatha cd_Half cd_Astro cd_Major cd_Events
    uposathas_of halves_of astros_of majors_of plain_events_of]; rewrite ?app_nil_r, ?set_single_last; reflexivity.
Qed.
Lemma fold_add_entry evs : fold_left (fun d e => add_to_day e d) evs zero_calday = entry_of evs.
Proof.
  induction evs as [|e evs IH] using rev_ind; [reflexivity|]. rewrite fold_left_app, IH. exact (add_to_day_entry evs e).
Qed.

(** ** Days *)
Definition dayof (c : CalDay) : Z := utc_day (cd_Date c).
Definition evday (e : CalendarEvent) : Z := utc_day (ev_date e).
Definition utc_ev (e : CalendarEvent) : Prop := t_off (ev_date e) = 0.

Lemma utc_local t : t_off t = 0 -> local_day t = utc_day t.
Proof. intros H. unfold local_day, utc_day, local_ns. rewrite H. unfold day_ns, hour_ns. f_equal; lia. Qed.
Lemma day_start_utc t : t_off t = 0 -> day_start t = midnight (utc_day t).
Proof.
  intros H. unfold day_start, time_year, time_month, time_mday. rewrite H, day_number_date, day_number_civil.
  rewrite utc_local by exact H. reflexivity.
Qed.
Lemma same_day a b : t_off a = 0 -> t_off b = 0 ->
  time_equal (day_start a) (day_start b) = (utc_day a =? utc_day b).
Proof.
  intros Ha Hb. rewrite !day_start_utc by assumption. unfold time_equal, midnight. cbn [t_ns]. unfold day_ns. lia.
Qed.

Lemma entry_last evs : evs <> [] -> exists e, In e evs /\ cd_Date (entry_of evs) = ev_date e.
Proof.
  intros H. cbn [entry_of cd_Date]. destruct (last_of_cases evs) as [E|[e E]].
  - elim H. apply last_of_nil. exact E.
  - exists e. split; [apply last_of_in; rewrite E; left; reflexivity|rewrite E; reflexivity].
Qed.

(** ** The merge loop *)
Definition merged (evs : list CalendarEvent) (l : list CalDay) : Prop :=
  NoDup (map dayof l) /\
  (forall c, In c l -> c = entry_of (events_on (dayof c) evs) /\ t_off (cd_Date c) = 0 /\ events_on (dayof c) evs <> []) /\
  (forall e, In e evs -> In (evday e) (map dayof l)).

Lemma events_on_app d a b : events_on d (a ++ b) = events_on d a ++ events_on d b.
Proof. apply filter_app. Qed.

Lemma find_none l d : (forall c, In c l -> t_off (cd_Date c) = 0) -> t_off d = 0 ->
  find_cal_day l d = None -> ~ In (utc_day d) (map dayof l).
Proof.
  intros Hl Hd. induction l as [|c l IH]; cbn [find_cal_day map In]; [tauto|].
  rewrite same_day by (auto using in_eq). unfold dayof at 1.
  destruct (Z.eqb_spec (utc_day (cd_Date c)) (utc_day d)) as [E|E]; [discriminate|].
  destruct (find_cal_day l d); [discriminate|]. intros _ [H|H]; [congruence|].
  apply IH; [|reflexivity|exact H]. intros c' Hc'. apply Hl. right. exact Hc'.
Qed.
Lemma find_some l d k f : (forall c, In c l -> t_off (cd_Date c) = 0) -> t_off d = 0 -> NoDup (map dayof l) ->
  find_cal_day l d = Some k ->
  In (utc_day d) (map dayof l) /\ update_nth l k f = map (fun c => if dayof c =? utc_day d then f c else c) l.
Proof.
  intros Hl Hd. revert k. induction l as [|c l IH]; intros k Hn; cbn [find_cal_day map In]; [discriminate|].
  rewrite same_day by (auto using in_eq). cbn [map] in Hn. apply NoDup_cons_iff in Hn. destruct Hn as [Hc Hn].
  change (utc_day (cd_Date c)) with (dayof c). destruct (Z.eqb_spec (dayof c) (utc_day d)) as [E|E].
  - intros H. injection H as <-. split; [left; exact E|]. cbn [update_nth]. f_equal.
    rewrite <- (map_id l) at 1. apply map_ext_in. intros c' Hc'.
    destruct (Z.eqb_spec (dayof c') (utc_day d)) as [E'|_]; [|reflexivity].
    elim Hc. rewrite E, <- E'. apply in_map. exact Hc'.
  - destruct (find_cal_day l d) as [k'|]; [|discriminate]. cbn [option_map]. intros H. injection H as <-.
    destruct (IH (fun c' Hc' => Hl c' (or_intror Hc')) k' Hn eq_refl) as [I U]. split; [right; exact I|].
    cbn [update_nth]. f_equal. exact U.
Qed.

Lemma dayof_add e c : dayof (add_to_day e c) = evday e.
Proof. destruct e; reflexivity. Qed.
Lemma off_add e c : utc_ev e -> t_off (cd_Date (add_to_day e c)) = 0.
Proof. destruct e; intros H; exact H. Qed.

Lemma NoDup_snoc {A} (l : list A) x : NoDup l -> ~ In x l -> NoDup (l ++ [x]).
Proof.
  intros Hl Hx. apply (Permutation_NoDup (l := x :: l)); [apply Permutation_cons_append|].
  constructor; assumption.
Qed.

Lemma merged_step evs l e : merged evs l -> utc_ev e -> merged (evs ++ [e]) (merge_into_cal_days l e).
Proof.
  intros (Hn & Hc & He) Hu. unfold merge_into_cal_days.
  assert (Hl : forall c, In c l -> t_off (cd_Date c) = 0) by (intros c Hi; apply Hc; exact Hi).
  assert (EQ : events_on (evday e) [e] = [e]) by (unfold events_on; cbn [filter]; unfold evday; rewrite Z.eqb_refl; reflexivity).
  assert (NE : forall d, d <> evday e -> events_on d [e] = []).
  { intros d Hd. unfold events_on; cbn [filter]. fold (evday e). destruct (Z.eqb_spec (evday e) d); [congruence|reflexivity]. }
  destruct (find_cal_day l (ev_date e)) as [k|] eqn:F.
  - destruct (find_some l (ev_date e) k (add_to_day e) Hl Hu Hn F) as [I ->]. fold (evday e) in *.
    assert (ED : map dayof (map (fun c => if dayof c =? evday e then add_to_day e c else c) l) = map dayof l).
    { rewrite map_map. apply map_ext. intros c. destruct (Z.eqb_spec (dayof c) (evday e)) as [E|E]; [|reflexivity].
      rewrite dayof_add. congruence. }
    split; [rewrite ED; exact Hn|]. split.
    + intros c Hi. apply in_map_iff in Hi. destruct Hi as (c0 & <- & Hi).
      destruct (Hc c0 Hi) as (E0 & O0 & N0). rewrite events_on_app.
      destruct (Z.eqb_spec (dayof c0) (evday e)) as [E|E].
      * rewrite dayof_add, EQ. rewrite E0 at 1. rewrite add_to_day_entry, E. split; [reflexivity|].
        split; [apply off_add; exact Hu|]. intros H. apply app_eq_nil in H. destruct H; discriminate.
      * rewrite !NE by exact E. rewrite app_nil_r. repeat split; assumption.
    + rewrite ED. intros e' Hi. apply in_app_or in Hi. destruct Hi as [Hi|[<-|[]]]; [apply He; exact Hi|exact I].
  - pose proof (find_none l (ev_date e) Hl Hu F) as N. fold (evday e) in N.
    assert (EN : events_on (evday e) evs = []).
    { unfold events_on. apply filter_nil. intros x Hx. fold (evday x). apply Z.eqb_neq. intros E. apply N. rewrite <- E. apply He. exact Hx. }
    split; [rewrite map_app; cbn [map]; rewrite dayof_add; apply NoDup_snoc; assumption|]. split.
    + intros c Hi. apply in_app_or in Hi. destruct Hi as [Hi|[<-|[]]].
      * destruct (Hc c Hi) as (E0 & O0 & N0). rewrite events_on_app, (NE (dayof c)), app_nil_r.
        -- repeat split; assumption.
        -- intros E. apply N. rewrite <- E. apply in_map. exact Hi.
      * rewrite dayof_add, events_on_app, EN, EQ. split; [exact (add_to_day_entry [] e)|].
        split; [apply off_add; exact Hu|discriminate].
    + rewrite map_app. cbn [map]. rewrite dayof_add. intros e' Hi. apply in_or_app. apply in_app_or in Hi.
      destruct Hi as [Hi|[<-|[]]]; [left; apply He; exact Hi|right; left; reflexivity].
Qed.

Lemma merged_fold evs : Forall utc_ev evs -> merged evs (fold_left merge_into_cal_days evs []).
Proof.
  induction evs as [|e evs IH] using rev_ind; intros H.
  - split; [constructor|]. split; [intros c []|intros e []].
  - apply Forall_app in H. destruct H as [H1 H2]. rewrite fold_left_app. cbn [fold_left].
    apply merged_step; [apply IH; exact H1|]. inversion H2; assumption.
Qed.

(** ** Sorting *)
Definition before (a b : CalDay) : Prop := t_ns (cd_Date a) < t_ns (cd_Date b).

Lemma insert_perm d l : Permutation (d :: l) (insert_day d l).
Proof.
  induction l as [|x l IH]; [reflexivity|]. cbn [insert_day]. destruct (cal_day_less d x); [reflexivity|].
  rewrite perm_swap. apply perm_skip. exact IH.
Qed.
Lemma sort_perm l : Permutation l (sort_days l).
Proof.
  induction l as [|x l IH]; [reflexivity|]. cbn [sort_days fold_right]. rewrite <- insert_perm. apply perm_skip. exact IH.
Qed.

Lemma insert_sorted d l : StronglySorted before l -> (forall c, In c l -> t_ns (cd_Date c) <> t_ns (cd_Date d)) ->
  StronglySorted before (insert_day d l).
Proof.
  induction l as [|x l IH]; intros Hs Hd; [constructor; constructor|].
  inversion Hs as [|? ? Hs' Hx]; subst. cbn [insert_day]. unfold cal_day_less, time_after.
  destruct (Z.ltb_spec (t_ns (cd_Date d)) (t_ns (cd_Date x))) as [L|L].
  - constructor; [exact Hs|]. constructor; [exact L|]. rewrite Forall_forall in *. intros c Hc. specialize (Hx c Hc). unfold before in *. lia.
  - constructor; [apply IH; [exact Hs'|intros c Hc; apply Hd; right; exact Hc]|].
    rewrite Forall_forall in *. intros c Hc. apply (Permutation_in _ (Permutation_sym (insert_perm d l))) in Hc.
    destruct Hc as [<-|Hc]; [|apply Hx; exact Hc]. unfold before. specialize (Hd x (or_introl eq_refl)). lia.
Qed.
Definition distinct_dates (l : list CalDay) : Prop := NoDup (map (fun c => t_ns (cd_Date c)) l).
Lemma sort_sorted l : distinct_dates l -> StronglySorted before (sort_days l).
Proof.
  induction l as [|x l IH]; intros H; [constructor|]. cbn [sort_days fold_right].
  unfold distinct_dates in H. cbn [map] in H. apply NoDup_cons_iff in H. destruct H as [Hx H].
  apply insert_sorted; [apply IH; exact H|]. intros c Hc E. apply Hx. rewrite <- E.
  apply (in_map (fun c => t_ns (cd_Date c))). apply (Permutation_in _ (Permutation_sym (sort_perm l))). exact Hc.
Qed.

Lemma sorted_unique l : forall m, Permutation l m -> StronglySorted before l -> StronglySorted before m -> l = m.
Proof.
  induction l as [|x l IH]; intros m P Sl Sm.
  - apply Permutation_nil in P. symmetry. exact P.
  - destruct m as [|y m]; [apply Permutation_sym, Permutation_nil in P; discriminate|].
    inversion Sl as [|? ? Sl' Hx]; subst. inversion Sm as [|? ? Sm' Hy]; subst. rewrite Forall_forall in Hx, Hy.
    assert (E : x = y).
    { assert (Ix : In x (y :: m)) by (apply (Permutation_in _ P); left; reflexivity).
      assert (Iy : In y (x :: l)) by (apply (Permutation_in _ (Permutation_sym P)); left; reflexivity).
      destruct Ix as [->|Ix]; [reflexivity|]. destruct Iy as [->|Iy]; [reflexivity|].
      specialize (Hx y Iy). specialize (Hy x Ix). unfold before in *. lia. }
    subst y. f_equal. apply IH; [|assumption..]. apply Permutation_cons_inv in P. exact P.
Qed.

(** What sort.Sort guarantees (sort.IsSorted): no element is Less than its predecessor. *)
Definition is_sorted (l : list CalDay) : Prop := Sorted (fun a b => cal_day_less b a = false) l.
Lemma is_sorted_strong l : is_sorted l -> distinct_dates l -> StronglySorted before l.
Proof.
  intros H Hd. apply Sorted_StronglySorted in H.
  - induction H as [|x l Hs IH Hx]; [constructor|]. unfold distinct_dates in Hd. cbn [map] in Hd. apply NoDup_cons_iff in Hd.
    destruct Hd as [Hn Hd]. constructor; [apply IH; exact Hd|]. rewrite Forall_forall in *. intros c Hc.
    specialize (Hx c Hc). unfold cal_day_less, time_after in Hx. unfold before.
    assert (t_ns (cd_Date c) <> t_ns (cd_Date x)) by (intros E; apply Hn; rewrite <- E; apply (in_map (fun c => t_ns (cd_Date c))); exact Hc).
    lia.
  - intros a b c. unfold cal_day_less, time_after. lia.
Qed.
Lemma distinct_perm l m : Permutation l m -> distinct_dates l -> distinct_dates m.
Proof. intros P. apply Permutation_NoDup. apply Permutation_map. exact P. Qed.
Lemma sort_any l m : distinct_dates l -> Permutation l m -> is_sorted m -> m = sort_days l.
Proof.
  intros Hd P Hs. apply sorted_unique.
  - rewrite <- P. apply sort_perm.
  - apply is_sorted_strong; [exact Hs|]. apply (distinct_perm l); assumption.
  - apply sort_sorted. exact Hd.
Qed.
Lemma merged_distinct evs l : merged evs l -> distinct_dates l.
Proof.
  intros (Hn & _). unfold distinct_dates. revert Hn. induction l as [|x l IH]; cbn [map]; intros H; [constructor|].
  apply NoDup_cons_iff in H. destruct H as [Hx H]. constructor; [|apply IH; exact H].
  intros Hi. apply Hx. apply in_map_iff in Hi. destruct Hi as (c & E & Hc). apply in_map_iff. exists c. split; [|exact Hc].
  unfold dayof, utc_day. rewrite E. reflexivity.
Qed.
Lemma merged_perm evs l m : Permutation l m -> merged evs l -> merged evs m.
Proof.
  intros P (Hn & Hc & He). split; [apply (Permutation_NoDup (Permutation_map dayof P)); exact Hn|]. split.
  - intros c Hi. apply Hc. apply (Permutation_in _ (Permutation_sym P)). exact Hi.
  - intros e Hi. apply (Permutation_in _ (Permutation_map dayof P)). apply He. exact Hi.
Qed.

(** ** The generated events *)
Lemma gen_some cfg y : generate_solar_year cfg y = Some (events_of_year cfg y).
Proof. unfold events_of_year. destruct (generate_spec cfg y) as (p & E & _). rewrite E. reflexivity. Qed.

Definition in_range' (from to : time) (e : CalendarEvent) : bool :=
  (t_ns from <=? t_ns (ev_date e)) && (t_ns (ev_date e) <=? t_ns to).
Lemma in_range_eq from to e : in_range from to e = in_range' from to e.
Proof. unfold in_range, in_range', time_before, time_after. lia. Qed.

Lemma merge_years_eq cfg from to n : forall y l,
  merge_years cfg from to n y l =
  Some (fold_left merge_into_cal_days (filter (in_range' from to) (flat_map (events_of_year cfg) (years y n))) l).
Proof.
  induction n as [|n IH]; intros y l; [reflexivity|]. cbn [merge_years years flat_map]. rewrite gen_some, IH.
  rewrite filter_app, fold_left_app. do 2 f_equal. f_equal. apply filter_ext. intros e. apply in_range_eq.
Qed.

Lemma uposatha_events_utc y u : is_midnight u -> Forall (fun e => exists d, ev_date e = midnight d) (uposatha_events y u).
Proof.
  intros [d Hd]. unfold uposatha_events, major_events. cbn [set_status u_Date u_Event u_Calendar h_Date u_Phase].
  rewrite !time_add_date_days, Hd, !midnight_add.
  assert (M : forall x, exists d, midnight x = midnight d) by (intros x; exists x; reflexivity).
  repeat (apply Forall_app; split);
    repeat match goal with |- context [if ?b then _ else _] => destruct b end;
    repeat (apply Forall_app; split); repeat (apply Forall_cons || apply Forall_nil); cbn [ev_date u_Date h_Date e_Date set_status];
    try rewrite Hd; apply M.
Qed.
Lemma moons_midnight cfg n : forall u, is_midnight u -> Forall is_midnight (moons cfg n u).
Proof.
  induction n as [|n IH]; intros u Hu; cbn [moons]; constructor; [|apply IH]; apply next_midnight; exact Hu.
Qed.
Lemma events_midnight cfg y : Forall (fun e => exists d, ev_date e = midnight d) (events_of_year cfg y).
Proof.
  unfold events_of_year. destruct (generate_spec cfg y) as (p & E & _). rewrite E. clear E.
  pose proof (moons_midnight cfg p _ (seed_midnight (kday cfg y))) as H. induction H as [|u l Hu H IH]; cbn [flat_map]; [constructor|].
  apply Forall_app. split; [apply uposatha_events_utc; exact Hu|exact IH].
Qed.
Lemma generated_midnight cfg from to : Forall (fun e => exists d, ev_date e = midnight d) (generated cfg from to).
Proof.
  unfold generated. apply Forall_forall. intros e He. apply filter_In in He. destruct He as [He _].
  apply in_flat_map in He. destruct He as (y & _ & He). pose proof (events_midnight cfg y) as H. rewrite Forall_forall in H. apply H. exact He.
Qed.
Lemma generated_utc cfg from to : Forall utc_ev (generated cfg from to).
Proof.
  eapply Forall_impl; [|apply generated_midnight]. intros e [d E]. unfold utc_ev. rewrite E. reflexivity.
Qed.

(** ** Astro moons are in UTC *)
Lemma astro_response_utc from to l : forall ms, astro_of_response from to l = Ok ms -> Forall (fun a => t_off (a_Date a) = 0) ms.
Proof.
  induction l as [|m l IH]; intros ms; cbn [astro_of_response].
  - intros E. injection E as <-. constructor.
  - destruct (time_before _ from || time_after _ to); [apply IH|].
    destruct (phase_code (ae_Code m)); [|discriminate].
    destruct (astro_of_response from to l); [|discriminate]. intros E. injection E as <-.
    constructor; [reflexivity|apply IH; reflexivity].
Qed.
Lemma astro_years_utc fs from to n : forall y ms, astro_years fs from to n y = Ok ms -> Forall (fun a => t_off (a_Date a) = 0) ms.
Proof.
  induction n as [|n IH]; intros y ms; cbn [astro_years].
  - intros E. injection E as <-. constructor.
  - destruct (fs y) as [| |s c r]; [intros E; injection E as <-; constructor|discriminate|].
    destruct (negb s); [apply IH|]. destruct (negb (String.eqb c "")); [apply IH|].
    destruct (astro_of_response from to r) as [m1|] eqn:E1; [|discriminate].
    destruct (astro_years fs from to n (y + 1)) as [m2|] eqn:E2; [|discriminate]. intros E. injection E as <-.
    apply Forall_app. split; [apply (astro_response_utc from to r); exact E1|apply (IH (y + 1)); exact E2].
Qed.

(** ** The whole function *)
Definition all_events (cfg : config) (ms : list AstroMoon) (from to : time) : list CalendarEvent :=
  map EvAstro ms ++ generated cfg from to.
Lemma all_events_utc cfg fs from to ms : get_astro_moons fs from to = Ok ms -> Forall utc_ev (all_events cfg ms from to).
Proof.
  intros E. apply Forall_app. split; [|apply generated_utc]. apply astro_years_utc in E.
  apply Forall_forall. intros e He. apply in_map_iff in He. destruct He as (a & <- & Ha). rewrite Forall_forall in E. exact (E a Ha).
Qed.
Lemma unsorted_eq cfg fs from to :
  get_cal_days_unsorted cfg fs from to =
  Some (match get_astro_moons fs from to with
        | Panic => Panic | Ok ms => Ok (fold_left merge_into_cal_days (all_events cfg ms from to) []) end).
Proof.
  unfold get_cal_days_unsorted. destruct (get_astro_moons fs from to) as [ms|]; [|reflexivity]. cbv zeta.
  rewrite merge_years_eq. unfold all_events. rewrite fold_left_app. reflexivity.
Qed.
Lemma cal_days_eq cfg fs from to :
  get_cal_days cfg fs from to =
  Some (match get_astro_moons fs from to with
        | Panic => Panic | Ok ms => Ok (sort_days (fold_left merge_into_cal_days (all_events cfg ms from to) [])) end).
Proof. unfold get_cal_days. rewrite unsorted_eq. destruct (get_astro_moons fs from to); reflexivity. Qed.

Lemma cal_days_merged cfg fs from to l : get_cal_days cfg fs from to = Some (Ok l) ->
  exists ms, get_astro_moons fs from to = Ok ms /\ merged (all_events cfg ms from to) l /\ StronglySorted before l.
Proof.
  rewrite cal_days_eq. destruct (get_astro_moons fs from to) as [ms|] eqn:E; [|discriminate]. intros H. injection H as <-.
  exists ms. split; [reflexivity|]. pose proof (merged_fold _ (all_events_utc cfg fs from to ms E)) as M. split.
  - apply (merged_perm _ _ _ (sort_perm _) M).
  - apply sort_sorted. apply (merged_distinct _ _ M).
Qed.

Lemma before_day a b : before a b -> dayof a <= dayof b.
Proof. unfold before, dayof, utc_day. intros H. apply Z.div_le_mono; [reflexivity|lia]. Qed.
Lemma sorted_days l : StronglySorted before l -> NoDup (map dayof l) -> StronglySorted (fun a b => dayof a < dayof b) l.
Proof.
  intros Hs. induction Hs as [|x l Hs IH Hx]; cbn [map]; intros Hn; [constructor|].
  apply NoDup_cons_iff in Hn. destruct Hn as [Hn0 Hn]. constructor; [apply IH; exact Hn|].
  rewrite Forall_forall in *. intros c Hc. pose proof (before_day _ _ (Hx c Hc)).
  assert (dayof x <> dayof c) by (intros E; apply Hn0; rewrite E; apply in_map; exact Hc). lia.
Qed.

(** The entry of a given day. *)
Lemma merged_on evs l d : merged evs l ->
  entries_on d l = (match events_on d evs with [] => [] | _ :: _ => [entry_of (events_on d evs)] end).
Proof.
  intros (Hn & Hc & He). unfold entries_on.
  assert (G : forall l, NoDup (map dayof l) -> (forall c, In c l -> c = entry_of (events_on (dayof c) evs)) ->
    filter (fun c => utc_day (cd_Date c) =? d) l = if existsb (fun c => dayof c =? d) l then [entry_of (events_on d evs)] else []).
  { clear. intros l. induction l as [|x l IH]; cbn [map filter existsb]; intros Hn Hc; [reflexivity|].
    apply NoDup_cons_iff in Hn. destruct Hn as [Hn0 Hn]. rewrite IH by (auto using in_cons). fold (dayof x).
    destruct (Z.eqb_spec (dayof x) d) as [E|E]; [|reflexivity]. cbn [orb].
    destruct (existsb (fun c => dayof c =? d) l) eqn:X.
    - apply existsb_exists in X. destruct X as (c & Hi & Ec). apply Z.eqb_eq in Ec. elim Hn0. rewrite E, <- Ec. apply in_map. exact Hi.
    - f_equal. rewrite <- E. apply Hc. left. reflexivity. }
  rewrite G; [|exact Hn|intros c Hi; apply Hc; exact Hi].
  destruct (existsb (fun c => dayof c =? d) l) eqn:X.
  - apply existsb_exists in X. destruct X as (c & Hi & Ec). apply Z.eqb_eq in Ec. destruct (Hc c Hi) as (_ & _ & N). rewrite Ec in N.
    destruct (events_on d evs); [elim N; reflexivity|reflexivity].
  - destruct (events_on d evs) as [|e es] eqn:F; [reflexivity|].
    assert (I : In e (events_on d evs)) by (rewrite F; left; reflexivity).
    unfold events_on in I. apply filter_In in I. destruct I as [I Ed]. apply Z.eqb_eq in Ed. fold (evday e) in Ed.
    specialize (He e I). apply in_map_iff in He. destruct He as (c & E & Hi).
    rewrite <- not_true_iff_false in X. elim X. apply existsb_exists. exists c. split; [exact Hi|]. apply Z.eqb_eq. congruence.
Qed.
