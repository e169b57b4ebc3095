(** C77, continued: the astronomical moons, a whole year; C78: from the arguments of the program to what a reader of its calendar finds. *)
From Coq Require Import ZArith List Bool String Ascii Sorting.Sorted Sorting.Permutation Lia.
From Verif Require Import GoTime SuriyaYear Helpers UposathaMoon CalDay AstroMoon AstroFS AstroData Text Cli Output IcalText Args SpecText SpecCal SpecAstro JsonRead SpecJson SpecIcal.
From Verif Require Import P_Time P_CalDays P_CalDays2 P_JsonMean P_Date Prop_Calendar Prop_Festivals Prop_Astro Prop_Days Prop_Cli Prop_Json Prop_JsonRead Prop_Members Prop_Output Prop_Ical Prop_Args Prop_Program.
Import ListNotations.
Local Open Scope string_scope.

(** ** The astronomical moons *)
Definition moon_day (m : AerisMoon) : Z := utc_day (a_Date (moon_of m)).
Fixpoint increasing (l : list Z) : bool := match l with a :: (b :: _) as r => Z.ltb a b && increasing r | _ => true end.
Lemma moons_increasing : increasing (map moon_day embedded_moons) = true.
Proof. vm_cast_no_check (eq_refl true). Qed.
Lemma increasing_head a l : increasing (a :: l) = true -> increasing l = true /\ forall b, In b l -> (a < b)%Z.
Proof.
  revert a. induction l as [|c l IH]; intros a; cbn [increasing]; [split; [reflexivity|intros b []]|].
  rewrite andb_true_iff, Z.ltb_lt. intros [L H]. split; [exact H|]. destruct (IH c H) as [_ G]. intros b [<-|Hb]; [exact L|]. specialize (G b Hb). lia.
Qed.
Lemma moon_unique m m' : In m embedded_moons -> In m' embedded_moons -> moon_day m = moon_day m' -> m = m'.
Proof.
  generalize moons_increasing. generalize embedded_moons. induction l as [|a l IH]; intros I; cbn [In map] in *; [intros []|].
  destruct (increasing_head _ _ I) as [I' H]. assert (L : forall b, In b l -> (moon_day a < moon_day b)%Z) by (intros b Hb; apply H, in_map; exact Hb).
  intros [<-|Hm] [<-|Hm'] E; [reflexivity|pose proof (L _ Hm'); lia|pose proof (L _ Hm); lia|exact (IH I' Hm Hm' E)].
Qed.
Lemma astros_in l u : In u (astros_of l) <-> In (EvAstro u) l.
Proof. induction l as [|[] l IH]; cbn [astros_of In]; rewrite ?IH; try tauto; intuition congruence. Qed.
Lemma last_of_only {A} (l : list A) x : In x l -> (forall y, In y l -> y = x) -> In x (last_of l).
Proof.
  induction l as [|a l IH]; [intros []|]. intros I U. destruct l as [|b l]; [exact I|]. change (In x (last_of (b :: l))).
  apply IH; [|intros y Hy; apply U; right; exact Hy]. left. apply U. right. left. reflexivity.
Qed.
Lemma ok_inj {A} (a b : A) : Ok a = Ok b -> a = b.
Proof. intros E. injection E as E. exact E. Qed.
(** Under the year of each, exactly the moons of the embedded files from the first date (which must not be before 1900) up to the midnight
    that begins the second. *)
Theorem C77_astronomical : forall encode sur cfg now1 now2 usage dump other l files y1 m1 d1 y2 m2 d2 s v, known l ->
  stands_for (last_value l "from") now1 1 1 y1 m1 d1 -> stands_for (last_value l "to") now2 12 31 y2 m2 d2 -> last_value l "output" = "" ->
  main_run encode sur cfg embedded_fs now1 now2 usage dump other ("caldays" :: spelled l) (mkWorld files "") = Some (0%Z, mkWorld files s) -> json_text v s ->
  forall y a, (exists x, found v y "AstroMoon" x /\ astro_object a x) <->
    (1900 <= y1)%Z /\ time_year (a_Date a) = y /\ (day_number y1 m1 d1 * day_ns <= t_ns (a_Date a) <= day_number y2 m2 d2 * day_ns)%Z /\ exists m, In m embedded_moons /\ a = moon_of m.
Proof.
  intros encode sur cfg now1 now2 usage dump other l files y1 m1 d1 y2 m2 d2 s v K Sf St Lo R J y a.
  destruct (flag_read _ _ _ _ _ _ _ (january now1) Sf) as (_ & C1 & _). destruct (flag_read _ _ _ _ _ _ _ (december now2) St) as (_ & C2 & _).
  destruct (asked encode sur cfg now1 now2 usage dump other l files y1 m1 d1 y2 m2 d2 K Sf St Lo) as (s' & v' & days & moons & R' & J' & D & G & Hm).
  rewrite R in R'. injection R' as <-. rewrite (C58_unambiguous _ _ _ J J') in *. clear R J J' v. rename v' into v.
  set (f := time_date y1 m1 d1 0 0) in *. set (t := time_date y2 m2 d2 0 0) in *.
  assert (Yf : time_year f = y1) by exact (asked_year y1 m1 d1 C1).
  assert (Ft : t_ns f = (day_number y1 m1 d1 * day_ns)%Z /\ t_ns t = (day_number y2 m2 d2 * day_ns)%Z) by (unfold f, t; rewrite !day_number_date; split; reflexivity).
  assert (M : forall b, In b moons <-> (1900 <= y1)%Z /\ (t_ns f <= t_ns (a_Date b) <= t_ns t)%Z /\ exists m, In m embedded_moons /\ b = moon_of m).
  { intros b. destruct (Z_lt_le_dec y1 1900) as [L|L].
    - rewrite (C32_before_1900 f t) in Hm by lia. injection Hm as <-. split; [intros []|intros [H _]; lia].
    - rewrite (C32_complete f t eq_refl eq_refl) in Hm by lia. apply ok_inj in Hm. rewrite <- Hm, in_map_iff. split.
      + intros (m & <- & Hi). apply filter_In in Hi. destruct Hi as [Hi P]. unfold in_period in P. rewrite andb_true_iff, !Z.leb_le in P. split; [exact L|]. split; [exact P|]. exists m. auto.
      + intros (_ & P & m & Hi & ->). exists m. split; [reflexivity|]. apply filter_In. split; [exact Hi|]. unfold in_period. rewrite andb_true_iff, !Z.leb_le. exact P. }
  destruct Ft as [Ff Ft]. rewrite Ff, Ft in M. rewrite (found_iff _ _ _ days v y a field_astro astro_once D). split.
  - intros (d & Hd & Ey & Ha). destruct (utc_result cfg embedded_fs f t days d G Hd) as (Od & _ & _ & Oa & _). rewrite Forall_forall in Oa. specialize (Oa a Ha).
    destruct (day_events cfg embedded_fs f t days d moons Hm G Hd) as (evs & E & I). rewrite E in Ha. cbn [entry_of cd_Astro] in Ha. apply last_of_in, astros_in, I in Ha.
    destruct Ha as [Ha U]. cbn [ev_date] in U. apply in_app_iff in Ha. destruct Ha as [Ha|Ha].
    + apply in_map_iff in Ha. destruct Ha as (b & X & Hb). injection X as ->. apply M in Hb. destruct Hb as (H1 & H2 & H3). split; [exact H1|]. split; [|split; [exact H2|exact H3]].
      rewrite year_of_utc, U, <- year_of_utc by assumption. exact Ey.
    + apply generated_in in Ha. destruct Ha as [_ (y' & _ & Ha)]. pose proof (year_library cfg y') as L. rewrite Forall_forall in L. elim (L _ Ha).
  - intros (H1 & Ey & H2 & H3). assert (Hb : In a moons) by (apply M; auto).
    assert (Hg : In (EvAstro a) (map EvAstro moons ++ generated cfg f t)%list) by (apply in_app_iff; left; apply in_map; exact Hb).
    destruct (event_day cfg embedded_fs f t days moons _ Hm G Hg) as (c & Hc & Uc). cbn [ev_date] in Uc. exists c. split; [exact Hc|].
    destruct (day_events cfg embedded_fs f t days c moons Hm G Hc) as (evs & E & I). destruct H3 as (m & Im & ->). split.
    + rewrite year_of_utc, Uc by exact (proj1 (utc_result cfg embedded_fs f t days c G Hc)). rewrite <- year_of_utc by reflexivity. exact Ey.
    + rewrite E. cbn [entry_of cd_Astro]. apply last_of_only; [apply astros_in, I; split; [exact Hg|symmetry; exact Uc]|].
      intros b' Hb'. apply astros_in, I in Hb'. destruct Hb' as [Hb' U]. cbn [ev_date] in U. apply in_app_iff in Hb'. destruct Hb' as [Hb'|Hb'].
      * apply in_map_iff in Hb'. destruct Hb' as (b & X & Hb''). injection X as ->. apply M in Hb''. destruct Hb'' as (_ & _ & m' & Im' & ->).
        f_equal. apply moon_unique; [assumption..|]. unfold moon_day. congruence.
      * apply generated_in in Hb'. destruct Hb' as [_ (y' & _ & Ha)]. pose proof (year_library cfg y') as L. rewrite Forall_forall in L. elim (L _ Ha).
Qed.
(** The full moon of the evening of 19 July 2016 (22:59:36) is found if the 20th is asked for too, and not if the 19th is the last day. *)
Example C77_astronomical_example : let a := mkAstroMoon "full" (time_date 2016 7 19 (82776 * second_ns) 0) in
  (exists m, In m embedded_moons /\ a = moon_of m) /\ time_year (a_Date a) = 2016%Z /\
  (day_number 2016 7 19 * day_ns <= t_ns (a_Date a) <= day_number 2016 7 20 * day_ns)%Z /\ ~ (t_ns (a_Date a) <= day_number 2016 7 19 * day_ns)%Z.
Proof.
  cbv zeta. split; [|vm_compute; intuition discriminate].
  assert (X : existsb (fun m => Z.eqb (ae_Code m) 2 && Z.eqb (t_ns (ae_DateTimeISO m)) (t_ns (time_date 2016 7 19 (82776 * second_ns) 0))) embedded_moons = true) by (vm_cast_no_check (eq_refl true)).
  apply existsb_exists in X. destruct X as (m & Hm & E). rewrite andb_true_iff, !Z.eqb_eq in E. destruct E as [E1 E2]. exists m. split; [exact Hm|]. unfold moon_of. rewrite E1, E2. reflexivity.
Qed.

(** ** A whole year *)
(** Asked for a year, the program prints exactly the uposathas and half moons of that year; and, with the shipped settings, from 1290 to 5834,
    exactly six festivals, at their distances from the Asalha Puja of [AsalhaPuja]. *)
Theorem C77_year : forall encode sur cfg now1 now2 usage dump other l files y, known l ->
  stands_for (last_value l "from") now1 1 1 y 1 1 -> stands_for (last_value l "to") now2 12 31 y 12 31 -> last_value l "output" = "" ->
  exists s v, main_run encode sur cfg embedded_fs now1 now2 usage dump other ("caldays" :: spelled l) (mkWorld files "") = Some (0%Z, mkWorld files s) /\ json_text v s /\
  (forall u, (exists x, found v y "UposathaMoon" x /\ uposatha_object u x) <-> In u (uposathas_of (events_of_year cfg y))) /\
  (forall h, (exists x, found v y "HalfMoon" x /\ half_object h x) <-> In h (halves_of (events_of_year cfg y))) /\
  (forall y' u, y' <> y -> ~ (exists x, found v y' "UposathaMoon" x /\ uposatha_object u x) /\ ~ exists h x, found v y' "HalfMoon" x /\ half_object h x) /\
  (UseExceptions cfg = false \/ (forall z, AdhikavaraExceptions cfg z = shipped_exceptions z) -> (1290 <= y <= 5834)%Z ->
   exists asalha, asalha_puja cfg (su_init y) = Some asalha /\
   let after days name := mkEvent (time_add asalha (days * (24 * hour_ns))) 0 name name in
   let a := is_adhikamasa (su_init y) in let v' := is_adhikavara cfg (su_init y) in
   forall m, (exists x, found v y "MajorEvents" x /\ event_object m x) <->
     In m [after (if a || v' then -148 else -147)%Z "Māgha Pūjā"; after (if v' then -60 else -59)%Z "Vesākha Pūjā"; after 0%Z "Āsāḷha Pūjā"; after 1%Z "First day of Vassa";
           after 89%Z "Pavāraṇā Day"; after 89%Z "Last day of Vassa"]).
Proof.
  intros encode sur cfg now1 now2 usage dump other l files y K Sf St Lo.
  destruct (C77_found encode sur cfg now1 now2 usage dump other l files y 1 1 y 12 31 K Sf St Lo) as (s & v & R & J & U & H & M & _). exists s, v. split; [exact R|]. split; [exact J|].
  assert (W : forall d, (day_number y 1 1 <= d <= day_number y 12 31)%Z <-> year_of_day d = y).
  { intros d. rewrite year_of_day_iff, days_before_year_succ.
    assert (J1 : day_number y 1 1 = days_before_year y) by (unfold day_number; cbv zeta; change ((1 - 1) / 12)%Z with 0%Z; replace (y + 0)%Z with y by lia; change ((1 - 1) mod 12 + 1)%Z with 1%Z; destruct (is_leap y); [change (days_before_month true 1) with 0%Z|change (days_before_month false 1) with 0%Z]; lia).
    assert (D31 : day_number y 12 31 = (days_before_year y + (if is_leap y then 365 else 364))%Z) by (unfold day_number; cbv zeta; change ((12 - 1) / 12)%Z with 0%Z; replace (y + 0)%Z with y by lia; change ((12 - 1) mod 12 + 1)%Z with 12%Z; destruct (is_leap y); [change (days_before_month true 12) with 335%Z|change (days_before_month false 12) with 334%Z]; lia).
    rewrite J1, D31. destruct (is_leap y); lia. }
  split; [|split; [|split]].
  - intros u. rewrite U. split; [tauto|]. intros Hu. split; [exact Hu|]. destruct (year_uposatha_date cfg y u Hu) as (d & E & Y). rewrite E, utc_day_midnight. apply W. exact Y.
  - intros u. rewrite H. split; [tauto|]. intros Hu. split; [exact Hu|]. destruct (year_half_date cfg y u Hu) as (d & E & Y). rewrite E, utc_day_midnight. apply W. exact Y.
  - intros y' u N. split; [|intros (h & X); revert X; rename h into u'].
    + rewrite U. intros [Hu Hw]. destruct (year_uposatha_date cfg y' u Hu) as (d & E & Y). rewrite E, utc_day_midnight in Hw. apply W in Hw. congruence.
    + rewrite H. intros [Hu Hw]. destruct (year_half_date cfg y' u' Hu) as (d & E & Y). rewrite E, utc_day_midnight in Hw. apply W in Hw. congruence.
  - intros S Y. destruct (C24_late_hypotheses cfg y S Y) as (K1 & K2 & X & asalha & Ea & Ya). exists asalha. split; [exact Ea|]. cbv beta zeta. intros m.
    pose proof (C24_late cfg y asalha K1 K2 X Ea) as C. cbv beta zeta in C. rewrite <- C, M. split.
    + intros (_ & _ & y' & Hy & Hm). replace y with y' at 1 by lia. exact Hm.
    + intros Hm. assert (D : exists d, e_Date m = midnight d /\ year_of_day d = y).
      { exact (late_major_date cfg y m K1 K2 X Hm). }
      destruct D as (d & E & Yd). rewrite E, utc_day_midnight, time_year_midnight. split; [exact Yd|]. split; [apply W; exact Yd|]. exists y. split; [lia|exact Hm].
Qed.
(** What the program prints without flags in 2016: how many days, and the texts of the festivals. *)
Definition members_named (n : string) (v : value) : list value := match v with VObj ms => map snd (filter (fun p => String.eqb (fst p) n) ms) | _ => [] end.
Definition items_of (v : value) : list value := match v with VArr l => l | _ => [] end.
Definition counted (year : string) (o : option (Z * world)) : option (nat * nat * nat * list value) :=
  match o with
  | Some (_, w) => match read_json (w_stdout w) with
      | Some v => let days := flat_map items_of (members_named year v) in
          Some (List.length days, List.length (flat_map (members_named "UposathaMoon") days), List.length (flat_map (members_named "HalfMoon") days),
            flat_map (members_named "Summary") (flat_map items_of (flat_map (members_named "MajorEvents") days)))
      | None => None
      end
  | None => None
  end.
Example C77_year_example : stands_for (last_value [] "from") 2016 1 1 2016 1 1 /\ stands_for (last_value [] "to") 2016 12 31 2016 12 31 /\
  counted "2016" (main_run (fun _ => "") (mkSurroundings (fun _ => true) 1000 (fun s => s)) cfg_default embedded_fs 2016 2016 (fun _ => "") (fun _ => "") (fun _ _ => None) ["caldays"] (mkWorld (fun _ => None) "")) =
  Some (75%nat, 25%nat, 25%nat, map VStr ["Māgha Pūjā"; "Vesākha Pūjā"; "Āsāḷha Pūjā"; "First day of Vassa"; "Pavāraṇā Day"; "Last day of Vassa"]).
Proof. split; [right; repeat split; lia|]. split; [right; repeat split; lia|]. vm_compute. reflexivity. Qed.

(** * C78 *)
(** An event of the calendar on the day [d], shown as [text]: a moon of the year of that day, or a festival of one of the years asked for. *)
Definition announces (cfg : config) (y1 y2 d : Z) (text : string) : Prop :=
  (exists u, In u (uposathas_of (events_of_year cfg (year_of_day d))) /\ u_Date u = midnight d /\ text = uposatha_string u) \/
  (exists h, In h (halves_of (events_of_year cfg (year_of_day d))) /\ h_Date h = midnight d /\ text = moon_string (h_Phase h)) \/
  (exists y m, (y1 <= y <= y2)%Z /\ In m (majors_of (events_of_year cfg y)) /\ e_Date m = midnight d /\ text = e_Summary m).
Lemma announces_iff cfg f t y1 y2 n1 n2 d text : t_ns f = (n1 * day_ns)%Z -> t_ns t = (n2 * day_ns)%Z -> time_year f = y1 -> time_year t = y2 -> 
  (forall x, (n1 <= x <= n2 -> y1 <= year_of_day x <= y2)%Z) ->
  ((exists e, In e (generated cfg f t) /\ utc_day (ev_date e) = d /\ ev_string e = text) <-> (n1 <= d <= n2)%Z /\ announces cfg y1 y2 d text).
Proof.
  intros Ef Et Yf Yt Hy. assert (W : forall x, (t_ns f <= t_ns (midnight x) <= t_ns t)%Z <-> (n1 <= x <= n2)%Z) by (intros x; rewrite Ef, Et; cbn [midnight t_ns]; unfold day_ns; lia).
  split.
  - intros (e & He & U & T). apply generated_in in He. destruct He as [Hr (y & Hyy & He)]. rewrite Yf, Yt in Hyy.
    pose proof (events_midnight cfg y) as Mi. rewrite Forall_forall in Mi. destruct (Mi e He) as [d' Ed]. rewrite Ed, utc_day_midnight in U. subst d'. rewrite Ed in Hr. apply W in Hr. split; [exact Hr|].
    pose proof (year_library cfg y) as L. rewrite Forall_forall in L. specialize (L e He). destruct e as [u|h|a|m|x]; cbn [library_event] in L; try contradiction; cbn [ev_date ev_string] in *.
    + left. exists u. apply uposathas_in in He. destruct (year_uposatha_date cfg y u He) as (x & E & Y). rewrite Ed in E. apply midnight_inj in E. subst x. rewrite Y. auto.
    + right. left. exists h. apply halves_in in He. destruct (year_half_date cfg y h He) as (x & E & Y). rewrite Ed in E. apply midnight_inj in E. subst x. rewrite Y. auto.
    + right. right. exists y, m. apply majors_in in He. auto.
  - intros [Hd [(u & Hu & E & ->)|[(h & Hh & E & ->)|(y & m & Hyy & Hm & E & ->)]]].
    + exists (EvUposatha u). cbn [ev_date ev_string]. rewrite E, utc_day_midnight. split; [|auto]. apply generated_in. cbn [ev_date]. rewrite E, Yf, Yt. split; [apply W; exact Hd|]. exists (year_of_day d). split; [apply Hy; exact Hd|]. apply uposathas_in. exact Hu.
    + exists (EvHalf h). cbn [ev_date ev_string]. rewrite E, utc_day_midnight. split; [|auto]. apply generated_in. cbn [ev_date]. rewrite E, Yf, Yt. split; [apply W; exact Hd|]. exists (year_of_day d). split; [apply Hy; exact Hd|]. apply halves_in. exact Hh.
    + exists (EvMajor m). cbn [ev_date ev_string]. rewrite E, utc_day_midnight. split; [|auto]. apply generated_in. cbn [ev_date]. rewrite E, Yf, Yt. split; [apply W; exact Hd|]. exists y. split; [exact Hyy|]. apply majors_in. exact Hm.
Qed.
Lemma years_between y1 m1 d1 y2 m2 d2 : civil_date y1 m1 d1 -> civil_date y2 m2 d2 -> forall x, (day_number y1 m1 d1 <= x <= day_number y2 m2 d2 -> y1 <= year_of_day x <= y2)%Z.
Proof.
  intros C1 C2 x [H1 H2]. apply year_of_day_mono in H1, H2. rewrite (proj1 (day_number_parts y1 m1 d1 C1)) in H1. rewrite (proj1 (day_number_parts y2 m2 d2 C2)) in H2. lia.
Qed.
Lemma append_none s : s ++ "" = s.
Proof. induction s as [|c s IH]; [reflexivity|]. cbn [append]. rewrite IH. reflexivity. Qed.
(** Asked for the calendar file of the days from one date to another, the program prints a text that, if it draws usable identifiers, no two the same, says exactly
    the moons and festivals from the one date to the other, each for one day, in order; and that is no calendar at all if there are none. *)
Theorem C78_calendar : forall ids sur cfg now1 now2 usage dump other l files y1 m1 d1 y2 m2 d2, known l ->
  stands_for (last_value l "from") now1 1 1 y1 m1 d1 -> stands_for (last_value l "to") now2 12 31 y2 m2 d2 -> last_value l "output" = "" ->
  cfg = cfg_default \/ (y2 < 9999)%Z ->
  let shown d text := (day_number y1 m1 d1 <= d <= day_number y2 m2 d2)%Z /\ announces cfg y1 y2 d text in
  exists s n, main_run (ical_text ids) sur cfg embedded_fs now1 now2 usage dump other ("ical" :: spelled l) (mkWorld files "") = Some (0%Z, mkWorld files s) /\
  (n = O <-> forall d text, ~ shown d text) /\ (n = O -> forall name evs, ~ calendar_means s name evs) /\
  (n <> O -> (forall i, (i < n)%nat -> usable_id (ids i)) -> distinct_uids ids n ->
   exists evs, calendar_means s "Uposatha Moondays (Mahānikāya)" evs /\ List.length evs = n /\ StronglySorted (fun a b => (i_first a <= i_first b)%Z) evs /\
   (forall i, In i evs -> i_end i = (i_first i + 1)%Z) /\
   forall d text, (exists i, In i evs /\ i_first i = d /\ i_text i = text) <-> shown d text).
Proof.
  intros ids sur cfg now1 now2 usage dump other l files y1 m1 d1 y2 m2 d2 K Sf St Lo Hc shown.
  destruct (C76_flags (ical_text ids) sur cfg embedded_fs now1 now2 usage dump other l (mkWorld files "") K) as [_ E]. rewrite E, Lo. clear E.
  destruct (flag_read _ _ _ _ _ _ _ (january now1) Sf) as (Pf & C1 & Y1). destruct (flag_read _ _ _ _ _ _ _ (december now2) St) as (Pt & C2 & Y2).
  set (f := time_date y1 m1 d1 0 0) in *. set (t := time_date y2 m2 d2 0 0) in *.
  assert (Yf : time_year f = y1) by exact (asked_year y1 m1 d1 C1). assert (Yt : time_year t = y2) by exact (asked_year y2 m2 d2 C2).
  assert (Ft : t_ns f = (day_number y1 m1 d1 * day_ns)%Z /\ t_ns t = (day_number y2 m2 d2 * day_ns)%Z) by (unfold f, t; rewrite !day_number_date; split; reflexivity). destruct Ft as [Ff Ft].
  assert (A : forall d text, (exists e, In e (generated cfg f t) /\ utc_day (ev_date e) = d /\ ev_string e = text) <-> shown d text).
  { intros d text. apply announces_iff; [exact Ff|exact Ft|exact Yf|exact Yt|exact (years_between _ _ _ _ _ _ C1 C2)]. }
  destruct (C32_never_panics f t) as [moons Hm]. pose proof (C27_returns cfg embedded_fs f t) as G. rewrite Hm in G.
  assert (Gl : exists days, get_cal_days cfg embedded_fs f t = Some (Ok days)) by exact G. clear G. destruct Gl as [days G].
  pose proof (C44_exact cfg embedded_fs f t days eq_refl eq_refl G) as P.
  exists (ical_text ids (ical_events days)), (List.length (generated cfg f t)). split; [unfold ical_run, init_dates; rewrite Pf, Pt, G; unfold deliver, print; cbn [String.eqb w_files w_stdout append]; rewrite append_none; reflexivity|].
  split; [|split].
  - split.
    + intros N d text S. apply A in S. destruct S as (e & He & _). apply length_zero_iff_nil in N. rewrite N in He. exact He.
    + intros N. destruct (generated cfg f t) as [|e r] eqn:Eg; [reflexivity|]. elim (N (utc_day (ev_date e)) (ev_string e)). apply A. exists e. split; [left; reflexivity|auto].
  - intros N name evs. apply length_zero_iff_nil in N. rewrite N in P. apply Permutation_sym, Permutation_nil in P. rewrite P. apply no_calendar.
  - intros N U I. assert (Ne : generated cfg f t <> []) by (intros X; apply N; rewrite X; reflexivity).
    assert (L : forall e, In e (generated cfg f t) -> utc_day (ev_date e) <> day_number 9999 12 31).
    { destruct Hc as [->|Hc]; [exact (C61_last_day f t)|]. intros e He X. assert (S : shown (utc_day (ev_date e)) (ev_string e)) by (apply A; exists e; auto). destruct S as [S _].
      pose proof (years_between _ _ _ _ _ _ C1 C2 _ S) as Q. rewrite X in Q. change (year_of_day (day_number 9999 12 31)) with 9999%Z in Q. lia. }
    destruct (C61_calendar ids cfg embedded_fs f t days eq_refl eq_refl ltac:(lia) ltac:(lia) G U I Ne L) as (evs & M & Pe & S & _).
    exists evs. split; [exact M|]. split; [apply Permutation_length in Pe; rewrite !map_length in Pe; exact Pe|]. split; [exact S|].
    assert (X : forall a b c, In (a, b, c) (map (fun i => (i_first i, i_end i, i_text i)) evs) <-> exists e, In e (generated cfg f t) /\ (a, b, c) = (utc_day (ev_date e), (utc_day (ev_date e) + 1)%Z, ev_string e)).
    { intros a b c. split; [intros H; apply (Permutation_in _ Pe) in H|intros H; apply (Permutation_in _ (Permutation_sym Pe))]; [apply in_map_iff in H; destruct H as (e & H1 & H2); exists e; auto|apply in_map_iff; destruct H as (e & H1 & H2); exists e; auto]. }
    split.
    + intros i Hi. assert (H : In (i_first i, i_end i, i_text i) (map (fun i => (i_first i, i_end i, i_text i)) evs)) by (apply in_map_iff; exists i; auto). apply X in H. destruct H as (e & _ & H). injection H as -> -> _. reflexivity.
    + intros d text. rewrite <- A. split.
      * intros (i & Hi & <- & <-). assert (H : In (i_first i, i_end i, i_text i) (map (fun i => (i_first i, i_end i, i_text i)) evs)) by (apply in_map_iff; exists i; auto). apply X in H. destruct H as (e & He & H). injection H as -> _ ->. exists e. auto.
      * intros (e & He & <- & <-). assert (H : In (utc_day (ev_date e), (utc_day (ev_date e) + 1)%Z, ev_string e) (map (fun i => (i_first i, i_end i, i_text i)) evs)) by (apply X; exists e; auto).
        apply in_map_iff in H. destruct H as (i & H & Hi). injection H as H1 _ H2. exists i. split; [exact Hi|]. split; [exact H1|exact H2].
Qed.
(** The lines of the printed text that say when and what, for 19 and 20 July 2016, and the hypotheses about the identifiers. *)
Fixpoint lines_of (acc s : string) : list string :=
  match s with "" => [acc] | String c s' => if Ascii.eqb c "013" then acc :: lines_of "" s' else lines_of (if Ascii.eqb c "010" then acc else acc ++ String c "") s' end.
Definition lines_with (names : list string) (o : option (Z * world)) : list string :=
  match o with Some (_, w) => filter (fun l => existsb (fun n => String.prefix n l) names) (lines_of "" (w_stdout w)) | None => [] end.
Example C78_example : let l := [mkGiven true true "from" "2016-07-19"; mkGiven false false "to" "2016-07-20"] in
  stands_for (last_value l "from") 2020 1 1 2016 7 19 /\ stands_for (last_value l "to") 2020 12 31 2016 7 20 /\
  (forall i, (i < 3)%nat -> usable_id (recorded_id i)) /\ distinct_uids recorded_id 3 /\
  lines_with ["DTSTART"; "SUMMARY"] (main_run (ical_text recorded_id) (mkSurroundings (fun _ => true) 1000 (fun s => s)) cfg_default embedded_fs 2020 2020 (fun _ => "") (fun _ => "") (fun _ _ => None) ("ical" :: spelled l) (mkWorld (fun _ => None) "")) =
  ["SUMMARY:Full Moon - 15 day Gimha 8/8"; "DTSTART;VALUE=DATE:20160719"; "SUMMARY:Āsāḷha Pūjā"; "DTSTART;VALUE=DATE:20160719"; "SUMMARY:First day of Vassa"; "DTSTART;VALUE=DATE:20160720"].
Proof.
  cbv zeta. assert (C : civil_date 2016 7 19 /\ civil_date 2016 7 20) by (split; apply P_Date.civil_iff; vm_compute; intuition discriminate).
  split; [left; split; [reflexivity|split; [apply C|lia]]|]. split; [left; split; [reflexivity|split; [apply C|lia]]|].
  destruct C61_ids_example as (U & D & _). split; [intros i H; apply U; lia|]. split; [intros i j Hi Hj; apply D; lia|]. vm_compute. reflexivity.
Qed.
