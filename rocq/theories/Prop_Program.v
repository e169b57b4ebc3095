(** C77: from the arguments of the program to what a reader of its JSON finds. *)
From Coq Require Import ZArith List Bool String Ascii Lia.
From Verif Require Import GoTime SuriyaYear Helpers UposathaMoon CalDay AstroMoon AstroFS Text Cli Output Args SpecText SpecCal JsonRead SpecJson.
From Verif Require Import P_Time P_CalDays P_CalDays2 P_JsonMean P_Date Prop_Astro Prop_Days Prop_Cli Prop_Json Prop_Members Prop_Output Prop_Args.
Import ListNotations.
Local Open Scope string_scope.

(** The value of a member of an object; an element of an array. *)
Definition has_member (name : string) (v w : value) : Prop := exists ms raw, v = VObj ms /\ In (raw, w) ms /\ string_means raw name.
Definition has_item (v w : value) : Prop := exists l, v = VArr l /\ In w l.
(** [v.year[i].field[k]] is [x]. *)
Definition found (v : value) (year : Z) (field : string) (x : value) : Prop :=
  exists days day items, has_member (numeral year) v days /\ has_item days day /\ has_member field day items /\ has_item items x.

(** The date a flag stands for: the one written, or the given one if the flag is absent or empty. *)
Definition stands_for (flag : string) (y0 m0 d0 y m d : Z) : Prop :=
  (flag = iso_date y m d /\ civil_date y m d /\ 0 <= y <= 9999)%Z \/ (flag = "" /\ 0 <= y0 <= 9999 /\ y = y0 /\ m = m0 /\ d = d0)%Z.

(** ** Lemmas *)
Lemma object_get ms v n w : is_object ms v -> has_member n v w -> exists R, In (n, R) ms /\ R w.
Proof.
  intros (l & -> & F) (l' & raw & E & I & M). injection E as <-. destruct (forall2_in_r _ _ _ _ F I) as ([n' R] & Hm & M' & HR). cbn [fst snd] in *.
  apply unquote_means in M, M'. rewrite M in M'. rewrite <- M' in Hm. exists R. split; [exact Hm|exact HR].
Qed.
Lemma object_has ms v n R : is_object ms v -> In (n, R) ms -> exists w, has_member n v w /\ R w.
Proof.
  intros (l & -> & F) I. destruct (forall2_in_l _ _ _ _ F I) as ([raw w] & Hp & M & HR). cbn [fst snd] in *. exists w. split; [|exact HR]. exists l, raw. auto.
Qed.
Lemma array_get {A} (R : A -> value -> Prop) xs v w : is_array R xs v -> has_item v w -> exists x, In x xs /\ R x w.
Proof. intros (l & -> & F) (l' & E & I). injection E as <-. exact (forall2_in_r _ _ _ _ F I). Qed.
Lemma array_has {A} (R : A -> value -> Prop) xs v x : is_array R xs v -> In x xs -> exists w, has_item v w /\ R x w.
Proof. intros (l & -> & F) I. destruct (forall2_in_l _ _ _ _ F I) as (w & Hw & HR). exists w. split; [exists l; auto|exact HR]. Qed.
Lemma numeral_inj a b : numeral a = numeral b -> a = b.
Proof. exact (P_Text.fmt_d_inj a b). Qed.
Lemma optional_in {A} n (P : value -> Prop) name (R : A -> value -> Prop) xs : In (n, P) (unless_empty name R xs) <-> n = name /\ P = is_array R xs /\ xs <> [].
Proof.
  destruct xs as [|x xs]; cbn [unless_empty In]; [split; [intros []|intros (_ & _ & N); elim N; reflexivity]|].
  split; [intros [E|[]]; injection E as <- <-; split; [reflexivity|split; [reflexivity|discriminate]]|intros (-> & -> & _); left; reflexivity].
Qed.
(** A field of the days, of the given name, whose elements [R] describes *)
Definition is_field {A} (name : string) (sel : CalDay -> list A) (R : A -> value -> Prop) : Prop :=
  forall d P, In (name, P) ([("Date", is_instant (cd_Date d))] ++ unless_empty "UposathaMoon" uposatha_object (cd_Uposatha d) ++
    unless_empty "HalfMoon" half_object (cd_Half d) ++ unless_empty "AstroMoon" astro_object (cd_Astro d) ++
    unless_empty "MajorEvents" event_object (cd_Major d) ++ unless_empty "Events" event_object (cd_Events d))%list <-> P = is_array R (sel d) /\ sel d <> [].
Ltac field := intros d P; rewrite !in_app_iff, !optional_in; split;
  [intros [[E|[]]|H]; [discriminate E|]; repeat destruct H as [H|H]; destruct H as (E & H); try discriminate E; exact H
  |intros H; cbn [In]; tauto].
Lemma field_uposatha : is_field "UposathaMoon" cd_Uposatha uposatha_object. Proof. field. Qed.
Lemma field_half : is_field "HalfMoon" cd_Half half_object. Proof. field. Qed.
Lemma field_astro : is_field "AstroMoon" cd_Astro astro_object. Proof. field. Qed.
Lemma field_major : is_field "MajorEvents" cd_Major event_object. Proof. field. Qed.
Lemma field_events : is_field "Events" cd_Events event_object. Proof. field. Qed.
Lemma found_iff {A} name sel (R : A -> value -> Prop) l v y a : is_field name sel R -> (forall w x x', R x w -> R x' w -> x = x') -> days_object l v ->
  ((exists x, found v y name x /\ R a x) <-> exists d, In d l /\ time_year (cd_Date d) = y /\ In a (sel d)).
Proof.
  intros Fd Once (years & _ & Y & O). split.
  - intros (x & (days & day & items & M1 & I1 & M2 & I2) & Ra). destruct (object_get _ _ _ _ O M1) as (P & HP & Pd).
    apply in_map_iff in HP. destruct HP as (y' & E & _). injection E as E <-. apply numeral_inj in E. subst y'.
    destruct (array_get _ _ _ _ Pd I1) as (d & Hd & Do). apply filter_In in Hd. destruct Hd as [Hd Ey]. apply Z.eqb_eq in Ey.
    destruct (object_get _ _ _ _ Do M2) as (Q & HQ & Qi). apply Fd in HQ. destruct HQ as [-> _]. destruct (array_get _ _ _ _ Qi I2) as (b & Hb & Rb).
    exists d. split; [exact Hd|]. split; [exact Ey|]. rewrite (Once _ _ _ Ra Rb). exact Hb.
  - intros (d & Hd & Ey & Ha). assert (Iy : In y years) by (apply Y; exists d; auto).
    destruct (object_has _ _ (numeral y) (is_array day_object (filter (fun d => Z.eqb (time_year (cd_Date d)) y) l)) O) as (days & M1 & Ad).
    { apply in_map_iff. exists y. split; [reflexivity|exact Iy]. }
    destruct (array_has _ _ _ d Ad) as (day & I1 & Do); [apply filter_In; split; [exact Hd|apply Z.eqb_eq; exact Ey]|].
    destruct (object_has _ _ name (is_array R (sel d)) Do) as (items & M2 & Ai); [apply Fd; split; [reflexivity|intros N; rewrite N in Ha; exact Ha]|].
    destruct (array_has _ _ _ a Ai Ha) as (x & I2 & Rx). exists x. split; [exists days, day, items; auto|exact Rx].
Qed.
Lemma last_of_in {A} (l : list A) x : In x (last_of l) -> In x l.
Proof. induction l as [|a l IH]; [intros []|]. destruct l as [|b l]; [intros H; exact H|]. intros H. right. apply IH. exact H. Qed.
Lemma uposathas_in l u : In u (uposathas_of l) <-> In (EvUposatha u) l.
Proof. induction l as [|[] l IH]; cbn [uposathas_of In]; rewrite ?IH; try tauto; intuition congruence. Qed.
Lemma halves_in l u : In u (halves_of l) <-> In (EvHalf u) l.
Proof. induction l as [|[] l IH]; cbn [halves_of In]; rewrite ?IH; try tauto; intuition congruence. Qed.
Lemma majors_in l u : In u (majors_of l) <-> In (EvMajor u) l.
Proof. induction l as [|[] l IH]; cbn [majors_of In]; rewrite ?IH; try tauto; intuition congruence. Qed.
(** Each thing of a day is an event of that day *)
Lemma day_events cfg fs from to l c moons : get_astro_moons fs from to = Ok moons -> get_cal_days cfg fs from to = Some (Ok l) -> In c l ->
  exists evs, c = entry_of evs /\ (forall e, In e evs <-> In e (map EvAstro moons ++ generated cfg from to)%list /\ utc_day (ev_date e) = utc_day (cd_Date c)).
Proof.
  intros Hm H Hc. pose proof (C28_exact cfg fs from to moons l Hm H (utc_day (cd_Date c))) as E. cbv zeta in E.
  exists (events_on (utc_day (cd_Date c)) (map EvAstro moons ++ generated cfg from to)). split.
  - assert (I : In c (entries_on (utc_day (cd_Date c)) l)) by (apply filter_In; split; [exact Hc|apply Z.eqb_refl]). rewrite E in I.
    destruct (events_on _ _) as [|e es]; [destruct I|]. destruct I as [<-|[]]. reflexivity.
  - intros e. unfold events_on. rewrite filter_In, Z.eqb_eq. tauto.
Qed.
Lemma event_day cfg fs from to l moons e : get_astro_moons fs from to = Ok moons -> get_cal_days cfg fs from to = Some (Ok l) -> In e (map EvAstro moons ++ generated cfg from to)%list ->
  exists c, In c l /\ utc_day (cd_Date c) = utc_day (ev_date e).
Proof.
  intros Hm H He. pose proof (C28_exact cfg fs from to moons l Hm H (utc_day (ev_date e))) as E. cbv zeta in E.
  assert (I : In e (events_on (utc_day (ev_date e)) (map EvAstro moons ++ generated cfg from to))) by (apply filter_In; split; [exact He|apply Z.eqb_refl]).
  destruct (events_on _ _) as [|x es]; [destruct I|]. assert (J : In (entry_of (x :: es)) (entries_on (utc_day (ev_date e)) l)) by (rewrite E; left; reflexivity).
  apply filter_In in J. rewrite Z.eqb_eq in J. eexists. exact J.
Qed.
Lemma year_of_utc t : t_off t = 0%Z -> time_year t = year_of_day (utc_day t).
Proof. intros O. unfold time_year. rewrite utc_local by exact O. reflexivity. Qed.
Lemma iso_not_empty y m d : iso_date y m d <> "".
Proof. unfold iso_date. destruct (padded 4 y); discriminate. Qed.
Lemma flag_read flag y0 m0 d0 y m d : civil_date y0 m0 d0 -> stands_for flag y0 m0 d0 y m d ->
  flag_date flag (time_date y0 m0 d0 0 0) = Some (time_date y m d 0 0) /\ civil_date y m d /\ (0 <= y <= 9999)%Z.
Proof.
  intros C [(-> & C' & Y)|(-> & Y & -> & -> & ->)]; [|split; [reflexivity|split; assumption]]. split; [|split; assumption].
  unfold flag_date. rewrite (proj2 (String.eqb_neq _ _) (iso_not_empty _ _ _)). apply C50_accepts. exists y, m, d. auto.
Qed.
Lemma january y : civil_date y 1 1.
Proof. apply P_Date.civil_iff. split; [lia|]. unfold days_in, days_before_month. destruct (is_leap y); cbn; lia. Qed.
Lemma december y : civil_date y 12 31.
Proof. apply P_Date.civil_iff. split; [lia|]. unfold days_in, days_before_month. destruct (is_leap y); cbn; lia. Qed.
(** The run, with the days it is about *)
Lemma asked encode sur cfg now1 now2 usage dump other l files y1 m1 d1 y2 m2 d2 : known l ->
  stands_for (last_value l "from") now1 1 1 y1 m1 d1 -> stands_for (last_value l "to") now2 12 31 y2 m2 d2 -> last_value l "output" = "" ->
  let f := time_date y1 m1 d1 0 0 in let t := time_date y2 m2 d2 0 0 in
  exists s v days moons, main_run encode sur cfg embedded_fs now1 now2 usage dump other ("caldays" :: spelled l) (mkWorld files "") = Some (0%Z, mkWorld files s) /\
    json_text v s /\ days_object days v /\ get_cal_days cfg embedded_fs f t = Some (Ok days) /\ get_astro_moons embedded_fs f t = Ok moons.
Proof.
  intros K Sf St Lo f t. destruct (C76_flags encode sur cfg embedded_fs now1 now2 usage dump other l (mkWorld files "") K) as [E _]. rewrite E, Lo.
  destruct (flag_read _ _ _ _ _ _ _ (january now1) Sf) as (Pf & C1 & Y1). destruct (flag_read _ _ _ _ _ _ _ (december now2) St) as (Pt & C2 & Y2). fold f in Pf. fold t in Pt.
  assert (P1 : parse_date (iso_date y1 m1 d1) = Some f) by (apply C50_accepts; exists y1, m1, d1; auto).
  assert (P2 : parse_date (iso_date y2 m2 d2) = Some t) by (apply C50_accepts; exists y2, m2, d2; auto).
  destruct (proj2 (C51_always_prints cfg 2016 (iso_date y1 m1 d1) (iso_date y2 m2 d2) ltac:(lia))) as [s Hs]; [split; right; congruence|].
  destruct (C65_members _ _ _ _ _ _ Hs) as (f' & t' & days & v & I & G & J & D). apply C50_range in I.
  rewrite !(proj2 (String.eqb_neq _ _) (iso_not_empty _ _ _)) in I. destruct I as [If It]. assert (f' = f) by congruence. assert (t' = t) by congruence. subst f' t'.
  destruct (C32_never_panics f t) as [moons Hm]. exists s, v, days, moons. split; [|auto].
  pose proof (C60_agrees sur cfg embedded_fs 2016 (iso_date y1 m1 d1) (iso_date y2 m2 d2) (mkWorld files "")) as A. rewrite Hs in A. cbn [w_files w_stdout append] in A. rewrite <- A.
  unfold caldays_run, init_dates. rewrite Pf, Pt. unfold flag_date. rewrite !(proj2 (String.eqb_neq _ _) (iso_not_empty _ _ _)), P1, P2. reflexivity.
Qed.
Lemma generated_in cfg f t e : In e (generated cfg f t) <-> (t_ns f <= t_ns (ev_date e) <= t_ns t)%Z /\ exists y, (time_year f <= y <= time_year t)%Z /\ In e (events_of_year cfg y).
Proof.
  unfold generated. rewrite filter_In, in_flat_map, andb_true_iff, !Z.leb_le. split.
  - intros [(y & Hy & He) H]. split; [exact H|]. exists y. split; [|exact He]. apply P_CalDays2.years_in in Hy. lia.
  - intros [H (y & Hy & He)]. split; [|exact H]. exists y. split; [apply P_CalDays2.years_in; lia|exact He].
Qed.
Lemma asked_year y m d : civil_date y m d -> time_year (time_date y m d 0 0) = y.
Proof. intros C. rewrite day_number_date. unfold time_year. rewrite local_day_midnight. exact (proj1 (day_number_parts y m d C)). Qed.
(** Membership in a field of the days, for a field that holds the last, or all, events of one kind *)
Lemma kind_iff {A} (mk : A -> CalendarEvent) (sel : CalDay -> list A) cfg f t days moons y a :
  (forall evs b, In b (sel (entry_of evs)) -> In (mk b) evs) ->
  (forall x b, EvAstro x <> mk b) ->
  get_astro_moons embedded_fs f t = Ok moons -> get_cal_days cfg embedded_fs f t = Some (Ok days) ->
  t_off (ev_date (mk a)) = 0%Z ->
  (exists d, In d days /\ time_year (cd_Date d) = y /\ In a (sel d)) -> In (mk a) (generated cfg f t) /\ time_year (ev_date (mk a)) = y.
Proof.
  intros S N Hm G O (d & Hd & Ey & Ha). destruct (day_events cfg embedded_fs f t days d moons Hm G Hd) as (evs & E & I).
  rewrite E in Ha. apply S in Ha. apply I in Ha. destruct Ha as [Ha U]. apply in_app_iff in Ha. destruct Ha as [Ha|Ha].
  - apply in_map_iff in Ha. destruct Ha as (x & X & _). elim (N _ _ X).
  - split; [exact Ha|]. rewrite year_of_utc by exact O. rewrite U, <- year_of_utc; [exact Ey|]. exact (proj1 (utc_result cfg embedded_fs f t days d G Hd)).
Qed.

(** * C77 *)
(** Asked for the days from one date to another (those of this year if no dates are given), whatever way the flags are given in, the program prints a JSON text in which, under
    the year of each, exactly the uposathas and half moons of the calendar from the one date to the other are found, and
    exactly the festivals that the years of the range have between them; and there are no other events. *)
Theorem C77_found : forall encode sur cfg now1 now2 usage dump other l files y1 m1 d1 y2 m2 d2, known l ->
  stands_for (last_value l "from") now1 1 1 y1 m1 d1 -> stands_for (last_value l "to") now2 12 31 y2 m2 d2 -> last_value l "output" = "" ->
  let within t := (day_number y1 m1 d1 <= utc_day t <= day_number y2 m2 d2)%Z in
  exists s v, main_run encode sur cfg embedded_fs now1 now2 usage dump other ("caldays" :: spelled l) (mkWorld files "") = Some (0%Z, mkWorld files s) /\ json_text v s /\
  (forall y u, (exists x, found v y "UposathaMoon" x /\ uposatha_object u x) <-> In u (uposathas_of (events_of_year cfg y)) /\ within (u_Date u)) /\
  (forall y h, (exists x, found v y "HalfMoon" x /\ half_object h x) <-> In h (halves_of (events_of_year cfg y)) /\ within (h_Date h)) /\
  (forall y m, (exists x, found v y "MajorEvents" x /\ event_object m x) <->
     time_year (e_Date m) = y /\ within (e_Date m) /\ exists y', (y1 <= y' <= y2)%Z /\ In m (majors_of (events_of_year cfg y'))) /\
  (forall y x, ~ found v y "Events" x).
Proof.
  intros encode sur cfg now1 now2 usage dump other l files y1 m1 d1 y2 m2 d2 K Sf St Lo within.
  destruct (flag_read _ _ _ _ _ _ _ (january now1) Sf) as (_ & C1 & _). destruct (flag_read _ _ _ _ _ _ _ (december now2) St) as (_ & C2 & _).
  destruct (asked encode sur cfg now1 now2 usage dump other l files y1 m1 d1 y2 m2 d2 K Sf St Lo) as (s & v & days & moons & R & J & D & G & Hm).
  exists s, v. split; [exact R|]. split; [exact J|]. set (f := time_date y1 m1 d1 0 0) in *. set (t := time_date y2 m2 d2 0 0) in *.
  assert (Yf : time_year f = y1) by exact (asked_year y1 m1 d1 C1). assert (Yt : time_year t = y2) by exact (asked_year y2 m2 d2 C2).
  assert (Ft : t_ns f = (day_number y1 m1 d1 * day_ns)%Z /\ t_ns t = (day_number y2 m2 d2 * day_ns)%Z) by (unfold f, t; rewrite !day_number_date; split; reflexivity).
  assert (W : forall d, (t_ns f <= t_ns (midnight d) <= t_ns t)%Z <-> within (midnight d)).
  { intros d. destruct Ft as [-> ->]. unfold within. rewrite P_CalDays2.utc_day_midnight. cbn [midnight t_ns]. unfold day_ns. lia. }
  split; [|split; [|split]].
  - intros y u. rewrite (found_iff _ _ _ days v y u field_uposatha uposatha_once D). split.
    + intros H. assert (O : t_off (u_Date u) = 0%Z).
      { destruct H as (d & Hd & _ & Hu). destruct (utc_result cfg embedded_fs f t days d G Hd) as (_ & Ou & _). rewrite Forall_forall in Ou. exact (Ou u Hu). }
      destruct (kind_iff EvUposatha cd_Uposatha cfg f t days moons y u) as [Hg Ey]; [|discriminate|assumption..|].
      { intros evs b Hb. cbn [entry_of cd_Uposatha] in Hb. apply uposathas_in, last_of_in. exact Hb. }
      apply generated_in in Hg. destruct Hg as [Hr (y' & _ & He)]. cbn [ev_date] in *. apply uposathas_in in He. destruct (year_uposatha_date cfg y' u He) as (d & Ed & Ey').
      assert (Eq : y' = y) by (rewrite Ed in Ey; unfold time_year in Ey; rewrite local_day_midnight in Ey; congruence). rewrite Eq in He. split; [exact He|]. rewrite Ed in Hr |- *. apply W. exact Hr.
    + intros [Hu Hw]. destruct (year_uposatha_date cfg y u Hu) as (d & Ed & Ey).
      destruct (C28_no_moon_missed cfg embedded_fs f t days eq_refl eq_refl G) as [M _]. rewrite Ed in Hw. apply W in Hw.
      destruct (M y u Hu) as (c & Hc & Uc & Ec); [unfold time_before; rewrite Ed; apply Z.ltb_ge; lia|unfold time_after; rewrite Ed; apply Z.ltb_ge; lia|].
      exists c. split; [exact Hc|]. split; [|rewrite Ec; left; reflexivity]. rewrite year_of_utc, Uc, Ed, P_CalDays2.utc_day_midnight; [exact Ey|]. exact (proj1 (utc_result cfg embedded_fs f t days c G Hc)).
  - intros y u. rewrite (found_iff _ _ _ days v y u field_half half_once D). split.
    + intros H. assert (O : t_off (h_Date u) = 0%Z).
      { destruct H as (d & Hd & _ & Hu). destruct (utc_result cfg embedded_fs f t days d G Hd) as (_ & _ & Ou & _). rewrite Forall_forall in Ou. exact (Ou u Hu). }
      destruct (kind_iff EvHalf cd_Half cfg f t days moons y u) as [Hg Ey]; [|discriminate|assumption..|].
      { intros evs b Hb. cbn [entry_of cd_Half] in Hb. apply halves_in, last_of_in. exact Hb. }
      apply generated_in in Hg. destruct Hg as [Hr (y' & _ & He)]. cbn [ev_date] in *. apply halves_in in He. destruct (year_half_date cfg y' u He) as (d & Ed & Ey').
      assert (Eq : y' = y) by (rewrite Ed in Ey; unfold time_year in Ey; rewrite local_day_midnight in Ey; congruence). rewrite Eq in He. split; [exact He|]. rewrite Ed in Hr |- *. apply W. exact Hr.
    + intros [Hu Hw]. destruct (year_half_date cfg y u Hu) as (d & Ed & Ey).
      destruct (C28_no_moon_missed cfg embedded_fs f t days eq_refl eq_refl G) as [_ M]. rewrite Ed in Hw. apply W in Hw.
      destruct (M y u Hu) as (c & Hc & Uc & Ec); [unfold time_before; rewrite Ed; apply Z.ltb_ge; lia|unfold time_after; rewrite Ed; apply Z.ltb_ge; lia|].
      exists c. split; [exact Hc|]. split; [|rewrite Ec; left; reflexivity]. rewrite year_of_utc, Uc, Ed, P_CalDays2.utc_day_midnight; [exact Ey|]. exact (proj1 (utc_result cfg embedded_fs f t days c G Hc)).
  - intros y u. rewrite (found_iff _ _ _ days v y u field_major event_once D). split.
    + intros H. assert (O : t_off (e_Date u) = 0%Z).
      { destruct H as (d & Hd & _ & Hu). destruct (utc_result cfg embedded_fs f t days d G Hd) as (_ & _ & _ & _ & Ou & _). rewrite Forall_forall in Ou. exact (Ou u Hu). }
      destruct (kind_iff EvMajor cd_Major cfg f t days moons y u) as [Hg Ey]; [|discriminate|assumption..|].
      { intros evs b Hb. cbn [entry_of cd_Major] in Hb. apply majors_in. exact Hb. }
      apply generated_in in Hg. rewrite Yf, Yt in Hg. destruct Hg as [Hr (y' & Hy' & He)]. cbn [ev_date] in *. split; [exact Ey|].
      pose proof (events_midnight cfg y') as Mi. rewrite Forall_forall in Mi. destruct (Mi _ He) as (d & Ed). cbn [ev_date] in Ed. split; [rewrite Ed in Hr |- *; apply W; exact Hr|].
      exists y'. split; [exact Hy'|]. apply majors_in. exact He.
    + intros (Ey & Hw & y' & Hy' & Hu). apply majors_in in Hu. pose proof (events_midnight cfg y') as Mi. rewrite Forall_forall in Mi. destruct (Mi _ Hu) as (d & Ed). cbn [ev_date] in Ed.
      assert (Hg : In (EvMajor u) (map EvAstro moons ++ generated cfg f t)%list).
      { apply in_app_iff. right. apply generated_in. rewrite Yf, Yt. split; [cbn [ev_date]; rewrite Ed in Hw |- *; apply W; exact Hw|]. exists y'. split; [exact Hy'|exact Hu]. }
      destruct (event_day cfg embedded_fs f t days moons _ Hm G Hg) as (c & Hc & Uc). exists c. split; [exact Hc|].
      destruct (day_events cfg embedded_fs f t days c moons Hm G Hc) as (evs & E & I). split.
      * rewrite year_of_utc, Uc by exact (proj1 (utc_result cfg embedded_fs f t days c G Hc)). cbn [ev_date]. rewrite <- year_of_utc by (rewrite Ed; reflexivity). exact Ey.
      * rewrite E. cbn [entry_of cd_Major]. apply majors_in, I. split; [exact Hg|symmetry; exact Uc].
  - intros y x (yd & day & items & M1 & I1 & M2 & I2). destruct D as (years & _ & Y & O). destruct (object_get _ _ _ _ O M1) as (P & HP & Pd).
    apply in_map_iff in HP. destruct HP as (y' & E & _). injection E as _ <-. destruct (array_get _ _ _ _ Pd I1) as (d & Hd & Do). apply filter_In in Hd. destruct Hd as [Hd _].
    destruct (object_get _ _ _ _ Do M2) as (Q & HQ & Qi). apply field_events in HQ. destruct HQ as [_ Ne]. apply Ne.
    destruct (day_events cfg embedded_fs f t days d moons Hm G Hd) as (evs & E & I). rewrite E. cbn [entry_of cd_Events]. destruct (plain_events_of evs) as [|e r] eqn:Pe; [reflexivity|].
    assert (He : In (EvEvent e) evs) by (apply plain_in; rewrite Pe; left; reflexivity). apply I in He. destruct He as [He _]. exfalso. apply in_app_iff in He. destruct He as [He|He].
    + apply in_map_iff in He. destruct He as (a & X & _). discriminate X.
    + apply generated_in in He. destruct He as [_ (y'' & _ & He)]. pose proof (year_library cfg y'') as L. rewrite Forall_forall in L. exact (L _ He).
Qed.
Example C77_example : let l := [mkGiven false false "to" "2016-07-20"; mkGiven true true "from" "2016-01-01"; mkGiven true true "from" "2016-07-19"] in
  spelled l = ["-to"; "2016-07-20"; "--from=2016-01-01"; "--from=2016-07-19"] /\
  stands_for (last_value l "from") 2020 1 1 2016 7 19 /\ stands_for (last_value l "to") 2020 12 31 2016 7 20 /\
  exists w, main_run (fun _ => "") (mkSurroundings (fun _ => true) 1000 (fun s => s)) cfg_default embedded_fs 2020 2020 (fun _ => "") (fun _ => "") (fun _ _ => None) ("caldays" :: spelled l) (mkWorld (fun _ => None) "") = Some (0%Z, w) /\
  exists u a m m', read_json (w_stdout w) = Some (VObj [("2016", VArr [VObj [("Date", VStr "2016-07-19T00:00:00Z"); ("UposathaMoon", VArr [u]); ("AstroMoon", VArr [a]); ("MajorEvents", VArr [m])]; VObj [("Date", VStr "2016-07-20T00:00:00Z"); ("MajorEvents", VArr [m'])]])]).
Proof.
  cbv zeta. split; [reflexivity|]. assert (C : civil_date 2016 7 19 /\ civil_date 2016 7 20) by (split; apply P_Date.civil_iff; vm_compute; intuition discriminate).
  split; [left; split; [reflexivity|split; [apply C|lia]]|]. split; [left; split; [reflexivity|split; [apply C|lia]]|].
  eexists. split; [vm_compute; reflexivity|]. do 4 eexists. vm_compute. reflexivity.
Qed.
