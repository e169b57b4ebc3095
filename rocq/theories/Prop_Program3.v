(** C79: in the JSON the program prints, calculated and astronomical moons are found side by side. *)
From Coq Require Import ZArith List Bool String Ascii Lia.
From Verif Require Import GoTime SuriyaYear Helpers UposathaMoon CalDay AstroMoon AstroFS Text Cli Output Args SpecText SpecCal SpecAstro JsonRead SpecJson.
From Verif Require Import P_Time P_Year P_Counts P_Kattika P_Chain P_Gen P_Gen2 P_Near P_CalDays2 P_Date Prop_Calendar Prop_Astro Prop_JsonRead Prop_Members Prop_Args Prop_Near Prop_Program Prop_Program2.
Import ListNotations.
Local Open Scope string_scope.

Definition principal (phase : string) : Prop := phase = "new" \/ phase = "full".
Lemma year_phases cfg y : (forall u, In u (uposathas_of (events_of_year cfg y)) -> principal (u_Phase u)) /\ (forall h, In h (halves_of (events_of_year cfg y)) -> ~ principal (h_Phase h)).
Proof.
  destruct (C25_half_moons cfg y) as (k & n & _ & H). cbv zeta in H. destruct H as (-> & -> & _). split.
  - intros u Hu. apply in_map_iff in Hu. destruct Hu as (x & <- & Hx). apply filter_In in Hx. destruct Hx as [Hx _].
    change kattika_moon with kattika_seed in Hx. rewrite <- (moons_chain cfg n) in Hx. exact (chain_phase cfg _ n x Hx).
  - intros h Hh. apply in_map_iff in Hh. destruct Hh as (x & <- & _). unfold half_moon_after, principal. cbn [h_Phase]. destruct (String.eqb (u_Phase x) "new"); intros [N|N]; discriminate N.
Qed.
Lemma bounds cfg p : (principal p -> after_at_least p = (-1)%Z /\ after_at_most cfg p = 2%Z) /\
  (~ principal p -> after_at_least p = (-2)%Z /\ after_at_most cfg p = (if UseExceptions cfg then 2 else 1)%Z).
Proof.
  unfold after_at_least, after_at_most, principal. destruct (String.eqb_spec p "new") as [->|N1]; [cbn [orb]; split; [auto|tauto]|].
  destruct (String.eqb_spec p "full") as [->|N2]; cbn [orb]; split; tauto.
Qed.

(** ** No two are close to one *)
Fixpoint spaced (n : Z) (l : list (Z * Z)) : bool := match l with a :: (b :: _) as r => Z.leb (fst a + n) (fst b) && spaced n r | _ => true end.
Lemma spaced_head n a l : (0 <= n)%Z -> spaced n (a :: l) = true -> spaced n l = true /\ forall b, In b l -> (fst a + n <= fst b)%Z.
Proof.
  intros Hn. revert a. induction l as [|c l IH]; intros a; cbn [spaced]; [split; [reflexivity|intros b []]|].
  rewrite andb_true_iff, Z.leb_le. intros [L H]. split; [exact H|]. destruct (IH c H) as [_ G]. intros b [<-|Hb]; [exact L|]. specialize (G b Hb). lia.
Qed.
Lemma spaced_apart n l : (0 <= n)%Z -> spaced n l = true -> forall a b, In a l -> In b l -> a = b \/ (n <= Z.abs (fst a - fst b))%Z.
Proof.
  intros Hn. induction l as [|c l IH]; intros H a b; [intros []|]. destruct (spaced_head n c l Hn H) as [H' G].
  intros [<-|Ha] [<-|Hb]; [left; reflexivity|specialize (G b Hb)|specialize (G a Ha)|exact (IH H' a b Ha Hb)]; right; lia.
Qed.
Lemma spaced_default : spaced 6 (quarters_1902_2034 cfg_default) = true.
Proof. vm_cast_no_check (eq_refl true). Qed.
Lemma spaced_exceptions : spaced 6 (quarters_1902_2034 cfg_exceptions) = true.
Proof. vm_cast_no_check (eq_refl true). Qed.
Lemma spaced_records : spaced 6 records = true.
Proof. vm_cast_no_check (eq_refl true). Qed.
Lemma spaced_shipped cfg : shipped cfg -> spaced 6 (quarters_1902_2034 cfg) = true.
Proof.
  intros Hs. pose proof (shipped_av cfg Hs) as E.
  assert (K : quarters_1902_2034 cfg = quarters_1902_2034 (if UseExceptions cfg then cfg_exceptions else cfg_default)).
  { unfold quarters_1902_2034. destruct (UseExceptions cfg); rewrite (quarters_same cfg _ E), (kday_same cfg _ E); reflexivity. }
  rewrite K. destruct (UseExceptions cfg); [exact spaced_exceptions|exact spaced_default].
Qed.
Lemma calculated_quarter cfg d p : shipped cfg -> calculated cfg d p -> (1902 <= year_of_day d <= 2033)%Z ->
  exists q, In q (quarters_1902_2034 cfg) /\ d = fst q /\ phase_code p (snd q).
Proof.
  intros Hs [y u Hu|y h Hh] Y.
  - destruct (year_uposatha_date cfg y u Hu) as (n & E & Ey). rewrite E, P_CalDays2.utc_day_midnight, Ey in Y.
    destruct (uposatha_row cfg y u Hs Y Hu) as (q & Hq & Ed & Hp & _). exists q. split; [exact Hq|]. split; [rewrite Ed; apply P_CalDays2.utc_day_midnight|exact Hp].
  - destruct (year_half_date cfg y h Hh) as (n & E & Ey). rewrite E, P_CalDays2.utc_day_midnight, Ey in Y.
    destruct (half_row cfg y h Hs Y Hh) as (q & Hq & Ed & Hp & _). exists q. split; [exact Hq|]. split; [rewrite Ed; apply P_CalDays2.utc_day_midnight|exact Hp].
Qed.
(** In the years of the data the calculated moons are one a day at most and six days apart or more, and so are the astronomical ones. An astronomical
    moon and a calculated one at most two days from it, as in C64, are therefore alone with each other: neither has another such partner, of whatever phase. *)
Theorem C64_apart : forall cfg, UseExceptions cfg = false \/ (forall z, AdhikavaraExceptions cfg z = shipped_exceptions z) ->
  (forall d p d' p', calculated cfg d p -> calculated cfg d' p' -> (1902 <= year_of_day d <= 2033)%Z -> (1902 <= year_of_day d' <= 2033)%Z -> (d = d' /\ p = p') \/ (6 <= Z.abs (d - d'))%Z) /\
  (forall m m', In m embedded_moons -> In m' embedded_moons -> m = m' \/ (6 <= Z.abs (utc_day (a_Date (moon_of m)) - utc_day (a_Date (moon_of m'))))%Z).
Proof.
  intros cfg Hs. split.
  - intros d p d' p' C C' Y Y'. destruct (calculated_quarter cfg d p Hs C Y) as (q & Hq & -> & P). destruct (calculated_quarter cfg d' p' Hs C' Y') as (q' & Hq' & -> & P').
    destruct (spaced_apart 6 _ ltac:(lia) (spaced_shipped cfg Hs) q q' Hq Hq') as [<-|L]; [left; unfold phase_code in *; split; [reflexivity|congruence]|right; exact L].
  - intros m m' Hm Hm'.
    assert (R : forall m, In m embedded_moons -> In (utc_day (ae_DateTimeISO m), ae_Code m) records) by (intros x Hx; apply records_in; exists x; auto).
    destruct (spaced_apart 6 _ ltac:(lia) spaced_records _ _ (R m Hm) (R m' Hm')) as [E|L]; [left|right; exact L].
    injection E as E _. apply moon_unique; assumption.
Qed.
(** Six days: from the half moon of 2 January 2016 to the new moon of the 8th. *)
Example C64_apart_example : calculated cfg_default (day_number 2016 1 2) "waning" /\ calculated cfg_default (day_number 2016 1 8) "new" /\ Z.abs (day_number 2016 1 2 - day_number 2016 1 8) = 6%Z.
Proof.
  assert (S : shipped cfg_default) by (left; reflexivity). split; [|split; [|reflexivity]].
  - apply (calculated_row _ 2016 _ 3 _ S); [lia|vm_cast_no_check (eq_refl true)|reflexivity].
  - apply (calculated_row _ 2016 _ 0 _ S); [lia|vm_cast_no_check (eq_refl true)|reflexivity].
Qed.

(** * C79 *)
(** With the shipped settings: for an astronomical new or full moon found in the output, two days or more from both ends, an uposatha of that phase is found
    too, from two days before it to one day after; for an astronomical quarter moon, a half moon from one day before (two with the exceptions) to two days after. *)
Theorem C79_astronomical : forall encode sur cfg now1 now2 usage dump other l files y1 m1 d1 y2 m2 d2 s v, known l ->
  stands_for (last_value l "from") now1 1 1 y1 m1 d1 -> stands_for (last_value l "to") now2 12 31 y2 m2 d2 -> last_value l "output" = "" ->
  UseExceptions cfg = false \/ (forall z, AdhikavaraExceptions cfg z = shipped_exceptions z) ->
  main_run encode sur cfg embedded_fs now1 now2 usage dump other ("caldays" :: spelled l) (mkWorld files "") = Some (0%Z, mkWorld files s) -> json_text v s ->
  forall y x a, found v y "AstroMoon" x -> astro_object a x -> (day_number y1 m1 d1 + 2 <= utc_day (a_Date a) <= day_number y2 m2 d2 - 2)%Z ->
  (principal (a_Phase a) -> exists y' x' u, found v y' "UposathaMoon" x' /\ uposatha_object u x' /\ u_Phase u = a_Phase a /\ (-1 <= utc_day (a_Date a) - utc_day (u_Date u) <= 2)%Z) /\
  (~ principal (a_Phase a) -> exists y' x' h, found v y' "HalfMoon" x' /\ half_object h x' /\ h_Phase h = a_Phase a /\ (-2 <= utc_day (a_Date a) - utc_day (h_Date h) <= if UseExceptions cfg then 2 else 1)%Z).
Proof.
  intros encode sur cfg now1 now2 usage dump other l files y1 m1 d1 y2 m2 d2 s v K Sf St Lo S R J y x a F O W.
  destruct (proj1 (C77_astronomical encode sur cfg now1 now2 usage dump other l files y1 m1 d1 y2 m2 d2 s v K Sf St Lo R J y a)) as (_ & _ & _ & m & Hm & ->); [exists x; auto|].
  destruct (C77_found encode sur cfg now1 now2 usage dump other l files y1 m1 d1 y2 m2 d2 K Sf St Lo) as (s' & v' & R' & J' & U & H & _). rewrite R in R'. injection R' as <-.
  rewrite (C58_unambiguous _ _ _ J' J) in *. clear J'. destruct (C64_every_astronomical cfg m S Hm) as (d & C & B). remember (moon_of m) as a eqn:Ea. clear Ea.
  destruct (bounds cfg (a_Phase a)) as [B1 B2]. remember (a_Phase a) as p eqn:Ep.
  split; intros P.
  - destruct (B1 P) as [E1 E2]. rewrite E1, E2 in B. destruct C as [z u Hu|z h Hh]; [|elim (proj2 (year_phases cfg z) h Hh P)].
    destruct (proj2 (U z u)) as (x' & F' & O'); [split; [exact Hu|lia]|]. exists z, x', u. auto.
  - destruct (B2 P) as [E1 E2]. rewrite E1, E2 in B. destruct C as [z u Hu|z h Hh]; [elim (P (proj1 (year_phases cfg z) u Hu))|].
    destruct (proj2 (H z h)) as (x' & F' & O'); [split; [exact Hh|destruct (UseExceptions cfg); lia]|]. exists z, x', h. auto.
Qed.
(** The other way round, for a calculated moon found in the output, two days or more from the first and three from the last: between 2 January 1902
    and 14 May 2033, save in 1970 and on 30 and 31 December and 1 January, the astronomical moon is found too. *)
Definition covered (d : Z) : Prop :=
  (day_number 1902 1 2 <= d <= day_number 2033 5 14)%Z /\ year_of_day d <> 1970%Z /\
  forall y, d <> day_number y 12 30 /\ d <> day_number y 12 31 /\ d <> day_number y 1 1.
Theorem C79_calculated : forall encode sur cfg now1 now2 usage dump other l files y1 m1 d1 y2 m2 d2 s v, known l ->
  stands_for (last_value l "from") now1 1 1 y1 m1 d1 -> stands_for (last_value l "to") now2 12 31 y2 m2 d2 -> last_value l "output" = "" ->
  UseExceptions cfg = false \/ (forall z, AdhikavaraExceptions cfg z = shipped_exceptions z) -> (1900 <= y1)%Z ->
  main_run encode sur cfg embedded_fs now1 now2 usage dump other ("caldays" :: spelled l) (mkWorld files "") = Some (0%Z, mkWorld files s) -> json_text v s ->
  let inside d := (day_number y1 m1 d1 + 2 <= d <= day_number y2 m2 d2 - 3)%Z /\ covered d in
  (forall y x u, found v y "UposathaMoon" x -> uposatha_object u x -> inside (utc_day (u_Date u)) ->
     exists y' x' a, found v y' "AstroMoon" x' /\ astro_object a x' /\ a_Phase a = u_Phase u /\ (-1 <= utc_day (a_Date a) - utc_day (u_Date u) <= 2)%Z) /\
  (forall y x h, found v y "HalfMoon" x -> half_object h x -> inside (utc_day (h_Date h)) ->
     exists y' x' a, found v y' "AstroMoon" x' /\ astro_object a x' /\ a_Phase a = h_Phase h /\ (-2 <= utc_day (a_Date a) - utc_day (h_Date h) <= if UseExceptions cfg then 2 else 1)%Z).
Proof.
  intros encode sur cfg now1 now2 usage dump other l files y1 m1 d1 y2 m2 d2 s v K Sf St Lo S Y R J inside.
  pose proof (C77_astronomical encode sur cfg now1 now2 usage dump other l files y1 m1 d1 y2 m2 d2 s v K Sf St Lo R J) as A.
  destruct (C77_found encode sur cfg now1 now2 usage dump other l files y1 m1 d1 y2 m2 d2 K Sf St Lo) as (s' & v' & R' & J' & U & H & _). rewrite R in R'. injection R' as <-.
  rewrite (C58_unambiguous _ _ _ J' J) in *. clear J' v'.
  assert (G : forall d p, calculated cfg d p -> inside d -> exists y' x' a, found v y' "AstroMoon" x' /\ astro_object a x' /\ a_Phase a = p /\ (after_at_least p <= utc_day (a_Date a) - d <= after_at_most cfg p)%Z).
  { intros d p C [I (Cv1 & Cv2 & Cv3)]. destruct (C64_every_calculated cfg d p S C) as (m & Hm & Ep & B).
    - rewrite !year_date. exact Cv1.
    - rewrite !year_date. intros [L1 L2]. apply Cv2. apply year_of_day_mono in L1, L2. change (year_of_day (day_number 1970 1 1)) with 1970%Z in L1. change (year_of_day (day_number 1970 12 31)) with 1970%Z in L2. lia.
    - intros z. rewrite !year_date. apply Cv3.
    - remember (moon_of m) as a eqn:Ea. destruct (proj2 (A (time_year (a_Date a)) a)) as (x' & F' & O').
      + split; [exact Y|]. split; [reflexivity|]. split; [|exists m; auto].
        assert (L : (-2 <= utc_day (a_Date a) - d <= 2)%Z).
        { clear - B. destruct (bounds cfg p) as [B1 B2]. unfold after_at_least, after_at_most in B. destruct (String.eqb p "new" || String.eqb p "full"), (UseExceptions cfg); lia. }
        pose proof (utc_day_spec (a_Date a)) as Q. unfold day_ns in *. lia.
      + exists (time_year (a_Date a)), x', a. auto. }
  split.
  - intros y x u F O I. destruct (proj1 (U y u)) as [Hu _]; [exists x; auto|]. pose proof (proj1 (year_phases cfg y) u Hu) as P. destruct (proj1 (bounds cfg (u_Phase u)) P) as [E1 E2].
    destruct (G _ _ (by_uposatha cfg y u Hu) I) as (y' & x' & a & F' & O' & Ep & B). rewrite E1, E2 in B. exists y', x', a. auto.
  - intros y x u F O I. destruct (proj1 (H y u)) as [Hu _]; [exists x; auto|]. pose proof (proj2 (year_phases cfg y) u Hu) as P. destruct (proj2 (bounds cfg (h_Phase u)) P) as [E1 E2].
    destruct (G _ _ (by_half cfg y u Hu) I) as (y' & x' & a & F' & O' & Ep & B). rewrite E1, E2 in B. exists y', x', a. auto.
Qed.
(** The ten days around the full moon of July 2016: the phases of the uposathas, half moons and astronomical moons, with their days. *)
Definition listed (field : string) (year : string) (o : option (Z * world)) : list (value * value) :=
  match o with
  | Some (_, w) => match read_json (w_stdout w) with
      | Some v => flat_map (fun x => match members_named "Phase" x, members_named "Date" x with [a], [b] => [(a, b)] | _, _ => [] end)
          (flat_map items_of (flat_map (members_named field) (flat_map items_of (members_named year v))))
      | None => []
      end
  | None => []
  end.
Example C79_example : let l := [mkGiven true true "from" "2016-07-10"; mkGiven false false "to" "2016-07-31"] in
  let r := main_run (fun _ => "") (mkSurroundings (fun _ => true) 1000 (fun s => s)) cfg_default embedded_fs 2020 2020 (fun _ => "") (fun _ => "") (fun _ _ => None) ("caldays" :: spelled l) (mkWorld (fun _ => None) "") in
  listed "UposathaMoon" "2016" r = [(VStr "full", VStr "2016-07-19T00:00:00Z")] /\
  listed "HalfMoon" "2016" r = [(VStr "waxing", VStr "2016-07-12T00:00:00Z"); (VStr "waning", VStr "2016-07-27T00:00:00Z")] /\
  listed "AstroMoon" "2016" r = [(VStr "waxing", VStr "2016-07-12T00:52:41Z"); (VStr "full", VStr "2016-07-19T22:59:36Z"); (VStr "waning", VStr "2016-07-26T23:02:35Z")].
Proof. vm_compute. repeat split. Qed.
(** Two days before the last are not enough: the full moon of 5 May 1917 is found without its astronomical one, which comes during the last day. *)
Theorem C79_margin_refuted : exists s v, main_run (fun _ => "") (mkSurroundings (fun _ => true) 1000 (fun s => s)) cfg_default embedded_fs 2020 2020 (fun _ => "") (fun _ => "") (fun _ _ => None)
    ["caldays"; "--from=1917-05-01"; "--to=1917-05-07"] (mkWorld (fun _ => None) "") = Some (0%Z, mkWorld (fun _ => None) s) /\ json_text v s /\
  (exists x u, found v 1917 "UposathaMoon" x /\ uposatha_object u x /\ u_Phase u = "full" /\ utc_day (u_Date u) = (day_number 1917 5 7 - 2)%Z) /\ forall y x a, found v y "AstroMoon" x -> ~ astro_object a x.
Proof.
  pose (l := [mkGiven true true "from" "1917-05-01"; mkGiven true true "to" "1917-05-07"]).
  assert (K : known l) by (repeat constructor; cbn; auto). assert (C : civil_date 1917 5 1 /\ civil_date 1917 5 7) by (split; apply P_Date.civil_iff; vm_compute; intuition discriminate).
  assert (Sf : stands_for (last_value l "from") 2020 1 1 1917 5 1) by (left; split; [reflexivity|split; [apply C|lia]]).
  assert (St : stands_for (last_value l "to") 2020 12 31 1917 5 7) by (left; split; [reflexivity|split; [apply C|lia]]).
  destruct (C77_found (fun _ => "") (mkSurroundings (fun _ => true) 1000 (fun s => s)) cfg_default 2020 2020 (fun _ => "") (fun _ => "") (fun _ _ => None) l (fun _ => None) 1917 5 1 1917 5 7 K Sf St eq_refl)
    as (s & v & R & J & U & _). exists s, v. split; [exact R|]. split; [exact J|]. split.
  - assert (X : existsb (fun u => String.eqb (u_Phase u) "full" && Z.eqb (utc_day (u_Date u)) (day_number 1917 5 7 - 2)) (uposathas_of (events_of_year cfg_default 1917)) = true) by (vm_cast_no_check (eq_refl true)).
    apply existsb_exists in X. destruct X as (u & Hu & E). rewrite andb_true_iff, String.eqb_eq, Z.eqb_eq in E. destruct E as [E1 E2].
    destruct (proj2 (U 1917%Z u)) as (x & F & O); [split; [exact Hu|rewrite E2; vm_compute; intuition discriminate]|]. exists x, u. split; [exact F|]. split; [exact O|]. split; [exact E1|exact E2].
  - intros y x a F O.
    destruct (proj1 (C77_astronomical (fun _ => "") (mkSurroundings (fun _ => true) 1000 (fun s => s)) cfg_default 2020 2020 (fun _ => "") (fun _ => "") (fun _ _ => None) l (fun _ => None) 1917 5 1 1917 5 7 s v K Sf St eq_refl R J y a)) as (_ & _ & B & m & Hm & ->); [exists x; split; [exact F|exact O]|].
    assert (X : forallb (fun m => Z.ltb (t_ns (ae_DateTimeISO m)) (day_number 1917 5 1 * day_ns) || Z.ltb (day_number 1917 5 7 * day_ns) (t_ns (ae_DateTimeISO m))) embedded_moons = true) by (vm_cast_no_check (eq_refl true)).
    rewrite forallb_forall in X. specialize (X m Hm). apply orb_true_iff in X. rewrite !Z.ltb_lt in X. unfold moon_of in B. cbn [a_Date t_ns] in B.
    generalize dependent (day_number 1917 5 1 * day_ns)%Z. generalize dependent (day_number 1917 5 7 * day_ns)%Z. intros. lia.
Qed.
Example C79_covered_example : covered (day_number 2016 7 19) /\ ~ covered (day_number 2016 1 1).
Proof.
  split; [|intros (_ & _ & H); destruct (H 2016%Z) as (_ & _ & N); apply N; reflexivity].
  split; [vm_compute; intuition discriminate|]. split; [vm_compute; discriminate|].
  assert (Y : forall y m d, civil_date y m d -> day_number 2016 7 19 = day_number y m d -> month_of_day (day_number 2016 7 19) = m) by (intros y m d C ->; exact (proj1 (proj2 (day_number_parts y m d C)))).
  assert (D30 : forall y, civil_date y 12 30) by (intros y; apply P_Date.civil_iff; unfold days_in, days_before_month; destruct (is_leap y); cbn; lia).
  intros y. split; [|split]; intros E; [pose proof (Y y 12%Z 30%Z (D30 y) E) as N|pose proof (Y y 12%Z 31%Z (december y) E) as N|pose proof (Y y 1%Z 1%Z (january y) E) as N]; vm_compute in N; discriminate N.
Qed.
