(** Theorems C30-C33: GetAstroMoons and the embedded data. *)
From Coq Require Import ZArith Lia Bool ZifyBool List String Sorted.
From Verif Require Import GoTime CalDay UposathaMoon SuriyaYear AstroMoon AstroData AstroFS SpecCal SpecAstro.
From Verif Require Import P_Time P_Counts P_Gen2 P_CalDays P_CalDays2 P_Astro.
Import ListNotations.
Open Scope Z_scope.

(** * C30 GetAstroMoons returns exactly the in-range moons up to the first missing year file *)
Theorem C30_exact : forall fs from to,
  let read := take_while (fun y => negb (is_missing (fs y)))
                (years (time_year from) (Z.to_nat (time_year to - time_year from + 1))) in
  let moons := flat_map (fun y => map moon_of (filter (in_period from to) (usable (fs y)))) read in
  (get_astro_moons fs from to = Ok moons /\
   forall y, In y read -> fs y <> BadJson /\
     forall m, In m (usable (fs y)) -> in_period from to m = true -> 0 <= ae_Code m <= 3) \/
  (get_astro_moons fs from to = Panic /\
   exists y, In y read /\ (fs y = BadJson \/
     exists m, In m (usable (fs y)) /\ in_period from to m = true /\ ~ 0 <= ae_Code m <= 3)).
Proof.
  intros fs from to. cbv zeta. unfold get_astro_moons. change (Z.to_nat (time_year to - time_year from + 1)) with (CalDay.year_count from to).
  fold (read_years fs (time_year from) (CalDay.year_count from to)).
  set (l := read_years fs (time_year from) (CalDay.year_count from to)).
  assert (D : (forall z, In z l -> good_year fs from to z) \/ exists z, In z l /\ ~ good_year fs from to z).
  { clearbody l. induction l as [|x l IH]; [left; intros z []|]. destruct IH as [IH|(z & Hz & Hb)].
    - destruct (good_year_dec fs from to x) as [G|B]; [left; intros z [<-|Hz]; auto|right; exists x; split; [left; reflexivity|exact B]].
    - right. exists z. split; [right; exact Hz|exact Hb]. }
  destruct D as [D|(z & Hz & Hb)].
  - left. split; [apply astro_years_ok; exact D|]. exact D.
  - right. split; [apply (astro_years_panic fs from to _ z); assumption|]. exists z. split; [exact Hz|].
    destruct (fs z) as [| |s c r] eqn:E.
    + elim Hb. split; [rewrite E; discriminate|rewrite E; intros m []].
    + left. reflexivity.
    + right. destruct (existsb (fun m => in_period from to m && negb ((0 <=? ae_Code m) && (ae_Code m <=? 3))) (usable (Decoded s c r))) eqn:X.
      * apply existsb_exists in X. destruct X as (m & Hm & Hx). exists m. split; [exact Hm|]. apply andb_true_iff in Hx. destruct Hx as [H1 H2].
        split; [exact H1|lia].
      * elim Hb. split; [rewrite E; discriminate|]. rewrite E. intros m Hm Hp. unfold code_ok.
        destruct ((0 <=? ae_Code m) && (ae_Code m <=? 3)) eqn:C; [lia|].
        rewrite <- not_true_iff_false in X. elim X. apply existsb_exists. exists m. split; [exact Hm|]. rewrite Hp, C. reflexivity.
Qed.
Theorem C30_empty_range : forall fs from to, time_year to < time_year from -> get_astro_moons fs from to = Ok [].
Proof.
  intros fs from to H. unfold get_astro_moons. replace (CalDay.year_count from to) with O by (unfold CalDay.year_count; lia). reflexivity.
Qed.
(** One missing year hides all later ones. *)
Theorem C30_missing_hides_rest : forall fs from to y, time_year from <= y -> fs y = Missing ->
  forall ms, get_astro_moons fs from to = Ok ms ->
  forall m, In m ms -> exists z r, time_year from <= z < y /\ fs z = Decoded true ""%string r /\ In m (map moon_of r).
Proof.
  intros fs from to y Hy Hm ms E m Hi. destruct (C30_exact fs from to) as [[E' _]|[E' _]]; rewrite E in E'; [|discriminate].
  injection E' as E'. rewrite E' in Hi. apply in_flat_map in Hi. destruct Hi as (z & Hz & Hi).
  apply in_map_iff in Hi. destruct Hi as (r & <- & Hr). apply filter_In in Hr. destruct Hr as [Hr _].
  assert (G : forall n y0 z, In z (take_while (fun y => negb (is_missing (fs y))) (years y0 n)) -> y0 <= y -> y0 <= z < y).
  { clear - Hm. induction n as [|n IH]; intros y0 z; cbn [years take_while]; [intros []|].
    destruct (is_missing (fs y0)) eqn:M; cbn [negb]; [intros []|]. intros [<-|Hz] Hl.
    - destruct (Z.eq_dec y0 y) as [->|]; [rewrite Hm in M; discriminate|lia].
    - assert (y0 <> y) by (intros ->; rewrite Hm in M; discriminate). specialize (IH _ _ Hz ltac:(lia)). lia. }
  specialize (G _ _ _ Hz Hy). unfold usable in Hr. destruct (fs z) as [| |s c rs] eqn:F; try destruct Hr.
  destruct s; [|destruct Hr]. destruct c; [|destruct Hr]. exists z, rs. split; [exact G|]. split; [exact F|]. apply in_map. exact Hr.
Qed.
(** A range starting in 1899 finds nothing, although the data has a moon in it. *)
Theorem C30_complete_refuted :
  get_astro_moons embedded_fs (time_date 1899 12 31 0 0) (time_date 2016 7 20 0 0) = Ok [] /\
  In (mkAstroMoon "full" (time_date 2016 7 19 (82776 * second_ns) 0)) (map moon_of (usable (embedded_fs 2016))).
Proof.
  split; [vm_compute; reflexivity|].
  assert (E : exists l1 l2, map moon_of (usable (embedded_fs 2016)) = l1 ++ mkAstroMoon "full" (time_date 2016 7 19 (82776 * second_ns) 0) :: l2).
  { exists (firstn 27 (map moon_of (usable (embedded_fs 2016)))), (skipn 28 (map moon_of (usable (embedded_fs 2016)))). vm_compute. reflexivity. }
  destruct E as (l1 & l2 & ->). apply in_or_app. right. left. reflexivity.
Qed.
Example C30_example : get_astro_moons
    (fun y => if y =? 2000 then Decoded true "" [mkAerisMoon 2 (time_date 2000 1 5 0 3600); mkAerisMoon 7 (time_date 2000 12 5 0 0)]
              else if y =? 2001 then Decoded false "" [mkAerisMoon 9 (time_date 2001 1 5 0 0)] else Missing)
    (time_date 2000 1 1 0 0) (time_date 2001 6 1 0 0) = Panic /\
  get_astro_moons
    (fun y => if y =? 2000 then Decoded true "" [mkAerisMoon 2 (time_date 2000 1 5 0 3600); mkAerisMoon 7 (time_date 2000 12 5 0 0)]
              else if y =? 2001 then Decoded false "" [mkAerisMoon 9 (time_date 2001 1 5 0 0)] else Missing)
    (time_date 2000 1 1 0 0) (time_date 2000 6 1 0 0) = Ok [mkAstroMoon "full" (time_date 2000 1 4 (23 * hour_ns) 0)].
Proof. split; vm_compute; reflexivity. Qed.

(** * C31 The embedded astro data is consistent *)
Theorem C31_records : forall y success error recs r, In (y, (success, error, recs)) astro_files -> In r recs ->
  0 <= rec_code r <= 3 /\ rec_unix r + unix_epoch = rec_iso r /\ 0 <= rec_offset r <= 7200 /\ rec_year r = y.
Proof. exact record_of_file. Qed.
(** Within a file the moons are in order, 6 to 9 days apart, and the phases in their cycle. *)
Theorem C31_order : forall y success error recs, In (y, (success, error, recs)) astro_files ->
  Sorted (fun a b => rec_day a + 6 <= rec_day b <= rec_day a + 9 /\ rec_code b = (rec_code a + 1) mod 4) recs.
Proof.
  intros y s e recs H. pose proof (file_sorted y s e recs H) as S. clear H. induction S as [|a l S IH H]; constructor; [exact IH|].
  destruct H as [|b l H]; constructor. unfold next_ok in H. rewrite !andb_true_iff in H. destruct H as [[H1 H2] H3].
  apply Z.ltb_lt in H1. apply Z.ltb_lt in H2. apply Z.eqb_eq in H3. split; [lia|exact H3].
Qed.
Theorem C31_files : map fst astro_files = years 1900 141 /\
  forall y f, In (y, f) astro_files -> (file_records f = [] <-> In y [1900; 1901; 1970; 2034; 2035; 2036; 2037; 2038; 2039; 2040]).
Proof.
  split; [exact files_years|]. intros y f H.
  assert (C : forallb (fun p => Bool.eqb (match file_records (snd p) with [] => true | _ => false end)
      (existsb (Z.eqb (fst p)) [1900; 1901; 1970; 2034; 2035; 2036; 2037; 2038; 2039; 2040])) astro_files = true) by (vm_cast_no_check (eq_refl true)).
  rewrite forallb_forall in C. specialize (C _ H). cbn [fst snd] in C. apply Bool.eqb_prop in C. split.
  - intros E. rewrite E in C. symmetry in C. apply existsb_exists in C. destruct C as (x & Hx & E'). apply Z.eqb_eq in E'. rewrite E'. exact Hx.
  - intros Hi. destruct (file_records f); [reflexivity|]. symmetry in C. rewrite <- not_true_iff_false in C. elim C.
    apply existsb_exists. exists y. split; [exact Hi|apply Z.eqb_refl].
Qed.
(** Across files: either the phases continue, or exactly one moon is missing, in 18 years. *)
Definition seam_losses : list Z :=
  [1911; 1917; 1928; 1930; 1934; 1947; 1953; 1966; 1968; 1972; 1987; 1989; 1991; 2006; 2008; 2010; 2029; 2031].
Definition seam_ok (y : Z) (recs recs' : list record) : bool :=
  match last_of recs, recs' with
  | [a], b :: _ =>
      if existsb (Z.eqb y) seam_losses
      then (rec_code b =? (rec_code a + 2) mod 4) && (13 <=? rec_day b - rec_day a) && (rec_day b - rec_day a <=? 17)
      else (rec_code b =? (rec_code a + 1) mod 4) && (6 <=? rec_day b - rec_day a) && (rec_day b - rec_day a <=? 9)
  | _, _ => true
  end.
Lemma seams_check : forallb (fun p => match find (fun q => fst p + 1 =? fst q) astro_files with
    | Some q => seam_ok (fst q) (file_records (snd p)) (file_records (snd q)) | None => true end) astro_files = true.
Proof. vm_cast_no_check (eq_refl true). Qed.
Theorem C31_seams : forall y f f' a b rest,
  In (y, f) astro_files -> In (y + 1, f') astro_files ->
  last_of (file_records f) = [a] -> file_records f' = b :: rest ->
  (~ In (y + 1) seam_losses /\ rec_code b = (rec_code a + 1) mod 4 /\ 6 <= rec_day b - rec_day a <= 9) \/
  (In (y + 1) seam_losses /\ rec_code b = (rec_code a + 2) mod 4 /\ 13 <= rec_day b - rec_day a <= 17).
Proof.
  intros y f f' a b rest H H' Ea Eb. pose proof seams_check as C. rewrite forallb_forall in C. specialize (C _ H). cbn [fst snd] in C.
  rewrite (find_years astro_files 1900 files_years (y + 1) f' H') in C. cbn [fst snd] in C. unfold seam_ok in C. rewrite Ea, Eb in C.
  destruct (existsb (Z.eqb (y + 1)) seam_losses) eqn:X; rewrite !andb_true_iff in C; destruct C as [[C1 C2] C3];
    apply Z.eqb_eq in C1; apply Z.leb_le in C2; apply Z.leb_le in C3.
  - right. split; [|split; [exact C1|lia]]. apply existsb_exists in X. destruct X as (x & Hx & E). apply Z.eqb_eq in E. rewrite E. exact Hx.
  - left. split; [|split; [exact C1|lia]]. intros Hi. rewrite <- not_true_iff_false in X. apply X. apply existsb_exists.
    exists (y + 1). split; [exact Hi|apply Z.eqb_refl].
Qed.
(** The phases are not cyclic over the whole data: the full moon of 31 December 2009 is missing. *)
Theorem C31_cyclic_refuted : exists a b rest,
  last_of (file_records file_2009) = [a] /\ file_records file_2010 = b :: rest /\
  rec_day a = utc_day (time_date 2009 12 24 0 0) /\ rec_code a = 1 /\
  rec_day b = utc_day (time_date 2010 1 7 0 0) /\ rec_code b = 3.
Proof.
  exists (1,63397272994,0,1261676194), (3,63398457711,0,1262860911), (tl (file_records file_2010)).
  split; [vm_compute; reflexivity|]. split; [vm_compute; reflexivity|].
  split; [vm_compute; reflexivity|]. split; [reflexivity|]. split; [vm_compute; reflexivity|reflexivity].
Qed.
Example C31_example : hd_error (file_records file_1902) = Some (3,59989738116,0,(-2145858684)) /\ rec_year (3,59989738116,0,(-2145858684)) = 1902.
Proof. vm_compute. auto. Qed.

(** * C32 With the embedded data GetAstroMoons never panics and is complete *)
Theorem C32_never_panics : forall from to, exists ms, get_astro_moons embedded_fs from to = Ok ms.
Proof.
  intros from to. unfold get_astro_moons. rewrite astro_years_ok; [eexists; reflexivity|]. intros z _. apply embedded_good.
Qed.
Theorem C32_complete : forall from to, t_off from = 0 -> t_off to = 0 -> 1900 <= time_year from ->
  get_astro_moons embedded_fs from to = Ok (map moon_of (filter (in_period from to) embedded_moons)).
Proof.
  intros from to Hf Ht Hy. unfold get_astro_moons. rewrite astro_years_ok by (intros z _; apply embedded_good).
  f_equal. apply embedded_range; assumption.
Qed.
Theorem C32_before_1900 : forall from to, time_year from < 1900 -> get_astro_moons embedded_fs from to = Ok [].
Proof.
  intros from to Hy. unfold get_astro_moons. destruct (CalDay.year_count from to) as [|n]; [reflexivity|]. cbn [astro_years].
  pose proof (embedded_missing (time_year from)) as M. replace ((1900 <=? time_year from) && (time_year from <=? 2040)) with false in M by lia.
  destruct (embedded_fs (time_year from)); [reflexivity|discriminate|discriminate].
Qed.
Example C32_example :
  get_astro_moons embedded_fs (time_date 2016 7 18 0 0) (time_date 2016 7 30 0 0) =
  Ok [mkAstroMoon "full" (time_date 2016 7 19 (82776 * second_ns) 0); mkAstroMoon "waning" (time_date 2016 7 26 (82955 * second_ns) 0)].
Proof. vm_compute. reflexivity. Qed.

(** * C33 Astro moons of the last day are lost when toDate is a midnight *)
Theorem C33_last_day : forall fs from d ms m,
  get_astro_moons fs from (midnight d) = Ok ms -> In m ms -> utc_day (a_Date m) = d -> a_Date m = midnight d.
Proof.
  intros fs from d ms m E Hi Hd. destruct (C30_exact fs from (midnight d)) as [[E' _]|[E' _]]; rewrite E in E'; [|discriminate].
  injection E' as E'. rewrite E' in Hi. apply in_flat_map in Hi. destruct Hi as (z & _ & Hi).
  apply in_map_iff in Hi. destruct Hi as (r & <- & Hr). apply filter_In in Hr. destruct Hr as [_ Hr].
  unfold in_period in Hr. apply andb_true_iff in Hr. destruct Hr as [_ Hr]. apply Z.leb_le in Hr. cbn [midnight t_ns] in Hr.
  pose proof (utc_day_spec (a_Date (moon_of r))) as U. rewrite Hd in U. unfold moon_of in *. cbn [a_Date t_ns] in *.
  apply time_eq; cbn [midnight t_ns t_off]; [lia|reflexivity].
Qed.
(** GetCalDays(2016-07-18, 2016-07-19) has the uposatha of the 19th but not its full moon. *)
Theorem C33_witness_refuted :
  match get_cal_days cfg_default embedded_fs (time_date 2016 7 18 0 0) (time_date 2016 7 19 0 0) with
  | Some (Ok [c]) => cd_Date c = time_date 2016 7 19 0 0 /\ List.length (cd_Uposatha c) = 1%nat /\ cd_Astro c = []
  | _ => False
  end /\
  get_astro_moons embedded_fs (time_date 2016 7 18 0 0) (time_date 2016 7 20 0 0) = Ok [mkAstroMoon "full" (time_date 2016 7 19 (82776 * second_ns) 0)].
Proof. vm_compute. auto. Qed.
