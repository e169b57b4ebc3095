(** GetAstroMoons and the embedded data (C30-C33). *)
From Coq Require Import ZArith Lia Bool ZifyBool List String Sorted.
From Verif Require Import GoTime CalDay AstroMoon AstroData AstroFS SpecCal SpecAstro.
From Verif Require Import P_Time P_Gen2 P_CalDays P_CalDays2.
Import ListNotations.
Open Scope Z_scope.

Definition code_ok (m : AerisMoon) : Prop := 0 <= ae_Code m <= 3.

Lemma phase_code_ok m : code_ok m -> phase_code (ae_Code m) = Some (a_Phase (moon_of m)).
Proof.
  unfold code_ok, moon_of. cbn [a_Phase]. destruct m as [c t]. cbn [ae_Code]. intros H.
  assert (c = 0 \/ c = 1 \/ c = 2 \/ c = 3) as [->|[->|[->| ->]]] by lia; reflexivity.
Qed.
Lemma phase_code_none m : ~ code_ok m -> phase_code (ae_Code m) = None.
Proof.
  unfold code_ok, phase_code. intros H. destruct (Z.eqb_spec (ae_Code m) 0); [lia|]. destruct (Z.eqb_spec (ae_Code m) 1); [lia|].
  destruct (Z.eqb_spec (ae_Code m) 2); [lia|]. destruct (Z.eqb_spec (ae_Code m) 3); [lia|]. reflexivity.
Qed.
Lemma code_ok_dec m : {code_ok m} + {~ code_ok m}.
Proof. unfold code_ok. destruct (Z_le_dec 0 (ae_Code m)), (Z_le_dec (ae_Code m) 3); [left|right|right|right]; lia. Defined.

Lemma range_test from to m :
  time_before (time_utc (ae_DateTimeISO m)) from || time_after (time_utc (ae_DateTimeISO m)) to = negb (in_period from to m).
Proof. unfold time_before, time_after, in_period, time_utc. cbn [t_ns]. lia. Qed.

Lemma response_eq from to l : (forall m, In m l -> in_period from to m = true -> code_ok m) ->
  astro_of_response from to l = Ok (map moon_of (filter (in_period from to) l)).
Proof.
  induction l as [|m l IH]; intros H; [reflexivity|]. cbn [astro_of_response filter]. rewrite range_test.
  specialize (IH (fun x Hx => H x (or_intror Hx))). specialize (H m (or_introl eq_refl)).
  destruct (in_period from to m); cbn [negb]; [|exact IH]. rewrite (phase_code_ok m (H eq_refl)), IH. reflexivity.
Qed.
Lemma response_panic from to l m : In m l -> in_period from to m = true -> ~ code_ok m -> astro_of_response from to l = Panic.
Proof.
  intros Hi Hp Hc. induction l as [|x l IH]; [destruct Hi|]. cbn [astro_of_response]. rewrite range_test.
  destruct Hi as [->|Hi].
  - rewrite Hp, (phase_code_none m Hc). reflexivity.
  - specialize (IH Hi). destruct (in_period from to x); cbn [negb]; [|exact IH].
    destruct (phase_code (ae_Code x)); [|reflexivity]. rewrite IH. reflexivity.
Qed.

(** The years that are read. *)
Definition read_years (fs : Z -> fetch) (y : Z) (n : nat) : list Z :=
  take_while (fun z => negb (is_missing (fs z))) (years y n).
Definition good_year (fs : Z -> fetch) (from to : time) (y : Z) : Prop :=
  fs y <> BadJson /\ forall m, In m (usable (fs y)) -> in_period from to m = true -> code_ok m.

Lemma astro_years_ok fs from to n : forall y, (forall z, In z (read_years fs y n) -> good_year fs from to z) ->
  astro_years fs from to n y =
  Ok (flat_map (fun z => map moon_of (filter (in_period from to) (usable (fs z)))) (read_years fs y n)).
Proof.
  induction n as [|n IH]; intros y H; [reflexivity|]. unfold read_years in *. cbn [astro_years years take_while] in *.
  destruct (fs y) as [| |s c r] eqn:E; cbn [is_missing negb flat_map] in *; [reflexivity| |].
  - destruct (H y (or_introl eq_refl)) as [B _]. congruence.
  - specialize (IH (y + 1) (fun z Hz => H z (or_intror Hz))). specialize (H y (or_introl eq_refl)). destruct H as [_ H].
    rewrite E in *. unfold usable in *. destruct s; cbn [negb]; [|exact IH].
    destruct (String.eqb_spec c "") as [->|Hc]; cbn [negb].
    + rewrite response_eq by exact H. rewrite IH. reflexivity.
    + rewrite IH. destruct c as [|a c]; [elim Hc; reflexivity|reflexivity].
Qed.
Lemma astro_years_panic fs from to n z : forall y, In z (read_years fs y n) -> ~ good_year fs from to z ->
  astro_years fs from to n y = Panic.
Proof.
  induction n as [|n IH]; intros y Hi Hb; [destruct Hi|]. unfold read_years in *. cbn [astro_years years take_while] in *.
  destruct (fs y) as [| |s c r] eqn:E; cbn [is_missing negb] in *; [destruct Hi|reflexivity|].
  destruct Hi as [->|Hi].
  - unfold good_year in Hb. rewrite E in Hb. unfold usable in Hb.
    destruct s; [|elim Hb; split; [discriminate|intros m []]].
    destruct c as [|a c]; [|elim Hb; split; [discriminate|intros m []]]. cbn [negb String.eqb].
    destruct (existsb (fun m => in_period from to m && negb (if code_ok_dec m then true else false)) r) eqn:X.
    + apply existsb_exists in X. destruct X as (m & Hm & Hx). apply andb_true_iff in Hx. destruct Hx as [Hp Hc].
      destruct (code_ok_dec m) as [|Hc']; [discriminate|]. rewrite (response_panic from to r m Hm Hp Hc'). reflexivity.
    + elim Hb. split; [discriminate|]. intros m Hm Hp. destruct (code_ok_dec m) as [Hc|Hc]; [exact Hc|].
      rewrite <- not_true_iff_false in X. elim X. apply existsb_exists. exists m. split; [exact Hm|].
      rewrite Hp. destruct (code_ok_dec m); [contradiction|reflexivity].
  - specialize (IH (y + 1) Hi Hb). destruct s; cbn [negb]; [|exact IH]. destruct (String.eqb c ""); cbn [negb]; [|exact IH].
    destruct (astro_of_response from to r); [|reflexivity]. rewrite IH. reflexivity.
Qed.
Lemma good_year_dec fs from to y : {good_year fs from to y} + {~ good_year fs from to y}.
Proof.
  unfold good_year. destruct (fs y) as [| |s c r]; [left; split; [discriminate|intros m []]|right; intros [H _]; apply H; reflexivity|].
  destruct (existsb (fun m => in_period from to m && negb (if code_ok_dec m then true else false)) (usable (Decoded s c r))) eqn:X.
  - right. intros [_ H]. apply existsb_exists in X. destruct X as (m & Hm & Hx). apply andb_true_iff in Hx. destruct Hx as [Hp Hc].
    specialize (H m Hm Hp). destruct (code_ok_dec m); [discriminate|contradiction].
  - left. split; [discriminate|]. intros m Hm Hp. destruct (code_ok_dec m) as [Hc|Hc]; [exact Hc|].
    exfalso. rewrite <- not_true_iff_false in X. apply X. apply existsb_exists. exists m. split; [exact Hm|].
    rewrite Hp. destruct (code_ok_dec m); [contradiction|reflexivity].
Qed.

(** ** The embedded data *)
Fixpoint chain_ok (f : record -> record -> bool) (l : list record) : bool :=
  match l with a :: ((b :: _) as l') => f a b && chain_ok f l' | _ => true end.
Lemma chain_ok_sorted f l : chain_ok f l = true -> Sorted (fun a b => f a b = true) l.
Proof.
  induction l as [|a l IH]; [constructor|]. intros H. destruct l as [|b l].
  - constructor; constructor.
  - cbn [chain_ok] in H. apply andb_true_iff in H. destruct H as [H1 H2]. constructor; [apply IH; exact H2|constructor; exact H1].
Qed.
Definition rec_ok (y : Z) (r : record) : bool :=
  (0 <=? rec_code r) && (rec_code r <=? 3) && (rec_unix r + 62135596800 =? rec_iso r) && (0 <=? rec_offset r) && (rec_offset r <=? 7200)
  && (days_before_year y * 86400 <=? rec_iso r) && (rec_iso r <? days_before_year (y + 1) * 86400).
Definition next_ok (a b : record) : bool :=
  (rec_day a + 5 <? rec_day b) && (rec_day b <? rec_day a + 10) && (rec_code b =? (rec_code a + 1) mod 4).
Definition file_ok (p : Z * file) : bool :=
  let '(y, (s, e, recs)) := p in forallb (rec_ok y) recs && chain_ok next_ok recs.
Lemma files_ok : forallb file_ok astro_files = true.
Proof. vm_cast_no_check (eq_refl true). Qed.
Lemma files_years : map fst astro_files = years 1900 141.
Proof. vm_compute. reflexivity. Qed.
Lemma record_of_file y s e recs r : In (y, (s, e, recs)) astro_files -> In r recs ->
  0 <= rec_code r <= 3 /\ rec_unix r + unix_epoch = rec_iso r /\ 0 <= rec_offset r <= 7200 /\ rec_year r = y.
Proof.
  intros Hf Hr. pose proof files_ok as C. rewrite forallb_forall in C. specialize (C _ Hf). unfold file_ok in C.
  apply andb_true_iff in C. destruct C as [C _]. rewrite forallb_forall in C. specialize (C r Hr). unfold rec_ok in C.
  rewrite !andb_true_iff in C. destruct C as ((((((C1 & C2) & C3) & C4) & C4') & C5) & C6).
  split; [lia|]. split; [change unix_epoch with 62135596800; lia|]. split; [lia|].
  unfold rec_year, rec_day. apply year_of_day_iff. apply Z.leb_le in C5. apply Z.ltb_lt in C6.
  split; [apply Z.div_le_lower_bound; lia|apply Z.div_lt_upper_bound; lia].
Qed.
Lemma file_sorted y s e recs : In (y, (s, e, recs)) astro_files -> Sorted (fun a b => next_ok a b = true) recs.
Proof.
  intros Hf. pose proof files_ok as C. rewrite forallb_forall in C. specialize (C _ Hf). unfold file_ok in C.
  apply andb_true_iff in C. destruct C as [_ C]. apply chain_ok_sorted. exact C.
Qed.

(** Lookup by year. *)
Lemma lookup_in l y : lookup_file l y = Missing \/ exists s e r, In (y, (s, e, r)) l /\ lookup_file l y = Decoded s e (map moon_of_record r).
Proof.
  induction l as [|[y' [[s e] r]] l IH]; [left; reflexivity|]. cbn [lookup_file]. destruct (Z.eqb_spec y y') as [->|N].
  - right. exists s, e, r. split; [left; reflexivity|reflexivity].
  - destruct IH as [->|(s' & e' & r' & I & ->)]; [left; reflexivity|]. right. exists s', e', r'. split; [right; exact I|reflexivity].
Qed.
Lemma lookup_missing l y : ~ In y (map fst l) -> lookup_file l y = Missing.
Proof.
  induction l as [|[y' [[s e] r]] l IH]; [reflexivity|]. cbn [lookup_file map fst In]. intros H.
  destruct (Z.eqb_spec y y') as [->|N]; [elim H; left; reflexivity|]. apply IH. intros Hi. apply H. right. exact Hi.
Qed.
Lemma lookup_present l y : In y (map fst l) -> lookup_file l y <> Missing.
Proof.
  induction l as [|[y' [[s e] r]] l IH]; [intros []|]. cbn [lookup_file map fst In]. 
  destruct (Z.eqb_spec y y') as [->|N]; [discriminate|]. intros [E|H]; [congruence|apply IH; exact H].
Qed.
Lemma embedded_missing y : is_missing (embedded_fs y) = negb ((1900 <=? y) && (y <=? 2040)).
Proof.
  unfold embedded_fs. pose proof (years_in 1900 141 y) as Y. change (Z.of_nat 141) with 141 in Y.
  destruct ((1900 <=? y) && (y <=? 2040)) eqn:E; cbn [negb].
  - assert (H : In y (map fst astro_files)) by (rewrite files_years; apply Y; lia). apply lookup_present in H.
    destruct (lookup_file astro_files y); [elim H; reflexivity|reflexivity|reflexivity].
  - rewrite lookup_missing; [reflexivity|]. rewrite files_years, Y. lia.
Qed.
Lemma usable_embedded y : usable (embedded_fs y) = match find (fun p => y =? fst p) astro_files with
  | Some (_, f) => map moon_of_record (file_records f) | None => [] end.
Proof.
  unfold embedded_fs. induction astro_files as [|[y' [[s e] r]] l IH]; [reflexivity|]. cbn [lookup_file find fst].
  destruct (y =? y'); [|exact IH]. unfold usable, file_records. destruct s; [|reflexivity]. destruct e; reflexivity.
Qed.
Lemma usable_in y m : In m (usable (embedded_fs y)) -> code_ok m /\ year_of_day (utc_day (ae_DateTimeISO m)) = y.
Proof.
  unfold embedded_fs. destruct (lookup_in astro_files y) as [->|(s & e & r & Hf & ->)]; [intros []|].
  unfold usable. destruct s; [|intros []]. destruct e; [|intros []]. intros Hm. apply in_map_iff in Hm. destruct Hm as (x & <- & Hx).
  destruct (record_of_file _ _ _ _ x Hf Hx) as (H1 & _ & H3 & H4). destruct x as [[[c i] o] u]. unfold rec_year, rec_day, rec_iso in H4.
  cbn [rec_code rec_offset] in H1, H3. unfold moon_of_record, code_ok, utc_day. cbn [ae_Code ae_DateTimeISO t_ns t_off].
  split; [exact H1|].
  replace (i * second_ns / (24 * hour_ns)) with (i / 86400); [exact H4|].
  change (24 * hour_ns) with (86400 * second_ns). rewrite Z.div_mul_cancel_r by discriminate. reflexivity.
Qed.
Lemma embedded_good from to y : good_year embedded_fs from to y.
Proof.
  split.
  - unfold embedded_fs. destruct (lookup_in astro_files y) as [->|(s & e & r & _ & ->)]; discriminate.
  - intros m Hm _. apply (usable_in y m Hm).
Qed.

Lemma take_while_app {A} f (l m : list A) : forallb f l = true -> (match m with [] => True | x :: _ => f x = false end) ->
  take_while f (l ++ m) = l.
Proof.
  induction l as [|x l IH]; cbn [forallb app take_while].
  - intros _. destruct m as [|x m]; [reflexivity|]. cbn [take_while]. intros ->. reflexivity.
  - intros H Hm. apply andb_true_iff in H. destruct H as [-> H]. rewrite IH by assumption. reflexivity.
Qed.
Lemma years_app y a b : years y (a + b) = years y a ++ years (y + Z.of_nat a) b.
Proof.
  revert y. induction a as [|a IH]; intros y.
  - cbn [Nat.add years app]. f_equal. lia.
  - cbn [Nat.add years app]. f_equal. rewrite IH. do 2 f_equal. lia.
Qed.
(** From a year in 1900..2041 reading goes on up to 2040. *)
Lemma read_embedded y n : 1900 <= y ->
  read_years embedded_fs y n = years y (Nat.min n (Z.to_nat (2041 - y))).
Proof.
  intros Hy. unfold read_years. set (k := Nat.min n (Z.to_nat (2041 - y))).
  replace n with (k + (n - k))%nat at 1 by (unfold k; lia). rewrite years_app. apply take_while_app.
  - apply forallb_forall. intros z Hz. apply years_in in Hz. rewrite embedded_missing. unfold k in Hz. lia.
  - destruct (n - k)%nat as [|j] eqn:E; [exact I|]. cbn [years]. rewrite embedded_missing. unfold k in *. lia.
Qed.

(** All records in range belong to the years that are read. *)
Lemma find_years (l : list (Z * file)) y0 : map fst l = years y0 (List.length l) -> forall y f,
  In (y, f) l -> find (fun p => y =? fst p) l = Some (y, f).
Proof.
  revert y0. induction l as [|[y' f'] l IH]; intros y0 H y f; [intros []|]. cbn [List.length years map fst] in H. injection H as H1 H2.
  cbn [find fst]. intros [E|Hi].
  - injection E as -> ->. rewrite Z.eqb_refl. reflexivity.
  - assert (Hy : In y (map fst l)) by (apply in_map_iff; exists (y, f); auto). rewrite H2 in Hy. apply years_in in Hy.
    destruct (Z.eqb_spec y y'); [lia|]. apply (IH (y0 + 1) H2 y f Hi).
Qed.
Lemma embedded_flat : embedded_moons = flat_map (fun y => usable (embedded_fs y)) (years 1900 141).
Proof.
  unfold embedded_moons. rewrite <- files_years. rewrite flat_map_compose. apply flat_map_ext_in. intros [y f] H. cbn [fst snd].
  rewrite usable_embedded. rewrite (find_years astro_files 1900 files_years y f H). reflexivity.
Qed.
Lemma map_flat_map {A B C} (f : B -> C) (g : A -> list B) l : map f (flat_map g l) = flat_map (fun x => map f (g x)) l.
Proof. induction l as [|x l IH]; [reflexivity|]. cbn [flat_map]. rewrite map_app, IH. reflexivity. Qed.

Lemma embedded_range from to : t_off from = 0 -> t_off to = 0 -> 1900 <= time_year from ->
  flat_map (fun z => map moon_of (filter (in_period from to) (usable (embedded_fs z))))
    (read_years embedded_fs (time_year from) (CalDay.year_count from to)) =
  map moon_of (filter (in_period from to) embedded_moons).
Proof.
  intros Hf Ht Hy. rewrite read_embedded by exact Hy. rewrite embedded_flat, filter_flat_map, map_flat_map.
  set (g := fun z => map moon_of (filter (in_period from to) (usable (embedded_fs z)))).
  assert (Out : forall z, ~ (time_year from <= z <= time_year to) -> g z = []).
  { intros z Hz. unfold g. rewrite (filter_nil (in_period from to)); [reflexivity|]. intros m Hm. destruct (usable_in z m Hm) as (_ & E).
    unfold in_period. destruct (Z.leb_spec (t_ns from) (t_ns (ae_DateTimeISO m))) as [L1|]; [|reflexivity].
    destruct (Z.leb_spec (t_ns (ae_DateTimeISO m)) (t_ns to)) as [L2|]; [|reflexivity]. elim Hz. rewrite !year_utc by assumption. rewrite <- E.
    split; apply year_of_day_mono; unfold utc_day; apply Z.div_le_mono; (reflexivity || assumption). }
  assert (Out2 : forall z, 2040 < z -> g z = []).
  { intros z Hz. unfold g. pose proof (embedded_missing z) as M. replace ((1900 <=? z) && (z <=? 2040)) with false in M by lia.
    destruct (embedded_fs z); [reflexivity|discriminate|discriminate]. }
  destruct (Z_lt_le_dec 2040 (time_year from)) as [L|L].
  - rewrite flat_map_nil; [|intros z Hz; apply years_in in Hz; apply Out2; lia].
    rewrite flat_map_nil; [reflexivity|]. intros z Hz. apply years_in in Hz. apply Out. lia.
  - set (a := Z.to_nat (time_year from - 1900)). set (b := Nat.min (CalDay.year_count from to) (Z.to_nat (2041 - time_year from))).
    replace 141%nat with (a + (b + (141 - a - b)))%nat by (unfold a, b; lia). rewrite !years_app, !flat_map_app.
    replace (1900 + Z.of_nat a) with (time_year from) by (unfold a; lia).
    rewrite (flat_map_nil g (years 1900 a)); [|intros z Hz; apply years_in in Hz; apply Out; unfold a in Hz; lia].
    rewrite (flat_map_nil g (years (time_year from + Z.of_nat b) _)); [rewrite app_nil_r; reflexivity|].
    intros z Hz. apply years_in in Hz. unfold a, b, CalDay.year_count in Hz.
    destruct (Z_le_dec z 2040); [apply Out|apply Out2]; lia.
Qed.
