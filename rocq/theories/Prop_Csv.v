(** C52: the table of years written by the program in utils/. *)
From Coq Require Import ZArith Lia List Bool String Ascii.
From Verif Require Import GoTime SuriyaYear Helpers Machine Spec Text SpecText YearsData YearsCsv P_Year P_Counts P_Kattika P_Day P_Text P_Csv P_Time P_Date P_Json Prop_Year.
Import ListNotations.
Open Scope Z_scope.
Local Open Scope string_scope.

(** The table, read back: lines end with a newline and hold 14 fields separated by semicolons. *)
Definition table (text : string) : list (list string) := map (split ";") (split (ascii_of_nat 10) text).
Fixpoint years (n : nat) (first : Z) : list Z := match n with O => [] | S n' => first :: years n' (first + 1) end.

(** A day as YYYY-MM-DD; years of more digits have more, and years before 0 a sign. *)
Definition date_text (s : string) (day : Z) : Prop :=
  exists y m d, civil_date y m d /\ day = day_number y m d /\ s = (if (y <? 0)%Z then "-" else "") ++ padded 4 (Z.abs y) ++ "-" ++ padded 2 m ++ "-" ++ padded 2 d.
Lemma format_any_text t : date_text (format_any t) (local_day t).
Proof.
  exists (time_year t), (time_month t), (time_mday t). pose proof (mday_of_day_spec (local_day t)) as [D1 D2]. pose proof (month_of_day_range (local_day t)) as Hm.
  split; [apply civil_iff; unfold time_year, time_month, time_mday, days_in; lia|]. split; [unfold time_year, time_month, time_mday; rewrite day_number_civil; reflexivity|].
  pose proof (mday_range (local_day t)). unfold format_any, long_year, padded. change (String.length (numeral (Z.abs (time_year t)))) with (String.length (fmt_d (Z.abs (time_year t)))).
  assert (Zs : forall n, YearsCsv.zeros n = SpecText.zeros n) by (induction n as [|n IH]; [reflexivity|]; cbn; rewrite IH; reflexivity).
  change (SpecText.zeros (2 - String.length (numeral (time_month t))) ++ numeral (time_month t)) with (padded 2 (time_month t)).
  change (SpecText.zeros (2 - String.length (numeral (time_mday t))) ++ numeral (time_mday t)) with (padded 2 (time_mday t)).
  rewrite <- !two_padded by (unfold time_month, time_mday; lia). rewrite Zs, !app_assoc'. reflexivity.
Qed.

Example date_text_example : date_text "2016-07-19" (day_number 2016 7 19) /\ date_text "-0044-03-15" (day_number (-44) 3 15) /\ date_text "10000-01-01" (day_number 10000 1 1) /\
  map (fun y => format_any (time_date y 3 15 0 0)) [-44; -12345; 7] = ["-0044-03-15"; "-12345-03-15"; "0007-03-15"].
Proof.
  split; [|split; [|split; [|reflexivity]]].
  - exists 2016, 7, 19. split; [apply civil_iff; vm_compute; intuition discriminate|]. split; reflexivity.
  - exists (-44), 3, 15. split; [apply civil_iff; vm_compute; intuition discriminate|]. split; reflexivity.
  - exists 10000, 1, 1. split; [apply civil_iff; vm_compute; intuition discriminate|]. split; reflexivity.
Qed.

(** What the fields of the line of year [y] must be.  [asalha] is the date of Asalha Puja. *)
Definition line_of (cfg : config) (y : Z) (fields : list string) : Prop :=
  let su := su_init y in
  exists dM dV asalha computed,
    asalha_puja cfg su = Some asalha /\ date_text computed (local_day asalha) /\
    (if is_adhikamasa su then exists k, delta_adhikamasa su = Some k /\ dM = numeral k else dM = "") /\
    (if is_adhikavara cfg su then exists k, delta_adhikavara cfg su = Some k /\ dV = numeral k
     else dV = if would_be_adhikavara su then "x" else "") /\
    (forall date source comments, In (y, (date, source, comments)) published ->
       fields = [numeral y; numeral (y + 543); numeral (sy_Kammacubala su); numeral (sy_Avoman su); numeral (sy_Tithi su);
         numeral (adhikamasa_cycle_pos su); dM; numeral (adhikavara_cycle_pos su); dV; computed;
         date; (if String.eqb computed date then "OK" else "FAIL"); source; comments]) /\
    ((forall v, ~ In (y, v) published) ->
       fields = [numeral y; numeral (y + 543); numeral (sy_Kammacubala su); numeral (sy_Avoman su); numeral (sy_Tithi su);
         numeral (adhikamasa_cycle_pos su); dM; numeral (adhikavara_cycle_pos su); dV; computed; ""; ""; ""; ""]).

Lemma row_shape cfg y : exists body fields, csv_row cfg y = Some (body ++ newline) /\ without (ascii_of_nat 10) body /\
  split ";" body = fields /\ line_of cfg y fields.
Proof.
  unfold csv_row. cbv zeta. destruct (delta_am_total (su_init y)) as [km Em]. destruct (delta_av_total cfg (su_init y)) as [kv Ev].
  assert (Ea : exists a, asalha_puja cfg (su_init y) = Some a) by (rewrite asalha_puja_eq; eauto). destruct Ea as [a Ea].
  assert (HM : exists dM, csv_dM (su_init y) = Some dM /\ (if is_adhikamasa (su_init y) then exists k, delta_adhikamasa (su_init y) = Some k /\ dM = numeral k else dM = "")
               /\ forall sep, sep_char sep -> without sep dM).
  { unfold csv_dM. destruct (is_adhikamasa (su_init y)); [rewrite Em; exists (fmt_d km); split; [reflexivity|]; split; [exists km; auto|]; intros; apply fmt_d_without; assumption|].
    exists "". repeat split. }
  assert (HV : exists dV, csv_dV cfg (su_init y) = Some dV /\ (if is_adhikavara cfg (su_init y) then exists k, delta_adhikavara cfg (su_init y) = Some k /\ dV = numeral k else dV = if would_be_adhikavara (su_init y) then "x" else "")
               /\ forall sep, sep_char sep -> without sep dV).
  { unfold csv_dV. destruct (is_adhikavara cfg (su_init y)); [rewrite Ev; exists (fmt_d kv); split; [reflexivity|]; split; [exists kv; auto|]; intros; apply fmt_d_without; assumption|].
    destruct (would_be_adhikavara (su_init y)); [exists "x"|exists ""]; repeat split. intros sep [-> | ->]; reflexivity. }
  destruct HM as (dM & EM & SM & WM), HV as (dV & EV & SV & WV). rewrite EM, EV, Ea.
  rewrite sy_Year_init. change (sy_BE_Year (su_init y)) with (y + 543).
  assert (NL : sep_char (ascii_of_nat 10)) by (right; reflexivity). assert (SC : sep_char ";") by (left; reflexivity).
  assert (P : forall date test source comments, (forall sep, sep_char sep -> without sep date /\ without sep test /\ without sep source /\ without sep comments) ->
    line_of cfg y [fmt_d y; fmt_d (y + 543); fmt_d (sy_Kammacubala (su_init y)); fmt_d (sy_Avoman (su_init y)); fmt_d (sy_Tithi (su_init y));
         fmt_d (adhikamasa_cycle_pos (su_init y)); dM; fmt_d (adhikavara_cycle_pos (su_init y)); dV; format_any a; date; test; source; comments] ->
    exists body fields, Some (fmt_d y ++ ";" ++ fmt_d (y + 543) ++ ";" ++ fmt_d (sy_Kammacubala (su_init y)) ++ ";"
            ++ fmt_d (sy_Avoman (su_init y)) ++ ";" ++ fmt_d (sy_Tithi (su_init y)) ++ ";" ++ fmt_d (adhikamasa_cycle_pos (su_init y)) ++ ";"
            ++ dM ++ ";" ++ fmt_d (adhikavara_cycle_pos (su_init y)) ++ ";" ++ dV ++ ";" ++ format_any a ++ ";" ++ date ++ ";"
            ++ test ++ ";" ++ source ++ ";" ++ comments ++ newline) = Some (body ++ newline) /\ without (ascii_of_nat 10) body /\
      split ";" body = fields /\ line_of cfg y fields).
  { intros date test source comments W L.
    match type of L with line_of _ _ ?fs => set (fields := fs) in *; assert (WF : forall sep, sep_char sep -> forall g, In g fields -> without sep g) end.
    { intros sep S g G. destruct (W sep S) as (W1 & W2 & W3 & W4). unfold fields in G. cbn [In] in G.
      repeat (destruct G as [G|G]; [subst g; first [apply fmt_d_without; exact S|apply WM; exact S|apply WV; exact S|apply format_any_without; exact S|assumption]|]). destruct G. }
    exists (String.concat ";" fields), fields. split; [|split; [|split; [|exact L]]].
    - unfold fields. cbn [String.concat]. rewrite !app_assoc'. reflexivity.
    - apply concat_without; [reflexivity|]. apply WF. exact NL.
    - unfold fields in *. apply (split_concat ";"). apply WF. exact SC. }
  destruct (lookup_year published y) as [[[date source] comments]|] eqn:El.
  - apply P.
    + intros sep S. destruct (published_without y _ _ _ sep S El) as (W1 & W2 & W3). split; [exact W1|]. split; [|split; assumption].
      destruct (String.eqb (format_any a) date); destruct S as [-> | ->]; reflexivity.
    + exists dM, dV, a, (format_any a). split; [exact Ea|]. split; [apply format_any_text|]. split; [exact SM|]. split; [exact SV|]. split.
      * intros d s c I. apply (lookup_in y _ El) in I. injection I as -> -> ->. reflexivity.
      * intros N. exfalso. apply (N (date, source, comments)). clear - El. revert El.
        induction published as [|[y' v'] l IH]; cbn [lookup_year]; [discriminate|]. destruct (Z.eqb_spec y y') as [->|D]; [intros E; injection E as ->; left; reflexivity|intros E; right; apply IH; exact E].
  - apply P.
    + intros sep S. repeat split.
    + exists dM, dV, a, (format_any a). split; [exact Ea|]. split; [apply format_any_text|]. split; [exact SM|]. split; [exact SV|]. split.
      * intros d s c I. exfalso. exact (lookup_none y El _ I).
      * reflexivity.
Qed.
Lemma rows_shape cfg n : forall y acc, exists text rows, csv_rows cfg n y acc = Some (acc ++ text) /\
  split (ascii_of_nat 10) text = (rows ++ [""])%list /\ Forall2 (fun y row => line_of cfg y (split ";" row)) (years n y) rows.
Proof.
  induction n as [|n IH]; intros y acc; cbn [csv_rows years].
  - exists "", []. rewrite app_nil. split; [reflexivity|]. split; [reflexivity|constructor].
  - destruct (row_shape cfg y) as (body & fields & E & W & S & L). rewrite E.
    destruct (IH (y + 1) (acc ++ body ++ newline)) as (text & rows & E' & S' & F).
    exists ((body ++ newline) ++ text), (body :: rows). rewrite E'. split; [rewrite !app_assoc'; reflexivity|]. split.
    + rewrite app_assoc'. unfold newline. change (String (ascii_of_nat 10) "" ++ text) with (String (ascii_of_nat 10) text). rewrite split_app by exact W. rewrite S'. reflexivity.
    + constructor; [rewrite S; exact L|exact F].
Qed.

(** For every range of years the table is written (all the searches and loops end); read back, it
    is the header followed by one line of 14 fields for each year, in order, and nothing else. *)
Theorem C52_table cfg first last : exists text rows,
  years_csv cfg first last = Some text /\
  table text = (["CE year"; "BE year"; "K"; "A"; "T"; "nM"; "dM"; "nV"; "dV"; "Asalha by Calc."; "Asalha in Calendar"; "test"; "source"; "comments"] :: rows ++ [[""]])%list /\
  Forall2 (line_of cfg) (years (Z.to_nat (last - first + 1)) first) rows.
Proof.
  unfold years_csv. destruct (rows_shape cfg (Z.to_nat (last - first + 1)) first csv_header) as (text & rows & E & S & F).
  exists (csv_header ++ text), (map (split ";") rows). split; [exact E|]. split.
  - unfold table, csv_header. rewrite app_assoc'. change (newline ++ text) with (String (ascii_of_nat 10) text). rewrite split_app by reflexivity. rewrite S.
    cbn [map]. f_equal. rewrite map_app. reflexivity.
  - clear - F. induction F as [|y row ys rows H F IH]; cbn [map]; constructor; assumption.
Qed.

(** The program reproduces the file in the repository byte for byte. *)
Example C52_recorded : years_csv cfg_default 1970 2041 = Some recorded_csv.
Proof. vm_compute. reflexivity. Qed.

Lemma first_gap y : 639 <= y -> is_adhikamasa (su_init y) = true -> 641 <= y.
Proof.
  intros Hy Am. destruct (Z.eq_dec y 639) as [->|]; [vm_compute in Am; discriminate|]. destruct (Z.eq_dec y 640) as [->|]; [vm_compute in Am; discriminate|lia].
Qed.
(** From 639 on, the distance written for an adhikamasa year is 2 or 3, for an adhikavara year at most 8,
    and no year has both. *)
Theorem C52_gaps cfg y fields : 639 <= y ->
  (UseExceptions cfg = false \/ forall z, AdhikavaraExceptions cfg z = shipped_exceptions z) ->
  line_of cfg y fields ->
  exists dM dV, nth_error fields 6 = Some dM /\ nth_error fields 8 = Some dV /\
    In dM [""; "2"; "3"] /\ In dV [""; "x"; "1"; "2"; "3"; "4"; "5"; "6"; "7"; "8"] /\
    (dM = "" \/ dV = "" \/ dV = "x").
Proof.
  intros Hy Hc (dM & dV & a & computed & Ea & _ & HM & HV & HP & HN).
  assert (Fs : nth_error fields 6 = Some dM /\ nth_error fields 8 = Some dV).
  { destruct (lookup_year published y) as [[[d s] c]|] eqn:El; [|rewrite (HN (lookup_none y El)); split; reflexivity].
    rewrite (HP d s c); [split; reflexivity|]. clear - El. revert El.
    induction published as [|[y' v'] l IH]; cbn [lookup_year]; [discriminate|]. destruct (Z.eqb_spec y y') as [->|D]; [intros E; injection E as ->; left; reflexivity|intros E; right; apply IH; exact E]. }
  destruct Fs as [F6 F8]. exists dM, dV. split; [exact F6|]. split; [exact F8|].
  pose proof (C09_year_types_exclusive cfg y Hc) as X.
  split; [|split].
  - destruct (is_adhikamasa (su_init y)) eqn:Am; [|left; symmetry; exact HM]. destruct HM as (k & Ek & ->).
    destruct (C07_delta_adhikamasa_exact y ltac:(lia)) as (k' & Ek' & Hk & L). rewrite Ek in Ek'. injection Ek' as <-.
    destruct L as (L1 & L2 & L3).
    assert (Hk2 : k = 2 \/ k = 3).
    { pose proof (first_gap y Hy Am) as H41. assert (G : 638 <= y - k) by (clear - H41 Hk; lia).
      pose proof (C07_adhikamasa_spacing (y - k) y G L2) as Sp. replace (y - (y - k)) with k in Sp by lia. apply Sp.
      split; [lia|]. split; [exact Am|]. intros z Hz. apply L3. lia. }
    destruct Hk2 as [-> | ->]; cbn; auto.
  - destruct (is_adhikavara cfg (su_init y)) eqn:Av.
    + destruct HV as (k & Ek & ->). destruct (C12_delta_adhikavara_exact cfg y ltac:(lia) Hc) as (k' & Ek' & Hk & _). rewrite Ek in Ek'. injection Ek' as <-.
      assert (C : k = 1 \/ k = 2 \/ k = 3 \/ k = 4 \/ k = 5 \/ k = 6 \/ k = 7 \/ k = 8) by lia.
      repeat (destruct C as [-> |C]; [cbn; tauto|]). subst k. cbn. tauto.
    + rewrite HV. destruct (would_be_adhikavara (su_init y)); cbn; tauto.
  - destruct (is_adhikavara cfg (su_init y)) eqn:Av.
    + left. destruct (is_adhikamasa (su_init y)); [exfalso; apply X; split; reflexivity|exact HM].
    + right. rewrite HV. destruct (would_be_adhikavara (su_init y)); [right|left]; reflexivity.
Qed.

(** 2015 and 2009 in the recorded table. *)
Example C52_gaps_example :
  map (fun i => option_map (fun row => map (nth_error row) [0; 6; 8]%nat) (nth_error (table recorded_csv) i)) [46; 40]%nat =
  [Some [Some "2015"; Some "3"; Some "x"]; Some [Some "2009"; Some ""; Some "4"]].
Proof. vm_compute. reflexivity. Qed.

(** The computed Asalha Puja against the dates in published calendars: without the exceptions
    it differs in eight of the 47 years, with them in five; where it differs it is one day later. *)
Definition differs (cfg : config) (y : Z) (date : string) : Prop :=
  exists t, asalha_puja cfg (su_init y) = Some t /\ date_text date (local_day t - 1).
Definition agrees (cfg : config) (y : Z) (date : string) : Prop :=
  exists t, asalha_puja cfg (su_init y) = Some t /\ date_text date (local_day t).
Definition verdict (cfg : config) (years : list Z) (p : Z * (string * string * string)) : bool :=
  let '(y, (date, _, _)) := p in
  match asalha_puja cfg (su_init y) with
  | Some t => if existsb (Z.eqb y) years then String.eqb (format_any (time_add_date t 0 0 (-1))) date
              else String.eqb (format_any t) date
  | None => false
  end.
Lemma verdict_ok cfg l : forallb (verdict cfg l) published = true -> forall y date source comments, In (y, (date, source, comments)) published ->
  (In y l -> differs cfg y date) /\ (~ In y l -> agrees cfg y date).
Proof.
  intros A y date source comments I. rewrite forallb_forall in A. specialize (A _ I). unfold verdict in A. unfold differs, agrees.
  destruct (asalha_puja cfg (su_init y)) as [t|]; [|discriminate].
  assert (X : existsb (Z.eqb y) l = true <-> In y l) by (rewrite existsb_exists; split; [intros (x & Hx & E); apply Z.eqb_eq in E; subst x; exact Hx|intros H; exists y; split; [exact H|apply Z.eqb_refl]]).
  destruct (existsb (Z.eqb y) l).
  - apply String.eqb_eq in A. pose proof (format_any_text (time_add_date t 0 0 (-1))) as F. rewrite A, time_add_date_days in F.
    replace (local_day (time_add t (-1 * day_ns))) with (local_day t - 1) in F by (unfold local_day, local_ns, time_add; cbn [t_ns t_off]; replace (t_ns t + -1 * day_ns + t_off t * second_ns) with (t_ns t + t_off t * second_ns + -1 * day_ns) by lia; rewrite Z.div_add by discriminate; lia).
    split; [intros _; exists t; auto|intros N; exfalso; apply N; apply X; reflexivity].
  - apply String.eqb_eq in A. split; [intros N; apply X in N; discriminate|intros _; exists t; split; [reflexivity|rewrite <- A; apply format_any_text]].
Qed.
Theorem C52_published : forall y date source comments, In (y, (date, source, comments)) published ->
  let off := [1978; 1984; 1985; 1986; 1989; 1994; 1995; 1996] in
  let off_ex := [1978; 1984; 1985; 1986; 1989] in
  (In y off -> differs cfg_default y date) /\ (~ In y off -> agrees cfg_default y date) /\
  (In y off_ex -> differs cfg_exceptions y date) /\ (~ In y off_ex -> agrees cfg_exceptions y date).
Proof.
  intros y date source comments I off off_ex.
  assert (A : forallb (verdict cfg_default off) published = true) by (vm_compute; reflexivity).
  assert (B : forallb (verdict cfg_exceptions off_ex) published = true) by (vm_compute; reflexivity).
  destruct (verdict_ok _ _ A y date source comments I). destruct (verdict_ok _ _ B y date source comments I). auto.
Qed.

Example C52_published_example : In (1994, ("1994-07-22", "thaiorc.com, myhora.com", "calendar is missing adhikavāra, passing with exception")) published /\
  List.length published = 47%nat.
Proof. vm_compute. tauto. Qed.

(** The tables of expected values in suriya_test.go. *)
Example golden_years :
  forallb (fun p => Bool.eqb (is_adhikamasa (su_init (fst p))) (snd p)) tested_adhikamasa = true /\
  forallb (fun p => Bool.eqb (is_adhikavara cfg_default (su_init (fst p))) (snd p)) tested_adhikavara = true /\
  forallb (fun p => match asalha_puja cfg_default (su_init (fst p)) with Some t => String.eqb (format_any t) (snd p) | None => false end) tested_asalha = true /\
  forallb (fun p => match horakhun_to_date (fst p), snd p with
                    | Some t, (y, m, d) => (time_year t =? y)%Z && (time_month t =? m)%Z && (time_mday t =? d)%Z | None, _ => false end) tested_horakhun = true.
Proof. vm_compute. auto. Qed.
