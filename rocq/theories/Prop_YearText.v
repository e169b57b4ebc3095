(** C55: the texts of a year, of an angle and the simple table of years. *)
From Coq Require Import ZArith Lia List Bool String Ascii.
From Verif Require Import GoFloat SuriyaYear Machine Text SpecText YearsCsv YearText P_Text P_Csv Prop_Csv P_Year P_Counts.
Import ListNotations.
Open Scope Z_scope.
Local Open Scope string_scope.

Definition lines (text : string) : list string := split (ascii_of_nat 10) text.
(** The nine lines of SuriyaValuesString, in order. *)
Lemma values_text a b c d e f g h i : sprintf values_format (map AInt [a; b; c; d; e; f; g; h; i]) =
  "CE: " ++ fmt_d a ++ newline ++ "BE: " ++ fmt_d b ++ newline ++ "CS: " ++ fmt_d c ++ newline ++ "Horakhun: " ++ fmt_d d ++ newline ++
  "Kammacubala: " ++ fmt_d e ++ newline ++ "Uccabala: " ++ fmt_d f ++ newline ++ "Avoman: " ++ fmt_d g ++ newline ++
  "Masaken: " ++ fmt_d h ++ newline ++ "Tithi: " ++ fmt_d i ++ newline.
Proof. cbn -[fmt_d append newline]. reflexivity. Qed.
Lemma split_line label v r : without (ascii_of_nat 10) label -> split (ascii_of_nat 10) (label ++ fmt_d v ++ newline ++ r) = (label ++ fmt_d v) :: split (ascii_of_nat 10) r.
Proof.
  intros W. rewrite <- app_assoc'. change (newline ++ r) with (String (ascii_of_nat 10) r). apply split_app. apply without_app; [exact W|]. apply fmt_d_without. right. reflexivity.
Qed.
Theorem C55_values su : lines (suriya_values_string su) =
  (map (fun '(label, v) => (label ++ ": " ++ numeral v)%string)
    [("CE", sy_Year su); ("BE", sy_BE_Year su); ("CS", sy_CS_Year su); ("Horakhun", sy_Horakhun su); ("Kammacubala", sy_Kammacubala su);
     ("Uccabala", sy_Uccabala su); ("Avoman", sy_Avoman su); ("Masaken", sy_Masaken su); ("Tithi", sy_Tithi su)] ++ [""])%list.
Proof.
  unfold suriya_values_string, lines. rewrite values_text. rewrite !split_line by reflexivity. rewrite <- (app_nil newline), split_line by reflexivity. reflexivity.
Qed.
(** The text determines the record, and [String] the year. *)
Theorem C55_values_injective su su' : suriya_values_string su = suriya_values_string su' -> su = su'.
Proof.
  intros H. apply (f_equal lines) in H. rewrite !C55_values in H. cbn [map app] in H.
  injection H as H1 H2 H3 H4 H5 H6 H7 H8 H9.
  assert (I : forall a b, numeral a = numeral b -> a = b) by exact fmt_d_inj.
  destruct su, su'. cbn in *. apply I in H1, H2, H3, H4, H5, H6, H7, H8, H9. congruence.
Qed.
Theorem C55_string su : su_string su = numeral (sy_Year su) /\ forall su', su_string su = su_string su' -> sy_Year su = sy_Year su'.
Proof. split; [reflexivity|]. intros su'. apply fmt_d_inj. Qed.
Example C55_values_example : suriya_values_string (su_init 1963) = String.concat newline
  ["CE: 1963"; "BE: 2506"; "CS: 1325"; "Horakhun: 483969"; "Kammacubala: 552"; "Uccabala: 1780"; "Avoman: 61"; "Masaken: 16388"; "Tithi: 23"; ""]
  /\ su_string (su_init (-44)) = "-44".
Proof. vm_compute. auto. Qed.

(** The text of an angle determines its rasi, angsa and lipda. *)
Theorem C55_ral_string d d' : degree_to_ral_string d = degree_to_ral_string d' -> degree_to_ral d = degree_to_ral d'.
Proof.
  unfold degree_to_ral_string. destruct (degree_to_ral d) as [[x y] z], (degree_to_ral d') as [[x' y'] z'].
  assert (E : forall x y z, sprintf "%d:%d°%d'" [AInt x; AInt y; AInt z] = fmt_d x ++ ":" ++ fmt_d y ++ "°" ++ fmt_d z ++ "'") by reflexivity.
  rewrite !E. intros H. apply fmt_d_split in H; [|reflexivity|reflexivity]. destruct H as [-> H]. apply app_cancel in H.
  apply fmt_d_split in H; [|reflexivity|reflexivity]. destruct H as [-> H]. apply app_cancel in H.
  apply fmt_d_split in H; [|reflexivity|reflexivity]. destruct H as [-> _]. reflexivity.
Qed.
Example C55_ral_string_example : degree_to_ral_string (f_of_int 79) = "2:19°0'" /\ degree_to_ral_string (f_of_int 360) = "12:0°0'".
Proof. vm_compute. auto. Qed.

(** ** yearsCsvSimple *)
(** Its nine arguments meet seven verbs: in the line of each year Kammacubala is an error text, and
    Avoman and Tithi go to the next line in another one.  [dM], [dV] are the printed distances. *)
Fixpoint simple_lines (dM dV : Z -> string) (before : string) (ys : list Z) : list string :=
  match ys with
  | [] => [before]
  | y :: ys' =>
      let su := su_init y in
      (before ++ String.concat "," [numeral y; numeral (y + 543); numeral (adhikamasa_cycle_pos su); dM y; numeral (adhikavara_cycle_pos su);
         dV y; "%!s(int=" ++ numeral (sy_Kammacubala su) ++ ")"])
      :: simple_lines dM dV ("%!(EXTRA int=" ++ numeral (sy_Avoman su) ++ ", int=" ++ numeral (sy_Tithi su) ++ ")") ys'
  end.
Definition dM_of (y : Z) : string := if is_adhikamasa (su_init y) then match delta_adhikamasa (su_init y) with Some k => fmt_d k | None => "" end else "".
Definition dV_of (cfg : config) (y : Z) : string := if is_adhikavara cfg (su_init y) then match delta_adhikavara cfg (su_init y) with Some k => fmt_d k | None => "" end else "".
Lemma plain_chars sep s : (sep = ascii_of_nat 10 \/ sep = ","%char) -> all_chars num_char s = true -> without sep s.
Proof. intros [-> | ->]; apply without_class; reflexivity. Qed.
Lemma dM_without sep y : (sep = ascii_of_nat 10 \/ sep = ","%char) -> without sep (dM_of y).
Proof. intros S. unfold dM_of. destruct (is_adhikamasa _); [destruct (delta_adhikamasa _)|]; try reflexivity. apply plain_chars; [exact S|]. apply fmt_d_chars. Qed.
Lemma dV_without cfg sep y : (sep = ascii_of_nat 10 \/ sep = ","%char) -> without sep (dV_of cfg y).
Proof. intros S. unfold dV_of. destruct (is_adhikavara _ _); [destruct (delta_adhikavara _ _)|]; try reflexivity. apply plain_chars; [exact S|]. apply fmt_d_chars. Qed.
Definition row_head cfg (y : Z) : string :=
  let su := su_init y in
  String.concat "," [numeral y; numeral (y + 543); numeral (adhikamasa_cycle_pos su); dM_of y; numeral (adhikavara_cycle_pos su);
         dV_of cfg y; "%!s(int=" ++ numeral (sy_Kammacubala su) ++ ")"].
Definition row_tail (y : Z) : string := let su := su_init y in "%!(EXTRA int=" ++ numeral (sy_Avoman su) ++ ", int=" ++ numeral (sy_Tithi su) ++ ")".
Lemma simple_row_eq cfg y : simple_row cfg y = Some (row_head cfg y ++ newline ++ row_tail y).
Proof.
  unfold simple_row, row_head, row_tail, dM_of, dV_of. cbv zeta. destruct (delta_am_total (su_init y)) as [km Em]. destruct (delta_av_total cfg (su_init y)) as [kv Ev].
  rewrite Em, Ev.
  assert (E : forall a b c dM e dV k av t, sprintf ("%d,%d,%d,%s,%d,%s,%s" ++ newline) [AInt a; AInt b; AInt c; AStr dM; AInt e; AStr dV; AInt k; AInt av; AInt t] =
    String.concat "," [numeral a; numeral b; numeral c; dM; numeral e; dV; "%!s(int=" ++ numeral k ++ ")"] ++ newline ++ "%!(EXTRA int=" ++ numeral av ++ ", int=" ++ numeral t ++ ")").
  { intros. transitivity (fmt_d a ++ "," ++ fmt_d b ++ "," ++ fmt_d c ++ "," ++ dM ++ "," ++ fmt_d e ++ "," ++ dV ++ "," ++ ("%!s(int=" ++ fmt_d k ++ ")") ++ newline ++
      "%!(EXTRA " ++ (("int=" ++ fmt_d av) ++ ", " ++ ("int=" ++ fmt_d t)) ++ ")"); [reflexivity|]. cbn [String.concat]. rewrite !app_assoc'. reflexivity. }
  rewrite sy_Year_init. change (sy_BE_Year (su_init y)) with (y + 543).
  destruct (is_adhikamasa (su_init y)), (is_adhikavara cfg (su_init y)); cbn [option_map]; rewrite E; reflexivity.
Qed.
Lemma head_without cfg y : without (ascii_of_nat 10) (row_head cfg y).
Proof.
  apply concat_without; [reflexivity|]. intros g G. cbn [In] in G. assert (NL : ascii_of_nat 10 = ascii_of_nat 10 \/ ascii_of_nat 10 = ","%char) by (left; reflexivity).
  repeat (destruct G as [G|G]; [subst g; first [apply dM_without; exact NL|apply dV_without; exact NL|apply plain_chars; [exact NL|apply fmt_d_chars]
    |apply without_app; [reflexivity|apply without_app; [apply plain_chars; [exact NL|apply fmt_d_chars]|reflexivity]]]|]). destruct G.
Qed.
Lemma tail_without y : without (ascii_of_nat 10) (row_tail y).
Proof.
  unfold row_tail. cbv zeta. assert (N : forall z, without (ascii_of_nat 10) (numeral z)) by (intros z; apply plain_chars; [left; reflexivity|apply fmt_d_chars]).
  repeat (apply without_app; [first [reflexivity|apply N]|]). reflexivity.
Qed.
Lemma simple_rows_eq cfg n : forall y acc, exists text, simple_rows cfg n y acc = Some (acc ++ text) /\
  forall before, without (ascii_of_nat 10) before -> split (ascii_of_nat 10) (before ++ text) = simple_lines dM_of (dV_of cfg) before (years n y).
Proof.
  induction n as [|n IH]; intros y acc; cbn [simple_rows years simple_lines].
  - exists "". split; [rewrite app_nil; reflexivity|]. intros before W. rewrite app_nil. apply split_none. exact W.
  - rewrite simple_row_eq. destruct (IH (y + 1) (acc ++ row_head cfg y ++ newline ++ row_tail y)) as (text & E & S).
    exists ((row_head cfg y ++ newline ++ row_tail y) ++ text). split; [rewrite E, !app_assoc'; reflexivity|].
    intros before W. cbv zeta. fold (row_head cfg y). rewrite !app_assoc'. change (newline ++ row_tail y ++ text) with (String (ascii_of_nat 10) (row_tail y ++ text)).
    rewrite <- app_assoc'. rewrite split_app by (apply without_app; [exact W|apply head_without]). f_equal. apply S. apply tail_without.
Qed.
(** For every range of years the text is written; its lines are as described; and no line but
    the header has the nine columns the header announces. *)
Theorem C55_simple cfg first last : exists text dM dV,
  years_csv_simple cfg first last = Some text /\
  lines text = "CE year,BE year,nM,dM,nV,dV,K,A,T" :: simple_lines dM dV "" (years (Z.to_nat (last - first + 1)) first) /\
  (forall y, if is_adhikamasa (su_init y) then exists k, delta_adhikamasa (su_init y) = Some k /\ dM y = numeral k else dM y = "") /\
  (forall y, if is_adhikavara cfg (su_init y) then exists k, delta_adhikavara cfg (su_init y) = Some k /\ dV y = numeral k else dV y = "") /\
  forall l, In l (tl (lines text)) -> (List.length (split "," l) < 9)%nat.
Proof.
  destruct (simple_rows_eq cfg (Z.to_nat (last - first + 1)) first simple_header) as (text & E & S). exists (simple_header ++ text), dM_of, (dV_of cfg).
  assert (L : lines (simple_header ++ text) = "CE year,BE year,nM,dM,nV,dV,K,A,T" :: simple_lines dM_of (dV_of cfg) "" (years (Z.to_nat (last - first + 1)) first)).
  { unfold lines, simple_header. rewrite app_assoc'. change (newline ++ text) with (String (ascii_of_nat 10) text). rewrite split_app by reflexivity.
    f_equal. apply (S ""). reflexivity. }
  split; [exact E|]. split; [exact L|]. split; [|split].
  - intros y. unfold dM_of. destruct (is_adhikamasa (su_init y)); [|reflexivity]. destruct (delta_am_total (su_init y)) as [k ->]. eauto.
  - intros y. unfold dV_of. destruct (is_adhikavara cfg (su_init y)); [|reflexivity]. destruct (delta_av_total cfg (su_init y)) as [k ->]. eauto.
  - rewrite L. cbn [tl]. clear.
    assert (C : forall z, without "," (numeral z)) by (intros z; apply plain_chars; [right; reflexivity|apply fmt_d_chars]).
    assert (G : forall n y before, (exists a b, before = a ++ "," ++ b /\ without "," a /\ without "," b) \/ without "," before ->
      forall l, In l (simple_lines dM_of (dV_of cfg) before (years n y)) -> (List.length (split "," l) < 9)%nat).
    { induction n as [|n IH]; intros y before B l; cbn [years simple_lines In].
      - intros [<-|[]]. destruct B as [(a & b & -> & Wa & Wb)|W]; [|rewrite split_none by exact W; cbn; lia].
        change ("," ++ b) with (String "," b). rewrite split_app by exact Wa. rewrite split_none by exact Wb. cbn. lia.
      - cbv zeta. fold (row_head cfg y). fold (row_tail y). intros [<-|I].
        + assert (H : forall a, without "," a -> List.length (split "," (a ++ row_head cfg y)) = 7%nat).
          { intros a Wa. unfold row_head. cbv zeta. cbn [String.concat]. rewrite <- app_assoc'.
            assert (SC : forall p q, without "," p -> split "," (p ++ "," ++ q) = p :: split "," q) by (intros p q; exact (split_app "," p q)).
            rewrite SC by (apply without_app; [exact Wa|apply C]). rewrite SC by apply C. rewrite SC by apply C. rewrite SC by (apply dM_without; right; reflexivity).
            rewrite SC by apply C. rewrite SC by (apply dV_without; right; reflexivity).
            rewrite split_none; [reflexivity|]. apply without_app; [reflexivity|apply without_app; [apply C|reflexivity]]. }
          destruct B as [(a & b & -> & Wa & Wb)|W]; [|rewrite H by exact W; lia].
          rewrite !app_assoc'. change ("," ++ b ++ row_head cfg y) with (String "," (b ++ row_head cfg y)). rewrite split_app by exact Wa. cbn [List.length]. rewrite H by exact Wb. lia.
        + apply (IH (y + 1) (row_tail y)); [|exact I]. left. unfold row_tail. cbv zeta.
          exists ("%!(EXTRA int=" ++ numeral (sy_Avoman (su_init y))), (" int=" ++ numeral (sy_Tithi (su_init y)) ++ ")"). split; [rewrite !app_assoc'; reflexivity|].
          split; [apply without_app; [reflexivity|apply C]|]. apply without_app; [reflexivity|]. apply without_app; [apply C|reflexivity]. }
    apply G. right. reflexivity.
Qed.
Example C55_simple_example : years_csv_simple cfg_default 2015 2016 = Some (String.concat newline
  ["CE year,BE year,nM,dM,nV,dV,K,A,T"; "2015,2558,13,3,32,,%!s(int=188)"; "%!(EXTRA int=0, int=28)2016,2559,14,,33,7,%!s(int=781)"; "%!(EXTRA int=566, int=9)"]).
Proof. vm_compute. reflexivity. Qed.
