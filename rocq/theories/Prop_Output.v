(** C60: exit status, standard output and the file named by --output. *)
From Coq Require Import ZArith List Bool String Ascii Lia.
From Verif Require Import GoTime SuriyaYear Helpers UposathaMoon CalDay AstroMoon AstroFS Text Cli Output SpecText JsonRead SpecJson.
From Verif Require Import P_Time P_Text P_Date P_CalDays P_JsonRead P_JsonMean Prop_Days Prop_Astro Prop_Cli Prop_Json Prop_JsonRead.
Import ListNotations.
Local Open Scope string_scope.

(** ** Lemmas *)
Lemma init_same sur now from to : match init_dates sur now now from to with inl p => cli_init now from to = Some p | inr _ => cli_init now from to = None end.
Proof. unfold init_dates, cli_init. destruct (flag_date from _); [|reflexivity]. destruct (flag_date to _); reflexivity. Qed.
Lemma append_right_inj a : forall b c, a ++ b = a ++ c -> b = c.
Proof. induction a as [|x a IH]; intros b c E; [exact E|]. injection E as E. exact (IH b c E). Qed.
Lemma first_bytes_spec n : forall s, (n < String.length s)%nat -> String.length (first_bytes n s) = n /\ exists r, s = first_bytes n s ++ r /\ r <> "".
Proof.
  induction n as [|n IH]; intros [|c s] H; cbn [String.length] in H; try lia.
  - split; [reflexivity|]. exists (String c s). split; [reflexivity|discriminate].
  - destruct (IH s) as (L & r & E & N); [lia|]. cbn [first_bytes String.length append]. split; [congruence|]. exists r. split; [congruence|exact N].
Qed.
Lemma print_json_text j v : forall s, s = print_json j ++ String (ascii_of_nat 10) "" -> v = embed j -> read_json s = Some v.
Proof.
  intros s -> ->. apply read_json_spec. exists "", (print_json j), (String (ascii_of_nat 10) ""). split; [constructor|]. split; [exact (proj1 (printed j))|]. split; [|reflexivity].
  constructor; [cbn; tauto|constructor].
Qed.

(** * C60 *)
(** Without --output, and unless the year changes between the two readings of the clock, this is the command of C43 to C58. *)
Theorem C60_agrees : forall sur cfg fs now from to w,
  match caldays_command cfg fs now from to with
  | None => caldays_run sur cfg fs now now from to "" w = None
  | Some (Printed s) => caldays_run sur cfg fs now now from to "" w = Some (0%Z, mkWorld (w_files w) (w_stdout w ++ s))
  | Some Cli.Failed => exists m, caldays_run sur cfg fs now now from to "" w = Some (1%Z, mkWorld (w_files w) (w_stdout w ++ m)) /\ read_json m = None
  | Some Panicked => caldays_run sur cfg fs now now from to "" w = Some (2%Z, w)
  end.
Proof.
  intros sur cfg fs now from to w. unfold caldays_command, caldays_run. pose proof (init_same sur now from to) as I.
  destruct (init_dates sur now now from to) as [[f t]|m] eqn:D; rewrite I.
  - destruct (get_cal_days cfg fs f t) as [[l|]|]; [|reflexivity|reflexivity]. destruct (json_of_days l) as [j|]; [reflexivity|].
    exists "". split; [|reflexivity]. rewrite app_nil. destruct w. reflexivity.
  - exists m. split; [reflexivity|]. unfold init_dates in D. destruct (flag_date from _); [destruct (flag_date to _); [discriminate|]|]; injection D as <-; reflexivity.
Qed.
(** The file gets exactly what would have been printed, without the line end, whatever was in it before; nothing else changes. *)
Theorem C60_file : forall sur cfg fs now1 now2 from to output w w', output <> "" ->
  caldays_run sur cfg fs now1 now2 from to output w = Some (0%Z, w') ->
  exists s, (forall v, caldays_run sur cfg fs now1 now2 from to "" v = Some (0%Z, mkWorld (w_files v) (w_stdout v ++ s ++ String (ascii_of_nat 10) ""))) /\
    (exists v, json_text v s) /\ w_files w' output = Some s /\ (forall n, n <> output -> w_files w' n = w_files w n) /\ w_stdout w' = w_stdout w.
Proof.
  intros sur cfg fs now1 now2 from to output w w' N. unfold caldays_run. destruct (init_dates sur now1 now2 from to) as [[f t]|m]; [|discriminate].
  destruct (get_cal_days cfg fs f t) as [[l|]|]; try discriminate. destruct (json_of_days l) as [j|]; [|discriminate]. unfold deliver at 1.
  rewrite (proj2 (String.eqb_neq output "") N). destruct (openable sur output); [|discriminate]. destruct (Nat.leb _ _); [|discriminate].
  intros E. injection E as <-. exists (print_json j). split; [reflexivity|]. split; [destruct (C58_printed j) as (v & R & _); exists v; apply C58_grammar; exact R|].
  unfold set_file. cbn [w_files w_stdout]. rewrite String.eqb_refl. split; [reflexivity|]. split; [|reflexivity]. intros n Hn. rewrite (proj2 (String.eqb_neq n output) Hn). reflexivity.
Qed.
(** A run that does not succeed changes no file, except that an opened file which could not be written in full
    is left with a beginning of the text. *)
Theorem C60_failure : forall sur cfg fs now1 now2 from to output w w' k, k <> 0%Z ->
  caldays_run sur cfg fs now1 now2 from to output w = Some (k, w') ->
  (k = 1%Z \/ k = 2%Z) /\ (forall n, n <> output -> w_files w' n = w_files w n) /\
  (w_files w' output = w_files w output \/
   (k = 1%Z /\ output <> "" /\ openable sur output = true /\ w_stdout w' = w_stdout w /\ exists s r, w_files w' output = Some s /\ r <> "" /\ String.length s = room sur /\
      forall v, caldays_run sur cfg fs now1 now2 from to "" v = Some (0%Z, mkWorld (w_files v) (w_stdout v ++ (s ++ r) ++ String (ascii_of_nat 10) "")))).
Proof.
  intros sur cfg fs now1 now2 from to output w w' k K. unfold caldays_run. destruct (init_dates sur now1 now2 from to) as [[f t]|m];
    [|intros E; injection E as <- <-; split; [tauto|]; split; [reflexivity|left; reflexivity]].
  destruct (get_cal_days cfg fs f t) as [[l|]|]; [|intros E; injection E as <- <-; split; [tauto|]; split; [reflexivity|left; reflexivity]|discriminate].
  destruct (json_of_days l) as [j|]; [|intros E; injection E as <- <-; split; [tauto|]; split; [reflexivity|left; reflexivity]]. unfold deliver at 1.
  destruct (String.eqb_spec output "") as [->|N]; [intros E; injection E as <- <-; elim K; reflexivity|].
  destruct (openable sur output) eqn:O; [|intros E; injection E as <- <-; split; [tauto|]; split; [reflexivity|left; reflexivity]].
  destruct (Nat.leb_spec (String.length (print_json j)) (room sur)) as [L|L]; intros E; injection E as <- <-; [elim K; reflexivity|].
  unfold set_file. cbn [w_files w_stdout]. split; [tauto|]. split; [intros n Hn; rewrite (proj2 (String.eqb_neq n output) Hn); reflexivity|].
  right. split; [reflexivity|]. split; [exact N|]. split; [reflexivity|]. split; [reflexivity|]. destruct (first_bytes_spec _ _ L) as (Ls & r & E & Nr).
  exists (first_bytes (room sur) (print_json j)), r. rewrite String.eqb_refl. split; [reflexivity|]. split; [exact Nr|]. split; [exact Ls|]. intros v. rewrite <- E. reflexivity.
Qed.
(** So an old file can be lost to a run that fails. *)
Theorem C60_old_file_kept_refuted : exists sur w w' s, w_files w "days.json" = Some s /\ s <> "" /\
  caldays_run sur cfg_default embedded_fs 2016 2016 "2016-07-20" "2016-07-21" "days.json" w = Some (1%Z, w') /\ w_files w' "days.json" = Some "".
Proof.
  exists (mkSurroundings (fun _ => true) 0 (fun s => s)), (mkWorld (fun _ => Some "{}") "").
  eexists. exists "{}". split; [reflexivity|]. split; [discriminate|]. split; [vm_compute; reflexivity|reflexivity].
Qed.
(** With the embedded files the program always ends, never by a panic, and succeeds exactly if the dates
    are accepted and the file can be opened and written. *)
Theorem C60_status : forall sur cfg now1 now2 from to output w, (0 <= now1 <= 9999)%Z -> (0 <= now2 <= 9999)%Z ->
  exists k w', caldays_run sur cfg embedded_fs now1 now2 from to output w = Some (k, w') /\ (k = 0%Z \/ k = 1%Z) /\
  (k = 0%Z <-> (from = "" \/ parse_date from <> None) /\ (to = "" \/ parse_date to <> None) /\
     (output = "" \/ (openable sur output = true /\ forall v v' s, caldays_run sur cfg embedded_fs now1 now2 from to "" v = Some (0%Z, v') ->
        w_stdout v' = w_stdout v ++ s ++ String (ascii_of_nat 10) "" -> (String.length s <= room sur)%nat))).
Proof.
  intros sur cfg now1 now2 from to output w H1 H2. unfold caldays_run.
  assert (F : forall x d, (flag_date x d = None <-> ~ (x = "" \/ parse_date x <> None))).
  { intros x d. unfold flag_date. destruct (String.eqb_spec x "") as [->|N]; [split; [discriminate|tauto]|]. destruct (parse_date x) as [y|]; split; intros H.
    - discriminate H.
    - elim H. right. discriminate.
    - intros [G|G]; [exact (N G)|exact (G H)].
    - reflexivity. }
  unfold init_dates. destruct (flag_date from (time_date now1 1 1 0 0)) as [f|] eqn:Ef.
  2:{ do 2 eexists. split; [reflexivity|]. split; [tauto|]. apply F in Ef. split; [discriminate|tauto]. }
  destruct (flag_date to (time_date now2 12 31 0 0)) as [t|] eqn:Et.
  2:{ do 2 eexists. split; [reflexivity|]. split; [tauto|]. apply F in Et. split; [discriminate|tauto]. }
  assert (Of : (t_off f = 0 /\ 0 <= time_year f)%Z).
  { assert (C : cli_init now1 from "" = Some (f, time_date now1 12 31 0 0)) by (unfold cli_init; rewrite Ef; reflexivity). destruct (flag_years now1 from "" _ _ H1 C) as (A & _ & B & _). tauto. }
  assert (Ot : (t_off t = 0 /\ time_year t <= 9999)%Z).
  { assert (C : cli_init now2 "" to = Some (time_date now2 1 1 0 0, t)) by (unfold cli_init; rewrite Et; reflexivity). destruct (flag_years now2 "" to _ _ H2 C) as (_ & A & _ & B). tauto. }
  destruct (C32_never_panics f t) as [ms Em]. assert (G : exists l, get_cal_days cfg embedded_fs f t = Some (Ok l)) by (rewrite cal_days_eq, Em; eexists; reflexivity).
  destruct G as [l G]. rewrite G. destruct (json_of_days_total cfg embedded_fs f t l) as [j J]; try tauto. rewrite J.
  assert (Af : from = "" \/ parse_date from <> None) by (destruct (String.eqb_spec from "") as [|N]; [tauto|right; unfold flag_date in Ef; rewrite (proj2 (String.eqb_neq _ _) N) in Ef; congruence]).
  assert (At : to = "" \/ parse_date to <> None) by (destruct (String.eqb_spec to "") as [|N]; [tauto|right; unfold flag_date in Et; rewrite (proj2 (String.eqb_neq _ _) N) in Et; congruence]).
  unfold deliver. destruct (String.eqb_spec output "") as [->|N].
  { do 2 eexists. split; [reflexivity|]. split; [tauto|]. tauto. }
  destruct (openable sur output); [|do 2 eexists; split; [reflexivity|]; split; [tauto|]; split; [discriminate|intros (_ & _ & [|[X _]]); [tauto|discriminate X]]].
  destruct (Nat.leb_spec (String.length (print_json j)) (room sur)) as [L|L]; do 2 eexists; (split; [reflexivity|]); (split; [tauto|]); split; try discriminate; try reflexivity.
  - intros _. split; [exact Af|]. split; [exact At|]. right. split; [reflexivity|]. intros v v' s E W. cbn [String.eqb] in E. injection E as <-. unfold print in W. cbn [w_stdout] in W.
    apply append_right_inj in W. enough (s = print_json j) by (subst s; exact L). symmetry. revert W. generalize (print_json j). clear. intros a. revert s.
    induction a as [|c a IH]; intros [|d s] E; cbn [append] in E; [reflexivity| | |].
    + injection E as _ E. destruct s; discriminate E.
    + injection E as _ E. destruct a; discriminate E.
    + injection E as -> E. f_equal. exact (IH s E).
  - intros (_ & _ & [|[_ X]]); [tauto|]. specialize (X w (print (print_json j ++ String (ascii_of_nat 10) "") w) (print_json j) eq_refl eq_refl). lia.
Qed.
(** What is on standard output is JSON exactly if the run succeeded: the message about a date goes there too. *)
Theorem C60_stdout : forall sur cfg fs now1 now2 from to k files w', 
  caldays_run sur cfg fs now1 now2 from to "" (mkWorld files "") = Some (k, w') ->
  (k = 0%Z <-> exists v, json_text v (w_stdout w')).
Proof.
  intros sur cfg fs now1 now2 from to k files w'. unfold caldays_run. destruct (init_dates sur now1 now2 from to) as [[f t]|m] eqn:D.
  - assert (X : ~ exists v, json_text v "") by (intros [v H]; apply C58_grammar in H; discriminate H).
    destruct (get_cal_days cfg fs f t) as [[l|]|]; [|intros E; injection E as <- <-; split; [discriminate|intros H; elim (X H)]|discriminate].
    destruct (json_of_days l) as [j|]; intros E; injection E as <- <-; [|split; [discriminate|intros H; elim (X H)]].
    split; [intros _|reflexivity]. exists (embed j). apply C58_grammar. exact (print_json_text j _ _ eq_refl eq_refl).
  - intros E. injection E as <- <-. split; [discriminate|]. intros [v H]. apply C58_grammar in H. unfold init_dates in D.
    destruct (flag_date from _); [destruct (flag_date to _); [discriminate|]|]; injection D as <-; discriminate H.
Qed.
(** The clock is read twice: the default range is from the year of the first reading to that of the second. *)
Theorem C60_clock : forall sur now1 now2, exists f t, init_dates sur now1 now2 "" "" = inl (f, t) /\
  forall y m d, civil_date y m d -> (t_ns f <= day_number y m d * (24 * hour_ns) <= t_ns t <-> now1 <= y <= now2)%Z.
Proof.
  intros sur now1 now2. do 2 eexists. split; [reflexivity|]. intros y m d C. rewrite !day_number_date. unfold midnight. cbn [t_ns]. rewrite day_number_jan1, day_number_dec31. unfold day_ns.
  pose proof (proj1 (day_number_parts y m d C)) as Y. pose proof (year_of_day_ge (day_number y m d) now1) as A. pose proof (year_of_day_le (day_number y m d) now2) as B. rewrite Y in A, B.
  unfold hour_ns, second_ns in *. lia.
Qed.
(** So a run over New Year gives two years. *)
Theorem C60_one_year_refuted : exists sur now1 now2 f t, now2 = (now1 + 1)%Z /\ init_dates sur now1 now2 "" "" = inl (f, t) /\
  (t_ns f <= day_number 2016 7 19 * (24 * hour_ns) <= t_ns t)%Z /\ (t_ns f <= day_number 2017 7 8 * (24 * hour_ns) <= t_ns t)%Z.
Proof. exists (mkSurroundings (fun _ => true) 0 (fun s => s)), 2016%Z, 2017%Z. do 2 eexists. split; [reflexivity|]. split; [reflexivity|]. vm_compute. intuition discriminate. Qed.
(** The calendar command writes its text in the same way, whatever the text is. *)
Theorem C60_ical : forall encode sur cfg fs now1 now2 from to output w w' k, ical_run encode sur cfg fs now1 now2 from to output w = Some (k, w') ->
  (forall n, n <> output -> w_files w' n = w_files w n) /\
  (k = 0%Z -> exists f t l, init_dates sur now1 now2 from to = inl (f, t) /\ get_cal_days cfg fs f t = Some (Ok l) /\
     if String.eqb output "" then w_files w' output = w_files w output /\ w_stdout w' = w_stdout w ++ encode (ical_events l)
     else w_files w' output = Some (encode (ical_events l)) /\ w_stdout w' = w_stdout w).
Proof.
  intros encode sur cfg fs now1 now2 from to output w w' k. unfold ical_run. destruct (init_dates sur now1 now2 from to) as [[f t]|m];
    [|intros E; injection E as <- <-; split; [reflexivity|discriminate]].
  destruct (get_cal_days cfg fs f t) as [[l|]|] eqn:G; [|intros E; injection E as <- <-; split; [reflexivity|discriminate]|discriminate].
  unfold deliver. destruct (String.eqb_spec output "") as [->|N].
  { intros E. injection E as <- <-. split; [reflexivity|]. intros _. exists f, t, l. split; [reflexivity|]. split; [exact G|]. cbn [String.eqb print w_files w_stdout]. rewrite app_nil. auto. }
  destruct (openable sur output); [|intros E; injection E as <- <-; split; [reflexivity|discriminate]].
  destruct (Nat.leb _ _); intros E; injection E as <- <-; unfold set_file; cbn [w_files w_stdout];
    (split; [intros n Hn; rewrite (proj2 (String.eqb_neq n output) Hn); reflexivity|]); [|discriminate].
  intros _. exists f, t, l. split; [reflexivity|]. split; [exact G|]. rewrite String.eqb_refl. auto.
Qed.
(** If it fails, as C60_failure: nothing changes but an opened file that could not be written in full. *)
Theorem C60_ical_failure : forall encode sur cfg fs now1 now2 from to output w w' k, ical_run encode sur cfg fs now1 now2 from to output w = Some (k, w') -> k <> 0%Z ->
  (k = 2%Z <-> exists f t, init_dates sur now1 now2 from to = inl (f, t) /\ get_astro_moons fs f t = Panic) /\ (k <> 2%Z -> k = 1%Z) /\
  forall f t l, init_dates sur now1 now2 from to = inl (f, t) -> get_cal_days cfg fs f t = Some (Ok l) -> output <> "" /\ w_stdout w' = w_stdout w /\
    if openable sur output then exists s r, w_files w' output = Some s /\ String.length s = room sur /\ r <> "" /\ encode (ical_events l) = s ++ r
    else forall n, w_files w' n = w_files w n.
Proof.
  intros encode sur cfg fs now1 now2 from to output w w' k. unfold ical_run. destruct (init_dates sur now1 now2 from to) as [[f t]|m].
  2:{ intros E _. injection E as <- <-. split; [split; [discriminate|intros (f & t & X & _); discriminate X]|]. split; [reflexivity|]. intros f t l X. discriminate X. }
  pose proof (C27_returns cfg fs f t) as R. destruct (get_astro_moons fs f t) as [ms|] eqn:A.
  2:{ rewrite R. intros E _. injection E as <- <-. split; [split; [intros _; exists f, t; auto|reflexivity]|]. split; [intros X; elim X; reflexivity|]. intros f' t' l X G. injection X as <- <-. congruence. }
  destruct R as [l G]. rewrite G. intros E K.
  assert (N2 : k = 1%Z -> (k = 2%Z <-> exists f0 t0, @inl (time * time) string (f, t) = inl (f0, t0) /\ get_astro_moons fs f0 t0 = Panic) /\ (k <> 2%Z -> k = 1%Z)).
  { intros ->. split; [split; [discriminate|]|reflexivity]. intros (f' & t' & X & Y). injection X as <- <-. congruence. }
  revert E. unfold deliver. destruct (String.eqb_spec output "") as [->|N]; [intros E; injection E as <- <-; elim K; reflexivity|].
  destruct (openable sur output).
  - destruct (Nat.leb_spec (String.length (encode (ical_events l))) (room sur)) as [L|L]; intros E; injection E as <- <-; [elim K; reflexivity|]. destruct (N2 eq_refl) as [B1 B2]. split; [exact B1|]. split; [exact B2|].
    intros f' t' l' X G'. injection X as <- <-. assert (l' = l) by congruence. subst l'. split; [exact N|]. split; [reflexivity|]. destruct (first_bytes_spec _ _ L) as (Ls & r & E & Nr).
    exists (first_bytes (room sur) (encode (ical_events l))), r. unfold set_file. cbn [w_files]. rewrite String.eqb_refl. auto.
  - intros E; injection E as <- <-. destruct (N2 eq_refl) as [B1 B2]. split; [exact B1|]. split; [exact B2|]. intros. auto.
Qed.
(** Both commands report the first bad date, and only that one, and do nothing else. *)
Theorem C60_message : forall encode sur cfg fs now1 now2 from to output w bad,
  (if match parse_date from with None => negb (String.eqb from "") | Some _ => false end then bad = from else bad = to /\ to <> "" /\ parse_date to = None) ->
  exists m, m = "parsing time " ++ parse_message sur bad /\
  caldays_run sur cfg fs now1 now2 from to output w = Some (1%Z, mkWorld (w_files w) (w_stdout w ++ m)) /\
  ical_run encode sur cfg fs now1 now2 from to output w = Some (1%Z, mkWorld (w_files w) (w_stdout w ++ m)).
Proof.
  intros encode sur cfg fs now1 now2 from to output w bad H. eexists. split; [reflexivity|]. unfold caldays_run, ical_run, init_dates, flag_date.
  destruct (String.eqb from ""), (parse_date from); cbn [negb] in H; try (subst bad; split; reflexivity);
    destruct H as (-> & N & P); rewrite (proj2 (String.eqb_neq to "") N), P; split; reflexivity.
Qed.
Example C60_example :
  let sur := mkSurroundings (String.eqb "days.json") 1000 (fun s => """" ++ s ++ """") in let w := mkWorld (fun _ => Some "old") "" in
  let run from output := option_map (fun p => (fst p, w_files (snd p) "days.json", w_stdout (snd p))) (caldays_run sur cfg_default embedded_fs 2016 2016 from "2016-07-21" output w) in
  run "2016-07-21" "days.json" = Some (0%Z, Some "{}", "") /\
  run "2016-07-21" "" = Some (0%Z, Some "old", "{}
") /\
  run "2016-07-21" "/no/days.json" = Some (1%Z, Some "old", "") /\
  run "2016-7-21" "days.json" = Some (1%Z, Some "old", "parsing time ""2016-7-21""") /\
  option_map (fun p => match p with (k, Some f, o) => (k, substring 0 40 f, o) | (k, None, o) => (k, "", o) end) (run "2016-07-20" "days.json") = Some (0%Z, "{""2016"":[{""Date"":""2016-07-20T00:00:00Z"",", "").
Proof. vm_compute. repeat split. Qed.
