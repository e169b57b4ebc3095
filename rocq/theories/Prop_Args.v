(** C76: the arguments of the program. *)
From Coq Require Import ZArith List Bool String Ascii Lia Wf_nat.
From Verif Require Import GoTime SuriyaYear Helpers UposathaMoon CalDay AstroMoon AstroFS Text Cli Output Args SpecText JsonRead SpecJson.
From Verif Require Import Prop_Json Prop_JsonRead Prop_Output.
Import ListNotations.
Local Open Scope string_scope.

(** A flag as given on the command line: [-n v], [--n v], [-n=v] or [--n=v]. *)
Record given := mkGiven { g_two : bool; g_joined : bool; g_name : string; g_value : string }.
Definition dashes (two : bool) : string := if two then "--" else "-".
Definition spelled1 (g : given) : list string :=
  if g_joined g then [dashes (g_two g) ++ g_name g ++ "=" ++ g_value g] else [dashes (g_two g) ++ g_name g; g_value g].
Definition spelled (l : list given) : list string := flat_map spelled1 l.
Definition known (l : list given) : Prop := Forall (fun g => In (g_name g) ["from"; "to"; "output"]) l.
(** The last value given for a flag *)
Definition last_value (l : list given) (n : string) : string :=
  match find (fun g => String.eqb (g_name g) n) (rev l) with Some g => g_value g | None => "" end.

(** ** Lemmas *)
Definition pairs (l : list given) : list (string * string) := map (fun g => (g_name g, g_value g)) l.
Lemma string_flag_last l n : string_flag (pairs l) n = last_value l n.
Proof.
  unfold last_value, string_flag, pairs. rewrite <- (rev_involutive l) at 1. induction (rev l) as [|g k IH]; [reflexivity|].
  cbn [rev find]. rewrite map_app, fold_left_app. cbn [map fold_left fst snd]. destruct (String.eqb (g_name g) n); [reflexivity|exact IH].
Qed.
Lemma parse_spelled l r : known l -> parse_flags (spelled l ++ r)%list = fold_right and_set (parse_flags r) (pairs l).
Proof.
  induction l as [|g l IH]; intros K; [reflexivity|]. inversion K as [|? ? H K']; subst. cbn [pairs map fold_right]. fold (pairs l). rewrite <- IH by exact K'.
  cbn [spelled flat_map]. fold (spelled l). rewrite <- app_assoc. destruct g as [two joined n v]. unfold spelled1. cbn [g_two g_joined g_name g_value] in *.
  destruct H as [<-|[<-|[<-|[]]]]; destruct two, joined; reflexivity.
Qed.
Lemma and_set_settings l s : fold_right and_set (Settings s) l = Settings (l ++ s)%list.
Proof. induction l as [|p l IH]; [reflexivity|]. cbn [fold_right app]. rewrite IH. reflexivity. Qed.
Lemma and_set_usage l : fold_right and_set Usage l = Usage.
Proof. induction l as [|p l IH]; [reflexivity|]. cbn [fold_right]. rewrite IH. reflexivity. Qed.
Lemma split_eq_spec s : forall n v, split_eq s = (n, v) -> s = n ++ match v with Some v => "=" ++ v | None => "" end.
Proof.
  induction s as [|c s IH]; intros n v E; [injection E as <- <-; reflexivity|]. cbn [split_eq] in E. destruct (Ascii.eqb c "=") eqn:C.
  - apply Ascii.eqb_eq in C. subst c. injection E as <- <-. reflexivity.
  - destruct (split_eq s) as [n' v']. injection E as <- <-. cbn [append]. f_equal. apply IH. reflexivity.
Qed.
Lemma split_eq_joined n : forall v, ~ In "="%char (list_ascii_of_string n) -> split_eq (n ++ match v with Some v => "=" ++ v | None => "" end) = (n, v).
Proof.
  induction n as [|c n IH]; intros v N; [destruct v; reflexivity|]. cbn [append split_eq list_ascii_of_string In] in *.
  destruct (Ascii.eqb c "=") eqn:C; [apply Ascii.eqb_eq in C; elim N; left; exact C|]. rewrite IH by tauto. reflexivity.
Qed.
Lemma named_spec s n v : flag_word s = Flag n v -> s = n ++ match v with Some v => "=" ++ v | None => "" end.
Proof.
  unfold flag_word. destruct s as [|c s]; [discriminate|]. destruct (_ || _); [discriminate|]. destruct (split_eq (String c s)) as [n' v'] eqn:E.
  intros H. injection H as <- <-. apply split_eq_spec. exact E.
Qed.
Definition tail_of (v : option string) : string := match v with Some v => "=" ++ v | None => "" end.
(** The six ways an argument can begin *)
Lemma word_cases a : (word_of a = Plain /\ (a = "" \/ a = "-" \/ exists c s, a = String c s /\ c <> "-"%char)) \/ (word_of a = Terminator /\ a = "--") \/
  (exists two s, a = dashes two ++ s /\ word_of a = flag_word s).
Proof.
  destruct a as [|c a]; [left; split; [reflexivity|auto]|]. destruct (ascii_dec c "-") as [->|N].
  2:{ left. split; [|right; right; exists c, a; auto]. destruct c as [[] [] [] [] [] [] [] []]; try reflexivity. elim N. reflexivity. }
  destruct a as [|c a]; [left; split; [reflexivity|auto]|]. destruct (ascii_dec c "-") as [->|N].
  - destruct a as [|c a]; [right; left; split; reflexivity|]. right. right. exists true, (String c a). split; reflexivity.
  - right. right. exists false, (String c a). split; [reflexivity|]. destruct c as [[] [] [] [] [] [] [] []]; try reflexivity. elim N. reflexivity.
Qed.
Lemma word_flag a n v : word_of a = Flag n v -> exists two, a = dashes two ++ n ++ tail_of v.
Proof.
  intros E. destruct (word_cases a) as [[W _]|[[W _]|(two & s & -> & W)]]; try congruence.
  exists two. rewrite W in E. apply named_spec in E. subst s. reflexivity.
Qed.
Lemma word_named two c n v : c <> "-"%char -> ~ In "="%char (list_ascii_of_string (String c n)) -> word_of (dashes two ++ String c n ++ tail_of v) = Flag (String c n) v.
Proof.
  intros N Q. assert (E : flag_word (String c n ++ tail_of v) = Flag (String c n) v).
  { pose proof (split_eq_joined (String c n) v Q) as S. fold (tail_of v) in S. cbn [append] in *. unfold flag_word. rewrite S.
    destruct (Ascii.eqb_spec c "-") as [C|_]; [elim (N C)|]. destruct (Ascii.eqb_spec c "=") as [C|_]; [elim Q; left; exact C|]. reflexivity. }
  rewrite <- E. destruct two; [reflexivity|]. cbn [dashes append]. destruct c as [[] [] [] [] [] [] [] []]; try reflexivity. elim N. reflexivity.
Qed.
Lemma one_of l s : is_one_of l s = true <-> In s l.
Proof.
  unfold is_one_of. rewrite existsb_exists. split; [intros (x & H & E); apply String.eqb_eq in E; subst; exact H|intros H; exists s; split; [exact H|apply String.eqb_refl]].
Qed.
Lemma not_one_of l s : ~ In s l -> is_one_of l s = false.
Proof. intros N. destruct (is_one_of l s) eqn:E; [apply one_of in E; elim (N E)|reflexivity]. Qed.

(** * C76 *)
(** Flags given in any of the four ways, in any order and number, run the command with the last value of each. *)
Theorem C76_flags : forall encode sur cfg fs now1 now2 usage dump other l w, known l ->
  main_run encode sur cfg fs now1 now2 usage dump other ("caldays" :: spelled l) w = caldays_run sur cfg fs now1 now2 (last_value l "from") (last_value l "to") (last_value l "output") w /\
  main_run encode sur cfg fs now1 now2 usage dump other ("ical" :: spelled l) w = ical_run encode sur cfg fs now1 now2 (last_value l "from") (last_value l "to") (last_value l "output") w.
Proof.
  intros encode sur cfg fs now1 now2 usage dump other l w K. pose proof (parse_spelled l [] K) as P. rewrite app_nil_r in P. cbn [parse_flags] in P. rewrite and_set_settings, app_nil_r in P.
  unfold main_run, dispatch, command_run. cbn [word_of String.eqb Ascii.eqb Bool.eqb]. rewrite P, !string_flag_last. split; reflexivity.
Qed.
(** No other arguments are taken for flags with their values. *)
Theorem C76_understood : forall args, (exists s, parse_flags args = Settings s) <-> exists l, known l /\ (args = spelled l \/ args = (spelled l ++ ["--"])%list).
Proof.
  intros args. split.
  - induction args as [args IH] using (induction_ltof1 _ (@List.length string)). unfold ltof in IH. intros [s E]. destruct args as [|a r]; [exists []; split; [constructor|left; reflexivity]|].
    cbn [parse_flags] in E. destruct (word_of a) as [| | |n v] eqn:W; try discriminate.
    + destruct r; [|discriminate]. destruct (word_cases a) as [[W' _]|[[_ ->]|(two & x & -> & W')]]; [congruence|exists []; split; [constructor|right; reflexivity]|].
      rewrite W in W'. unfold flag_word in W'. destruct x; [discriminate|]. destruct (_ || _); [discriminate|]. destruct (split_eq _); discriminate.
    + destruct (is_one_of ["help"; "h"] n); [discriminate|]. destruct (is_one_of flag_names n) eqn:O; [|discriminate]. apply one_of in O.
      destruct (word_flag _ _ _ W) as [two ->]. destruct v as [v|].
      * destruct (parse_flags r) as [s'| |] eqn:P; try discriminate. destruct (IH r ltac:(cbn; lia) ltac:(exists s'; exact P)) as (l & K & H).
        exists (mkGiven two true n v :: l). split; [constructor; [exact O|exact K]|]. destruct H as [->| ->]; [left|right]; reflexivity.
      * destruct r as [|v r]; [discriminate|]. destruct (parse_flags r) as [s'| |] eqn:P; try discriminate. destruct (IH r ltac:(cbn; lia) ltac:(exists s'; exact P)) as (l & K & H).
        exists (mkGiven two false n v :: l). split; [constructor; [exact O|exact K]|]. cbn [tail_of].
        assert (Z : n ++ "" = n) by (clear; induction n as [|c n IHn]; [reflexivity|cbn [append]; rewrite IHn; reflexivity]). rewrite Z. destruct H as [->| ->]; [left|right]; reflexivity.
  - intros (l & K & [->| ->]).
    + exists (pairs l). rewrite <- (app_nil_r (spelled l)), parse_spelled by exact K. cbn [parse_flags]. rewrite and_set_settings, app_nil_r. reflexivity.
    + exists (pairs l). rewrite parse_spelled by exact K. change (parse_flags ["--"]) with (Settings []). rewrite and_set_settings, app_nil_r. reflexivity.
Qed.
(** A usage error: after flags that are in order there is a malformed one, an unknown one, or one without a value at the end. *)
Definition rejected (args : list string) : Prop := exists l a rest, known l /\ args = (spelled l ++ a :: rest)%list /\
  ((exists x, a = "---" ++ x \/ a = "--=" ++ x \/ a = "-=" ++ x) \/
   exists two c n v, a = dashes two ++ String c n ++ match v with Some v => "=" ++ v | None => "" end /\ c <> "-"%char /\ ~ In "="%char (list_ascii_of_string (String c n)) /\
     ~ In (String c n) ["help"; "h"] /\ (In (String c n) ["from"; "to"; "output"] -> v = None /\ rest = [])).
Lemma split_eq_name s : forall n v, split_eq s = (n, v) -> ~ In "="%char (list_ascii_of_string n).
Proof.
  induction s as [|c s IH]; intros n v E; [injection E as <- <-; intros []|]. cbn [split_eq] in E. destruct (Ascii.eqb_spec c "=") as [C|C]; [injection E as <- <-; intros []|].
  destruct (split_eq s) as [n' v']. injection E as <- <-. cbn [list_ascii_of_string In]. intros [H|H]; [exact (C H)|exact (IH n' v' eq_refl H)].
Qed.
Lemma word_flag_name a n v : word_of a = Flag n v -> exists c n', n = String c n' /\ c <> "-"%char /\ ~ In "="%char (list_ascii_of_string n).
Proof.
  intros E. destruct (word_cases a) as [[W _]|[[W _]|(two & s & _ & W)]]; try congruence. rewrite W in E. unfold flag_word in E. destruct s as [|c s]; [discriminate|].
  destruct (Ascii.eqb_spec c "-") as [|C]; [discriminate|]. destruct (Ascii.eqb_spec c "=") as [|D]; [discriminate|]. cbn [orb] in E.
  destruct (split_eq (String c s)) as [n' v'] eqn:S. injection E as <- <-. pose proof (split_eq_name _ _ _ S) as Q. cbn [split_eq] in S.
  destruct (Ascii.eqb_spec c "=") as [|_]; [contradiction|]. destruct (split_eq s) as [m u]. injection S as <- <-. exists c, m. auto.
Qed.
Lemma word_malformed a : word_of a = Malformed <-> exists x, a = "---" ++ x \/ a = "--=" ++ x \/ a = "-=" ++ x.
Proof.
  split; [|intros [x [->|[->| ->]]]; reflexivity]. destruct a as [|c a]; [discriminate|]. destruct (ascii_dec c "-") as [->|N].
  2:{ destruct c as [[] [] [] [] [] [] [] []]; try discriminate. elim N. reflexivity. }
  assert (F : forall s, flag_word s = Malformed -> s = "" \/ exists x, s = "-" ++ x \/ s = "=" ++ x).
  { intros [|c s] H; [left; reflexivity|right]. unfold flag_word in H. destruct (Ascii.eqb_spec c "-") as [->|_]; [exists s; left; reflexivity|].
    destruct (Ascii.eqb_spec c "=") as [->|_]; [exists s; right; reflexivity|]. cbn [orb] in H. destruct (split_eq _). discriminate. }
  destruct a as [|c a]; [discriminate|]. destruct (ascii_dec c "-") as [->|N].
  - destruct a as [|c a]; [discriminate|]. intros H. destruct (F (String c a) H) as [E|[x [E|E]]]; [discriminate|rewrite E; exists x; auto|rewrite E; exists x; auto].
  - intros H. assert (H' : flag_word (String c a) = Malformed) by (destruct c as [[] [] [] [] [] [] [] []]; try exact H; elim N; reflexivity).
    destruct (F (String c a) H') as [E|[x [E|E]]]; [discriminate|injection E as -> _; elim N; reflexivity|rewrite E; exists x; auto].
Qed.
Theorem C76_rejected : forall args, parse_flags args = Usage <-> rejected args.
Proof.
  intros args. split.
  - induction args as [args IH] using (induction_ltof1 _ (@List.length string)). unfold ltof in IH. intros E. destruct args as [|a r]; [discriminate|].
    assert (Step : forall g r', known [g] -> (a :: r = spelled1 g ++ r')%list -> (List.length r' < List.length (a :: r))%nat -> parse_flags r' = Usage -> rejected (a :: r)).
    { intros g r' K Ea L P. destruct (IH r' L P) as (l & b & rest & Kl & -> & H). exists (g :: l), b, rest. split; [constructor; [inversion K; assumption|exact Kl]|]. split; [|exact H].
      rewrite Ea. cbn [spelled flat_map]. rewrite <- app_assoc. reflexivity. }
    cbn [parse_flags] in E. destruct (word_of a) as [| | |n v] eqn:W; try discriminate.
    + destruct r; discriminate.
    + exists [], a, r. split; [constructor|]. split; [reflexivity|]. left. apply word_malformed. exact W.
    + destruct (is_one_of ["help"; "h"] n) eqn:Hh; [discriminate|].
      assert (NH : ~ In n ["help"; "h"]) by (intros H; apply one_of in H; congruence).
      destruct (word_flag _ _ _ W) as [two Ea]. destruct (word_flag_name _ _ _ W) as (c & n' & En & Nc & Q).
      assert (Z : n ++ "" = n) by (clear; induction n as [|x n IHn]; [reflexivity|cbn [append]; rewrite IHn; reflexivity]).
      destruct (is_one_of flag_names n) eqn:O.
      * pose proof (proj1 (one_of _ _) O) as O'. destruct v as [v|].
        -- destruct (parse_flags r) eqn:P; try discriminate. apply (Step (mkGiven two true n v) r); [constructor; [exact O'|constructor]|rewrite Ea; reflexivity|cbn; lia|exact P].
        -- destruct r as [|v r].
           ++ exists [], a, []. split; [constructor|]. split; [reflexivity|]. right. exists two, c, n', None. rewrite <- En. split; [exact Ea|]. split; [exact Nc|]. split; [exact Q|]. split; [exact NH|]. intros _. split; reflexivity.
           ++ destruct (parse_flags r) eqn:P; try discriminate. apply (Step (mkGiven two false n v) r); [constructor; [exact O'|constructor]|rewrite Ea; cbn [tail_of]; rewrite Z; reflexivity|cbn; lia|exact P].
      * exists [], a, r. split; [constructor|]. split; [reflexivity|]. right. exists two, c, n', v. rewrite <- En. split; [exact Ea|]. split; [exact Nc|]. split; [exact Q|]. split; [exact NH|].
        intros H. apply (one_of flag_names) in H. congruence.
  - intros (l & a & rest & K & -> & H). rewrite parse_spelled by exact K. cbn [parse_flags]. destruct H as [H|(two & c & n & v & -> & N & Q & NH & R)].
    + rewrite (proj2 (word_malformed a) H). apply and_set_usage.
    + fold (tail_of v). rewrite (word_named two c n v N Q), (not_one_of _ _ NH).
      destruct (is_one_of flag_names (String c n)) eqn:O; [|apply and_set_usage]. apply one_of in O. destruct (R O) as [-> ->]. apply and_set_usage.
Qed.
(** Then the action is not run and no file is touched, but the exit status is 0. *)
Theorem C76_usage : forall encode sur cfg fs now1 now2 usage dump other command args w, In command ["caldays"; "ical"] -> rejected args ->
  main_run encode sur cfg fs now1 now2 usage dump other (command :: args) w = Some (0%Z, mkWorld (w_files w) (w_stdout w ++ usage (command :: args))).
Proof.
  intros encode sur cfg fs now1 now2 usage dump other command args w C R. apply C76_rejected in R.
  destruct C as [<-|[<-|[]]]; unfold main_run, dispatch, command_run; cbn [word_of String.eqb Ascii.eqb Bool.eqb]; rewrite R; reflexivity.
Qed.
(** So an exit status of 0 does not mean that there is a result: [caldays --form=2016-01-01]. *)
Theorem C76_status_refuted : exists usage args w', hd "" args = "caldays" /\
  main_run (fun _ => "") (mkSurroundings (fun _ => true) 1000 (fun s => s)) cfg_default embedded_fs 2016 2016 usage (fun _ => "") (fun _ _ => None) args (mkWorld (fun _ => None) "") = Some (0%Z, w') /\
  (forall n, w_files w' n = None) /\ ~ exists v, json_text v (w_stdout w').
Proof.
  exists (fun _ => "Incorrect Usage."), ["caldays"; "--form=2016-01-01"]. eexists. split; [reflexivity|]. split; [vm_compute; reflexivity|]. split; [reflexivity|].
  intros [v H]. apply C58_grammar in H. vm_compute in H. discriminate H.
Qed.
(** What follows a flag is its value, even if it looks like a flag: a forgotten value is not noticed as such. *)
Theorem C76_forgotten_value_refuted : exists args w', args = ["caldays"; "--from"; "--output=days.json"] /\
  main_run (fun _ => "") (mkSurroundings (fun _ => true) 1000 (fun s => s)) cfg_default embedded_fs 2016 2016 (fun _ => "Incorrect Usage.") (fun _ => "") (fun _ _ => None) args (mkWorld (fun _ => None) "") = Some (1%Z, w') /\
  w_stdout w' = "parsing time --output=days.json".
Proof. do 2 eexists. split; [reflexivity|]. split; [vm_compute; reflexivity|reflexivity]. Qed.
(** Any other word in the place of the command, and none, show the dates of the year with exit status 0, whatever follows. *)
Theorem C76_no_command : forall encode sur cfg fs now1 now2 usage dump other args w,
  (args = [] \/ exists a r, args = a :: r /\ (a = "" \/ a = "-" \/ exists c s, a = String c s /\ c <> "-"%char) /\ ~ In a ["caldays"; "ical"; "help"; "h"]) ->
  main_run encode sur cfg fs now1 now2 usage dump other args w =
  Some (0%Z, mkWorld (w_files w) (w_stdout w ++ dump (time_date now1 1 1 0 0, time_date now2 12 31 0 0))).
Proof.
  intros encode sur cfg fs now1 now2 usage dump other args w [->|(a & r & -> & A & N)]; [reflexivity|]. unfold main_run.
  assert (W : word_of a = Plain).
  { destruct A as [->|[->|(c & s & -> & Nc)]]; [reflexivity|reflexivity|]. destruct c as [[] [] [] [] [] [] [] []]; try reflexivity. elim Nc. reflexivity. }
  rewrite W. unfold dispatch. cbn [In] in N. destruct (String.eqb_spec a "caldays") as [E|_]; [elim N; auto|]. destruct (String.eqb_spec a "ical") as [E|_]; [elim N; auto|].
  rewrite not_one_of by (cbn [In]; intros [E|[E|[]]]; elim N; auto). reflexivity.
Qed.
(** The flags of the commands are not flags of the program. *)
Theorem C76_before_command : forall encode sur cfg fs now1 now2 usage dump other l r w, known l -> l <> [] ->
  let args := (spelled l ++ r)%list in
  main_run encode sur cfg fs now1 now2 usage dump other args w = Some (0%Z, mkWorld (w_files w) (w_stdout w ++ usage args)).
Proof.
  intros encode sur cfg fs now1 now2 usage dump other [|g l] r w K N args; [elim N; reflexivity|]. inversion K as [|? ? H K']; subst. unfold args. cbn [spelled flat_map]. fold (spelled l).
  destruct g as [two joined n v]. unfold spelled1. cbn [g_two g_joined g_name g_value] in *.
  destruct H as [<-|[<-|[<-|[]]]]; destruct two, joined; reflexivity.
Qed.

(** [--] before the command is skipped; after it a word that begins with a dash is no flag, so it is no command either. *)
Theorem C76_terminator : forall encode sur cfg fs now1 now2 usage dump other l args w, known l ->
  main_run encode sur cfg fs now1 now2 usage dump other ("--" :: "caldays" :: spelled l) w = caldays_run sur cfg fs now1 now2 (last_value l "from") (last_value l "to") (last_value l "output") w /\
  main_run encode sur cfg fs now1 now2 usage dump other ("--" :: "ical" :: spelled l) w = ical_run encode sur cfg fs now1 now2 (last_value l "from") (last_value l "to") (last_value l "output") w /\
  (~ In (hd "" args) ["caldays"; "ical"; "help"; "h"] ->
   main_run encode sur cfg fs now1 now2 usage dump other ("--" :: args) w = Some (0%Z, mkWorld (w_files w) (w_stdout w ++ dump (time_date now1 1 1 0 0, time_date now2 12 31 0 0)))).
Proof.
  intros encode sur cfg fs now1 now2 usage dump other l args w K. pose proof (parse_spelled l [] K) as P. rewrite app_nil_r in P. cbn [parse_flags] in P. rewrite and_set_settings, app_nil_r in P.
  split; [|split].
  - unfold main_run, dispatch, command_run. cbn [word_of String.eqb Ascii.eqb Bool.eqb]. rewrite P, !string_flag_last. reflexivity.
  - unfold main_run, dispatch, command_run. cbn [word_of String.eqb Ascii.eqb Bool.eqb]. rewrite P, !string_flag_last. reflexivity.
  - intros N. unfold main_run. cbn [word_of]. destruct args as [|a r]; [reflexivity|]. unfold dispatch. cbn [hd In] in N.
    destruct (String.eqb_spec a "caldays") as [E|_]; [elim N; auto|]. destruct (String.eqb_spec a "ical") as [E|_]; [elim N; auto|].
    rewrite not_one_of by (cbn [In]; intros [E|[E|[]]]; elim N; auto). reflexivity.
Qed.
(** The flags of the program are those for help and for the version; any other flag, and a malformed one, is a usage error. *)
Theorem C76_program_flags : forall encode sur cfg fs now1 now2 usage dump other r w,
  (forall two n v, In n ["help"; "h"; "version"; "v"] -> let args := (dashes two ++ n ++ match v with Some v => "=" ++ v | None => "" end) :: r in
    main_run encode sur cfg fs now1 now2 usage dump other args w = other args w) /\
  (forall two c n v, c <> "-"%char -> ~ In "="%char (list_ascii_of_string (String c n)) -> ~ In (String c n) ["help"; "h"; "version"; "v"] ->
    let args := (dashes two ++ String c n ++ match v with Some v => "=" ++ v | None => "" end) :: r in
    main_run encode sur cfg fs now1 now2 usage dump other args w = Some (0%Z, mkWorld (w_files w) (w_stdout w ++ usage args))) /\
  (forall x p, In p ["---"; "--="; "-="] -> let args := (p ++ x) :: r in
    main_run encode sur cfg fs now1 now2 usage dump other args w = Some (0%Z, mkWorld (w_files w) (w_stdout w ++ usage args))).
Proof.
  intros encode sur cfg fs now1 now2 usage dump other r w. split; [|split].
  - intros two n v H args. unfold args. destruct H as [<-|[<-|[<-|[<-|[]]]]]; destruct two, v; reflexivity.
  - intros two c n v N Q O args. unfold main_run, args. fold (tail_of v). rewrite (word_named two c n v N Q), (not_one_of _ _ O). reflexivity.
  - intros x p H args. unfold args. destruct H as [<-|[<-|[<-|[]]]]; reflexivity.
Qed.
(** What the model leaves open after a command: after flags that are in order there is a word that is no flag, [--] with something
    after it, or a flag for help. *)
Theorem C76_left_open : forall args, parse_flags args = Other <-> exists l a rest, known l /\ args = (spelled l ++ a :: rest)%list /\
  ((a = "" \/ a = "-" \/ exists c s, a = String c s /\ c <> "-"%char) \/ (a = "--" /\ rest <> []) \/
   exists two n v, In n ["help"; "h"] /\ a = dashes two ++ n ++ match v with Some v => "=" ++ v | None => "" end).
Proof.
  intros args. split.
  - induction args as [args IH] using (induction_ltof1 _ (@List.length string)). unfold ltof in IH. intros E. destruct args as [|a r]; [discriminate|].
    cbn [parse_flags] in E. destruct (word_of a) as [| | |n v] eqn:W; try discriminate.
    + exists [], a, r. split; [constructor|]. split; [reflexivity|]. left. destruct (word_cases a) as [[_ H]|[[W' _]|(two & s & -> & W')]]; [exact H|congruence|].
      rewrite W in W'. unfold flag_word in W'. destruct s; [discriminate|]. destruct (_ || _); [discriminate|]. destruct (split_eq _); discriminate.
    + exists [], a, r. split; [constructor|]. split; [reflexivity|]. right. left. destruct (word_cases a) as [[W' _]|[[_ ->]|(two & s & -> & W')]]; [congruence| |].
      * split; [reflexivity|]. intros ->. discriminate.
      * rewrite W in W'. unfold flag_word in W'. destruct s; [discriminate|]. destruct (_ || _); [discriminate|]. destruct (split_eq _); discriminate.
    + destruct (word_flag _ _ _ W) as [two Ea]. destruct (is_one_of ["help"; "h"] n) eqn:Hh.
      * exists [], a, r. split; [constructor|]. split; [reflexivity|]. right. right. exists two, n, v. split; [apply one_of; exact Hh|exact Ea].
      * destruct (is_one_of flag_names n) eqn:O; [|discriminate]. apply one_of in O.
        assert (Z : n ++ "" = n) by (clear; induction n as [|x n IHn]; [reflexivity|cbn [append]; rewrite IHn; reflexivity]).
        destruct v as [v|].
        -- destruct (parse_flags r) eqn:P; try discriminate. destruct (IH r ltac:(cbn; lia) P) as (l & b & rest & Kl & -> & H).
           exists (mkGiven two true n v :: l), b, rest. split; [constructor; [exact O|exact Kl]|]. split; [rewrite Ea; reflexivity|exact H].
        -- destruct r as [|v r]; [discriminate|]. destruct (parse_flags r) eqn:P; try discriminate. destruct (IH r ltac:(cbn; lia) P) as (l & b & rest & Kl & -> & H).
           exists (mkGiven two false n v :: l), b, rest. split; [constructor; [exact O|exact Kl]|]. split; [rewrite Ea; cbn [tail_of]; rewrite Z; reflexivity|exact H].
  - intros (l & a & rest & K & -> & H). rewrite parse_spelled by exact K.
    assert (P : parse_flags (a :: rest) = Other).
    { cbn [parse_flags]. destruct H as [H|[[-> R]|(two & n & v & I & ->)]].
      - assert (W : word_of a = Plain) by (destruct H as [->|[->|(c & s & -> & Nc)]]; [reflexivity|reflexivity|]; destruct c as [[] [] [] [] [] [] [] []]; try reflexivity; elim Nc; reflexivity).
        rewrite W. reflexivity.
      - cbn [word_of]. destruct rest; [elim R; reflexivity|reflexivity].
      - destruct I as [<-|[<-|[]]]; destruct two, v; reflexivity. }
    rewrite P. clear. induction (pairs l) as [|p k IH]; [reflexivity|]. cbn [fold_right]. rewrite IH. reflexivity.
Qed.
Example C76_example_program :
  let run args := main_run (fun _ => "") (mkSurroundings (fun _ => true) 1000 (fun s => s)) cfg_default embedded_fs 2016 2016 (fun _ => "Incorrect Usage.") (fun d => format_date (fst d) ++ " " ++ format_date (snd d))
    (fun _ w => Some (0%Z, print "left open" w)) args (mkWorld (fun _ => None) "") in
  map (fun args => match run args with Some (s, w) => (s, w_stdout w) | None => (9%Z, "") end)
    [[]; ["--"]; ["--"; "--from"]; ["days"; "--from=2016-01-01"]; ["--version"]; ["-h=1"]; ["--from=2016-01-01"; "caldays"]; ["---v"]; ["ical"; "--help"]; ["ical"; "x"]; ["ical"; "--form=x"]] =
  [(0%Z, "2016-01-01 2016-12-31"); (0%Z, "2016-01-01 2016-12-31"); (0%Z, "2016-01-01 2016-12-31"); (0%Z, "2016-01-01 2016-12-31"); (0%Z, "left open"); (0%Z, "left open");
   (0%Z, "Incorrect Usage."); (0%Z, "Incorrect Usage."); (0%Z, "left open"); (0%Z, "left open"); (0%Z, "Incorrect Usage.")].
Proof. vm_compute. reflexivity. Qed.

Example C76_example :
  let l := [mkGiven false false "from" "2016-07-20"; mkGiven true true "output" "a=b"; mkGiven true false "from" ""; mkGiven false true "output" "--to"] in
  spelled l = ["-from"; "2016-07-20"; "--output=a=b"; "--from"; ""; "-output=--to"] /\
  map (last_value l) ["from"; "to"; "output"] = [""; ""; "--to"] /\
  parse_flags (spelled l) = Settings [("from", "2016-07-20"); ("output", "a=b"); ("from", ""); ("output", "--to")] /\
  map parse_flags [["--from"]; ["---from=x"]; ["-=x"]; ["--fromm"; "x"]; ["x"]; ["--help"]; ["--"; "x"]] = [Usage; Usage; Usage; Usage; Other; Other; Other].
Proof. vm_compute. repeat split. Qed.
