(** C65: the text of the caldays command, member by member. *)
From Coq Require Import ZArith List Bool String Ascii Lia Permutation Sorted.
From Verif Require Import GoTime Helpers UposathaMoon CalDay SuriyaYear AstroMoon AstroFS Text Cli JsonRead SpecText.
From Verif Require Import P_Text P_Cli P_Json P_JsonRead P_JsonMean Prop_Days Prop_Cli Prop_Json Prop_JsonRead SpecJson JsonRead.
Import ListNotations.
Local Open Scope string_scope.

(** A value of a JSON text that stands for a string, a number, a truth value, a time. *)
Definition is_string (s : string) (v : value) : Prop := exists raw, v = VStr raw /\ string_means raw s.
Definition is_number (z : Z) (v : value) : Prop := exists raw, v = VNum raw /\ integer_means raw z.
Definition is_truth (b : bool) (v : value) : Prop := v = VBool b.
Definition is_instant (t : time) (v : value) : Prop := exists s, is_string s v /\ time_means s t.
(** An array with these elements; an object with these members, in this order and no others. *)
Definition is_array {A} (R : A -> value -> Prop) (xs : list A) (v : value) : Prop := exists l, v = VArr l /\ Forall2 R xs l.
Definition is_object (ms : list (string * (value -> Prop))) (v : value) : Prop :=
  exists l, v = VObj l /\ Forall2 (fun m p => string_means (fst p) (fst m) /\ snd m (snd p)) ms l.
(** A member that is left out if the list is empty. *)
Definition unless_empty {A} (name : string) (R : A -> value -> Prop) (xs : list A) : list (string * (value -> Prop)) :=
  match xs with [] => [] | _ :: _ => [(name, is_array R xs)] end.
Definition uposatha_object (u : UposathaMoon) : value -> Prop :=
  is_object [("Date", is_instant (u_Date u)); ("Calendar", is_number (u_Calendar u)); ("Status", is_number (u_Status u));
    ("Phase", is_string (u_Phase u)); ("Event", is_string (u_Event u)); ("S_Number", is_number (u_S_Number u)); ("S_Total", is_number (u_S_Total u));
    ("U_Days", is_number (u_U_Days u)); ("M_Days", is_number (u_M_Days u)); ("LunarMonth", is_number (u_LunarMonth u));
    ("LunarSeason", is_number (u_LunarSeason u)); ("LunarYear", is_number (u_LunarYear u)); ("HasAdhikavara", is_truth (u_HasAdhikavara u));
    ("Source", is_string (u_Source u)); ("Comments", is_string (u_Comments u))].
Definition half_object (h : HalfMoon) : value -> Prop :=
  is_object [("Date", is_instant (h_Date h)); ("Phase", is_string (h_Phase h))].
Definition astro_object (a : AstroMoon) : value -> Prop :=
  is_object [("Phase", is_string (a_Phase a)); ("Date", is_instant (a_Date a))].
Definition event_object (e : Event) : value -> Prop :=
  is_object [("Date", is_instant (e_Date e)); ("Calendar", is_number (e_Calendar e)); ("Summary", is_string (e_Summary e)); ("Description", is_string (e_Description e))].
Definition day_object (d : CalDay) : value -> Prop :=
  is_object ([("Date", is_instant (cd_Date d))] ++ unless_empty "UposathaMoon" uposatha_object (cd_Uposatha d) ++
    unless_empty "HalfMoon" half_object (cd_Half d) ++ unless_empty "AstroMoon" astro_object (cd_Astro d) ++
    unless_empty "MajorEvents" event_object (cd_Major d) ++ unless_empty "Events" event_object (cd_Events d))%list.
(** The days of each year under the numeral of the year; the numerals in the order of their characters. *)
Definition days_object (l : list CalDay) (v : value) : Prop :=
  exists years, StronglySorted (fun a b => String.compare (numeral a) (numeral b) = Lt) years /\
    (forall y, In y years <-> exists d, In d l /\ time_year (cd_Date d) = y) /\
    is_object (map (fun y => (numeral y, is_array day_object (filter (fun d => Z.eqb (time_year (cd_Date d)) y) l))) years) v.

(** ** Lemmas *)
Lemma string_meant s v : value_means v (JStr s) -> is_string s v.
Proof. intros H. inversion H; subst. eexists. split; [reflexivity|assumption]. Qed.
Lemma number_meant z v : value_means v (JInt z) -> is_number z v.
Proof. intros H. inversion H; subst. eexists. split; [reflexivity|assumption]. Qed.
Lemma truth_meant b v : value_means v (JBool b) -> is_truth b v.
Proof. intros H. inversion H; subst. reflexivity. Qed.
Lemma instant_meant t j v : t_off t = 0%Z -> json_time t = Some j -> value_means v j -> is_instant t v.
Proof.
  intros O J M. assert (S : exists s, j = JStr s) by (unfold json_time in J; destruct (_ && _)%bool; [eexists; assert (Inj : forall A (a b : A), Some a = Some b -> b = a) by congruence; exact (Inj _ _ _ J)|discriminate]).
  destruct S as [s ->]. exists s. split; [apply string_meant; exact M|apply time_printed; assumption].
Qed.
Lemma object_meant ms ps v : Forall2 (fun (m : string * (value -> Prop)) (p : string * json) => fst p = fst m /\ forall w, value_means w (snd p) -> snd m w) ms ps ->
  value_means v (JObj ps) -> is_object ms v.
Proof.
  intros F H. inversion H as [| | | |l l' G]; subst. exists l. split; [reflexivity|]. clear H. revert l G.
  induction F as [|m p ms ps [E M] F IH]; intros l G; inversion G as [|q p' l0 ps' [K V] G']; subst; constructor; [|apply IH; exact G'].
  rewrite <- E. split; [exact K|apply M; exact V].
Qed.
Lemma array_meant {A} (f : A -> option json) (R : A -> value -> Prop) xs : (forall x j w, In x xs -> f x = Some j -> value_means w j -> R x w) ->
  forall j v, json_list f xs = Some j -> value_means v j -> is_array R xs v.
Proof.
  intros H j v J M. unfold json_list in J. destruct (all_some (map f xs)) as [js|] eqn:E; [|discriminate]. injection J as <-.
  inversion M as [| | |l l' G|]; subst. exists l. split; [reflexivity|]. clear M. revert js l E G. induction xs as [|x xs IH]; intros js l E G.
  - injection E as <-. inversion G; subst. constructor.
  - cbn [map all_some] in E. destruct (f x) as [j|] eqn:Fx; [|discriminate]. destruct (all_some (map f xs)) as [js'|] eqn:E'; [|discriminate]. injection E as <-.
    inversion G; subst. constructor; [apply (H x j); [left; reflexivity|assumption|assumption]|]. apply (IH (fun y k w Hy => H y k w (or_intror Hy)) js'); [reflexivity|assumption].
Qed.
Lemma field_meant {A} name (f : A -> option json) (R : A -> value -> Prop) xs ps : (forall x j w, In x xs -> f x = Some j -> value_means w j -> R x w) ->
  json_field name f xs = Some ps -> Forall2 (fun (m : string * (value -> Prop)) (p : string * json) => fst p = fst m /\ forall w, value_means w (snd p) -> snd m w) (unless_empty name R xs) ps.
Proof.
  intros H F. destruct (json_field_shape name f xs ps F) as [[-> ->]|(j & N & J & ->)]; [constructor|]. destruct xs as [|x xs]; [congruence|].
  cbn [unless_empty]. constructor; [|constructor]. split; [reflexivity|]. cbn [snd]. intros w. exact (array_meant f R (x :: xs) H j w J).
Qed.
Ltac members := repeat (constructor; [split; [reflexivity|cbn [snd]; intros ?w; first [apply string_meant|apply number_meant|apply truth_meant|intros ?; eapply instant_meant; eassumption]]|]); constructor.
Lemma uposatha_meant u j w : t_off (u_Date u) = 0%Z -> json_uposatha u = Some j -> value_means w j -> uposatha_object u w.
Proof.
  intros O J M. unfold json_uposatha in J. destruct (json_time (u_Date u)) as [t|] eqn:T; [|discriminate]. cbn [option_map] in J. injection J as <-.
  eapply object_meant; [|exact M]. members.
Qed.
Lemma half_meant u j w : t_off (h_Date u) = 0%Z -> json_half u = Some j -> value_means w j -> half_object u w.
Proof.
  intros O J M. unfold json_half in J. destruct (json_time (h_Date u)) as [t|] eqn:T; [|discriminate]. cbn [option_map] in J. injection J as <-.
  eapply object_meant; [|exact M]. members.
Qed.
Lemma astro_meant u j w : t_off (a_Date u) = 0%Z -> json_astro u = Some j -> value_means w j -> astro_object u w.
Proof.
  intros O J M. unfold json_astro in J. destruct (json_time (a_Date u)) as [t|] eqn:T; [|discriminate]. cbn [option_map] in J. injection J as <-.
  eapply object_meant; [|exact M]. members.
Qed.
Lemma event_meant u j w : t_off (e_Date u) = 0%Z -> json_event u = Some j -> value_means w j -> event_object u w.
Proof.
  intros O J M. unfold json_event in J. destruct (json_time (e_Date u)) as [t|] eqn:T; [|discriminate]. cbn [option_map] in J. injection J as <-.
  eapply object_meant; [|exact M]. members.
Qed.
Lemma day_meant d j w : utc_calday d -> json_calday d = Some j -> value_means w j -> day_object d w.
Proof.
  intros (O & Ou & Oh & Oa & Om & Oe) J M. rewrite Forall_forall in *. unfold json_calday in J.
  destruct (json_time (cd_Date d)) as [t|] eqn:T; [|discriminate].
  destruct (json_field "UposathaMoon" _ _) as [u|] eqn:U; [|discriminate]. destruct (json_field "HalfMoon" _ _) as [h|] eqn:H; [|discriminate].
  destruct (json_field "AstroMoon" _ _) as [a|] eqn:A; [|discriminate]. destruct (json_field "MajorEvents" _ _) as [m|] eqn:Mj; [|discriminate].
  destruct (json_field "Events" _ _) as [e|] eqn:E; [|discriminate]. injection J as <-. eapply object_meant; [|exact M].
  change (("Date", t) :: u ++ h ++ a ++ m ++ e)%list with ([("Date", t)] ++ u ++ h ++ a ++ m ++ e)%list.
  apply Forall2_app; [constructor; [split; [reflexivity|intros w' Mw; exact (instant_meant _ _ w' O T Mw)]|constructor]|].
  repeat apply Forall2_app.
  - eapply field_meant; [|exact U]. intros x j' w' Hx. apply uposatha_meant. apply Ou; exact Hx.
  - eapply field_meant; [|exact H]. intros x j' w' Hx. apply half_meant. apply Oh; exact Hx.
  - eapply field_meant; [|exact A]. intros x j' w' Hx. apply astro_meant. apply Oa; exact Hx.
  - eapply field_meant; [|exact Mj]. intros x j' w' Hx. apply event_meant. apply Om; exact Hx.
  - eapply field_meant; [|exact E]. intros x j' w' Hx. apply event_meant. apply Oe; exact Hx.
Qed.
Definition of_year (l : list CalDay) (y : Z) : list CalDay := filter (fun d => Z.eqb (time_year (cd_Date d)) y) l.
Lemma groups_years l gs : (forall p, In p gs -> exists y, fst p = numeral y /\ snd p = of_year l y /\ snd p <> []) ->
  exists years, Forall2 (fun y p => fst p = numeral y /\ snd p = of_year l y /\ snd p <> []) years gs.
Proof.
  induction gs as [|p gs IH]; intros H; [exists []; constructor|]. destruct (H p (or_introl eq_refl)) as (y & Hy). destruct IH as [years F]; [intros q Hq; apply H; right; exact Hq|].
  exists (y :: years). constructor; assumption.
Qed.
Lemma forall2_in_l {A B} (R : A -> B -> Prop) l m x : Forall2 R l m -> In x l -> exists y, In y m /\ R x y.
Proof.
  induction 1 as [|a b l m H F IH]; [intros []|]. intros [->|Hx]; [exists b; split; [left; reflexivity|exact H]|].
  destruct (IH Hx) as (y & Hy & Hr). exists y. split; [right; exact Hy|exact Hr].
Qed.
Lemma forall2_in_r {A B} (R : A -> B -> Prop) l m y : Forall2 R l m -> In y m -> exists x, In x l /\ R x y.
Proof.
  induction 1 as [|a b l m H F IH]; [intros []|]. intros [->|Hx]; [exists a; split; [left; reflexivity|exact H]|].
  destruct (IH Hx) as (x & Hy & Hr). exists x. split; [right; exact Hy|exact Hr].
Qed.
Lemma sorted_years l years gs : Forall2 (fun y (p : string * list CalDay) => fst p = numeral y /\ snd p = of_year l y /\ snd p <> []) years gs ->
  StronglySorted (before_key (A := list CalDay)) gs -> StronglySorted (fun a b => String.compare (numeral a) (numeral b) = Lt) years.
Proof.
  induction 1 as [|y p years gs (K & _) F IH]; intros S; [constructor|]. inversion S as [|? ? S' B]; subst. constructor; [apply IH; exact S'|].
  rewrite Forall_forall in *. intros z Hz. destruct (forall2_in_l _ _ _ z F Hz) as (q & Hq & Kq & _). specialize (B q Hq). unfold before_key, key_lt in B. rewrite K, Kq in B. exact B.
Qed.
Lemma days_meant l j v : (forall d, In d l -> utc_calday d) -> json_of_days l = Some j -> value_means v j -> days_object l v.
Proof.
  intros U J M. unfold json_of_days in J. destruct (all_some (map json_group (sort_keys (days_by_year l)))) as [ps|] eqn:E; [|discriminate]. injection J as <-.
  destruct (C43_groups l) as [N G]. destruct (groups_years l (sort_keys (days_by_year l))) as [years F].
  { intros [k ds] Hp. cbn [fst snd]. apply sorted_group_in, G in Hp. exact Hp. }
  exists years. split; [exact (sorted_years l years _ F (sort_keys_sorted _ N))|]. split.
  - intros y. split.
    + intros Hy. destruct (forall2_in_l _ _ _ y F Hy) as (p & _ & _ & Ep & Np). rewrite Ep in Np. destruct (of_year l y) as [|d r] eqn:O; [congruence|].
      assert (I : In d (of_year l y)) by (rewrite O; left; reflexivity). apply filter_In in I. exists d. rewrite Z.eqb_eq in I. exact I.
    + intros (d & Hd & Ey). assert (I : In (numeral y, of_year l y) (sort_keys (days_by_year l))).
      { apply sorted_group_in. apply G. exists y. split; [reflexivity|]. split; [reflexivity|]. intros O. assert (I : In d (of_year l y)) by (apply filter_In; split; [exact Hd|apply Z.eqb_eq; exact Ey]).
        rewrite O in I. exact I. }
      destruct (forall2_in_r _ _ _ _ F I) as (z & Hz & K & _). cbn [fst] in K. apply fmt_d_inj in K. subst z. exact Hz.
  - eapply object_meant; [|exact M]. clear M N G. revert ps E. induction F as [|y [k ds] years gs (K & D & _) F IH]; intros ps E; cbn [map] in *.
    + injection E as <-. constructor.
    + cbn [fst snd] in K, D. cbn [all_some] in E. unfold json_group at 1 in E. cbn [fst snd] in E. destruct (json_list json_calday ds) as [g|] eqn:L; [|discriminate]. cbn [option_map] in E.
      destruct (all_some (map json_group gs)) as [ps'|] eqn:E'; [|discriminate]. injection E as <-. constructor; [|apply IH; reflexivity]. cbn [fst snd]. split; [exact K|].
      intros w. subst ds. fold (of_year l y). apply (array_meant json_calday day_object); [|exact L]. intros x j w' Hx. apply day_meant. apply U. apply filter_In in Hx. apply Hx.
Qed.

(** * C65 *)
(** What the command prints is a JSON text with, for each year of the days of the range, the array of that
    year's days in their order, each day with its moons and events under the names of the fields. *)
Theorem C65_members : forall cfg fs now from to s, caldays_command cfg fs now from to = Some (Printed s) ->
  exists f t l v, cli_init now from to = Some (f, t) /\ get_cal_days cfg fs f t = Some (Ok l) /\ json_text v s /\ days_object l v.
Proof.
  intros cfg fs now from to s H. destruct (C58_caldays cfg fs now from to s H) as (f & t & l & j & v & C & G & J & R & M).
  exists f, t, l, v. split; [exact C|]. split; [exact G|]. split; [apply C58_grammar; exact R|]. apply (days_meant l j v); [|exact J|exact M].
  intros d Hd. exact (utc_result cfg fs f t l d G Hd).
Qed.
(** The values determine the days, so the statement above leaves nothing open: *)
Lemma string_once v s s' : is_string s v -> is_string s' v -> s = s'.
Proof. intros (r & -> & M) (r' & E & M'). injection E as <-. apply unquote_means in M, M'. congruence. Qed.
Lemma number_once v z z' : is_number z v -> is_number z' v -> z = z'.
Proof. intros (r & -> & (i & I & <-)) (r' & E & (i' & I' & <-)). injection E as <-. congruence. Qed.
Lemma truth_once v b b' : is_truth b v -> is_truth b' v -> b = b'.
Proof. unfold is_truth. congruence. Qed.
Lemma instant_once v t t' : is_instant t v -> is_instant t' v -> t = t'.
Proof. intros (s & S & T) (s' & S' & T'). rewrite <- (string_once v s s' S S') in T'. apply read_time_spec in T, T'. congruence. Qed.
Definition member (m : string * (value -> Prop)) (p : string * value) : Prop := string_means (fst p) (fst m) /\ snd m (snd p).
Lemma array_once {A} (R : A -> value -> Prop) : (forall v x x', R x v -> R x' v -> x = x') -> forall v xs xs', is_array R xs v -> is_array R xs' v -> xs = xs'.
Proof.
  intros H v xs xs' (l & -> & F) (l' & E & F'). injection E as <-. revert xs' F'. induction F as [|x w xs l Hx F IH]; intros xs' F'; inversion F'; subst; [reflexivity|].
  f_equal; [eapply H; eassumption|apply IH; assumption].
Qed.
Lemma names_once m m' p : member m p -> member m' p -> fst m = fst m'.
Proof. intros [M _] [M' _]. apply unquote_means in M, M'. congruence. Qed.
Lemma optional_once {A} name (R : A -> value -> Prop) xs xs' ms ms' l : (forall v x x', R x v -> R x' v -> x = x') ->
  ~ In name (map fst ms) -> ~ In name (map fst ms') -> Forall2 member (unless_empty name R xs ++ ms) l -> Forall2 member (unless_empty name R xs' ++ ms') l ->
  xs = xs' /\ exists l', Forall2 member ms l' /\ Forall2 member ms' l'.
Proof.
  intros H N N' F F'. destruct xs as [|x xs], xs' as [|x' xs']; cbn [unless_empty app] in F, F'.
  - split; [reflexivity|]. exists l. split; assumption.
  - exfalso. inversion F' as [|m p ? ? Mp]; subst. inversion F as [|m0 ? ? ? Mp0]; subst. apply N. left. exact (names_once _ _ _ Mp0 Mp).
  - exfalso. inversion F as [|m p ? ? Mp]; subst. inversion F' as [|m0 ? ? ? Mp0]; subst. apply N'. left. exact (names_once _ _ _ Mp0 Mp).
  - inversion F as [|m p ? ? [_ Mp] G]; subst. inversion F' as [|m0 ? ? ? [_ Mp0] G']; subst. split; [exact (array_once R H _ _ _ Mp Mp0)|]. eexists. split; eassumption.
Qed.
Lemma both_first m m' ms ms' l : Forall2 member (m :: ms) l -> Forall2 member (m' :: ms') l ->
  exists v l', snd m v /\ snd m' v /\ Forall2 member ms l' /\ Forall2 member ms' l'.
Proof.
  intros F F'. inversion F as [|? p ? l' [_ M] G]; subst. inversion F' as [|? ? ? ? [_ M'] G']; subst. exists (snd p), l'. auto.
Qed.
Ltac fields_once F F' :=
  let v := fresh "v" in let l := fresh "l" in let M := fresh "M" in let M' := fresh "M'" in let G := fresh "G" in let G' := fresh "G'" in
  destruct (both_first _ _ _ _ _ F F') as (v & l & M & M' & G & G'); clear F F'; cbn [snd] in M, M';
  first [apply (string_once _ _ _ M) in M'|apply (number_once _ _ _ M) in M'|apply (truth_once _ _ _ M) in M'|apply (instant_once _ _ _ M) in M']; clear M;
  try fields_once G G'.
Lemma uposatha_once v u u' : uposatha_object u v -> uposatha_object u' v -> u = u'.
Proof. intros (l & -> & F) (l' & E & F'). injection E as <-. fields_once F F'. destruct u, u'; simpl in *; subst; reflexivity. Qed.
Lemma half_once v u u' : half_object u v -> half_object u' v -> u = u'.
Proof. intros (l & -> & F) (l' & E & F'). injection E as <-. fields_once F F'. destruct u, u'; simpl in *; subst; reflexivity. Qed.
Lemma astro_once v u u' : astro_object u v -> astro_object u' v -> u = u'.
Proof. intros (l & -> & F) (l' & E & F'). injection E as <-. fields_once F F'. destruct u, u'; simpl in *; subst; reflexivity. Qed.
Lemma event_once v u u' : event_object u v -> event_object u' v -> u = u'.
Proof. intros (l & -> & F) (l' & E & F'). injection E as <-. fields_once F F'. destruct u, u'; simpl in *; subst; reflexivity. Qed.
Lemma absent_names {A} n name (R : A -> value -> Prop) xs ms : n <> name -> ~ In n (map fst ms) -> ~ In n (map fst (unless_empty name R xs ++ ms)%list).
Proof. intros D N. destruct xs; cbn [unless_empty app map]; [exact N|]. intros [E|H]; [exact (D (eq_sym E))|exact (N H)]. Qed.
Lemma day_once v d d' : day_object d v -> day_object d' v -> d = d'.
Proof.
  intros (l & -> & F) (l' & E & F'). injection E as <-. change (Forall2 member ([("Date", is_instant (cd_Date d))] ++ unless_empty "UposathaMoon" uposatha_object (cd_Uposatha d) ++
    unless_empty "HalfMoon" half_object (cd_Half d) ++ unless_empty "AstroMoon" astro_object (cd_Astro d) ++
    unless_empty "MajorEvents" event_object (cd_Major d) ++ unless_empty "Events" event_object (cd_Events d)) l) in F.
  change (Forall2 member ([("Date", is_instant (cd_Date d'))] ++ unless_empty "UposathaMoon" uposatha_object (cd_Uposatha d') ++
    unless_empty "HalfMoon" half_object (cd_Half d') ++ unless_empty "AstroMoon" astro_object (cd_Astro d') ++
    unless_empty "MajorEvents" event_object (cd_Major d') ++ unless_empty "Events" event_object (cd_Events d')) l) in F'.
  rewrite <- (app_nil_r (unless_empty "Events" event_object (cd_Events d))) in F. rewrite <- (app_nil_r (unless_empty "Events" event_object (cd_Events d'))) in F'.
  cbn [app] in F, F'. inversion F as [|? ? ? ? [_ T] G]; subst. inversion F' as [|? ? ? ? [_ T'] G']; subst. pose proof (instant_once _ _ _ T T') as Ed. clear F F' T T'.
  edestruct (fun N N' => optional_once _ _ _ _ _ _ _ uposatha_once N N' G G') as [Eu (l0 & A0 & B0)]; [repeat (apply absent_names; [discriminate|]); intros []|repeat (apply absent_names; [discriminate|]); intros []|].
  edestruct (fun N N' => optional_once _ _ _ _ _ _ _ half_once N N' A0 B0) as [Eh (l1 & A1 & B1)]; [repeat (apply absent_names; [discriminate|]); intros []|repeat (apply absent_names; [discriminate|]); intros []|].
  edestruct (fun N N' => optional_once _ _ _ _ _ _ _ astro_once N N' A1 B1) as [Ea (l2 & A2 & B2)]; [repeat (apply absent_names; [discriminate|]); intros []|repeat (apply absent_names; [discriminate|]); intros []|].
  edestruct (fun N N' => optional_once _ _ _ _ _ _ _ event_once N N' A2 B2) as [Em (l3 & A3 & B3)]; [repeat (apply absent_names; [discriminate|]); intros []|repeat (apply absent_names; [discriminate|]); intros []|].
  edestruct (fun N N' => optional_once _ _ _ _ _ _ _ event_once N N' A3 B3) as [Ee _]; [repeat (apply absent_names; [discriminate|]); intros []|repeat (apply absent_names; [discriminate|]); intros []|].
  destruct d, d'. simpl in *. subst. reflexivity.
Qed.
Theorem C65_determined : forall v l l', days_object l v -> days_object l' v ->
  forall y, filter (fun d => Z.eqb (time_year (cd_Date d)) y) l = filter (fun d => Z.eqb (time_year (cd_Date d)) y) l'.
Proof.
  intros v l l' (years & _ & Y & (ps & -> & F)) (years' & _ & Y' & (ps' & E & F')) y. injection E as <-. fold (of_year l y) (of_year l' y).
  assert (S : years = years' /\ forall z, In z years -> of_year l z = of_year l' z).
  { clear Y Y'. revert years' ps F F'. induction years as [|z years IH]; intros years' ps F F'; cbn [map] in F.
    - inversion F; subst. destruct years'; inversion F'. split; [reflexivity|intros z []].
    - inversion F as [|m p ? qs Mz G]; subst. destruct years' as [|z' years']; cbn [map] in F'; inversion F' as [|m p' ? ? Mz' G']; subst.
      pose proof (names_once _ _ _ Mz Mz') as N. cbn [fst] in N. apply fmt_d_inj in N. subst z'. destruct (IH years' qs G G') as [-> H]. split; [reflexivity|].
      intros w [<-|Hw]; [|exact (H w Hw)]. destruct Mz as [_ Mz], Mz' as [_ Mz']. cbn [snd] in Mz, Mz'. exact (array_once day_object day_once _ _ _ Mz Mz'). }
  destruct S as [<- S]. destruct (in_dec Z.eq_dec y years) as [I|N]; [exact (S y I)|].
  assert (Z : forall k, (forall z, In z years <-> exists d, In d k /\ time_year (cd_Date d) = z) -> of_year k y = []).
  { intros k K. destruct (of_year k y) as [|d r] eqn:O; [reflexivity|]. elim N. apply K. exists d. assert (I : In d (of_year k y)) by (rewrite O; left; reflexivity).
    apply filter_In in I. rewrite Z.eqb_eq in I. exact I. }
  rewrite (Z l Y), (Z l' Y'). reflexivity.
Qed.
(** From the year 1000 on the order of the numerals is that of the years. *)
Theorem C65_years : forall years, StronglySorted (fun a b => String.compare (numeral a) (numeral b) = Lt) years ->
  (forall y, In y years -> (1000 <= y <= 9999)%Z) -> StronglySorted Z.lt years.
Proof.
  induction 1 as [|y years S IH F]; intros R; [constructor|]. constructor; [apply IH; intros z Hz; apply R; right; exact Hz|].
  rewrite Forall_forall in *. intros z Hz. specialize (F z Hz). pose proof (R y (or_introl eq_refl)) as Ry. pose proof (R z (or_intror Hz)) as Rz.
  destruct (Z.lt_trichotomy y z) as [L|[->|L]]; [exact L| |].
  - elim (key_lt_irrefl _ F).
  - elim (key_lt_asym _ _ F). apply numeral_order; lia.
Qed.
Example C65_example : caldays_command cfg_default embedded_fs 2016 "2016-12-29" "2017-01-06" = Some (Printed "{""2016"":[{""Date"":""2016-12-29T06:54:18Z"",""AstroMoon"":[{""Phase"":""new"",""Date"":""2016-12-29T06:54:18Z""}]}],""2017"":[{""Date"":""2017-01-05T00:00:00Z"",""HalfMoon"":[{""Date"":""2017-01-05T00:00:00Z"",""Phase"":""waxing""}],""AstroMoon"":[{""Phase"":""waxing"",""Date"":""2017-01-05T19:47:41Z""}]}]}
").
Proof. vm_compute. reflexivity. Qed.
