(** Lemmas about the table of years (YearsCsv.v). *)
From Coq Require Import ZArith Lia List Bool String Ascii.
From Verif Require Import GoTime SuriyaYear Helpers Text SpecText YearsData YearsCsv P_Time P_Year P_Counts P_Kattika P_Day P_Text P_Date P_Json.
Import ListNotations.
Open Scope Z_scope.
Local Open Scope string_scope.

(** The parts of a text between separators. *)
Fixpoint split (sep : ascii) (s : string) : list string :=
  match s with
  | "" => [""]
  | String c s' =>
      if Ascii.eqb c sep then "" :: split sep s'
      else match split sep s' with p :: ps => String c p :: ps | [] => [] end
  end.
Definition without (sep : ascii) (s : string) : Prop := all_chars (fun c => negb (Ascii.eqb c sep)) s = true.

Lemma split_nonempty sep s : exists p ps, split sep s = p :: ps.
Proof.
  induction s as [|c s (p & ps & IH)]; cbn [split]; [eauto|]. destruct (Ascii.eqb c sep); [eauto|]. rewrite IH. eauto.
Qed.
Lemma split_none sep s : without sep s -> split sep s = [s].
Proof.
  unfold without. induction s as [|c s IH]; cbn [split all_chars]; [trivial|]. intros H. apply andb_prop in H. destruct H as [H1 H2].
  apply negb_true_iff in H1. rewrite H1, (IH H2). reflexivity.
Qed.
Lemma split_app sep s r : without sep s -> split sep (s ++ String sep r) = s :: split sep r.
Proof.
  unfold without. induction s as [|c s IH]; cbn [append split all_chars].
  - rewrite Ascii.eqb_refl. trivial.
  - intros H. apply andb_prop in H. destruct H as [H1 H2]. apply negb_true_iff in H1. rewrite H1, (IH H2). reflexivity.
Qed.
Lemma without_app sep a b : without sep a -> without sep b -> without sep (a ++ b).
Proof.
  unfold without. intros Ha Hb. induction a as [|c a IH]; cbn [append all_chars] in *; [exact Hb|].
  apply andb_prop in Ha. destruct Ha as [H1 H2]. rewrite H1, (IH H2). reflexivity.
Qed.
Lemma without_class p sep s : p sep = false -> all_chars p s = true -> without sep s.
Proof.
  intros N. apply all_chars_impl. intros c Hc. destruct (Ascii.eqb_spec c sep) as [->|]; [congruence|reflexivity].
Qed.
Definition sep_char (c : ascii) : Prop := c = ";"%char \/ c = ascii_of_nat 10.
Lemma fmt_d_without sep z : sep_char sep -> without sep (fmt_d z).
Proof. intros [-> | ->]; apply (without_class num_char); try reflexivity; apply fmt_d_chars. Qed.
Lemma zeros_without sep n : sep_char sep -> without sep (YearsCsv.zeros n).
Proof. intros S. unfold without. induction n as [|n IH]; cbn [YearsCsv.zeros all_chars]; [reflexivity|]. destruct S as [-> | ->]; exact IH. Qed.
Lemma digit_of z : 0 <= z <= 9 -> is_digit (digit z) = true.
Proof. intros H. apply (digit_cases z H). Qed.
Lemma two_without sep z : sep_char sep -> 0 <= z < 100 -> without sep (two z).
Proof.
  intros S H. assert (A : all_chars is_digit (two z) = true).
  { unfold two. cbn [all_chars]. rewrite !digit_of; [reflexivity| |]; [pose proof (Z.mod_pos_bound z 10); lia|]. split; [apply Z.div_pos; lia|].
    assert (z / 10 < 10) by (apply Z.div_lt_upper_bound; lia). lia. }
  destruct S as [-> | ->]; apply (without_class is_digit); try reflexivity; exact A.
Qed.
Lemma format_any_without sep t : sep_char sep -> without sep (format_any t).
Proof.
  intros S. pose proof (mday_range (local_day t)) as D. assert (M : 1 <= time_month t <= 12) by (apply month_of_day_range).
  unfold format_any, long_year. repeat apply without_app; try (apply zeros_without; exact S); try (apply fmt_d_without; exact S);
    try (apply two_without; [exact S|unfold time_mday in *; lia]); try (destruct (time_year t <? 0)%Z); destruct S as [-> | ->]; reflexivity.
Qed.
Lemma delta_loop_total test limit y0 : forall fuel y, y = y0 - 1 - (20 - Z.of_nat fuel) -> 0 <= limit <= 17 -> (fuel <= 20)%nat -> 20 - Z.of_nat fuel <= limit + 1 ->
  exists d, delta_loop test limit y0 fuel y = Some d.
Proof.
  induction fuel as [|fuel IH]; intros y Hy Hl Hf Hb; [lia|]. cbn [delta_loop]. rewrite sy_Year_init.
  destruct (test (su_init y)); [eauto|]. destruct (limit <? y0 - y)%Z eqn:E; [eauto|]. apply Z.ltb_ge in E. apply IH; lia.
Qed.
Lemma delta_am_total su : exists d, delta_adhikamasa su = Some d.
Proof. unfold delta_adhikamasa. apply delta_loop_total; lia. Qed.
Lemma delta_av_total cfg su : exists d, delta_adhikavara cfg su = Some d.
Proof. unfold delta_adhikavara. apply delta_loop_total; lia. Qed.

Definition published_clean : bool :=
  forallb (fun p => let '(d, s, c) := snd p in
    forallb (fun sep => all_chars (fun c => negb (Ascii.eqb c sep)) d && all_chars (fun c => negb (Ascii.eqb c sep)) s && all_chars (fun c => negb (Ascii.eqb c sep)) c)
      [";"%char; ascii_of_nat 10]) published.
Lemma published_without y d s c sep : sep_char sep -> lookup_year published y = Some (d, s, c) -> without sep d /\ without sep s /\ without sep c.
Proof.
  assert (A : published_clean = true) by (vm_compute; reflexivity). unfold published_clean in A. rewrite forallb_forall in A.
  intros S E. assert (I : In (y, (d, s, c)) published).
  { revert E. clear A. induction published as [|[y' v] l IH]; cbn [lookup_year]; [discriminate|]. destruct (Z.eqb_spec y y') as [->|N].
    - intros E. injection E as ->. left. reflexivity.
    - intros E. right. apply IH. exact E. }
  specialize (A _ I). cbn [snd] in A. cbv iota in A. rewrite forallb_forall in A.
  specialize (A sep). assert (J : In sep [";"%char; ascii_of_nat 10]) by (destruct S as [-> | ->]; cbn; auto). specialize (A J).
  apply andb_prop in A. destruct A as [A A3]. apply andb_prop in A. destruct A as [A1 A2]. unfold without. auto.
Qed.
Lemma split_concat sep fs f : (forall g, In g (f :: fs) -> without sep g) -> split sep (String.concat (String sep "") (f :: fs)) = f :: fs.
Proof.
  revert f. induction fs as [|g fs IH]; intros f W.
  - apply split_none. apply W. left. reflexivity.
  - change (String.concat (String sep "") (f :: g :: fs)) with (f ++ String sep (String.concat (String sep "") (g :: fs))).
    rewrite split_app by (apply W; left; reflexivity). f_equal. apply IH. intros h H. apply W. right. exact H.
Qed.
Lemma concat_without sep mid fs : without sep mid -> (forall g, In g fs -> without sep g) -> without sep (String.concat mid fs).
Proof.
  intros M. induction fs as [|g [|h fs] IH]; intros W; [reflexivity|apply W; left; reflexivity|].
  change (String.concat mid (g :: h :: fs)) with (g ++ (mid ++ String.concat mid (h :: fs))).
  apply without_app; [apply W; left; reflexivity|]. apply without_app; [exact M|]. apply IH. intros x H. apply W. right. exact H.
Qed.
Lemma lookup_in y v : lookup_year published y = Some v -> forall w, In (y, w) published -> w = v.
Proof.
  assert (N : NoDup (map fst published)).
  { apply (NoDup_count_occ' Z.eq_dec). intros x Hx.
    assert (A : forallb (fun x => Nat.eqb (count_occ Z.eq_dec (map fst published) x) 1) (map fst published) = true) by (vm_compute; reflexivity).
    rewrite forallb_forall in A. apply Nat.eqb_eq. apply A. exact Hx. }
  induction published as [|[y' v'] l IH]; cbn [lookup_year]; [discriminate|]. cbn [map fst] in N. inversion N as [|? ? N1 N2]; subst.
  destruct (Z.eqb_spec y y') as [->|D].
  - intros E w [H|H]; [congruence|]. exfalso. apply N1. change y' with (fst (y', w)). apply in_map. exact H.
  - intros E w [H|H]; [congruence|]. apply IH; assumption.
Qed.
Lemma lookup_none y : lookup_year published y = None -> forall v, ~ In (y, v) published.
Proof.
  induction published as [|[y' v'] l IH]; cbn [lookup_year]; [intros _ v []|].
  destruct (Z.eqb_spec y y') as [->|D]; [discriminate|]. intros E v [H|H]; [congruence|]. apply (IH E v). exact H.
Qed.
