(** Theorems C54 on path.Clean and path.Base, which name the embedded files. *)
From Coq Require Import ZArith Lia Bool List String Ascii Relations.
From Verif Require Import Text P_Text Esc P_Esc.
Import ListNotations.
Local Open Scope string_scope.

(** The elements of a path: what is between the slashes, unless empty. *)
Definition element (x : string) : Prop := x <> "" /\ ~ In "/"%char (list_ascii_of_string x).
Inductive elements : list string -> string -> Prop :=
| elements_nil : elements [] ""
| elements_slash l s : elements l s -> elements l ("/" ++ s)
| elements_last x : element x -> elements [x] x
| elements_more x l s : element x -> elements l s -> elements (x :: l) (x ++ "/" ++ s).
Definition rooted (s : string) : Prop := exists t, s = "/" ++ t.
(** The rules of the documentation of path.Clean: leave out each "."; leave out each ".." with the element
    before it, if that is not ".." too; leave out each ".." at the beginning of a rooted path. *)
Inductive rule (root : Prop) : list string -> list string -> Prop :=
| rule_here a b : rule root (a ++ "." :: b) (a ++ b)
| rule_up a x b : x <> "." -> x <> ".." -> rule root (a ++ x :: ".." :: b) (a ++ b)
| rule_root b : root -> rule root (".." :: b) b.
Definition done (root : Prop) (l : list string) : Prop := forall l', ~ rule root l l'.
(** The elements with one slash between any two of them and a slash in front of a rooted path; "." for nothing. *)
Definition path_text (root : Prop) (l : list string) (s : string) : Prop :=
  (root -> s = "/" ++ String.concat "/" l) /\ (~ root -> l <> [] -> s = String.concat "/" l) /\ (~ root -> l = [] -> s = ".").

Lemma element_no_slash x : element x -> no_slash x.
Proof.
  intros [_ N]. unfold no_slash. induction x as [|c x IH]; [reflexivity|]. cbn [all_chars]. cbn [list_ascii_of_string] in N. apply andb_true_iff. split.
  - apply negb_true_iff. apply Ascii.eqb_neq. intros ->. apply N. left. reflexivity.
  - apply IH. intros H. apply N. right. exact H.
Qed.
Lemma elements_exist s : exists l, elements l s.
Proof.
  induction s as [|c s (l & IH)]; [exists []; constructor|]. destruct (ascii_dec c "/") as [->|D].
  - exists l. exact (elements_slash l s IH).
  - inversion IH; subst.
    + exists [String c ""]. apply elements_last. split; [discriminate|]. cbn [list_ascii_of_string]. intros [E|[]]. congruence.
    + exists (String c "" :: l). change (String c ("/" ++ s0)) with (String c "" ++ "/" ++ s0). constructor; [|assumption].
      split; [discriminate|]. cbn [list_ascii_of_string]. intros [E|[]]. congruence.
    + exists [String c s]. apply elements_last. destruct H as [_ H]. split; [discriminate|]. cbn [list_ascii_of_string]. intros [E|E]; [congruence|contradiction].
    + exists (String c x :: l0). change (String c (x ++ "/" ++ s0)) with (String c x ++ "/" ++ s0). constructor; [|assumption].
      destruct H as [_ H]. split; [discriminate|]. cbn [list_ascii_of_string]. intros [E|E]; [congruence|contradiction].
Qed.
Lemma elements_all l s : elements l s -> Forall element l.
Proof. induction 1; auto. Qed.
Lemma rooted_spec s : is_rooted s = true <-> rooted s.
Proof.
  destruct s as [|c s]; cbn [is_rooted].
  - split; [discriminate|]. intros (t & E). discriminate.
  - rewrite Ascii.eqb_eq. split; [intros ->; exists s; reflexivity|]. intros (t & E). cbn [append] in E. unfold slash. congruence.
Qed.
Lemma fold_elements r l s : elements l s -> forall out, fold_left (push r) (parts s) out = fold_left (push r) l out.
Proof.
  induction 1 as [|l s _ IH|x E|x l s E _ IH]; intros out.
  - reflexivity.
  - change (parts ("/" ++ s)) with ("" :: parts s). cbn [fold_left]. unfold push at 2. cbn. apply IH.
  - rewrite parts_plain by (apply element_no_slash; exact E). reflexivity.
  - rewrite parts_app, (parts_plain x) by (apply element_no_slash; exact E). cbn [app fold_left]. apply IH.
Qed.
Section Rules.
Variables (root : Prop) (r : bool).
Hypothesis Hr : r = true <-> root.
Lemma push_plain out x : x <> "" -> x <> "." -> x <> ".." -> push r out x = x :: out.
Proof. intros H1 H2 H3. apply String.eqb_neq in H1, H2, H3. unfold push. rewrite H1, H2, H3. reflexivity. Qed.
Lemma rule_fold l m : rule root l m -> Forall element l -> fold_left (push r) l [] = fold_left (push r) m [] /\ Forall element m /\ (List.length m < List.length l)%nat.
Proof.
  intros [a b|a x b H1 H2|b H] F.
  - rewrite !fold_left_app. cbn [fold_left]. split; [reflexivity|]. rewrite !app_length. cbn [List.length]. split; [|lia].
    apply Forall_app in F as [Fa Fb]. inversion Fb; subst. apply Forall_app. auto.
  - apply Forall_app in F as [Fa Fb]. inversion Fb as [|? ? [X _] Fc]; subst. inversion Fc; subst. rewrite !fold_left_app. cbn [fold_left]. rewrite (push_plain _ x) by assumption.
    split; [|split; [apply Forall_app; auto|rewrite !app_length; cbn [List.length]; lia]].
    f_equal. unfold push. cbn. apply String.eqb_neq in H2. rewrite H2. reflexivity.
  - apply Hr in H. cbn [fold_left]. unfold push at 2. cbn. rewrite H. split; [reflexivity|]. inversion F; subst. split; [assumption|cbn [List.length]; lia].
Qed.
Lemma rules_fold l m : clos_refl_trans_1n _ (rule root) l m -> Forall element l -> fold_left (push r) l [] = fold_left (push r) m [] /\ Forall element m.
Proof.
  induction 1 as [|l m k R _ IH]; intros F; [auto|]. destruct (rule_fold l m R F) as (E & F' & _). destruct (IH F') as [E' F'']. split; [congruence|exact F''].
Qed.
Lemma done_fold m : forall out, Forall element m -> done root (rev out ++ m) -> fold_left (push r) m out = (rev m ++ out)%list.
Proof.
  induction m as [|y m IH]; intros out F D; [reflexivity|]. inversion F as [|? ? [Y _] F']; subst.
  cbn [fold_left rev]. rewrite <- app_assoc. cbn [app]. replace (push r out y) with (y :: out).
  { apply IH; [exact F'|]. cbn [rev]. rewrite <- app_assoc. exact D. }
  destruct (string_dec y ".") as [->|Y1]; [exfalso; exact (D _ (rule_here root (rev out) m))|].
  destruct (string_dec y "..") as [->|Y2]; [|symmetry; apply push_plain; assumption].
  unfold push. cbn. destruct out as [|q out].
  - destruct r eqn:E; [|reflexivity]. exfalso. apply (D m). apply rule_root. apply Hr. reflexivity.
  - destruct (String.eqb_spec q "..") as [->|Q]; [reflexivity|]. exfalso. cbn [rev] in D. rewrite <- app_assoc in D. cbn [app] in D.
    destruct (string_dec q ".") as [->|Q']; [exact (D _ (rule_here root (rev out) _))|exact (D _ (rule_up root (rev out) q m Q' Q))].
Qed.
Lemma push_rule out p l : p <> "" -> Forall (fun q => q <> ".") out -> clos_refl_trans_1n _ (rule root) (rev out ++ p :: l)%list (rev (push r out p) ++ l)%list /\ Forall (fun q => q <> ".") (push r out p).
Proof.
  intros P F. destruct (string_dec p ".") as [->|P1].
  { split; [|exact F]. eapply Relation_Operators.rt1n_trans; [apply rule_here|constructor]. }
  destruct (string_dec p "..") as [->|P2].
  - unfold push. cbn. destruct out as [|q out].
    + destruct r eqn:E; [split; [|exact F]; eapply Relation_Operators.rt1n_trans; [apply rule_root; apply Hr; reflexivity|constructor]|].
      split; [constructor|repeat constructor; discriminate].
    + inversion F; subst. destruct (String.eqb_spec q "..") as [->|Q].
      * split; [cbn [rev]; rewrite <- !app_assoc; constructor|constructor; [discriminate|exact F]].
      * split; [|assumption]. cbn [rev]. rewrite <- app_assoc. cbn [app]. eapply Relation_Operators.rt1n_trans; [apply rule_up; assumption|constructor].
  - rewrite push_plain by assumption. split; [cbn [rev]; rewrite <- app_assoc; constructor|constructor; assumption].
Qed.
Lemma rt_app {A} (R : A -> A -> Prop) a b c : clos_refl_trans_1n A R a b -> clos_refl_trans_1n A R b c -> clos_refl_trans_1n A R a c.
Proof. induction 1; intros H'; [exact H'|]. eapply Relation_Operators.rt1n_trans; [eassumption|auto]. Qed.
Lemma fold_rules l : forall out, Forall element l -> Forall (fun q => q <> ".") out -> clos_refl_trans_1n _ (rule root) (rev out ++ l)%list (rev (fold_left (push r) l out)).
Proof.
  induction l as [|p l IH]; intros out F G; cbn [fold_left]; [rewrite app_nil_r; constructor|]. inversion F as [|? ? [P _] F']; subst.
  destruct (push_rule out p l P G) as [H G']. exact (rt_app _ _ _ _ H (IH _ F' G')).
Qed.
Lemma push_length out p : (List.length (push r out p) <= S (List.length out))%nat.
Proof.
  unfold push. destruct (_ || _)%bool; [lia|]. destruct (String.eqb p ".."); [|cbn [List.length]; lia].
  destruct out as [|q out]; [destruct r; cbn [List.length]; lia|]. destruct (String.eqb q ".."); cbn [List.length]; lia.
Qed.
Lemma fold_length l : forall out, (List.length (fold_left (push r) l out) <= List.length l + List.length out)%nat.
Proof. induction l as [|p l IH]; intros out; cbn [fold_left List.length]; [lia|]. pose proof (IH (push r out p)). pose proof (push_length out p). lia. Qed.
Lemma fold_done l : Forall element l -> done root (rev (fold_left (push r) l [])).
Proof.
  intros F l' R. set (out := fold_left (push r) l []) in *.
  assert (N : Forall no_slash l) by (eapply Forall_impl; [exact element_no_slash|exact F]).
  assert (S : stack r out) by (apply fold_stack; [exists [], O; auto|exact N]).
  assert (Fo : Forall element (rev out)).
  { destruct (rules_fold l (rev out)) as [_ H]; [|exact F|exact H]. apply (fold_rules l [] F). constructor. }
  destruct (rule_fold _ _ R Fo) as (E & _ & L). rewrite fold_again in E by exact S. pose proof (fold_length l' []) as B. rewrite <- E in B. rewrite rev_length in L. cbn [List.length] in B. lia.
Qed.
End Rules.
Lemma clean_text s l : elements l s -> path_text (rooted s) (rev (fold_left (push (is_rooted s)) l [])) (clean s).
Proof.
  intros E. unfold path_text, clean. rewrite (fold_elements _ l s E). cbv zeta. pose proof (rooted_spec s) as R.
  pose proof (fold_rules (rooted s) (is_rooted s) R l [] (elements_all l s E) ltac:(constructor)) as FR. cbn [rev app] in FR.
  destruct (rules_fold _ _ R _ _ FR (elements_all l s E)) as [_ F]. clear FR. set (m := rev (fold_left (push (is_rooted s)) l [])) in *. clearbody m.
  destruct (is_rooted s).
  - split; [reflexivity|]. split; intros H; exfalso; apply H, R; reflexivity.
  - split; [intros H; apply R in H; discriminate|]. split; intros _ H.
    + destruct (String.eqb_spec (String.concat "/" m) "") as [Z|_]; [exfalso|reflexivity]. destruct m as [|x m]; [congruence|].
      inversion F as [|? ? [X _] _]; subst. destruct x as [|c x]; [congruence|]. destruct m; discriminate.
    + rewrite H. reflexivity.
Qed.
(** The elements can be worked off by the rules until none applies; in whatever order that is done, the result is
    what path.Clean returns. *)
Theorem C54_clean s : exists l, elements l s /\
  (exists m, clos_refl_trans_1n _ (rule (rooted s)) l m /\ done (rooted s) m) /\
  forall m, clos_refl_trans_1n _ (rule (rooted s)) l m -> done (rooted s) m -> path_text (rooted s) m (clean s).
Proof.
  destruct (elements_exist s) as (l & E). exists l. split; [exact E|]. pose proof (rooted_spec s) as R. pose proof (elements_all l s E) as F. split.
  - exists (rev (fold_left (push (is_rooted s)) l [])). split; [apply (fold_rules _ _ R l [] F); constructor|apply (fold_done _ _ R l F)].
  - intros m M D. destruct (rules_fold _ _ R l m M F) as [Em Fm]. pose proof (done_fold _ _ R m [] Fm D) as Q. rewrite app_nil_r in Q.
    pose proof (clean_text s l E) as T. rewrite Em, Q, rev_involutive in T. exact T.
Qed.
Lemma last_elements l s : elements l s -> forall p, last_part (parts s) p = last l p.
Proof.
  induction 1 as [|l s _ IH|x [X N]|x l s [X N] _ IH]; intros p.
  - reflexivity.
  - change (parts ("/" ++ s)) with ("" :: parts s). cbn [last_part String.eqb]. apply IH.
  - rewrite parts_plain by (apply element_no_slash; split; assumption). cbn [last_part last]. apply String.eqb_neq in X. rewrite X. reflexivity.
  - rewrite parts_app, (parts_plain x) by (apply element_no_slash; split; assumption). cbn [app last_part]. apply String.eqb_neq in X. rewrite X, IH.
    clear. destruct l as [|y l]; [reflexivity|]. change (last (y :: l) x = last (y :: l) p). revert y. induction l as [|z l IH]; intros y; [reflexivity|]. apply (IH z).
Qed.
(** path.Base returns the last element whatever slashes follow it, "/" if there are only slashes and "." for the empty path. *)
Theorem C54_base s : exists l, elements l s /\
  (forall m x, l = (m ++ [x])%list -> base s = x) /\ (l = [] -> s <> "" -> base s = "/") /\ (s = "" -> base s = ".").
Proof.
  destruct (elements_exist s) as (l & E). exists l. split; [exact E|]. pose proof (elements_all l s E) as F. pose proof (last_elements l s E "") as L. split; [|split].
  - intros m x ->. rewrite last_last in L. apply Forall_app in F as [_ F]. destruct (Forall_inv F) as [X _]. unfold base. rewrite L.
    destruct (String.eqb_spec s "") as [->|_]; [cbn in L; congruence|]. destruct x; [congruence|reflexivity].
  - intros -> H. unfold base. apply String.eqb_neq in H. rewrite H, L. reflexivity.
  - intros ->. reflexivity.
Qed.
Example C54_path_example :
  clean "/a//b/./../c/../../../d/" = "/d" /\ clean "../a/../../b/." = "../../b" /\ clean "a/.." = "." /\ clean "/.." = "/" /\ clean "" = "." /\
  base "/data/astro//" = "astro" /\ base "//" = "/" /\ base "a/.." = ".." /\ base "" = ".".
Proof. vm_compute. repeat split. Qed.
