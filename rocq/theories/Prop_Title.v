(** Theorems C47 on strings.Title, which makes the summaries of the moons. *)
From Coq Require Import ZArith Lia Bool List String Ascii.
From Verif Require Import Text.
Import ListNotations.
Open Scope Z_scope.
(** What strings.Title does to an ASCII text: the small letters at the start of a word become capital. *)
Definition small : string := "abcdefghijklmnopqrstuvwxyz".
Definition capital : string := "ABCDEFGHIJKLMNOPQRSTUVWXYZ".
Definition in_word (c : ascii) : Prop := In c (list_ascii_of_string (small ++ capital ++ "0123456789_")).
Definition starts_word (s : string) (i : nat) : Prop :=
  i = O \/ exists d, String.get (i - 1) s = Some d /\ ~ in_word d.
Definition ascii_text (s : string) : Prop := forall i c, String.get i s = Some c -> (nat_of_ascii c < 128)%nat.

Lemma every_ascii (p : ascii -> bool) : forallb p (map ascii_of_nat (seq 0 256)) = true -> forall c, p c = true.
Proof.
  intros H c. rewrite forallb_forall in H. apply H. apply in_map_iff. exists (nat_of_ascii c). split; [apply ascii_nat_embedding|].
  apply in_seq. pose proof (nat_ascii_bounded c). lia.
Qed.
Definition in_wordb (c : ascii) : bool := existsb (Ascii.eqb c) (list_ascii_of_string (small ++ capital ++ "0123456789_")).
Lemma in_wordb_spec c : in_wordb c = true <-> in_word c.
Proof.
  unfold in_wordb, in_word. rewrite existsb_exists. split.
  - intros (d & H & E). apply Ascii.eqb_eq in E. subst d. exact H.
  - intros H. exists c. split; [exact H|apply Ascii.eqb_refl].
Qed.
Lemma separator_spec c : (nat_of_ascii c < 128)%nat -> is_separator c = true <-> ~ in_word c.
Proof.
  intros B. rewrite <- in_wordb_spec. assert (E : is_separator c = negb (in_wordb c)).
  { pose proof (every_ascii (fun c => negb (Nat.ltb (nat_of_ascii c) 128) || Bool.eqb (is_separator c) (negb (in_wordb c))) ltac:(vm_compute; reflexivity) c) as H.
    cbv beta in H. apply Nat.ltb_lt in B. rewrite B in H. cbn [negb orb] in H. apply Bool.eqb_prop in H. exact H. }
  rewrite E. destruct (in_wordb c); split; intros H; [discriminate|elim H; reflexivity|discriminate|reflexivity].
Qed.
Lemma upper_small k c : String.get k small = Some c -> Some (upper c) = String.get k capital.
Proof. do 26 (destruct k as [|k]; [intros H; injection H as <-; reflexivity|]). discriminate. Qed.
Lemma upper_other c : (forall k, String.get k small <> Some c) -> upper c = c.
Proof.
  intros H. unfold upper. destruct (is_lower c) eqn:L; [exfalso|reflexivity].
  assert (K : Nat.ltb (nat_of_ascii c - 97) 26 && match String.get (nat_of_ascii c - 97) small with Some d => Ascii.eqb d c | None => false end = true).
  { pose proof (every_ascii (fun c => negb (is_lower c) || (Nat.ltb (nat_of_ascii c - 97) 26 && match String.get (nat_of_ascii c - 97) small with Some d => Ascii.eqb d c | None => false end)) ltac:(vm_compute; reflexivity) c) as E.
    cbv beta in E. rewrite L in E. exact E. }
  apply andb_true_iff in K. destruct K as [_ K]. specialize (H (nat_of_ascii c - 97)%nat).
  destruct (String.get (nat_of_ascii c - 97) small) as [d|]; [|discriminate]. apply Ascii.eqb_eq in K. subst d. apply H. reflexivity.
Qed.
Lemma title_from_get s : forall b i, String.get i (title_from b s) =
  match String.get i s with
  | Some c => Some (if match i with O => b | S j => match String.get j s with Some d => is_separator d | None => b end end then upper c else c)
  | None => None
  end.
Proof.
  induction s as [|c s IH]; intros b i; [destruct i; reflexivity|]. destruct i as [|i]; [reflexivity|].
  cbn [title_from String.get]. rewrite IH. destruct (String.get i s) eqn:E; [|reflexivity].
  destruct i as [|i]; [reflexivity|]. cbn [String.get]. destruct (String.get i s) eqn:E'; [reflexivity|].
  exfalso. clear -E E'. revert i E E'. induction s as [|x s IH]; intros i E E'; [discriminate|].
  destruct i as [|i]; [discriminate|]. cbn [String.get] in E, E'. exact (IH i E E').
Qed.
Theorem C47_title : forall s i c, ascii_text s -> String.get i s = Some c ->
  (forall k, String.get k small = Some c -> starts_word s i -> String.get i (title s) = String.get k capital) /\
  ((forall k, String.get k small <> Some c) \/ ~ starts_word s i -> String.get i (title s) = Some c).
Proof.
  intros s i c A G. unfold title. rewrite title_from_get, G.
  assert (B : match i with O => true | S j => match String.get j s with Some d => is_separator d | None => true end end = true -> starts_word s i).
  { intros H. destruct i as [|j]; [left; reflexivity|right]. cbn [Nat.sub]. rewrite Nat.sub_0_r.
    destruct (String.get j s) as [d|] eqn:E.
    - exists d. split; [reflexivity|]. apply separator_spec; [exact (A _ _ E)|exact H].
    - exfalso. clear -E G. revert j E G. induction s as [|x s IH]; intros j E G; [discriminate|].
      destruct j as [|j]; [discriminate|]. cbn [String.get] in E, G. exact (IH j E G). }
  split.
  - intros k K W. rewrite <- (upper_small k c K). f_equal.
    assert (E : match i with O => true | S j => match String.get j s with Some d => is_separator d | None => true end end = true).
    { destruct i as [|j]; [reflexivity|]. destruct W as [W|(d & D & N)]; [discriminate|]. cbn [Nat.sub] in D. rewrite Nat.sub_0_r in D. rewrite D.
      apply separator_spec; [exact (A _ _ D)|exact N]. }
    rewrite E. reflexivity.
  - intros [K|W]; f_equal.
    + rewrite (upper_other c K). destruct (match i with O => true | S j => _ end); reflexivity.
    + destruct (match i with O => true | S j => match String.get j s with Some d => is_separator d | None => true end end) eqn:E; [|reflexivity].
      elim W. apply B. reflexivity.
Qed.
Theorem C47_title_length : forall s, String.length (title s) = String.length s.
Proof.
  intros s. unfold title. generalize true. induction s as [|c s IH]; intros b; [reflexivity|]. cbn [title_from String.length]. rewrite IH. reflexivity.
Qed.
Example C47_title_example : title "waxing moon_of 2nd `x day" = "Waxing Moon_of 2nd `X Day"%string.
Proof. reflexivity. Qed.
