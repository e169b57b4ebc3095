(** Lemmas about the text model. *)
From Coq Require Import ZArith Lia Bool ZifyBool List String Ascii Decimal DecimalString DecimalZ DecimalPos.
From Verif Require Import GoTime Text P_Time.
Import ListNotations.
Open Scope Z_scope.
Local Open Scope string_scope.

(** ** Strings *)
Fixpoint all_chars (p : ascii -> bool) (s : string) : bool :=
  match s with "" => true | String c s' => p c && all_chars p s' end.
Lemma app_assoc' (a b c : string) : (a ++ b) ++ c = a ++ (b ++ c).
Proof. induction a as [|x a IH]; cbn; [reflexivity|]. rewrite IH. reflexivity. Qed.
Lemma app_nil (a : string) : a ++ "" = a.
Proof. induction a as [|x a IH]; cbn; [reflexivity|]. rewrite IH. reflexivity. Qed.
Lemma app_cancel (a b c : string) : a ++ b = a ++ c -> b = c.
Proof. induction a as [|x a IH]; cbn; [trivial|]. intros E. injection E as E. exact (IH E). Qed.
Lemma string_length_app (a b : string) : String.length (a ++ b) = (String.length a + String.length b)%nat.
Proof. induction a as [|x a IH]; cbn; [reflexivity|]. rewrite IH. reflexivity. Qed.
Lemma app_inj_length (a b r r' : string) : String.length a = String.length b -> a ++ r = b ++ r' -> a = b /\ r = r'.
Proof.
  revert b. induction a as [|x a IH]; intros [|y b] L; cbn in *; try discriminate; [auto|].
  intros E. injection E as -> E. injection L as L. destruct (IH b L E) as [-> ->]. auto.
Qed.
(** [s] does not begin with a character satisfying [p]. *)
Definition stops (p : ascii -> bool) (s : string) : Prop := match s with "" => True | String c _ => p c = false end.
Lemma split_class p (a b r r' : string) : all_chars p a = true -> all_chars p b = true -> stops p r -> stops p r' ->
  a ++ r = b ++ r' -> a = b /\ r = r'.
Proof.
  revert b. induction a as [|x a IH]; intros [|y b] Ha Hb Hr Hr' E; cbn [all_chars append] in *.
  - auto.
  - subst r. cbn [stops append] in Hr. apply andb_prop in Hb. destruct Hb as [Hy _]. congruence.
  - subst r'. cbn [stops append] in Hr'. apply andb_prop in Ha. destruct Ha as [Hy _]. congruence.
  - injection E as -> E. apply andb_prop in Ha, Hb. destruct (IH b (proj2 Ha) (proj2 Hb) Hr Hr' E) as [-> ->]. auto.
Qed.

(** ** %d *)
Definition num_char (c : ascii) : bool := is_digit c || Ascii.eqb c "-".
Lemma uint_chars d : all_chars is_digit (NilEmpty.string_of_uint d) = true.
Proof. induction d; cbn; try reflexivity; exact IHd. Qed.
Lemma all_chars_impl p q s : (forall c, p c = true -> q c = true) -> all_chars p s = true -> all_chars q s = true.
Proof.
  intros H. induction s as [|c s IH]; cbn; [trivial|]. intros E. apply andb_prop in E. destruct E as [E1 E2].
  rewrite (H c E1), (IH E2). reflexivity.
Qed.
Lemma digit_num c : is_digit c = true -> num_char c = true.
Proof. unfold num_char. intros ->. reflexivity. Qed.
Lemma uint_chars' d : all_chars is_digit (NilZero.string_of_uint d) = true.
Proof. destruct d; try reflexivity; apply uint_chars. Qed.
Lemma fmt_d_chars z : all_chars num_char (fmt_d z) = true.
Proof.
  unfold fmt_d. destruct (Z.to_int z) as [d|d]; cbn [NilZero.string_of_int all_chars].
  - apply (all_chars_impl is_digit); [exact digit_num|]. apply uint_chars'.
  - cbn [andb num_char]. apply andb_true_intro. split; [reflexivity|]. apply (all_chars_impl is_digit); [exact digit_num|]. apply uint_chars'.
Qed.
Lemma to_int_shape z : Z.to_int z <> Pos Nil /\ Z.to_int z <> Neg Nil.
Proof.
  destruct z as [|p|p]; cbn [Z.to_int]; split; try discriminate; intros E; injection E as E;
    exact (DecimalPos.Unsigned.to_uint_nonnil p E).
Qed.
Lemma fmt_d_inj a b : fmt_d a = fmt_d b -> a = b.
Proof.
  intros E. unfold fmt_d in E. apply (f_equal NilZero.int_of_string) in E. destruct (to_int_shape a), (to_int_shape b).
  rewrite !NilZero.isi in E by assumption. injection E as E. rewrite <- (DecimalZ.of_to a), <- (DecimalZ.of_to b), E. reflexivity.
Qed.
Lemma fmt_d_split a b r r' : stops num_char r -> stops num_char r' -> fmt_d a ++ r = fmt_d b ++ r' -> a = b /\ r = r'.
Proof.
  intros Hr Hr' E. destruct (split_class num_char _ _ r r' (fmt_d_chars a) (fmt_d_chars b) Hr Hr' E) as [E1 E2].
  split; [apply fmt_d_inj; exact E1|exact E2].
Qed.
Lemma fmt_d_nonempty z : exists c s, fmt_d z = String c s /\ num_char c = true.
Proof.
  pose proof (fmt_d_chars z) as H. destruct (fmt_d z) as [|c s] eqn:E.
  - exfalso. unfold fmt_d in E. destruct (Z.to_int z) as [d|d]; cbn in E; [|discriminate]. destruct d; discriminate.
  - exists c, s. split; [reflexivity|]. cbn in H. apply andb_prop in H. apply H.
Qed.

(** ** Digits *)
Lemma digit_cases z : 0 <= z <= 9 -> digit_value (digit z) = z /\ is_digit (digit z) = true.
Proof.
  intros H. assert (C : z = 0 \/ z = 1 \/ z = 2 \/ z = 3 \/ z = 4 \/ z = 5 \/ z = 6 \/ z = 7 \/ z = 8 \/ z = 9) by lia.
  repeat (destruct C as [->|C]; [split; reflexivity|]). subst z. split; reflexivity.
Qed.
Lemma digit_value_spec c : is_digit c = true -> 0 <= digit_value c <= 9 /\ digit (digit_value c) = c.
Proof.
  unfold is_digit, digit_value, digit. intros H. apply andb_prop in H. destruct H as [H1 H2].
  apply Nat.leb_le in H1, H2. split; [lia|].
  replace (48 + Z.to_nat (Z.of_nat (nat_of_ascii c) - 48))%nat with (nat_of_ascii c) by lia. apply ascii_nat_embedding.
Qed.
Lemma two_inj a b : 0 <= a < 100 -> 0 <= b < 100 -> two a = two b -> a = b.
Proof.
  intros Ha Hb E. unfold two in E. injection E as E1 E2. apply (f_equal digit_value) in E1, E2.
  rewrite (proj1 (digit_cases (a / 10) ltac:(split; [apply Z.div_pos; lia|apply Z.lt_succ_r; apply Z.div_lt_upper_bound; lia]))) in E1.
  rewrite (proj1 (digit_cases (b / 10) ltac:(split; [apply Z.div_pos; lia|apply Z.lt_succ_r; apply Z.div_lt_upper_bound; lia]))) in E1.
  rewrite !(fun z => proj1 (digit_cases (z mod 10) ltac:(pose proof (Z.mod_pos_bound z 10); lia))) in E2.
  pose proof (Z.div_mod a 10). pose proof (Z.div_mod b 10). lia.
Qed.
Lemma four_inj a b : 0 <= a < 10000 -> 0 <= b < 10000 -> four a = four b -> a = b.
Proof.
  intros Ha Hb E. unfold four in E. destruct (app_inj_length (two (a / 100)) (two (b / 100)) _ _ eq_refl E) as [E1 E2].
  apply two_inj in E1; [|split; [apply Z.div_pos; lia|apply Z.div_lt_upper_bound; lia]..].
  apply two_inj in E2; [|apply Z.mod_pos_bound; lia..].
  pose proof (Z.div_mod a 100). pose proof (Z.div_mod b 100). lia.
Qed.
