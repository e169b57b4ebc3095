(** The strings of the grammar all mean something, namely what the decoder makes of them; so the
    meaning of a text may be told without the decoder. *)
From Coq Require Import ZArith NArith Lia Bool ZifyBool List String Ascii.
From Verif Require Import GoTime Text SpecText AstroMoon JsonRead SpecJson P_JsonRead P_JsonMean.
Import ListNotations.
Local Open Scope string_scope.

Lemma utf8_bytes_exist n : exists l, utf8_bytes n l.
Proof.
  destruct (N.lt_ge_cases n 128) as [H1|H1]; [eexists; apply utf8_1; exact H1|].
  assert (Q : forall m, (m = m / 64 * 64 + m mod 64 /\ m mod 64 < 64)%N).
  { intros m. rewrite N.mul_comm. split; [apply N.div_mod'; discriminate|apply N.mod_lt; discriminate]. }
  destruct (Q n) as [E1 L1]. destruct (N.lt_ge_cases n 2048) as [H2|H2].
  { eexists. apply (utf8_2 n (n / 64) (n mod 64)); [exact E1|lia|exact L1]. }
  destruct (Q (n / 64)%N) as [E2 L2]. destruct (N.lt_ge_cases n 65536) as [H3|H3].
  { eexists. apply (utf8_3 n (n / 64 / 64) ((n / 64) mod 64) (n mod 64)); [lia|lia|exact L2|exact L1]. }
  destruct (Q (n / 64 / 64)%N) as [E3 L3].
  eexists. apply (utf8_4 n (n / 64 / 64 / 64) ((n / 64 / 64) mod 64) ((n / 64) mod 64) (n mod 64)); [lia|lia|exact L3|exact L2|exact L1].
Qed.
Lemma unit_of a b c d : hex_char a -> hex_char b -> hex_char c -> hex_char d ->
  exists n, unit_escape (String "\" (String "u" (String a (String b (String c (String d "")))))) n.
Proof.
  intros A B C D. destruct (hex_char_digit a A) as [da Ha], (hex_char_digit b B) as [db Hb], (hex_char_digit c C) as [dc Hc], (hex_char_digit d D) as [dd Hd].
  eexists. constructor; eassumption.
Qed.
Lemma unit_inv a b c d n : unit_escape (String "\" (String "u" (String a (String b (String c (String d "")))))) n -> hex_char a /\ hex_char b /\ hex_char c /\ hex_char d.
Proof. intros H. inversion H; subst. repeat split; eapply hex_digit_char; eassumption. Qed.
Lemma unit_unique u n m : unit_escape u n -> unit_escape u m -> n = m.
Proof.
  intros [a b c d x y z w X Y Z W] H. inversion H; subst. repeat match goal with H : hex_digit_of _ _ |- _ => apply hex_digit_value in H; destruct H as [<- _] end. reflexivity.
Qed.
Lemma means_total raw : chars raw -> exists s, string_means raw s.
Proof.
  remember (String.length raw) as k eqn:K. assert (Hk : (String.length raw <= k)%nat) by lia. clear K. revert raw Hk.
  induction k as [|k IH]; intros raw Hk C.
  { destruct raw; [exists ""; constructor|cbn in Hk; lia]. }
  destruct C as [|c s Q B G C|e s I C|a b c d s A B X D C]; cbn [String.length] in Hk.
  - exists "". constructor.
  - destruct (IH s) as [t T]; [lia|exact C|]. exists (String c t). constructor; assumption.
  - destruct (IH s) as [t T]; [lia|exact C|]. assert (J : exists x, In (e, x) short_escapes).
    { cbn [In] in I. unfold short_escapes. cbn [In]. repeat (destruct I as [<-|I]; [eexists; tauto|]). elim I. }
    destruct J as [x J]. exists (String x t). constructor; assumption.
  - destruct (unit_of a b c d A B X D) as [n U]. destruct (IH s) as [t T]; [lia|exact C|].
    set (u := String "\" (String "u" (String a (String b (String c (String d "")))))) in *. change (exists t, string_means (u ++ s) t).
    destruct (utf8_bytes_exist n) as [l L].
    destruct (N.lt_ge_cases n 55296) as [H1|H1]; [eexists; eapply means_unit; [exact U|left; exact H1|exact L|exact T]|].
    destruct (N.lt_ge_cases n 57344) as [H2|H2]; [|eexists; eapply means_unit; [exact U|right; exact H2|exact L|exact T]].
    destruct (N.lt_ge_cases n 56320) as [H3|H3]; [|eexists; apply (means_lone u n); [exact U|lia|lia|exact T]].
    (* is it followed by the other half? *)
    destruct C as [|c' s' Q' B' G' C'|e' s' I' C'|a' b' c' d' s' A' B'' X' D' C'].
    + eexists. apply (means_lone u n); [exact U|lia| |exact T]. intros _ v r' (i & _ & V). destruct V. discriminate.
    + eexists. apply (means_lone u n); [exact U|lia| |exact T]. intros _ v r' (i & _ & V) E. destruct V. cbn [append] in E. congruence.
    + eexists. apply (means_lone u n); [exact U|lia| |exact T]. intros _ v r' (i & _ & V) E. destruct V. cbn [append] in E. injection E as E _. subst e'. cbn [In] in I'. repeat (destruct I' as [I'|I']; [discriminate I'|]). elim I'.
    + destruct (unit_of a' b' c' d' A' B'' X' D') as [m V]. set (v := String "\" (String "u" (String a' (String b' (String c' (String d' "")))))) in *.
      assert (Lone : ~ (56320 <= m < 57344)%N -> exists t0, string_means (u ++ String "\" (String "u" (String a' (String b' (String c' (String d' s')))))) t0).
      { intros O. eexists. apply (means_lone u n); [exact U|lia| |exact T]. intros _ w r' (i & Hi & W) E.
        assert (w = v) as ->. { destruct W. cbn [append] in E. injection E as E1 E2 E3 E4 _. subst. reflexivity. }
        pose proof (unit_unique _ _ _ V W). lia. }
      destruct (N.lt_ge_cases m 56320) as [H4|H4]; [apply Lone; lia|]. destruct (N.lt_ge_cases m 57344) as [H5|H5]; [|apply Lone; lia].
      destruct (IH s') as [t' T']; [cbn [String.length] in Hk; lia|exact C'|]. destruct (utf8_bytes_exist (65536 + (n - 55296) * 1024 + (m - 56320))) as [l' L'].
      exists (bytes l' ++ t'). change (string_means (u ++ v ++ s') (bytes l' ++ t')).
      apply (means_pair u v (n - 55296) (m - 56320) (65536 + (n - 55296) * 1024 + (m - 56320))); [replace (55296 + (n - 55296))%N with n by lia; exact U|replace (56320 + (m - 56320))%N with m by lia; exact V|lia|lia|reflexivity|exact L'|exact T'].
Qed.
Lemma means_unquote raw s : chars raw -> (string_means raw s <-> unquote None raw = s).
Proof.
  intros C. split; [apply unquote_means|]. intros <-. destruct (means_total raw C) as [t T]. rewrite (unquote_means _ _ T). exact T.
Qed.

(** ** Two readings that agree on the strings of the grammar *)
Inductive all_chars : value -> Prop :=
| ac_null : all_chars VNull
| ac_bool b : all_chars (VBool b)
| ac_num s : all_chars (VNum s)
| ac_str s : chars s -> all_chars (VStr s)
| ac_arr l : Forall all_chars l -> all_chars (VArr l)
| ac_obj l : Forall (fun p => chars (fst p) /\ all_chars (snd p)) l -> all_chars (VObj l).
Lemma spells_chars :
  (forall v t, spells v t -> all_chars v) /\ (forall l t, items l t -> Forall all_chars l) /\ (forall l t, pairs l t -> Forall (fun p => chars (fst p) /\ all_chars (snd p)) l).
Proof. apply spells_items_pairs; intros; repeat constructor; assumption. Qed.
Definition members (l : list (string * value)) : Prop := Forall (fun p => chars (fst p) /\ all_chars (snd p)) l.
Section Agree.
Variables R R' : string -> string -> Prop.
Hypothesis E : forall raw s, chars raw -> (R raw s <-> R' raw s).
Lemma named_agree f p : chars (fst p) -> (named R f p <-> named R' f p).
Proof. intros C. unfold named. split; intros (k & H & K); exists k; (split; [apply (E _ _ C); exact H|exact K]). Qed.
Lemma forall_agree (P Q : string * value -> Prop) l : members l -> (forall p, chars (fst p) -> all_chars (snd p) -> P p -> Q p) -> Forall P l -> Forall Q l.
Proof. intros M H F. induction F as [|p l Hp _ IH]; [constructor|]. inversion M as [|? ? [C A] M']; subst. constructor; auto. Qed.
Lemma given_agree f l o : members l -> given R f l o -> given R' f l o.
Proof.
  assert (F : forall m, members m -> Forall (fun p => named R f p -> snd p = VNull) m -> Forall (fun p => named R' f p -> snd p = VNull) m).
  { intros m M. apply (forall_agree _ _ m M). intros p C _ H N. apply H. apply (named_agree f p C). exact N. }
  destruct o as [v|]; cbn [given]; intros M.
  - intros (N & l1 & k & l2 & -> & K & G). split; [exact N|]. exists l1, k, l2. split; [reflexivity|]. unfold members in M. rewrite Forall_app in M. destruct M as [_ M]. inversion M as [|? ? [C _] M']; subst.
    split; [apply (named_agree f (k, v) C); exact K|apply F; assumption].
  - apply F. exact M.
Qed.
Lemma given_chars f l v : members l -> given R f l (Some v) -> all_chars v.
Proof. intros M (_ & l1 & k & l2 & -> & _). unfold members in M. rewrite Forall_app in M. destruct M as [_ M]. inversion M as [|? ? [_ A] _]; subst. exact A. Qed.
Lemma last_agree f l o : members l -> last_given R f l o -> last_given R' f l o.
Proof.
  assert (F : forall m, members m -> Forall (fun p => ~ named R f p) m -> Forall (fun p => ~ named R' f p) m).
  { intros m M. apply (forall_agree _ _ m M). intros p C _ H N. apply H. apply (named_agree f p C). exact N. }
  destruct o as [v|]; cbn [last_given]; intros M.
  - intros (l1 & k & l2 & -> & K & G). exists l1, k, l2. split; [reflexivity|]. unfold members in M. rewrite Forall_app in M. destruct M as [_ M]. inversion M as [|? ? [C _] M']; subst.
    split; [apply (named_agree f (k, v) C); exact K|apply F; assumption].
  - apply F. exact M.
Qed.
Lemma last_chars f l v : members l -> last_given R f l (Some v) -> all_chars v.
Proof. intros M (l1 & k & l2 & -> & _). unfold members in M. rewrite Forall_app in M. destruct M as [_ M]. inversion M as [|? ? [_ A] _]; subst. exact A. Qed.
Lemma string_agree v s : all_chars v -> string_value R v s -> string_value R' v s.
Proof. intros A (raw & -> & H). inversion A; subst. exists raw. split; [reflexivity|]. apply E; assumption. Qed.
Lemma field_agree {A} (zero : A) (P Q : value -> A -> Prop) f l x : members l -> (forall v x, all_chars v -> P v x -> Q v x) -> field R zero P f l x -> field R' zero Q f l x.
Proof.
  intros M H [[G ->]|(v & G & V)]; [left; split; [apply given_agree; assumption|reflexivity]|]. right. exists v. split; [apply given_agree; assumption|]. apply H; [exact (given_chars f l v M G)|exact V].
Qed.
Lemma record_agree v r : all_chars v -> record_value R v r -> record_value R' v r.
Proof.
  intros A [[-> ->]|(l & -> & H1 & H2 & H3 & H4)]; [left; auto|]. inversion A as [| | | | |? M]; subst. right. exists l. split; [reflexivity|].
  repeat split; [revert H1|revert H2|revert H3|revert H4]; apply field_agree; auto using string_agree.
Qed.
Lemma merged_agree f l e : members l -> merged R f l e -> merged R' f l e /\ members e.
Proof.
  intros M H. revert M. induction H as [|p l m H _ IH|k x l m H _ IH]; intros M; [split; constructor| |]; inversion M as [|? ? [C A] M']; subst; destruct (IH M') as [I1 I2]; cbn [fst snd] in *.
  - split; [|exact I2]. constructor; [|exact I1]. rewrite <- (named_agree f p C). exact H.
  - split; [constructor; [apply (named_agree f (k, VObj x) C); exact H|exact I1]|]. unfold members. rewrite Forall_app. split; [|exact I2]. inversion A; subst; assumption.
Qed.
Lemma response_agree v p : all_chars v -> response_value R v p -> response_value R' v p.
Proof.
  intros A [[-> ->]|(l & e & -> & H1 & H2 & H3 & H4 & H5)]; [left; auto|]. inversion A as [| | | | |? M]; subst. destruct (merged_agree _ _ _ M H2) as [H2' Me].
  right. exists l, e. split; [reflexivity|]. split; [|split; [exact H2'|split; [|split]]].
  - revert H1. apply field_agree; auto.
  - revert H3. apply field_agree; auto using string_agree.
  - revert H4. apply field_agree; auto using string_agree.
  - destruct H5 as [[G H]|(vs & G & H)]; [left; split; [|exact H]; destruct G; [left|right]; apply last_agree; assumption|].
    right. exists vs. split; [apply last_agree; assumption|]. pose proof (last_chars _ _ _ M G) as L. inversion L as [| | | |? F|]; subst.
    clear G L. revert F. induction H as [|x y xs ys Hxy _ IH]; intros F; constructor; inversion F; subst; [apply record_agree; assumption|apply IH; assumption].
Qed.
Lemma fits_agree {A} f (P Q : value -> A -> Prop) p : chars (fst p) -> all_chars (snd p) -> (forall v x, all_chars v -> P v x -> Q v x) -> fits R f P p -> fits R' f Q p.
Proof.
  intros C Ac H F N. apply (named_agree f p C) in N. destruct (F N) as [V|[x V]]; [left; exact V|right]. exists x. apply H; assumption.
Qed.
Lemma record_fits_agree v : all_chars v -> record_fits R v -> record_fits R' v.
Proof.
  intros A [->|(l & -> & F)]; [left; reflexivity|right]. inversion A as [| | | | |? M]; subst. exists l. split; [reflexivity|]. revert F. apply (forall_agree _ _ l M).
  intros p C Ac (F1 & F2 & F3 & F4). repeat split; [revert F1|revert F2|revert F3|revert F4]; apply fits_agree; auto using string_agree.
Qed.
Lemma error_fits_agree v : all_chars v -> error_fits R v -> error_fits R' v.
Proof.
  intros A [->|(l & -> & F)]; [left; reflexivity|right]. inversion A as [| | | | |? M]; subst. exists l. split; [reflexivity|]. revert F. apply (forall_agree _ _ l M).
  intros p C Ac (F1 & F2). split; [revert F1|revert F2]; apply fits_agree; auto using string_agree.
Qed.
Lemma response_fits_agree v : all_chars v -> response_fits R v -> response_fits R' v.
Proof.
  intros A [->|(l & -> & F)]; [left; reflexivity|right]. inversion A as [| | | | |? M]; subst. exists l. split; [reflexivity|]. revert F. apply (forall_agree _ _ l M).
  intros p C Ac (F1 & F2 & F3). split; [revert F1; apply fits_agree; auto|]. split.
  - intros N. apply error_fits_agree; [exact Ac|]. apply F2. apply (named_agree _ p C). exact N.
  - intros N. apply (named_agree _ p C) in N. destruct (F3 N) as [V|(vs & V & F)]; [left; exact V|right]. exists vs. split; [exact V|].
    rewrite V in Ac. inversion Ac as [| | | |? B|]; subst. clear - E B F. induction F as [|x xs Hx _ IH]; constructor; inversion B; subst; [apply record_fits_agree; assumption|apply IH; assumption].
Qed.
End Agree.
Lemma unq_means raw s : chars raw -> (unq raw s <-> string_means raw s).
Proof. intros C. rewrite (means_unquote raw s C). unfold unq. split; congruence. Qed.
Lemma text_chars v s : json_text v s -> all_chars v.
Proof. intros (w & t & w' & _ & S & _). exact (proj1 spells_chars v t S). Qed.
Lemma response_means v s p : json_text v s -> (response_value unq v p <-> response_value string_means v p).
Proof. intros J. pose proof (text_chars v s J). split; apply response_agree; auto using unq_means. intros. symmetry. apply unq_means. assumption. Qed.
Lemma response_fit v s : json_text v s -> (response_fits unq v <-> response_fits string_means v).
Proof. intros J. pose proof (text_chars v s J). split; apply response_fits_agree; auto using unq_means. intros. symmetry. apply unq_means. assumption. Qed.
