(** The decoder accepts exactly the JSON texts. *)
From Coq Require Import ZArith NArith Lia Bool ZifyBool List String Ascii.
From Verif Require Import GoTime Text P_Text JsonRead SpecJson.
Import ListNotations.
Local Open Scope string_scope.

(** ** Classes of characters *)
Lemma space_spec c : is_space c = true <-> In c [" "; "009"; "010"; "013"]%char.
Proof. unfold is_space. rewrite !orb_true_iff, !Ascii.eqb_eq. cbn [In]. intuition congruence. Qed.
Lemma digit_spec c : is_dig c = true <-> digit_char c.
Proof.
  split.
  - intros H. destruct c as [b0 b1 b2 b3 b4 b5 b6 b7]. destruct b0, b1, b2, b3, b4, b5, b6, b7; try discriminate H; unfold digit_char; cbn [list_ascii_of_string In]; tauto.
  - unfold digit_char. cbn [list_ascii_of_string In]. intros H. repeat (destruct H as [<-|H]; [reflexivity|]). elim H.
Qed.
Lemma hex_spec c : is_hex c = true <-> hex_char c.
Proof.
  split.
  - intros H. destruct c as [b0 b1 b2 b3 b4 b5 b6 b7]. destruct b0, b1, b2, b3, b4, b5, b6, b7; try discriminate H; unfold hex_char; cbn [list_ascii_of_string In]; tauto.
  - unfold hex_char. cbn [list_ascii_of_string In]. intros H. repeat (destruct H as [<-|H]; [reflexivity|]). elim H.
Qed.
Lemma control_spec c : is_control c = false <-> (32 <= N_of_ascii c)%N.
Proof. destruct c as [b0 b1 b2 b3 b4 b5 b6 b7]. destruct b0, b1, b2, b3, b4, b5, b6, b7; vm_compute; split; congruence. Qed.

(** ** The equations of the readers *)
Definition after_char (c : ascii) (s : string) : option string :=
  match s with String d s' => if Ascii.eqb d c then Some s' else None | "" => None end.
Lemma after_char_spec c s r : after_char c s = Some r <-> s = String c r.
Proof.
  destruct s as [|d s]; cbn; [split; discriminate|]. destruct (Ascii.eqb_spec d c) as [->|N]; split; intros E.
  - injection E as ->. reflexivity.
  - injection E as ->. reflexivity.
  - discriminate.
  - injection E as -> ->. congruence.
Qed.
Ltac by_char s := destruct s as [|[[] [] [] [] [] [] [] []] ?]; reflexivity.
Lemma read_value_eq n s : read_value (S n) s =
  match skip_space s with
  | "" => None
  | String c s1 =>
      if Ascii.eqb c "{" then
        match after_char "}" (skip_space s1) with
        | Some s2 => Some (VObj [], s2)
        | None => option_map (fun p => (VObj (fst p), snd p)) (read_members n (skip_space s1))
        end
      else if Ascii.eqb c "[" then
        match after_char "]" (skip_space s1) with
        | Some s2 => Some (VArr [], s2)
        | None => option_map (fun p => (VArr (fst p), snd p)) (read_elements n (skip_space s1))
        end
      else if Ascii.eqb c quote then option_map (fun p => (VStr (fst p), snd p)) (quoted s1)
      else if Ascii.eqb c "t" then literal "rue" (VBool true) s1
      else if Ascii.eqb c "f" then literal "alse" (VBool false) s1
      else if Ascii.eqb c "n" then literal "ull" VNull s1
      else option_map (fun p => (VNum (fst p), snd p)) (read_number (String c s1))
  end.
Proof.
  cbn [read_value]. destruct (skip_space s) as [|c s1]; [reflexivity|].
  destruct (Ascii.eqb c "{"); [generalize (skip_space s1); intros u; by_char u|].
  destruct (Ascii.eqb c "["); [generalize (skip_space s1); intros u; by_char u|]. reflexivity.
Qed.
Lemma read_elements_eq n s : read_elements (S n) s =
  match read_value n s with
  | None => None
  | Some (v, s1) =>
      match after_char "," (skip_space s1) with
      | Some s2 => option_map (fun p => (v :: fst p, snd p)) (read_elements n s2)
      | None => option_map (fun s2 => ([v], s2)) (after_char "]" (skip_space s1))
      end
  end.
Proof. cbn [read_elements]. destruct (read_value n s) as [[v s1]|]; [|reflexivity]. generalize (skip_space s1). intros u. by_char u. Qed.
Lemma read_members_eq n s : read_members (S n) s =
  match after_char quote (skip_space s) with
  | None => None
  | Some s1 =>
      match quoted s1 with
      | None => None
      | Some (k, s2) =>
          match after_char ":" (skip_space s2) with
          | None => None
          | Some s3 =>
              match read_value n s3 with
              | None => None
              | Some (v, s4) =>
                  match after_char "," (skip_space s4) with
                  | Some s5 => option_map (fun p => ((k, v) :: fst p, snd p)) (read_members n s5)
                  | None => option_map (fun s5 => ([(k, v)], s5)) (after_char "}" (skip_space s4))
                  end
              end
          end
      end
  end.
Proof.
  cbn [read_members]. destruct (skip_space s) as [|c s1]; [reflexivity|]. cbn [after_char]. destruct (Ascii.eqb c quote); [|reflexivity].
  destruct (quoted s1) as [[k s2]|]; [|reflexivity]. generalize (skip_space s2). intros u.
  destruct u as [|d u]; [reflexivity|]. cbn [after_char]. destruct (Ascii.eqb_spec d ":") as [->|N].
  - destruct (read_value n u) as [[v s4]|]; [|reflexivity]. generalize (skip_space s4). intros x. by_char x.
  - destruct d as [[] [] [] [] [] [] [] []]; try reflexivity. elim N. reflexivity.
Qed.
Definition short (e : ascii) : bool := Ascii.eqb e quote || existsb (Ascii.eqb e) ["\"; "/"; "b"; "f"; "n"; "r"; "t"]%char.
Lemma quoted_eq c s1 : quoted (String c s1) =
  if Ascii.eqb c quote then Some ("", s1)
  else if Ascii.eqb c "\" then
    match s1 with
    | String e s2 =>
        if Ascii.eqb e "u" then
          match s2 with
          | String h1 (String h2 (String h3 (String h4 s3))) =>
              if is_hex h1 && is_hex h2 && is_hex h3 && is_hex h4 then
                option_map (fun p => (String c (String "u" (String h1 (String h2 (String h3 (String h4 (fst p)))))), snd p)) (quoted s3)
              else None
          | _ => None
          end
        else if short e then option_map (fun p => (String c (String e (fst p)), snd p)) (quoted s2) else None
    | "" => None
    end
  else if is_control c then None
  else option_map (fun p => (String c (fst p), snd p)) (quoted s1).
Proof.
  cbn [quoted]. destruct (Ascii.eqb c quote); [reflexivity|]. destruct (Ascii.eqb c "\").
  - destruct s1 as [|e s2]; [reflexivity|]. destruct (Ascii.eqb_spec e "u") as [->|N].
    + destruct s2 as [|h1 [|h2 [|h3 [|h4 s3]]]]; try reflexivity. destruct (is_hex h1 && is_hex h2 && is_hex h3 && is_hex h4); [|reflexivity].
      destruct (quoted s3) as [[r rest]|]; reflexivity.
    + destruct e as [[] [] [] [] [] [] [] []]; try (elim N; reflexivity); cbv -[quoted option_map fst snd]; try reflexivity; destruct (quoted s2) as [[r rest]|]; reflexivity.
  - destruct (is_control c); [reflexivity|]. destruct (quoted s1) as [[r rest]|]; reflexivity.
Qed.

(** ** White space *)
Lemma blank_app a b : blank a -> blank b -> blank (a ++ b).
Proof. induction 1 as [|c w H _ IH]; [trivial|]. intros B. cbn [append]. constructor; [exact H|exact (IH B)]. Qed.
Lemma skip_blank w s : blank w -> skip_space (w ++ s) = skip_space s.
Proof. induction 1 as [|c w H _ IH]; [reflexivity|]. cbn [append skip_space]. apply space_spec in H. rewrite H. exact IH. Qed.
Lemma skip_sound s : exists w, blank w /\ s = w ++ skip_space s.
Proof.
  induction s as [|c s (w & B & E)]; [exists ""; split; [constructor|reflexivity]|]. cbn [skip_space]. destruct (is_space c) eqn:S.
  - exists (String c w). split; [constructor; [apply space_spec; exact S|exact B]|]. cbn [append]. rewrite <- E. reflexivity.
  - exists "". split; [constructor|reflexivity].
Qed.
Lemma skip_char c s : is_space c = false -> skip_space (String c s) = String c s.
Proof. intros H. cbn [skip_space]. rewrite H. reflexivity. Qed.
Lemma skip_length s : (String.length (skip_space s) <= String.length s)%nat.
Proof. induction s as [|c s IH]; [reflexivity|]. cbn [skip_space]. destruct (is_space c); cbn [String.length]; lia. Qed.

(** ** Strings *)
Lemma short_spec e : short e = true <-> In e [quote; "\"; "/"; "b"; "f"; "n"; "r"; "t"]%char.
Proof.
  unfold short. cbn [existsb In]. rewrite !orb_true_iff, !Ascii.eqb_eq. split; intros H.
  - repeat (destruct H as [H|H]; [subst; tauto|]). discriminate.
  - repeat (destruct H as [H|H]; [subst; tauto|]). elim H.
Qed.
Lemma quoted_complete k r : chars k -> quoted (k ++ String quote r) = Some (k, r).
Proof.
  induction 1 as [|c s N1 N2 L H IH|e s I H IH|a b c d s Ha Hb Hc Hd H IH]; cbn [append]; rewrite quoted_eq.
  - reflexivity.
  - rewrite (proj2 (Ascii.eqb_neq _ _) N1), (proj2 (Ascii.eqb_neq _ _) N2). apply control_spec in L. rewrite L, IH. reflexivity.
  - change (Ascii.eqb "\" quote) with false. change (Ascii.eqb "\" "\") with true. cbn iota.
    assert (U : Ascii.eqb e "u" = false) by (cbn [In] in I; repeat (destruct I as [<-|I]; [reflexivity|]); elim I).
    rewrite U. apply short_spec in I. rewrite I, IH. reflexivity.
  - change (Ascii.eqb "\" quote) with false. change (Ascii.eqb "\" "\") with true. change (Ascii.eqb "u" "u") with true. cbn iota.
    apply hex_spec in Ha, Hb, Hc, Hd. rewrite Ha, Hb, Hc, Hd, IH. reflexivity.
Qed.
Lemma quoted_sound s : forall k r, quoted s = Some (k, r) -> chars k /\ s = k ++ String quote r.
Proof.
  remember (String.length s) as n eqn:L. assert (M : (String.length s <= n)%nat) by lia. clear L. revert s M.
  induction n as [|n IH]; intros [|c s] M k r; try discriminate; cbn [String.length] in M; [lia|].
  rewrite quoted_eq. destruct (Ascii.eqb_spec c quote) as [->|N1]; [intros E; injection E as <- <-; split; [constructor|reflexivity]|].
  destruct (Ascii.eqb_spec c "\") as [->|N2].
  - destruct s as [|e s2]; [discriminate|]. destruct (Ascii.eqb_spec e "u") as [->|N3].
    + destruct s2 as [|h1 [|h2 [|h3 [|h4 s3]]]]; try discriminate. destruct (is_hex h1 && is_hex h2 && is_hex h3 && is_hex h4) eqn:X; [|discriminate].
      rewrite !andb_true_iff, !hex_spec in X. destruct X as [[[X1 X2] X3] X4].
      destruct (quoted s3) as [[k' r']|] eqn:Q; [|discriminate]. cbn [option_map fst snd]. intros E. injection E as <- <-.
      cbn [String.length] in M. destruct (IH s3 ltac:(lia) _ _ Q) as [C ->]. split; [constructor; assumption|reflexivity].
    + destruct (short e) eqn:S; [|discriminate]. apply short_spec in S.
      destruct (quoted s2) as [[k' r']|] eqn:Q; [|discriminate]. cbn [option_map fst snd]. intros E. injection E as <- <-.
      cbn [String.length] in M. destruct (IH s2 ltac:(lia) _ _ Q) as [C ->]. split; [constructor; assumption|reflexivity].
  - destruct (is_control c) eqn:K; [discriminate|]. apply control_spec in K.
    destruct (quoted s) as [[k' r']|] eqn:Q; [|discriminate]. cbn [option_map fst snd]. intros E. injection E as <- <-.
    destruct (IH s ltac:(lia) _ _ Q) as [C ->]. split; [constructor; assumption|reflexivity].
Qed.

(** ** Numbers *)
(** What may follow a number so that it ends there. *)
Definition number_char (c : ascii) : bool :=
  is_dig c || Ascii.eqb c "." || Ascii.eqb c "e" || Ascii.eqb c "E".
Lemma run_complete d r : digit_chars d -> stops is_dig r -> run_of_digits (d ++ r) = (d, r).
Proof.
  induction 1 as [|c s H _ IH]; intros S; cbn [append].
  - destruct r as [|c r]; [reflexivity|]. cbn [stops] in S. cbn [run_of_digits]. rewrite S. reflexivity.
  - cbn [run_of_digits]. apply digit_spec in H. rewrite H, IH by exact S. reflexivity.
Qed.
Lemma run_sound s : forall d r, run_of_digits s = (d, r) -> digit_chars d /\ s = d ++ r.
Proof.
  induction s as [|c s IH]; intros d r; cbn [run_of_digits].
  - intros E. injection E as <- <-. split; [constructor|reflexivity].
  - destruct (is_dig c) eqn:D.
    + destruct (run_of_digits s) as [d' r'] eqn:R. intros E. injection E as <- <-. destruct (IH _ _ eq_refl) as [H ->].
      split; [constructor; [apply digit_spec; exact D|exact H]|reflexivity].
    + intros E. injection E as <- <-. split; [constructor|reflexivity].
Qed.
Lemma sign_complete m s : In m [""; "-"] -> stops (Ascii.eqb "-") s -> sign (m ++ s) = (m, s).
Proof.
  intros [<-|[<-|[]]] S; [|reflexivity]. cbn [append]. destruct s as [|c s]; [reflexivity|]. cbn [stops] in S. cbn [sign]. rewrite Ascii.eqb_sym, S. reflexivity.
Qed.
Lemma sign_sound s m r : sign s = (m, r) -> In m [""; "-"] /\ s = m ++ r.
Proof.
  destruct s as [|c s]; cbn [sign]; [intros E; injection E as <- <-; split; [left|]; reflexivity|].
  destruct (Ascii.eqb_spec c "-") as [->|N]; intros E; injection E as <- <-; (split; [|reflexivity]); [right; left|left]; reflexivity.
Qed.
Lemma integer_complete i r : int_part i -> stops is_dig r -> integer (i ++ r) = Some (i, r).
Proof.
  intros [|c s D N H] S; cbn [append integer]; [reflexivity|]. rewrite (proj2 (Ascii.eqb_neq _ _) N).
  pose proof (proj2 (digit_spec c) D) as D'. rewrite D'. f_equal. change (String c (s ++ r)) with (String c s ++ r). apply run_complete; [constructor; assumption|exact S].
Qed.
Lemma integer_sound s i r : integer s = Some (i, r) -> int_part i /\ s = i ++ r.
Proof.
  destruct s as [|c s]; cbn [integer]; [discriminate|]. destruct (Ascii.eqb_spec c "0") as [->|N].
  - intros E. injection E as <- <-. split; [constructor|reflexivity].
  - destruct (is_dig c) eqn:D; [|discriminate]. intros E. injection E as E. pose proof (run_sound (String c s) _ _ E) as [H Es]. split; [|exact Es].
    cbn [run_of_digits] in E. rewrite D in E. destruct (run_of_digits s) as [d' r'] eqn:R. injection E as <- <-. constructor; [apply digit_spec; exact D|exact N|].
    inversion H; assumption.
Qed.
Lemma nonempty_digits d : digit_chars d -> d <> "" -> exists c s, d = String c s /\ digit_char c /\ digit_chars s.
Proof. intros [|c s H H'] N; [congruence|]. exists c, s. auto. Qed.
Lemma frac_complete f r : frac_part f -> stops number_char r -> frac (f ++ r) = Some (f, r).
Proof.
  intros [|c s D H] S; cbn [append].
  - destruct r as [|c r]; [reflexivity|]. cbn [stops] in S. unfold number_char in S. rewrite !orb_false_iff in S. destruct S as [[[_ S] _] _].
    cbn [frac]. rewrite S. reflexivity.
  - cbn [frac]. change (Ascii.eqb "." ".") with true. cbn iota. change (String c (s ++ r)) with (String c s ++ r).
    rewrite run_complete; [reflexivity|constructor; assumption|]. destruct r as [|c' r]; [exact I|]. cbn [stops] in *. unfold number_char in S. rewrite !orb_false_iff in S. tauto.
Qed.
Lemma frac_complete' f e r : frac_part f -> exp_part e -> stops number_char r -> frac (f ++ e ++ r) = Some (f, e ++ r).
Proof.
  intros F [|e' g c s I _ _ _] S; [apply frac_complete; assumption|].
  destruct F as [|c' s' D H].
  - cbn [append frac]. destruct I as [<-|[<-|[]]]; reflexivity.
  - cbn [append frac]. change (Ascii.eqb "." ".") with true. cbn iota.
    match goal with |- context [run_of_digits (String c' (s' ++ ?q))] => change (run_of_digits (String c' (s' ++ q))) with (run_of_digits (String c' s' ++ q)); set (Q := q) end.
    rewrite (run_complete (String c' s') Q); [reflexivity|constructor; assumption|]. destruct I as [<-|[<-|[]]]; reflexivity.
Qed.
Lemma frac_sound s f r : frac s = Some (f, r) -> frac_part f /\ s = f ++ r.
Proof.
  destruct s as [|c s]; cbn [frac]; [intros E; injection E as <- <-; split; [constructor|reflexivity]|].
  destruct (Ascii.eqb_spec c ".") as [->|N]; [|intros E; injection E as <- <-; split; [constructor|reflexivity]].
  destruct (run_of_digits s) as [d r'] eqn:R. destruct (String.eqb_spec d "") as [|M]; [discriminate|]. intros E. injection E as <- <-.
  destruct (run_sound _ _ _ R) as [H ->]. destruct (nonempty_digits d H M) as (c & t & -> & D & H'). split; [constructor; assumption|reflexivity].
Qed.
Lemma exponent_complete e r : exp_part e -> stops number_char r -> exponent (e ++ r) = Some (e, r).
Proof.
  intros [|e' g c s I G D H] S.
  - cbn [append]. destruct r as [|c r]; [reflexivity|]. cbn [stops] in S. unfold number_char in S. rewrite !orb_false_iff in S. destruct S as [[_ S] S'].
    cbn [exponent]. rewrite S, S'. reflexivity.
  - assert (R : run_of_digits (String c s ++ r) = (String c s, r)).
    { apply run_complete; [constructor; assumption|]. destruct r as [|c' r]; [exact Logic.I|]. cbn [stops] in *. unfold number_char in S. rewrite !orb_false_iff in S. tauto. }
    cbn [append] in R. cbn [append exponent]. replace (Ascii.eqb e' "e" || Ascii.eqb e' "E")%bool with true by (destruct I as [<-|[<-|[]]]; reflexivity).
    assert (P : (Ascii.eqb c "+" || Ascii.eqb c "-")%bool = false).
    { unfold digit_char in D. cbn [list_ascii_of_string In] in D. repeat (destruct D as [<-|D]; [reflexivity|]). elim D. }
    destruct G as [<-|[<-|[<-|[]]]]; cbn [append].
    + rewrite P, R. reflexivity.
    + change (Ascii.eqb "+" "+" || Ascii.eqb "+" "-")%bool with true. cbn iota. rewrite R. reflexivity.
    + change (Ascii.eqb "-" "+" || Ascii.eqb "-" "-")%bool with true. cbn iota. rewrite R. reflexivity.
Qed.
Lemma exponent_sound s e r : exponent s = Some (e, r) -> exp_part e /\ s = e ++ r.
Proof.
  destruct s as [|c s]; cbn [exponent]; [intros E; injection E as <- <-; split; [constructor|reflexivity]|].
  destruct (Ascii.eqb c "e" || Ascii.eqb c "E") eqn:C; [|intros E; injection E as <- <-; split; [constructor|reflexivity]].
  assert (I : In c ["e"; "E"]%char) by (rewrite orb_true_iff, !Ascii.eqb_eq in C; destruct C as [->| ->]; [left|right; left]; reflexivity). clear C.
  destruct (match s with String c1 s2 => if Ascii.eqb c1 "+" || Ascii.eqb c1 "-" then (String c1 "", s2) else ("", s) | "" => ("", "") end) as [g s2] eqn:G.
  assert (Gs : In g [""; "+"; "-"] /\ s = g ++ s2).
  { destruct s as [|c1 s]; [injection G as <- <-; split; [left|]; reflexivity|].
    destruct (Ascii.eqb_spec c1 "+") as [->|N]; [cbn in G; injection G as <- <-; split; [right; left|]; reflexivity|].
    destruct (Ascii.eqb_spec c1 "-") as [->|N']; [cbn in G; injection G as <- <-; split; [right; right; left|]; reflexivity|].
    cbn in G. injection G as <- <-. split; [left|]; reflexivity. }
  destruct Gs as [Gi ->]. clear G. destruct (run_of_digits s2) as [d r'] eqn:R. destruct (String.eqb_spec d "") as [|M]; [discriminate|]. intros E. injection E as <- <-.
  destruct (run_sound _ _ _ R) as [H ->]. destruct (nonempty_digits d H M) as (c' & t & -> & D & H'). split; [constructor; assumption|]. cbn [append]. rewrite !app_assoc'. reflexivity.
Qed.
Lemma int_head i : int_part i -> exists c s, i = String c s /\ is_dig c = true.
Proof. intros [|c s D _ _]; [exists "0"%char, ""; auto|]. exists c, s. split; [reflexivity|apply digit_spec; exact D]. Qed.
Lemma number_complete s r : number s -> stops number_char r -> read_number (s ++ r) = Some (s, r).
Proof.
  intros [m i f e M I F X] S. unfold read_number. rewrite !app_assoc'.
  destruct (int_head i I) as (c & t & Ei & D).
  rewrite sign_complete; [|exact M|rewrite Ei; cbn [append stops]; destruct (Ascii.eqb_spec "-" c) as [<-|]; [discriminate D|reflexivity]].
  assert (Sf : stops is_dig (f ++ e ++ r)).
  { destruct F as [|c' s' D' H']; [|reflexivity]. cbn [append]. destruct X as [|e' g c' s' Ie _ _ _].
    - cbn [append]. destruct r as [|c' r]; [exact Logic.I|]. cbn [stops] in *. unfold number_char in S. rewrite !orb_false_iff in S. tauto.
    - cbn [append stops]. destruct Ie as [<-|[<-|[]]]; reflexivity. }
  rewrite (integer_complete i (f ++ e ++ r) I Sf), (frac_complete' f e r F X S), (exponent_complete e r X S). reflexivity.
Qed.
Lemma number_sound s raw r : read_number s = Some (raw, r) -> number raw /\ s = raw ++ r.
Proof.
  unfold read_number. destruct (sign s) as [m s1] eqn:M. apply sign_sound in M. destruct M as [M ->].
  destruct (integer s1) as [[i s2]|] eqn:I; [|discriminate]. apply integer_sound in I. destruct I as [I ->].
  destruct (frac s2) as [[f s3]|] eqn:F; [|discriminate]. apply frac_sound in F. destruct F as [F ->].
  destruct (exponent s3) as [[e s4]|] eqn:X; [|discriminate]. apply exponent_sound in X. destruct X as [X ->].
  intros E. injection E as <- <-. split; [constructor; assumption|]. rewrite !app_assoc'. reflexivity.
Qed.
Lemma number_head s : number s -> exists c t, s = String c t /\ (is_dig c || Ascii.eqb c "-") = true.
Proof.
  intros [m i f e M I _ _]. destruct (int_head i I) as (c & t & -> & D). destruct M as [<-|[<-|[]]].
  - exists c. eexists. split; [reflexivity|]. rewrite D. reflexivity.
  - exists "-"%char. eexists. split; [reflexivity|reflexivity].
Qed.
Lemma strip_spec p : forall s r, strip p s = Some r <-> s = p ++ r.
Proof.
  induction p as [|a p IH]; intros s r; cbn [strip append]; [split; congruence|].
  destruct s as [|b s]; [split; discriminate|]. destruct (Ascii.eqb_spec a b) as [->|N]; [rewrite IH; split; congruence|split; [discriminate|congruence]].
Qed.

(** ** Values *)
Scheme spells_ind3 := Minimality for spells Sort Prop
  with items_ind3 := Minimality for items Sort Prop
  with pairs_ind3 := Minimality for pairs Sort Prop.
Combined Scheme spells_items_pairs from spells_ind3, items_ind3, pairs_ind3.
(** What follows a value inside a text. *)
Definition follows (r : string) : Prop :=
  match r with "" => True | String c _ => is_space c = true \/ In c [","; "]"; "}"]%char end.
Lemma follows_stops r : follows r -> stops number_char r.
Proof.
  destruct r as [|c r]; [trivial|]. cbn [follows stops]. intros [H|H].
  - apply space_spec in H. cbn [In] in H. repeat (destruct H as [<-|H]; [reflexivity|]). elim H.
  - cbn [In] in H. repeat (destruct H as [<-|H]; [reflexivity|]). elim H.
Qed.
Lemma follows_blank w c r : blank w -> In c [","; "]"; "}"]%char -> follows (w ++ String c r).
Proof. intros [|d w' H _] I; cbn [append follows]; [auto|left; apply space_spec; exact H]. Qed.
(** The first character of a value decides what it is. *)
Lemma spells_head v s : spells v s -> exists c t, s = String c t /\ is_space c = false /\ c <> "]"%char.
Proof.
  intros H. destruct H as [| | |s N|s C|w B|l t I|w B|l t P]; try (eexists; eexists; split; [reflexivity|split; [reflexivity|discriminate]]).
  destruct (number_head s N) as (c & t & -> & D). exists c, t. split; [reflexivity|]. destruct c as [[] [] [] [] [] [] [] []]; try discriminate D; (split; [reflexivity|discriminate]).
Qed.
Lemma spells_length v s : spells v s -> (0 < String.length s)%nat.
Proof. intros H. destruct (spells_head v s H) as (c & t & -> & _). cbn. lia. Qed.
Lemma skip_spells v t r : spells v t -> skip_space (t ++ r) = t ++ r.
Proof. intros H. destruct (spells_head v t H) as (c & u & -> & S & _). apply skip_char. exact S. Qed.
Lemma value_blank n w s : blank w -> read_value n (w ++ s) = read_value n s.
Proof. intros B. destruct n as [|n]; [reflexivity|]. rewrite !read_value_eq, skip_blank by exact B. reflexivity. Qed.
Lemma elements_skip n s : read_elements n (skip_space s) = read_elements n s.
Proof.
  destruct n as [|n]; [reflexivity|]. rewrite !read_elements_eq. destruct (skip_sound s) as (w & B & E). rewrite E at 2. rewrite value_blank by exact B. reflexivity.
Qed.
Lemma members_skip n s : read_members n (skip_space s) = read_members n s.
Proof.
  destruct n as [|n]; [reflexivity|]. rewrite !read_members_eq. destruct (skip_sound s) as (w & B & E). rewrite E at 2. rewrite skip_blank by exact B. reflexivity.
Qed.
Lemma items_head l t r : items l t -> after_char "]" (skip_space (t ++ r)) = None.
Proof.
  assert (H : forall v w t r, blank w -> spells v t -> after_char "]" (skip_space ((w ++ t) ++ r)) = None).
  { intros v w u q B S. rewrite app_assoc', skip_blank, (skip_spells v) by assumption. destruct (spells_head v u S) as (c & x & -> & _ & N).
    cbn [append after_char]. rewrite (proj2 (Ascii.eqb_neq _ _) N). reflexivity. }
  intros [v w u w' B S _|v w u w' l' x B S _ _].
  - rewrite <- (app_assoc' w u w'), (app_assoc' (w ++ u)). apply (H v); assumption.
  - rewrite <- (app_assoc' w u), (app_assoc' (w ++ u)). apply (H v); assumption.
Qed.
Lemma pairs_head l t r : pairs l t -> after_char "}" (skip_space (t ++ r)) = None.
Proof. intros [k v w1 w2 w3 u w4 B _ _ _ _ _|k v w1 w2 w3 u w4 l' x B _ _ _ _ _ _]; rewrite app_assoc', skip_blank by exact B; reflexivity. Qed.
Lemma complete :
  (forall v t, spells v t -> forall n r, (String.length t <= n)%nat -> follows r -> read_value n (t ++ r) = Some (v, r)) /\
  (forall l t, items l t -> forall n r, (String.length t < n)%nat -> read_elements n (t ++ String "]" r) = Some (l, r)) /\
  (forall l t, pairs l t -> forall n r, (String.length t < n)%nat -> read_members n (t ++ String "}" r) = Some (l, r)).
Proof.
  apply spells_items_pairs.
  - intros [|n] r L F; [cbn in L; lia|]. reflexivity.
  - intros [|n] r L F; [cbn in L; lia|]. reflexivity.
  - intros [|n] r L F; [cbn in L; lia|]. reflexivity.
  - intros s N n r L F. pose proof (spells_num s N) as Sp. pose proof (spells_length _ _ Sp). destruct n as [|n]; [lia|]. rewrite read_value_eq, (skip_spells _ _ r Sp).
    pose proof (number_complete s r N (follows_stops r F)) as R. destruct (number_head s N) as (c & t & Es & D). rewrite Es in *. cbn [append] in *. rewrite R.
    destruct c as [[] [] [] [] [] [] [] []]; try discriminate D; reflexivity.
  - intros s C [|n] r L F; [cbn in L; lia|]. rewrite read_value_eq. unfold in_quotes. cbn [append]. rewrite app_assoc'. cbn [append].
    rewrite skip_char by reflexivity. change (Ascii.eqb quote "{") with false. change (Ascii.eqb quote "[") with false. change (Ascii.eqb quote quote) with true. cbn iota.
    rewrite quoted_complete by exact C. reflexivity.
  - intros w B [|n] r L F; [cbn in L; lia|]. rewrite read_value_eq. cbn [append]. rewrite app_assoc'. rewrite skip_char by reflexivity.
    change (Ascii.eqb "[" "{") with false. change (Ascii.eqb "[" "[") with true. cbn iota. rewrite skip_blank by exact B. reflexivity.
  - intros l t I IH [|n] r L F; [cbn in L; lia|]. rewrite read_value_eq. cbn [append]. rewrite app_assoc'. rewrite skip_char by reflexivity.
    change (Ascii.eqb "[" "{") with false. change (Ascii.eqb "[" "[") with true. cbn iota. rewrite (items_head l t _ I), elements_skip.
    cbn [append String.length] in *. rewrite string_length_app in L. cbn [String.length] in L. rewrite IH by lia. reflexivity.
  - intros w B [|n] r L F; [cbn in L; lia|]. rewrite read_value_eq. cbn [append]. rewrite app_assoc'. rewrite skip_char by reflexivity.
    change (Ascii.eqb "{" "{") with true. cbn iota. rewrite skip_blank by exact B. reflexivity.
  - intros l t P IH [|n] r L F; [cbn in L; lia|]. rewrite read_value_eq. cbn [append]. rewrite app_assoc'. rewrite skip_char by reflexivity.
    change (Ascii.eqb "{" "{") with true. cbn iota. rewrite (pairs_head l t _ P), members_skip.
    cbn [append String.length] in *. rewrite string_length_app in L. cbn [String.length] in L. rewrite IH by lia. reflexivity.
  - intros v w t w' B S IH B' [|n] r L; [lia|]. rewrite !string_length_app in L. rewrite !app_assoc', read_elements_eq, value_blank by exact B.
    rewrite IH; [|lia|apply follows_blank; [exact B'|cbn [In]; tauto]]. rewrite skip_blank by exact B'. reflexivity.
  - intros v w t w' l u B S IH B' I IH' [|n] r L; [lia|]. rewrite !string_length_app in L. cbn [String.length] in L. rewrite !app_assoc', read_elements_eq, value_blank by exact B.
    pose proof (spells_length v t S). cbn [append]. rewrite IH; [|lia|apply follows_blank; [exact B'|cbn [In]; tauto]]. rewrite skip_blank by exact B'.
    rewrite skip_char by reflexivity. change (after_char "," (String "," (u ++ String "]" r))) with (Some (u ++ String "]" r)). cbn iota. rewrite IH' by lia. reflexivity.
  - intros k v w1 w2 w3 t w4 B1 C B2 B3 S IH B4 [|n] r L; [lia|]. rewrite !string_length_app in L. rewrite !app_assoc', read_members_eq, skip_blank by exact B1.
    unfold in_quotes. cbn [append]. rewrite skip_char by reflexivity. cbn [after_char]. rewrite Ascii.eqb_refl. rewrite app_assoc'. cbn [append]. rewrite quoted_complete by exact C.
    rewrite skip_blank by exact B2. rewrite skip_char by reflexivity. cbn [after_char]. rewrite Ascii.eqb_refl. rewrite value_blank by exact B3.
    rewrite IH; [|lia|apply follows_blank; [exact B4|cbn [In]; tauto]]. rewrite skip_blank by exact B4. reflexivity.
  - intros k v w1 w2 w3 t w4 l u B1 C B2 B3 S IH B4 P IH' [|n] r L; [lia|]. rewrite !string_length_app in L. cbn [String.length] in L. rewrite !app_assoc', read_members_eq, skip_blank by exact B1.
    unfold in_quotes. cbn [append]. rewrite skip_char by reflexivity. cbn [after_char]. rewrite Ascii.eqb_refl. rewrite app_assoc'. cbn [append]. rewrite quoted_complete by exact C.
    rewrite skip_blank by exact B2. rewrite skip_char by reflexivity. cbn [after_char]. rewrite Ascii.eqb_refl. rewrite value_blank by exact B3.
    rewrite IH; [|lia|apply follows_blank; [exact B4|cbn [In]; tauto]]. rewrite skip_blank by exact B4. rewrite skip_char by reflexivity. cbn [after_char]. rewrite Ascii.eqb_refl. rewrite IH' by lia. reflexivity.
Qed.
Lemma items_blank w l t : blank w -> items l t -> items l (w ++ t).
Proof.
  intros B [v w0 u w' B0 S B'|v w0 u w' l' x B0 S B' I].
  - rewrite <- (app_assoc' w w0). constructor; [apply blank_app| |]; assumption.
  - rewrite <- (app_assoc' w w0). constructor; [apply blank_app| | |]; assumption.
Qed.
Lemma pairs_blank w l t : blank w -> pairs l t -> pairs l (w ++ t).
Proof.
  intros B [k v w1 w2 w3 u w4 B1 C B2 B3 S B4|k v w1 w2 w3 u w4 l' x B1 C B2 B3 S B4 P].
  - rewrite <- (app_assoc' w w1). constructor; try assumption. apply blank_app; assumption.
  - rewrite <- (app_assoc' w w1). constructor; try assumption. apply blank_app; assumption.
Qed.
Lemma sound n :
  (forall s v r, read_value n s = Some (v, r) -> exists w t, blank w /\ spells v t /\ s = w ++ t ++ r) /\
  (forall s l r, read_elements n s = Some (l, r) -> exists t, items l t /\ s = t ++ String "]" r) /\
  (forall s l r, read_members n s = Some (l, r) -> exists t, pairs l t /\ s = t ++ String "}" r).
Proof.
  induction n as [|n (IHv & IHe & IHm)]; [repeat split; discriminate|]. split; [|split].
  - intros s v r. rewrite read_value_eq. destruct (skip_sound s) as (w & B & E). destruct (skip_space s) as [|c s1]; [discriminate|].
    intros R. exists w. assert (G : exists t, spells v t /\ String c s1 = t ++ r); [|destruct G as (t & G1 & G2); exists t; split; [exact B|split; [exact G1|congruence]]].
    clear s w B E. destruct (Ascii.eqb_spec c "{") as [->|N1]; [|destruct (Ascii.eqb_spec c "[") as [->|N2]; [|destruct (Ascii.eqb_spec c quote) as [->|N3]]].
    + destruct (skip_sound s1) as (w & B & E). destruct (after_char "}" (skip_space s1)) as [s2|] eqn:A.
      * apply after_char_spec in A. injection R as <- <-. exists ("{" ++ w ++ "}"). split; [constructor; exact B|]. rewrite E, A. cbn [append]. rewrite app_assoc'. reflexivity.
      * rewrite members_skip in R. destruct (read_members n s1) as [[l r']|] eqn:M; [|discriminate]. cbn [option_map fst snd] in R. injection R as <- <-.
        destruct (IHm _ _ _ M) as (t & P & ->). exists ("{" ++ t ++ "}"). split; [constructor; exact P|]. cbn [append]. rewrite app_assoc'. reflexivity.
    + destruct (skip_sound s1) as (w & B & E). destruct (after_char "]" (skip_space s1)) as [s2|] eqn:A.
      * apply after_char_spec in A. injection R as <- <-. exists ("[" ++ w ++ "]"). split; [constructor; exact B|]. rewrite E, A. cbn [append]. rewrite app_assoc'. reflexivity.
      * rewrite elements_skip in R. destruct (read_elements n s1) as [[l r']|] eqn:M; [|discriminate]. cbn [option_map fst snd] in R. injection R as <- <-.
        destruct (IHe _ _ _ M) as (t & P & ->). exists ("[" ++ t ++ "]"). split; [constructor; exact P|]. cbn [append]. rewrite app_assoc'. reflexivity.
    + destruct (quoted s1) as [[k r']|] eqn:Q; [|discriminate]. cbn [option_map fst snd] in R. injection R as <- <-. destruct (quoted_sound _ _ _ Q) as [C ->].
      exists (in_quotes k). split; [constructor; exact C|]. unfold in_quotes. cbn [append]. rewrite app_assoc'. reflexivity.
    + unfold literal in R. destruct (Ascii.eqb_spec c "t") as [->|N4]; [|destruct (Ascii.eqb_spec c "f") as [->|N5]; [|destruct (Ascii.eqb_spec c "n") as [->|N6]]].
      * destruct (strip "rue" s1) as [r'|] eqn:St; [|discriminate]. apply strip_spec in St. injection R as <- <-. exists "true". split; [constructor|]. rewrite St. reflexivity.
      * destruct (strip "alse" s1) as [r'|] eqn:St; [|discriminate]. apply strip_spec in St. injection R as <- <-. exists "false". split; [constructor|]. rewrite St. reflexivity.
      * destruct (strip "ull" s1) as [r'|] eqn:St; [|discriminate]. apply strip_spec in St. injection R as <- <-. exists "null". split; [constructor|]. rewrite St. reflexivity.
      * destruct (read_number (String c s1)) as [[raw r']|] eqn:Nu; [|discriminate]. cbn [option_map fst snd] in R. injection R as <- <-.
        destruct (number_sound _ _ _ Nu) as [C E]. exists raw. split; [constructor; exact C|exact E].
  - intros s l r. rewrite read_elements_eq. destruct (read_value n s) as [[v s1]|] eqn:R; [|discriminate].
    destruct (IHv _ _ _ R) as (w & t & B & S & ->). destruct (skip_sound s1) as (w' & B' & E).
    destruct (after_char "," (skip_space s1)) as [s2|] eqn:A.
    + apply after_char_spec in A. destruct (read_elements n s2) as [[l' r']|] eqn:R'; [|discriminate]. cbn [option_map fst snd]. intros F. injection F as <- <-.
      destruct (IHe _ _ _ R') as (u & I & ->). exists (w ++ t ++ w' ++ "," ++ u). split; [constructor; assumption|]. rewrite E, A, !app_assoc'. reflexivity.
    + destruct (after_char "]" (skip_space s1)) as [s2|] eqn:A'; [|discriminate]. apply after_char_spec in A'. cbn [option_map]. intros F. injection F as <- <-.
      exists (w ++ t ++ w'). split; [constructor; assumption|]. rewrite E, A', !app_assoc'. reflexivity.
  - intros s l r. rewrite read_members_eq. destruct (skip_sound s) as (w1 & B1 & E1). destruct (after_char quote (skip_space s)) as [s1|] eqn:A1; [|discriminate].
    apply after_char_spec in A1. rewrite A1 in E1. subst s. destruct (quoted s1) as [[k s2]|] eqn:Q; [|discriminate]. destruct (quoted_sound _ _ _ Q) as [C ->].
    destruct (skip_sound s2) as (w2 & B2 & E2). destruct (after_char ":" (skip_space s2)) as [s3|] eqn:A2; [|discriminate]. apply after_char_spec in A2. rewrite A2 in E2. subst s2.
    destruct (read_value n s3) as [[v s4]|] eqn:R; [|discriminate]. destruct (IHv _ _ _ R) as (w3 & t & B3 & S & ->). destruct (skip_sound s4) as (w4 & B4 & E4).
    destruct (after_char "," (skip_space s4)) as [s5|] eqn:A3.
    + apply after_char_spec in A3. destruct (read_members n s5) as [[l' r']|] eqn:R'; [|discriminate]. cbn [option_map fst snd]. intros F. injection F as <- <-.
      destruct (IHm _ _ _ R') as (u & P & ->). exists (w1 ++ in_quotes k ++ w2 ++ ":" ++ w3 ++ t ++ w4 ++ "," ++ u). split; [constructor; assumption|].
      rewrite E4, A3. unfold in_quotes. repeat (cbn [append]; rewrite ?app_assoc'). reflexivity.
    + destruct (after_char "}" (skip_space s4)) as [s5|] eqn:A'; [|discriminate]. apply after_char_spec in A'. cbn [option_map]. intros F. injection F as <- <-.
      exists (w1 ++ in_quotes k ++ w2 ++ ":" ++ w3 ++ t ++ w4). split; [constructor; assumption|].
      rewrite E4, A'. unfold in_quotes. repeat (cbn [append]; rewrite ?app_assoc'). reflexivity.
Qed.
Lemma skip_empty w : skip_space w = "" <-> blank w.
Proof.
  split.
  - intros H. destruct (skip_sound w) as (w' & B & E). rewrite H, app_nil in E. subst w'. exact B.
  - intros B. rewrite <- (app_nil w), skip_blank by exact B. reflexivity.
Qed.
Lemma read_json_spec v s : read_json s = Some v <-> json_text v s.
Proof.
  unfold read_json. split.
  - destruct (read_value (S (String.length s)) s) as [[v' r]|] eqn:R; [|discriminate]. destruct (String.eqb_spec (skip_space r) "") as [E|]; [|discriminate].
    intros F. injection F as <-. apply skip_empty in E. destruct (proj1 (sound _) _ _ _ R) as (w & t & B & S & Es). exists w, t, r. auto.
  - intros (w & t & w' & B & S & B' & ->). rewrite value_blank by exact B.
    rewrite (proj1 complete v t S); [|rewrite !string_length_app; lia|destruct B'; [exact I|left; apply space_spec; assumption]].
    rewrite (proj2 (skip_empty w') B'). reflexivity.
Qed.
