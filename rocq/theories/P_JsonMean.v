(** What the decoder makes of strings, numbers, times and the texts the library prints. *)
From Coq Require Import ZArith NArith Lia Bool ZifyBool List String Ascii Decimal DecimalString DecimalZ DecimalPos DecimalFacts.
From Verif Require Import GoTime Text SpecText P_Time P_Text P_Date P_Json JsonRead SpecJson P_JsonRead.
Import ListNotations.
Local Open Scope string_scope.

(** ** Strings *)
Lemma hex_digit_value c d : hex_digit_of c d -> JsonRead.hex_value c = d /\ (d < 16)%N.
Proof.
  unfold hex_digit_of. rewrite <- (N2Nat.id d) at 3 4. generalize (N.to_nat d). intros k.
  intros [H|H]; do 16 (destruct k as [|k]; [cbn in H; injection H as <-; split; reflexivity|]); destruct k; discriminate H.
Qed.
Lemma hex_digit_char c d : hex_digit_of c d -> hex_char c.
Proof.
  intros [H|H]; apply nth_error_In in H; unfold hex_char; cbn [list_ascii_of_string In] in *; tauto.
Qed.
Lemma utf8_spec n l s : utf8_bytes n l -> utf8 n s = bytes l ++ s.
Proof.
  assert (D : forall a b, (b < 64)%N -> ((a * 64 + b) / 64 = a /\ (a * 64 + b) mod 64 = b)%N).
  { intros a b H. split; [symmetry; apply (N.div_unique _ 64 a b); lia|symmetry; apply (N.mod_unique _ 64 a b); lia]. }
  intros [a H|m a b -> H Hb|m a b c -> H Hb Hc|m a b c d -> H Hb Hc Hd]; unfold utf8, char_of, bytes; cbn [map string_of_list_ascii append].
  - replace (a <? 128)%N with true by lia. reflexivity.
  - replace (a * 64 + b <? 128)%N with false by lia. replace (a * 64 + b <? 2048)%N with true by lia.
    destruct (D a b Hb) as [-> ->]. reflexivity.
  - set (m := ((a * 64 + b) * 64 + c)%N) in *. replace (m <? 128)%N with false by lia. replace (m <? 2048)%N with false by lia. replace (m <? 65536)%N with true by lia.
    destruct (D (a * 64 + b)%N c Hc) as [E1 E2]. destruct (D a b Hb) as [E3 E4]. change 4096%N with (64 * 64)%N. rewrite <- N.div_div by discriminate. unfold m. rewrite E1, E2, E3, E4. reflexivity.
  - set (m := (((a * 64 + b) * 64 + c) * 64 + d)%N) in *. replace (m <? 128)%N with false by lia. replace (m <? 2048)%N with false by lia. replace (m <? 65536)%N with false by lia.
    destruct (D ((a * 64 + b) * 64 + c)%N d Hd) as [E1 E2]. destruct (D (a * 64 + b)%N c Hc) as [E3 E4]. destruct (D a b Hb) as [E5 E6].
    change 262144%N with (64 * (64 * 64))%N. change 4096%N with (64 * 64)%N. rewrite <- !N.div_div by discriminate. unfold m. rewrite E1, E2, E3, E4, E5, E6. reflexivity.
Qed.
Lemma unit_unquote high u n r : unit_escape u n ->
  unquote high (u ++ r) =
    if ((55296 <=? n) && (n <? 56320))%N then lone high (unquote (Some n) r)
    else if ((56320 <=? n) && (n <? 57344))%N then
      match high with
      | Some h => utf8 (65536 + (h - 55296) * 1024 + (n - 56320))%N (unquote None r)
      | None => utf8 65533 (unquote None r)
      end
    else lone high (utf8 n (unquote None r)).
Proof.
  intros [c3 c2 c1 c0 d3 d2 d1 d0 H3 H2 H1 H0]. apply hex_digit_value in H3, H2, H1, H0.
  cbn [append unquote]. change (Ascii.eqb "\" "\") with true. cbn iota. cbv zeta.
  rewrite (proj1 H3), (proj1 H2), (proj1 H1), (proj1 H0).
  replace (((d3 * 16 + d2) * 16 + d1) * 16 + d0)%N with (d3 * 4096 + d2 * 256 + d1 * 16 + d0)%N by lia. reflexivity.
Qed.
Lemma lone_high raw s h : string_means raw s -> (forall v r', low_half v -> raw <> v ++ r') -> unquote (Some h) raw = utf8 65533 (unquote None raw).
Proof.
  intros [|c r s' N _|e c r s' I _|u n l r s' U B L _|u v i k n l r s' U V Hh Hk E L _|u n r s' U B F _] Lo.
  - reflexivity.
  - cbn [unquote]. rewrite (proj2 (Ascii.eqb_neq _ _) N). reflexivity.
  - unfold short_escapes in I. cbn [In] in I. repeat (destruct I as [I|I]; [injection I as <- <-; reflexivity|]). elim I.
  - rewrite !(unit_unquote _ u n r U). replace ((55296 <=? n) && (n <? 56320))%N with false by lia. replace ((56320 <=? n) && (n <? 57344))%N with false by lia. reflexivity.
  - rewrite !(unit_unquote _ u _ _ U). replace ((55296 <=? 55296 + i) && (55296 + i <? 56320))%N with true by lia. reflexivity.
  - rewrite !(unit_unquote _ u n r U). destruct (N.lt_ge_cases n 56320) as [H|H].
    + replace ((55296 <=? n) && (n <? 56320))%N with true by lia. reflexivity.
    + exfalso. apply (Lo u r); [|reflexivity]. exists (n - 56320)%N. split; [lia|]. replace (56320 + (n - 56320))%N with n by lia. exact U.
Qed.
Lemma unquote_means raw s : string_means raw s -> unquote None raw = s.
Proof.
  induction 1 as [|c r s N _ IH|e c r s I _ IH|u n l r s U B L _ IH|u v h k n l r s U V Hh Hk E L _ IH|u n r s U B F M IH].
  - reflexivity.
  - cbn [unquote]. rewrite (proj2 (Ascii.eqb_neq _ _) N), IH. reflexivity.
  - unfold short_escapes in I. cbn [In] in I.
    repeat (destruct I as [I|I]; [injection I as <- <-; cbn [unquote]; rewrite <- IH; reflexivity|]). elim I.
  - rewrite (unit_unquote None u n r U). replace ((55296 <=? n) && (n <? 56320))%N with false by lia. replace ((56320 <=? n) && (n <? 57344))%N with false by lia.
    cbn [lone]. rewrite IH. apply utf8_spec. exact L.
  - rewrite (unit_unquote None u _ _ U). replace ((55296 <=? 55296 + h) && (55296 + h <? 56320))%N with true by lia. cbn [lone].
    rewrite (unit_unquote _ v _ _ V). replace ((55296 <=? 56320 + k) && (56320 + k <? 56320))%N with false by lia. replace ((56320 <=? 56320 + k) && (56320 + k <? 57344))%N with true by lia.
    replace (65536 + (55296 + h - 55296) * 1024 + (56320 + k - 56320))%N with n by lia. rewrite IH. apply utf8_spec. exact L.
  - rewrite (unit_unquote None u n r U). destruct (N.lt_ge_cases n 56320) as [H|H].
    + replace ((55296 <=? n) && (n <? 56320))%N with true by lia. cbn [lone]. rewrite (lone_high r s n M (F H)), IH. reflexivity.
    + replace ((55296 <=? n) && (n <? 56320))%N with false by lia. replace ((56320 <=? n) && (n <? 57344))%N with true by lia. rewrite IH. reflexivity.
Qed.
(** Every string of the grammar means something. *)
Lemma hex_char_digit c : hex_char c -> exists d, hex_digit_of c d.
Proof.
  unfold hex_char, hex_digit_of. cbn [list_ascii_of_string In]. intros H.
  repeat (destruct H as [<-|H]; [first [exists 0%N; left; reflexivity|exists 1%N; left; reflexivity|exists 2%N; left; reflexivity|exists 3%N; left; reflexivity|exists 4%N; left; reflexivity|exists 5%N; left; reflexivity|exists 6%N; left; reflexivity|exists 7%N; left; reflexivity|exists 8%N; left; reflexivity|exists 9%N; left; reflexivity|exists 10%N; left; reflexivity|exists 11%N; left; reflexivity|exists 12%N; left; reflexivity|exists 13%N; left; reflexivity|exists 14%N; left; reflexivity|exists 15%N; left; reflexivity
    |exists 10%N; right; reflexivity|exists 11%N; right; reflexivity|exists 12%N; right; reflexivity|exists 13%N; right; reflexivity|exists 14%N; right; reflexivity|exists 15%N; right; reflexivity]|]). elim H.
Qed.
Lemma unit_low a b x y n : hex_digit_of x a -> hex_digit_of y b -> n = (a * 16 + b)%N -> unit_escape (String "\" (String "u" (String "0" (String "0" (String x (String y "")))))) n.
Proof.
  intros X Y E. replace n with (0 * 4096 + 0 * 256 + a * 16 + b)%N by lia. constructor; try assumption; left; reflexivity.
Qed.
Lemma means_char c r s : string_means r s -> string_means (escape_char c ++ r) (String c s).
Proof.
  intros H. destruct c as [[] [] [] [] [] [] [] []];
  (* plain characters *)
  try (match goal with |- string_means (escape_char ?c ++ r) _ => change (escape_char c ++ r) with (String c r) end; apply means_plain; [discriminate|exact H]);
  (* short escapes *)
  try (cbv [escape_char Nat.eqb nat_of_ascii]; apply means_short; [unfold short_escapes; cbn [In]; tauto|exact H]);
  match goal with |- string_means (escape_char ?c ++ r) _ =>
    change (string_means (escape_char c ++ r) (bytes [N_of_ascii c] ++ s)); apply (means_unit (escape_char c) (N_of_ascii c)); [|left; vm_compute; reflexivity|constructor; vm_compute; reflexivity|exact H];
    apply (unit_low (N_of_ascii c / 16) (N_of_ascii c mod 16)); vm_compute; auto
  end.
Qed.
Lemma means_escape s : string_means (escape s) s.
Proof. induction s as [|c s IH]; cbn [escape]; [constructor|]. apply means_char. exact IH. Qed.
Lemma chars_char c r : chars r -> chars (escape_char c ++ r).
Proof.
  intros H. destruct c as [[] [] [] [] [] [] [] []];
  try (match goal with |- chars (escape_char ?c ++ r) => change (escape_char c ++ r) with (String c r) end; apply chars_plain; [discriminate|discriminate|vm_compute; discriminate|exact H]);
  try (cbv [escape_char Nat.eqb nat_of_ascii]; apply chars_short; [cbn [In]; tauto|exact H]);
  match goal with |- chars (?e ++ r) => let e' := eval vm_compute in e in change e with e' end; cbn [append]; apply chars_hex; [..|exact H]; unfold hex_char; cbn [list_ascii_of_string In]; tauto.
Qed.
Lemma chars_escape s : chars (escape s).
Proof. induction s as [|c s IH]; cbn [escape]; [constructor|]. apply chars_char. exact IH. Qed.

(** ** Numbers *)
Fixpoint zval (acc : Z) (d : uint) : Z :=
  (match d with
   | Nil => acc
   | D0 d => zval (10 * acc + 0) d | D1 d => zval (10 * acc + 1) d | D2 d => zval (10 * acc + 2) d | D3 d => zval (10 * acc + 3) d
   | D4 d => zval (10 * acc + 4) d | D5 d => zval (10 * acc + 5) d | D6 d => zval (10 * acc + 6) d | D7 d => zval (10 * acc + 7) d
   | D8 d => zval (10 * acc + 8) d | D9 d => zval (10 * acc + 9) d
   end)%Z.
Lemma zval_acc d : forall p, zval (Z.pos p) d = Z.pos (Pos.of_uint_acc d p).
Proof.
  induction d; intros p; cbn [zval Pos.of_uint_acc]; [reflexivity|..];
  match goal with |- zval ?z d = Z.pos (Pos.of_uint_acc d ?q) => replace z with (Z.pos q) by lia end; apply IHd.
Qed.
Lemma zval_uint d : zval 0 d = Z.of_uint d.
Proof.
  unfold Z.of_uint. induction d; cbn [zval Pos.of_uint]; [reflexivity|exact IHd|..];
  match goal with |- zval ?z d = Z.of_N (N.pos (Pos.of_uint_acc d ?q)) => change z with (Z.pos q) end; apply zval_acc.
Qed.
Lemma decimal_zval s : forall acc, decimal acc s = option_map (zval acc) (NilEmpty.uint_of_string s).
Proof.
  induction s as [|c s IH]; intros acc; cbn [decimal NilEmpty.uint_of_string]; [reflexivity|].
  destruct c as [[] [] [] [] [] [] [] []];
  match goal with
  | |- (if is_dig ?c then _ else _) = _ =>
      let b := eval vm_compute in (is_dig c) in change (is_dig c) with b;
      lazymatch b with
      | true => let v := eval vm_compute in (Z.of_N (N_of_ascii c) - 48)%Z in change (Z.of_N (N_of_ascii c) - 48)%Z with v; cbn iota; rewrite IH
      | false => cbn iota
      end
  end; destruct (NilEmpty.uint_of_string s) as [d|]; reflexivity.
Qed.
Lemma decimal_uint s : decimal 0 s = option_map Z.of_uint (NilEmpty.uint_of_string s).
Proof. rewrite decimal_zval. destruct (NilEmpty.uint_of_string s) as [d|]; [|reflexivity]. cbn [option_map]. f_equal. apply zval_uint. Qed.
Lemma digits_uint d : digit_chars d -> exists u, NilEmpty.uint_of_string d = Some u.
Proof.
  induction 1 as [|c s D _ (u & IH)]; [exists Nil; reflexivity|]. unfold digit_char in D. cbn [list_ascii_of_string In] in D. cbn [NilEmpty.uint_of_string]. rewrite IH.
  repeat (destruct D as [<-|D]; [eexists; reflexivity|]). elim D.
Qed.
Lemma integer_digits c d z : c <> "-"%char -> (integer_means (String c d) z <-> decimal 0 (String c d) = Some z).
Proof.
  intros D. unfold integer_means. rewrite decimal_uint.
  assert (N : NilZero.int_of_string (String c d) = option_map Pos (NilEmpty.uint_of_string (String c d))).
  { destruct c as [[] [] [] [] [] [] [] []]; try reflexivity. elim D. reflexivity. }
  rewrite N. destruct (NilEmpty.uint_of_string (String c d)) as [u|]; cbn [option_map].
  - split; [intros (i & E & <-); injection E as <-; reflexivity|intros E; injection E as <-; exists (Pos u); split; reflexivity].
  - split; [intros (i & E & _); discriminate|discriminate].
Qed.
Lemma integer_minus c d z : integer_means (String "-" (String c d)) z <-> decimal 0 (String c d) = Some (- z)%Z.
Proof.
  unfold integer_means. rewrite decimal_uint.
  assert (N : NilZero.int_of_string (String "-" (String c d)) = option_map Neg (NilEmpty.uint_of_string (String c d))) by reflexivity.
  rewrite N. destruct (NilEmpty.uint_of_string (String c d)) as [u|]; cbn [option_map].
  - split; [intros (i & E & <-); injection E as <-; cbn [Z.of_int]; rewrite Z.opp_involutive; reflexivity|intros E; injection E as E; exists (Neg u); split; [reflexivity|cbn [Z.of_int]; lia]].
  - split; [intros (i & E & _); discriminate|discriminate].
Qed.
Lemma int64_spec raw z : int64_of raw = Some z <-> integer_means raw z /\ (- 2 ^ 63 <= z < 2 ^ 63)%Z.
Proof.
  unfold int64_of. destruct raw as [|c raw]; [split; [discriminate|intros [(i & E & _) _]; discriminate E]|]. cbn [sign].
  destruct (Ascii.eqb_spec c "-") as [->|N].
  - destruct raw as [|c raw]; [split; [discriminate|intros [(i & E & _) _]; discriminate E]|]. rewrite integer_minus.
    change (String.eqb (String c raw) "") with false. change (String.eqb "-" "") with false. cbn iota.
    destruct (decimal 0 (String c raw)) as [n|]; [|split; [discriminate|intros [E _]; discriminate]].
    split; [destruct ((- 2 ^ 63 <=? - n) && (- n <? 2 ^ 63))%Z eqn:R; [intros E; injection E as <-; split; [f_equal; lia|lia]|discriminate]|].
    intros [E R]. injection E as ->. replace ((- 2 ^ 63 <=? - - z) && (- - z <? 2 ^ 63))%Z with true by lia. f_equal. lia.
  - rewrite (integer_digits c _ z N). change (String.eqb (String c raw) "") with false. change (String.eqb "" "") with true. cbn iota.
    destruct (decimal 0 (String c raw)) as [n|]; [|split; [discriminate|intros [E _]; discriminate]].
    split; [destruct ((- 2 ^ 63 <=? n) && (n <? 2 ^ 63))%Z eqn:R; [intros E; injection E as <-; split; [reflexivity|lia]|discriminate]|].
    intros [E R]. injection E as ->. replace ((- 2 ^ 63 <=? z) && (z <? 2 ^ 63))%Z with true by lia. reflexivity.
Qed.
Lemma uint_number d : d <> Nil -> (forall d', d <> D0 d') \/ d = D0 Nil -> int_part (NilZero.string_of_uint d).
Proof.
  assert (A : forall u, digit_chars (NilEmpty.string_of_uint u)).
  { induction u; cbn; constructor; try assumption; unfold digit_char; cbn [list_ascii_of_string In]; tauto. }
  intros N [H| ->]; [|constructor].
  destruct d; try congruence; try (elim (H d); reflexivity); cbn; constructor; try discriminate; try apply A; unfold digit_char; cbn [list_ascii_of_string In]; tauto.
Qed.
Lemma pos_uint p : Pos.to_uint p <> Nil /\ forall d, Pos.to_uint p <> D0 d.
Proof.
  split; [apply DecimalPos.Unsigned.to_uint_nonnil|]. intros d E.
  assert (N : Pos.to_uint p = unorm (Pos.to_uint p)).
  { pose proof (DecimalPos.Unsigned.of_to p) as O. pose proof (DecimalPos.Unsigned.to_of (Pos.to_uint p)) as T. rewrite O in T. cbn in T. exact T. }
  rewrite N in E. unfold unorm in E. destruct (nzhead (Pos.to_uint p)) as [|u|u|u|u|u|u|u|u|u|u] eqn:Z; try discriminate E.
  - injection E as <-. apply (DecimalPos.Unsigned.to_uint_nonzero p). rewrite N. unfold unorm. rewrite Z. reflexivity.
  - apply (nzhead_nonzero _ _ Z).
Qed.
Lemma number_fmt z : number (fmt_d z).
Proof.
  unfold fmt_d. destruct z as [|p|p]; cbn [Z.to_int NilZero.string_of_int].
  - apply (number_intro "" "0" "" ""); [left; reflexivity|constructor..].
  - rewrite <- (app_nil (NilZero.string_of_uint (Pos.to_uint p))). destruct (pos_uint p) as [N H].
    apply (number_intro "" _ "" ""); [left; reflexivity|apply uint_number; auto|constructor..].
  - rewrite <- (app_nil (NilZero.string_of_uint (Pos.to_uint p))). destruct (pos_uint p) as [N H].
    apply (number_intro "-" _ "" ""); [right; left; reflexivity|apply uint_number; auto|constructor..].
Qed.
Lemma means_fmt z : integer_means (fmt_d z) z.
Proof. exists (Z.to_int z). unfold fmt_d. destruct (to_int_shape z). split; [apply NilZero.isi; assumption|apply DecimalZ.of_to]. Qed.
Lemma fmt_means z w : integer_means (fmt_d z) w -> w = z.
Proof. intros (i & E & <-). unfold fmt_d in E. destruct (to_int_shape z). rewrite NilZero.isi in E by assumption. injection E as <-. apply DecimalZ.of_to. Qed.

(** ** Printed trees *)
Fixpoint embed (j : json) : value :=
  match j with
  | JInt z => VNum (fmt_d z)
  | JBool b => VBool b
  | JStr s => VStr (escape s)
  | JArr l => VArr (map embed l)
  | JObj l => VObj (map (fun p => (escape (fst p), embed (snd p))) l)
  end.
Lemma printed j : spells (embed j) (print_json j) /\ value_means (embed j) j.
Proof.
  induction j as [z|b|s|l IH|l IH] using json_ind'.
  - split; constructor; [apply number_fmt|apply means_fmt].
  - destruct b; split; constructor.
  - split; constructor; [apply chars_escape|apply means_escape].
  - split; [|cbn [embed]; constructor; induction IH as [|x l [_ H] _ IHl]; constructor; assumption].
    cbn [embed]. rewrite print_arr. destruct l as [|x l]; [apply (spells_arr0 ""); constructor|]. apply spells_arr.
    revert x IH. induction l as [|y l IHl]; intros x H; inversion H as [|x' l' [Hx _] H' E]; subst.
    + cbn [map String.concat]. rewrite <- (app_nil (print_json x)). apply (items_one _ "" _ ""); [constructor|exact Hx|constructor].
    + change (String.concat "," (map print_json (x :: y :: l))) with ("" ++ print_json x ++ "" ++ "," ++ String.concat "," (map print_json (y :: l))).
      cbn [map]. apply items_more; [constructor|exact Hx|constructor|exact (IHl y H')].
  - split; [|cbn [embed]; constructor; induction IH as [|x l [_ H] _ IHl]; constructor; [split; [apply means_escape|exact H]|assumption]].
    cbn [embed]. rewrite print_obj. destruct l as [|x l]; [apply (spells_obj0 ""); constructor|]. apply spells_obj.
    revert x IH. induction l as [|y l IHl]; intros x H; inversion H as [|x' l' [Hx _] H' E]; subst.
    + cbn [map String.concat]. unfold print_pair. rewrite <- (app_nil (print_json (snd x))).
      apply (pairs_one _ _ "" "" "" _ ""); [constructor|apply chars_escape|constructor|constructor|exact Hx|constructor].
    + change (String.concat "," (map print_pair (x :: y :: l))) with (print_pair x ++ "," ++ String.concat "," (map print_pair (y :: l))).
      unfold print_pair at 1. rewrite !app_assoc'. apply (pairs_more _ _ "" "" "" _ ""); [constructor|apply chars_escape|constructor|constructor|exact Hx|constructor|exact (IHl y H')].
Qed.

(** ** Times *)
Local Open Scope Z_scope.
Lemma dig_digit c : is_dig c = is_digit c.
Proof. destruct c as [[] [] [] [] [] [] [] []]; reflexivity. Qed.
Lemma two_digits_spec a b z : two_digits a b = Some z <-> 0 <= z <= 99 /\ String a (String b "") = padded 2 z.
Proof.
  unfold two_digits. split.
  - destruct (is_digit a && is_digit b) eqn:D; [|discriminate]. apply andb_prop in D. destruct D as [Da Db]. intros E. injection E as <-.
    destruct (digit_value_spec a Da) as [Ra Ea]. destruct (digit_value_spec b Db) as [Rb Eb]. split; [lia|]. rewrite <- two_padded by lia. unfold two.
    replace ((digit_value a * 10 + digit_value b) / 10) with (digit_value a) by (apply (Z.div_unique _ 10 _ (digit_value b)); lia).
    replace ((digit_value a * 10 + digit_value b) mod 10) with (digit_value b) by (apply (Z.mod_unique _ 10 (digit_value a)); lia). congruence.
  - intros [R E]. rewrite <- two_padded in E by lia. unfold two in E. injection E as -> ->.
    assert (Ra : 0 <= z / 10 <= 9) by (split; [apply Z.div_pos; lia|apply Z.lt_succ_r, Z.div_lt_upper_bound; lia]).
    assert (Rb : 0 <= z mod 10 <= 9) by (pose proof (Z.mod_pos_bound z 10); lia).
    rewrite (proj2 (digit_cases _ Ra)), (proj2 (digit_cases _ Rb)), (proj1 (digit_cases _ Ra)), (proj1 (digit_cases _ Rb)). cbn [andb]. f_equal. pose proof (Z.div_mod z 10). lia.
Qed.
Lemma padded_two z : 0 <= z <= 99 -> exists a b, padded 2 z = String a (String b "") /\ two_digits a b = Some z.
Proof.
  intros R. pose proof (two_padded z R) as E. unfold two in E. exists (digit (z / 10)), (digit (z mod 10)). split; [congruence|]. apply two_digits_spec. split; [exact R|exact E].
Qed.
Lemma zone_spec s off : zone s = Some off <-> offset_means s off.
Proof.
  split.
  - unfold zone. destruct s as [|g [|h1 [|h0 [|c [|m1 [|m0 [|x s]]]]]]]; try discriminate.
    + destruct (Ascii.eqb_spec g "Z") as [->|]; [|discriminate]. intros E. injection E as <-. constructor.
    + destruct (two_digits h1 h0) as [h|] eqn:H; [|discriminate]. destruct (two_digits m1 m0) as [m|] eqn:M; [|discriminate].
      destruct (Ascii.eqb_spec c ":") as [->|]; [|discriminate]. cbn [negb]. apply two_digits_spec in H, M. destruct H as [Rh Eh], M as [Rm Em].
      assert (P : forall g, String g (String h1 (String h0 (String ":" (String m1 (String m0 ""))))) = (String g "" ++ padded 2 h ++ ":" ++ padded 2 m)%string) by (intros g'; rewrite <- Eh, <- Em; reflexivity).
      destruct (Ascii.eqb_spec g "+") as [->|]; [intros E; injection E as <-; rewrite P; replace (h * 3600 + m * 60) with ((h * 60 + m) * 60) by lia; constructor; assumption|].
      destruct (Ascii.eqb_spec g "-") as [->|]; [intros E; injection E as <-; rewrite P; replace (h * 3600 + m * 60) with ((h * 60 + m) * 60) by lia; constructor; assumption|discriminate].
  - intros [|h m Rh Rm|h m Rh Rm]; [reflexivity|..]; destruct (padded_two h Rh) as (a & b & -> & H), (padded_two m Rm) as (c & d & -> & M); cbn [append]; unfold zone; rewrite H, M; cbn; f_equal; lia.
Qed.
Lemma scale_pow n : forall z, scale n z = z * 10 ^ Z.of_nat n.
Proof. induction n as [|n IH]; intros z; cbn [scale]; [lia|]. rewrite IH, Nat2Z.inj_succ, Z.pow_succ_r by lia. ring. Qed.
Lemma nanoseconds_sound r ns z : nanoseconds r = Some (ns, z) -> exists f, fraction_means f ns /\ r = (f ++ z)%string.
Proof.
  unfold nanoseconds. destruct r as [|c r]; [intros E; injection E as <- <-; exists ""%string; split; [constructor|reflexivity]|].
  destruct (Ascii.eqb_spec c ".") as [->|N]; [|intros E; injection E as <- <-; exists ""%string; split; [constructor|reflexivity]].
  destruct (run_of_digits r) as [d r'] eqn:R. destruct (run_sound _ _ _ R) as [D ->]. destruct (String.eqb_spec d "") as [|M]; [discriminate|]. cbn [orb].
  destruct (Nat.ltb_spec 9 (String.length d)) as [|L]; [discriminate|]. destruct (decimal 0 d) as [n|] eqn:V; [|discriminate]. intros E.
  assert (E1 : scale (9 - String.length d) n = ns) by congruence. assert (E2 : r' = z) by congruence. clear E. subst ns z.
  exists (String "." d). split; [|reflexivity]. destruct (nonempty_digits d D M) as (c & t & -> & Dc & Dt). rewrite scale_pow.
  replace (Z.of_nat (9 - String.length (String c t))) with (9 - Z.of_nat (String.length (String c t))) by lia.
  constructor; [exact D|cbn [String.length] in *; lia|apply integer_digits; [intros ->; apply digit_spec in Dc; discriminate Dc|exact V]].
Qed.
Lemma nanoseconds_complete f ns z off : fraction_means f ns -> offset_means z off -> nanoseconds (f ++ z) = Some (ns, z).
Proof.
  assert (S : offset_means z off -> exists c t, z = String c t /\ (c = "Z" \/ c = "+" \/ c = "-")%char).
  { intros [|h m _ _|h m _ _]; eexists; eexists; (split; [reflexivity|tauto]). }
  intros F O. destruct (S O) as (c & t & -> & C). destruct F as [|d n D L I].
  - cbn [append nanoseconds]. destruct C as [->|[->| ->]]; reflexivity.
  - cbn [append nanoseconds]. change (Ascii.eqb "." ".") with true. cbn iota. rewrite run_complete; [|exact D|destruct C as [->|[->| ->]]; reflexivity].
    assert (M : d <> ""%string) by (intros ->; cbn in L; lia). rewrite (proj2 (String.eqb_neq _ _) M). cbn [orb].
    destruct (Nat.ltb_spec 9 (String.length d)) as [X|_]; [lia|]. destruct (nonempty_digits d D M) as (c' & t' & -> & Dc & Dt).
    apply (integer_digits c' t' n ltac:(intros ->; apply digit_spec in Dc; discriminate Dc)) in I. rewrite I, scale_pow. repeat f_equal. lia.
Qed.
Lemma read_time_spec s t : read_time s = Some t <-> time_means s t.
Proof.
  split.
  - unfold read_time. destruct s as [|a [|b [|c [|d [|e [|f [|g [|h [|i [|j [|x [|h1 [|h0 [|c1 [|m1 [|m0 [|c2 [|s1 [|s0 r]]]]]]]]]]]]]]]]]]]; try discriminate. cbv zeta.
    destruct (parse_date _) as [day|] eqn:P; [|discriminate]. destruct (two_digits h1 h0) as [hh|] eqn:H; [|discriminate].
    destruct (two_digits m1 m0) as [mm|] eqn:M; [|discriminate]. destruct (two_digits s1 s0) as [ss|] eqn:S; [|discriminate].
    destruct (nanoseconds r) as [[ns z]|] eqn:N; [|discriminate]. destruct (zone z) as [off|] eqn:O; [|discriminate].
    destruct (Ascii.eqb_spec x "T") as [->|]; [|discriminate]. destruct (Ascii.eqb_spec c1 ":") as [->|]; [|discriminate]. destruct (Ascii.eqb_spec c2 ":") as [->|]; [|discriminate]. cbn [andb].
    destruct ((hh <? 24) && (mm <? 60) && (ss <? 60)) eqn:B; [|discriminate]. intros E. injection E as <-.
    apply two_digits_spec in H, M, S. destruct H as [Rh Eh], M as [Rm Em], S as [Rs Es]. apply zone_spec in O.
    destruct (parse_sound _ _ P) as (y & mo & dd & Ry & C & Ed & ->). destruct (nanoseconds_sound _ _ _ N) as (fr & F & ->).
    match goal with |- time_means ?s ?t => replace s with (iso_date y mo dd ++ "T" ++ padded 2 hh ++ ":" ++ padded 2 mm ++ ":" ++ padded 2 ss ++ fr ++ z)%string by (rewrite <- Ed, <- Eh, <- Em, <- Es; reflexivity) end.
    replace (mkTime _ off) with (mkTime ((((day_number y mo dd * 24 + hh) * 60 + mm) * 60 + ss - off) * second_ns + ns) off).
    + constructor; try assumption; lia.
    + f_equal. unfold time_date, t_ns, day_ns, second_ns. ring.
  - intros [y mo dd h mi s' f ns z off Ry C Rh Rm Rs F O]. pose proof (parse_complete y mo dd Ry C) as P. apply zone_spec in O as Z.
    pose proof (nanoseconds_complete f ns z off F O) as N.
    destruct (padded_two h ltac:(lia)) as (h1 & h0 & -> & H). destruct (padded_two mi ltac:(lia)) as (m1 & m0 & -> & M). destruct (padded_two s' ltac:(lia)) as (s1 & s0 & -> & S).
    assert (L : exists a b c d e f g h i j, iso_date y mo dd = String a (String b (String c (String d (String e (String f (String g (String h (String i (String j ""))))))))))
      by (destruct (parse_sound _ _ P) as (_ & _ & _ & _ & _ & _ & _); unfold parse_date in P;
          destruct (iso_date y mo dd) as [|a [|b [|c [|d [|e [|f' [|g [|h' [|i [|j [|k q]]]]]]]]]]]; try discriminate P; repeat eexists).
    destruct L as (a & b & c & d & e & f' & g & h' & i & j & L). rewrite L in *. cbn [append]. unfold read_time. cbv zeta. rewrite P, H, M, S, N, Z.
    replace ((h <? 24) && (mi <? 60) && (s' <? 60)) with true by lia. cbn [andb Ascii.eqb Bool.eqb]. f_equal. f_equal. unfold time_date, t_ns, day_ns, second_ns. ring.
Qed.

(** ** Keys *)
Local Open Scope nat_scope.
Local Open Scope string_scope.
Definition ascii_only (s : string) : Prop := all_chars (fun c => Nat.ltb (nat_of_ascii c) 128) s = true.
Definition ups := combine (list_ascii_of_string "ABCDEFGHIJKLMNOPQRSTUVWXYZ") (list_ascii_of_string "abcdefghijklmnopqrstuvwxyz").
Definition downs := combine (list_ascii_of_string "abcdefghijklmnopqrstuvwxyz") (list_ascii_of_string "ABCDEFGHIJKLMNOPQRSTUVWXYZ").
Lemma folded_ascii c s : Nat.ltb (nat_of_ascii c) 128 = true -> folded (String c s) = String (lower c) (folded s).
Proof. intros H. destruct c as [[] [] [] [] [] [] [] []]; try discriminate H; reflexivity. Qed.
Lemma folded_cases c k : folded (String c k) = String (lower c) (folded k) \/
  (exists k', String c k = String "197" (String "191" k') /\ folded (String c k) = String "s" (folded k')) \/
  (exists k', String c k = String "226" (String "132" (String "170" k')) /\ folded (String c k) = String "k" (folded k')).
Proof.
  destruct (Ascii.eqb_spec c "197") as [->|N1].
  - destruct k as [|d k]; [left; reflexivity|]. destruct (Ascii.eqb_spec d "191") as [->|N]; [right; left; exists k; split; reflexivity|].
    left. destruct d as [[] [] [] [] [] [] [] []]; try reflexivity. elim N. reflexivity.
  - destruct (Ascii.eqb_spec c "226") as [->|N2].
    + destruct k as [|d k]; [left; reflexivity|]. destruct (Ascii.eqb_spec d "132") as [->|N].
      * destruct k as [|e k]; [left; reflexivity|]. destruct (Ascii.eqb_spec e "170") as [->|N']; [right; right; exists k; split; reflexivity|].
        left. destruct e as [[] [] [] [] [] [] [] []]; try reflexivity. elim N'. reflexivity.
      * left. destruct d as [[] [] [] [] [] [] [] []]; try reflexivity. elim N. reflexivity.
    + left. destruct c as [[] [] [] [] [] [] [] []]; try reflexivity; (elim N1; reflexivity) || (elim N2; reflexivity).
Qed.
Lemma lower_cases c : lower c = c \/ In (c, lower c) ups /\ In (lower c, c) downs.
Proof. destruct c as [[] [] [] [] [] [] [] []]; first [left; reflexivity | right; split; vm_compute; tauto]. Qed.
Lemma lower_ups a b : In (a, b) ups -> lower a = b /\ lower b = b /\ Nat.ltb (nat_of_ascii a) 128 = true.
Proof. unfold ups. cbn. intros H. repeat (destruct H as [H|H]; [injection H as <- <-; repeat split; reflexivity|]). elim H. Qed.
Lemma lower_downs a b : In (a, b) downs -> lower b = a /\ lower a = a /\ Nat.ltb (nat_of_ascii a) 128 = true.
Proof. unfold downs. cbn. intros H. repeat (destruct H as [H|H]; [injection H as <- <-; repeat split; reflexivity|]). elim H. Qed.
Lemma lower_inj a b c : In (a, c) ups -> In (b, c) ups -> a = b.
Proof.
  unfold ups. cbn. intros H H'. repeat (destruct H as [H|H]; [injection H as <- <-; repeat (destruct H' as [H'|H']; [injection H' as; congruence|]); elim H'|]). elim H.
Qed.
Lemma matches_spec f : ascii_only f -> forall k, matches k f = true <-> key_of k f.
Proof.
  unfold matches. intros A k. rewrite String.eqb_eq. split.
  - revert k A. induction f as [|b f IH]; intros k A E.
    + destruct k as [|c k]; [constructor|]. destruct (folded_cases c k) as [F|[(k' & _ & F)|(k' & _ & F)]]; rewrite F in E; discriminate E.
    + unfold ascii_only in A. cbn [all_chars] in A. apply andb_prop in A. destruct A as [Ab A]. rewrite (folded_ascii b f Ab) in E.
      destruct k as [|c k]; [discriminate E|]. destruct (folded_cases c k) as [F|[(k' & Ek & F)|(k' & Ek & F)]]; rewrite F in E; injection E as E1 E2.
      * specialize (IH k A E2). destruct (lower_cases c) as [Lc|[Lc _]], (lower_cases b) as [Lb|[Lb Lb']].
        -- rewrite Lc, Lb in E1. subst c. constructor. exact IH.
        -- rewrite Lc in E1. subst c. apply key_lower; [exact Lb'|exact IH].
        -- rewrite Lb in E1. rewrite E1 in Lc. apply key_upper; [exact Lc|exact IH].
        -- rewrite E1 in Lc. rewrite (lower_inj _ _ _ Lc Lb). constructor. exact IH.
      * rewrite Ek. apply key_long_s; [|exact (IH k' A E2)]. destruct (lower_cases b) as [Lb|[Lb _]]; [rewrite Lb in E1; subst b; cbn; tauto|].
        rewrite <- E1 in Lb. assert (Eb : b = "S"%char) by (apply (lower_inj _ _ _ Lb); vm_compute; tauto). subst b. cbn. tauto.
      * rewrite Ek. apply key_kelvin; [|exact (IH k' A E2)]. destruct (lower_cases b) as [Lb|[Lb _]]; [rewrite Lb in E1; subst b; cbn; tauto|].
        rewrite <- E1 in Lb. assert (Eb : b = "K"%char) by (apply (lower_inj _ _ _ Lb); vm_compute; tauto). subst b. cbn. tauto.
  - intros H. revert A. induction H as [|c k f _ IH|a b k f I _ IH|a b k f I _ IH|b k f I _ IH|b k f I _ IH]; intros A; [reflexivity|..];
    unfold ascii_only in A; cbn [all_chars] in A; apply andb_prop in A; destruct A as [Ab A]; rewrite (folded_ascii b f Ab) || rewrite !(folded_ascii c _ Ab); rewrite ?(IH A).
    + reflexivity.
    + destruct (lower_ups a b I) as (L1 & L2 & La). rewrite (folded_ascii a k La), (IH A), L1, L2. reflexivity.
    + destruct (lower_downs a b I) as (L1 & L2 & La). rewrite (folded_ascii a k La), (IH A), L1, L2. reflexivity.
    + destruct I as [<-|[<-|[]]]; cbn [folded]; rewrite (IH A); reflexivity.
    + destruct I as [<-|[<-|[]]]; cbn [folded]; rewrite (IH A); reflexivity.
Qed.

(** ** Structures *)
Lemma value_null v : v = VNull \/ v <> VNull.
Proof. destruct v; [left; reflexivity|right; discriminate..]. Qed.
(** The strings as the model reads them *)
Definition unq (raw s : string) : Prop := s = unquote None raw.
Local Notation named := (SpecJson.named unq).
Local Notation given := (SpecJson.given unq).
Local Notation field := (SpecJson.field unq).
Local Notation string_value := (SpecJson.string_value unq).
Local Notation record_value := (SpecJson.record_value unq).
Local Notation last_given := (SpecJson.last_given unq).
Local Notation merged := (SpecJson.merged unq).
Local Notation response_value := (SpecJson.response_value unq).
Local Notation fits := (SpecJson.fits unq).
Local Notation record_fits := (SpecJson.record_fits unq).
Local Notation error_fits := (SpecJson.error_fits unq).
Local Notation response_fits := (SpecJson.response_fits unq).
Section Fields.
Variables A X : Type.
Variable set : string -> value -> A -> option A.
Variable get : A -> X.
Variable f : string.
Variable into : X -> value -> option X.
Variable Hf : ascii_only f.
Hypothesis Hset : forall k v a a', matches k f = true -> set k v a = Some a' -> into (get a) v = Some (get a').
Hypothesis Hother : forall k v a a', matches k f = false -> set k v a = Some a' -> get a' = get a.
Hypothesis Hnull : forall x, into x VNull = Some x.
Hypothesis Hany : forall x y v, v <> VNull -> into x v = into y v.
Lemma named_spec k v : matches (unquote None k) f = true <-> named f (k, v).
Proof.
  unfold SpecJson.named, unq. cbn [fst]. rewrite (matches_spec f Hf). split; [intros K; exists (unquote None k); auto|intros (x & -> & K); exact K].
Qed.
Lemma fields_given l : forall a a', fields set l a = Some a' ->
  (given f l None /\ get a' = get a) \/ exists v, given f l (Some v) /\ into (get a) v = Some (get a').
Proof.
  induction l as [|[k v] l IH]; intros a a' H; cbn [fields] in H.
  - injection H as <-. left. split; [constructor|reflexivity].
  - destruct (set (unquote None k) v a) as [b|] eqn:S; [|discriminate]. specialize (IH b a' H).
    destruct IH as [[G E]|(w & (Nw & l1 & k' & l2 & -> & Nk & G) & E)].
    + destruct (matches (unquote None k) f) eqn:M.
      * pose proof (Hset _ _ _ _ M S) as E'. destruct (value_null v) as [->|N].
        -- left. rewrite Hnull in E'. injection E' as E'. split; [constructor; [reflexivity|exact G]|congruence].
        -- right. exists v. split; [split; [exact N|]; exists [], k, l; split; [reflexivity|]; split; [apply named_spec; exact M|exact G]|congruence].
      * left. split; [constructor; [|exact G]|rewrite E; exact (Hother _ _ _ _ M S)]. intros Nm. apply (named_spec k v) in Nm. congruence.
    + right. exists w. split; [|rewrite (Hany (get a) (get b) w Nw); exact E]. split; [exact Nw|]. exists ((k, v) :: l1), k', l2. auto.
Qed.
End Fields.
Lemma into_bool_value x v b : v <> VNull -> into_bool x v = Some b -> bool_value v b.
Proof. intros N H. destruct v; try discriminate H; [congruence|]. injection H as ->. reflexivity. Qed.
Lemma into_string_value x v s : v <> VNull -> into_string x v = Some s -> string_value v s.
Proof. intros N H. destruct v as [| | |raw| |]; try discriminate H; [congruence|]. exists raw. split; [reflexivity|]. cbn in H. congruence. Qed.
Lemma into_int_value x v z : v <> VNull -> into_int x v = Some z -> int64_value v z.
Proof. intros N H. destruct v as [| |raw| | |]; try discriminate H; [congruence|]. exists raw. split; [reflexivity|]. apply int64_spec. exact H. Qed.
Lemma into_time_value x v t : v <> VNull -> into_time x v = Some t -> time_value v t.
Proof. intros N H. destruct v as [| | |raw| |]; try discriminate H; [congruence|]. exists raw. split; [reflexivity|]. apply read_time_spec. exact H. Qed.
Lemma bool_accept x v : into_bool x v <> None <-> v = VNull \/ exists b, bool_value v b.
Proof.
  split; [|intros [->|(b & ->)]; discriminate]. intros H. destruct v as [|b| | | |]; try (elim H; reflexivity); [left; reflexivity|right; exists b; reflexivity].
Qed.
Lemma string_accept x v : into_string x v <> None <-> v = VNull \/ exists s, string_value v s.
Proof.
  split; [|intros [->|(s & raw & -> & _)]; discriminate]. intros H. destruct v as [| | |raw| |]; try (elim H; reflexivity); [left; reflexivity|right].
  eexists. exists raw. split; reflexivity.
Qed.
Lemma int_accept x v : into_int x v <> None <-> v = VNull \/ exists z, int64_value v z.
Proof.
  split.
  - intros H. destruct v as [| |raw| | |]; try (elim H; reflexivity); [left; reflexivity|right]. cbn [into_int] in H.
    destruct (int64_of raw) as [z|] eqn:E; [|congruence]. exists z, raw. split; [reflexivity|]. apply int64_spec. exact E.
  - intros [->|(z & raw & -> & E)]; [discriminate|]. cbn [into_int]. apply int64_spec in E. rewrite E. discriminate.
Qed.
Lemma time_accept x v : into_time x v <> None <-> v = VNull \/ exists t, time_value v t.
Proof.
  split.
  - intros H. destruct v as [| | |raw| |]; try (elim H; reflexivity); [left; reflexivity|right]. cbn [into_time] in H.
    destruct (read_time raw) as [t|] eqn:E; [|congruence]. exists t, raw. split; [reflexivity|]. apply read_time_spec. exact E.
  - intros [->|(t & raw & -> & E)]; [discriminate|]. cbn [into_time]. apply read_time_spec in E. rewrite E. discriminate.
Qed.
Ltac decide_names := repeat match goal with |- context [String.eqb (folded ?x) (folded ?y)] =>
  let b := eval vm_compute in (String.eqb (folded x) (folded y)) in change (String.eqb (folded x) (folded y)) with b; cbn iota end.
Ltac open_set := match goal with |- set_record _ _ _ = _ -> _ => unfold set_record | |- set_error _ _ _ = _ -> _ => unfold set_error | |- set_resp _ _ _ = _ -> _ => unfold set_resp end.
Ltac set_here := intros k v a a' M; unfold matches in M; apply String.eqb_eq in M; open_set; unfold matches; rewrite M; decide_names;
  match goal with |- option_map _ ?o = _ -> _ => destruct o; [|discriminate]; intros E; injection E as <-; reflexivity end.
Ltac set_other := intros k v a a' M; open_set; 
  repeat match goal with |- (if matches k ?g then _ else _) = _ -> _ => destruct (matches k g); [try discriminate M|] end;
  try match goal with |- option_map _ ?o = _ -> _ => destruct o; [|discriminate] end; intros E; injection E as <-; reflexivity.
Lemma field_intro {A X} set (get : A -> X) f into (is_value : value -> X -> Prop) zero l a a' : ascii_only f ->
  (forall k v a a', matches k f = true -> set k v a = Some a' -> into (get a) v = Some (get a')) ->
  (forall k v a a', matches k f = false -> set k v a = Some a' -> get a' = get a) ->
  (forall x, into x VNull = Some x) -> (forall x y v, v <> VNull -> into x v = into y v) ->
  (forall x v y, v <> VNull -> into x v = Some y -> is_value v y) ->
  get a = zero -> fields set l a = Some a' -> field zero is_value f l (get a').
Proof.
  intros Hf H1 H2 H3 H4 H5 Z H. destruct (fields_given A X set get f into Hf H1 H2 H3 H4 l a a' H) as [[G E]|(v & G & E)]; [left|right].
  - split; [exact G|congruence].
  - exists v. split; [exact G|]. apply (H5 (get a)); [exact (proj1 G)|exact E].
Qed.
Ltac any := intros x y v N; destruct v; [congruence|reflexivity..].
Lemma record_sound v r : into_struct set_record zero_record v = Some r -> record_value v r.
Proof.
  destruct v as [| | | | |l]; try discriminate; cbn [into_struct]; intros H; [left; injection H as <-; split; reflexivity|right]. exists l. split; [reflexivity|].
  split; [|split; [|split]].
  - apply (field_intro set_record r_Timestamp "timestamp" into_int int64_value 0%Z l zero_record r); [reflexivity|set_here|set_other|reflexivity|any|exact into_int_value|reflexivity|exact H].
  - apply (field_intro set_record r_DateTimeISO "dateTimeISO" into_time time_value (mkTime 0 0) l zero_record r); [reflexivity|set_here|set_other|reflexivity|any|exact into_time_value|reflexivity|exact H].
  - apply (field_intro set_record r_Code "code" into_int int64_value 0%Z l zero_record r); [reflexivity|set_here|set_other|reflexivity|any|exact into_int_value|reflexivity|exact H].
  - apply (field_intro set_record r_Name "name" into_string string_value "" l zero_record r); [reflexivity|set_here|set_other|reflexivity|any|exact into_string_value|reflexivity|exact H].
Qed.
Lemma fields_app {A} (set : string -> value -> A -> option A) l m a :
  fields set (l ++ m) a = match fields set l a with Some b => fields set m b | None => None end.
Proof. revert a. induction l as [|[k v] l IH]; intros a; [reflexivity|]. cbn [List.app fields]. destruct (set (unquote None k) v a); [apply IH|reflexivity]. Qed.
Lemma error_here k v p p' : matches k "error" = true -> set_resp k v p = Some p' -> into_struct set_error (p_Error p) v = Some (p_Error p').
Proof. revert k v p p'. set_here. Qed.
Lemma error_other k v p p' : matches k "error" = false -> set_resp k v p = Some p' -> p_Error p' = p_Error p.
Proof. revert k v p p'. set_other. Qed.
Lemma response_here k v p p' : matches k "Response" = true -> set_resp k v p = Some p' -> into_records (p_Response p) v = Some (p_Response p').
Proof. revert k v p p'. set_here. Qed.
Lemma response_other k v p p' : matches k "Response" = false -> set_resp k v p = Some p' -> p_Response p' = p_Response p.
Proof. revert k v p p'. set_other. Qed.
Lemma named_dec f k v : ascii_only f -> {named f (k, v) /\ matches (unquote None k) f = true} + {~ named f (k, v) /\ matches (unquote None k) f = false}.
Proof.
  intros A. pose proof (named_spec f A k v) as S. destruct (matches (unquote None k) f); [left|right]; (split; [|reflexivity]); [apply S; reflexivity|].
  intros N. apply S in N. discriminate N.
Qed.
Lemma errors_merged l : forall p p', fields set_resp l p = Some p' -> exists e, merged "error" l e /\ fields set_error e (p_Error p) = Some (p_Error p').
Proof.
  induction l as [|[k v] l IH]; intros p p' H; cbn [fields] in H.
  - injection H as <-. exists []. split; [constructor|reflexivity].
  - destruct (set_resp (unquote None k) v p) as [q|] eqn:S; [|discriminate]. destruct (IH q p' H) as (e & M & E).
    destruct (named_dec "error" k v eq_refl) as [[N B]|[N B]].
    + pose proof (error_here _ _ _ _ B S) as I. destruct v as [| | | | |x]; try discriminate I; cbn [into_struct] in I.
      * injection I as I. exists e. split; [constructor; [right; reflexivity|exact M]|congruence].
      * exists (x ++ e)%list. split; [constructor; assumption|]. rewrite fields_app, I. exact E.
    + exists e. split; [constructor; [left; exact N|exact M]|]. rewrite <- (error_other _ _ _ _ B S). exact E.
Qed.
Lemma all_some_forall2 {A B} (f : A -> option B) (R : A -> B -> Prop) : (forall x y, f x = Some y -> R x y) -> forall l m, all_some (map f l) = Some m -> Forall2 R l m.
Proof.
  intros H. induction l as [|x l IH]; intros m E; cbn [map all_some] in E; [injection E as <-; constructor|].
  destruct (f x) as [y|] eqn:F; [|discriminate]. destruct (all_some (map f l)) as [ys|]; [|discriminate]. injection E as <-. constructor; [apply H; exact F|apply IH; reflexivity].
Qed.
Lemma records_sound l : forall p p', fields set_resp l p = Some p' ->
  (last_given "Response" l None /\ p_Response p' = p_Response p) \/ (last_given "Response" l (Some VNull) /\ p_Response p' = []) \/
  exists vs, last_given "Response" l (Some (VArr vs)) /\ Forall2 record_value vs (p_Response p').
Proof.
  induction l as [|[k v] l IH]; intros p p' H; cbn [fields] in H.
  - injection H as <-. left. split; [constructor|reflexivity].
  - destruct (set_resp (unquote None k) v p) as [q|] eqn:S; [|discriminate].
    assert (Later : forall w, last_given "Response" l (Some w) -> last_given "Response" ((k, v) :: l) (Some w)).
    { intros w (l1 & k' & l2 & -> & N & F). exists ((k, v) :: l1), k', l2. auto. }
    destruct (IH q p' H) as [[G E]|[[G E]|(vs & G & E)]]; [|right; left; auto|right; right; exists vs; auto].
    destruct (named_dec "Response" k v eq_refl) as [[N B]|[N B]].
    + right. assert (Here : last_given "Response" ((k, v) :: l) (Some v)) by (exists [], k, l; auto).
      pose proof (response_here _ _ _ _ B S) as I. destruct v as [| | | |vs|]; try discriminate I; cbn [into_records] in I.
      * left. split; [exact Here|]. congruence.
      * right. exists vs. split; [exact Here|]. rewrite E. apply (all_some_forall2 _ _ record_sound). exact I.
    + left. split; [constructor; assumption|]. rewrite E. exact (response_other _ _ _ _ B S).
Qed.
Lemma response_sound v p : into_struct set_resp (mkAerisResp false ("", "") []) v = Some p -> response_value v p.
Proof.
  destruct v as [| | | | |l]; try discriminate; cbn [into_struct]; intros H; [left; injection H as <-; split; reflexivity|right].
  destruct (errors_merged l _ _ H) as (e & Me & Ee). exists l, e. split; [reflexivity|]. split; [|split; [exact Me|split; [|split]]].
  - apply (field_intro set_resp p_Success "success" into_bool bool_value false l (mkAerisResp false ("", "") []) p); [reflexivity|set_here|set_other|reflexivity|any|exact into_bool_value|reflexivity|exact H].
  - apply (field_intro set_error fst "code" into_string string_value "" e ("", "") (p_Error p)); [reflexivity|set_here|set_other|reflexivity|any|exact into_string_value|reflexivity|exact Ee].
  - apply (field_intro set_error snd "description" into_string string_value "" e ("", "") (p_Error p)); [reflexivity|set_here|set_other|reflexivity|any|exact into_string_value|reflexivity|exact Ee].
  - destruct (records_sound l _ _ H) as [[G R]|[[G R]|(vs & G & R)]]; [left; auto|left; auto|right; exists vs; auto].
Qed.

(** What is accepted *)
Lemma fields_accept {A} (set : string -> value -> A -> option A) (P : string * value -> Prop) :
  (forall k v a, set (unquote None k) v a <> None <-> P (k, v)) -> forall l a, fields set l a <> None <-> Forall P l.
Proof.
  intros H. induction l as [|[k v] l IH]; intros a; cbn [fields].
  - split; [constructor|discriminate].
  - specialize (H k v a). destruct (set (unquote None k) v a) as [b|].
    + rewrite IH. split; [intros F; constructor; [apply H; discriminate|exact F]|intros F; inversion F; assumption].
    + split; [congruence|]. intros F. inversion F as [|x y Px]; subst. apply H in Px. congruence.
Qed.
Lemma map_none {A B} (g : A -> B) o : option_map g o <> None <-> o <> None.
Proof. destruct o; cbn; split; intros H; (discriminate || congruence). Qed.
Lemma named_not k v f g : ascii_only f -> matches (unquote None k) f = false -> named f (k, v) -> g.
Proof. intros A M N. apply (named_spec f A) in N. congruence. Qed.
Ltac exclusive := repeat match goal with
  | H : matches ?k ?f = true, H' : matches ?k ?g = true |- _ =>
      unfold matches in H, H'; apply String.eqb_eq in H; apply String.eqb_eq in H'; rewrite H in H'; discriminate H'
  end.
Lemma fits_yes {A} f (is_value : value -> A -> Prop) k v : ascii_only f -> matches (unquote None k) f = true ->
  (fits f is_value (k, v) <-> v = VNull \/ exists x, is_value v x).
Proof. intros a M. unfold SpecJson.fits. cbn [snd]. apply (named_spec f a k v) in M. tauto. Qed.
Lemma fits_no {A} f (is_value : value -> A -> Prop) k v : ascii_only f -> matches (unquote None k) f = false -> fits f is_value (k, v).
Proof. intros a M N. apply (named_not k v f _ a M N). Qed.
Ltac no_fit := repeat match goal with
  | |- context [@SpecJson.fits unq ?A ?f ?P (?k, ?v)] =>
      match goal with M : matches (unquote None k) f = false |- _ => let H := fresh in assert (H : @SpecJson.fits unq A f P (k, v) <-> True) by (split; [trivial|intros _; apply fits_no; [reflexivity|exact M]]); rewrite H; clear H end
  end.
Ltac yes_fit := repeat match goal with
  | |- context [@SpecJson.fits unq ?A ?f ?P (?k, ?v)] =>
      match goal with M : matches (unquote None k) f = true |- _ => rewrite (@fits_yes A f P k v (eq_refl : ascii_only f) M) end
  end.
Lemma record_accept v : into_struct set_record zero_record v <> None <-> record_fits v.
Proof.
  unfold SpecJson.record_fits. destruct v as [| | | | |l]; cbn [into_struct].
  1: split; [left; reflexivity|discriminate].
  1-4: split; [congruence|intros [E|(l' & E & _)]; discriminate E].
  rewrite (fields_accept set_record (fun p => fits "timestamp" int64_value p /\ fits "dateTimeISO" time_value p /\ fits "code" int64_value p /\ fits "name" string_value p)).
  - split; [intros F; right; exists l; split; [reflexivity|exact F]|intros [E|(l' & E & F)]; [discriminate E|injection E as ->; exact F]].
  - clear l. intros k v a. unfold set_record.
    destruct (matches (unquote None k) "timestamp") eqn:M1, (matches (unquote None k) "dateTimeISO") eqn:M2, (matches (unquote None k) "code") eqn:M3, (matches (unquote None k) "name") eqn:M4; exclusive; no_fit;
    rewrite ?map_none; yes_fit; rewrite ?int_accept, ?time_accept, ?string_accept; try tauto.
    split; [tauto|discriminate].
Qed.
Lemma error_accept e v : into_struct set_error e v <> None <-> error_fits v.
Proof.
  unfold SpecJson.error_fits. destruct v as [| | | | |l]; cbn [into_struct].
  1: split; [left; reflexivity|discriminate].
  1-4: split; [congruence|intros [E|(l' & E & _)]; discriminate E].
  rewrite (fields_accept set_error (fun p => fits "code" string_value p /\ fits "description" string_value p)).
  - split; [intros F; right; exists l; split; [reflexivity|exact F]|intros [E|(l' & E & F)]; [discriminate E|injection E as ->; exact F]].
  - clear l. intros k v a. unfold set_error.
    destruct (matches (unquote None k) "code") eqn:M1, (matches (unquote None k) "description") eqn:M2; exclusive; no_fit;
    rewrite ?map_none; yes_fit; rewrite ?string_accept; try tauto.
    split; [tauto|discriminate].
Qed.
Lemma all_some_accept {A B} (f : A -> option B) (P : A -> Prop) : (forall x, f x <> None <-> P x) -> forall l, all_some (map f l) <> None <-> Forall P l.
Proof.
  intros H. induction l as [|x l IH]; cbn [map all_some]; [split; [constructor|discriminate]|]. specialize (H x).
  destruct (f x) as [y|].
  - rewrite map_none, IH. split; [intros F; constructor; [apply H; discriminate|exact F]|intros F; inversion F; assumption].
  - split; [congruence|]. intros F. inversion F as [|x' l' Px]; subst. apply H in Px. congruence.
Qed.
Lemma records_accept old v : into_records old v <> None <-> v = VNull \/ exists vs, v = VArr vs /\ Forall record_fits vs.
Proof.
  destruct v as [| | | |vs|]; cbn [into_records].
  1: split; [left; reflexivity|discriminate].
  1-3,5: split; [congruence|intros [E|(l' & E & _)]; discriminate E].
  rewrite (all_some_accept _ _ record_accept). split; [intros F; right; exists vs; split; [reflexivity|exact F]|intros [E|(l' & E & F)]; [discriminate E|injection E as ->; exact F]].
Qed.
Lemma response_accept p v : into_struct set_resp p v <> None <-> response_fits v.
Proof.
  unfold SpecJson.response_fits. destruct v as [| | | | |l]; cbn [into_struct].
  1: split; [left; reflexivity|discriminate].
  1-4: split; [congruence|intros [E|(l' & E & _)]; discriminate E].
  rewrite (fields_accept set_resp (fun p => fits "success" bool_value p /\ (named "error" p -> error_fits (snd p)) /\
    (named "Response" p -> snd p = VNull \/ exists vs, snd p = VArr vs /\ Forall record_fits vs))).
  - split; [intros F; right; exists l; split; [reflexivity|exact F]|intros [E|(l' & E & F)]; [discriminate E|injection E as ->; exact F]].
  - clear l. intros k v a. unfold set_resp. cbn [snd]. pose proof (named_spec "error" eq_refl k v) as Ne. pose proof (named_spec "Response" eq_refl k v) as Nr.
    destruct (matches (unquote None k) "success") eqn:M1, (matches (unquote None k) "error") eqn:M2, (matches (unquote None k) "Response") eqn:M3; exclusive; no_fit;
    rewrite ?map_none; yes_fit; rewrite ?bool_accept, ?error_accept, ?records_accept; rewrite <- Ne, <- Nr.
    all: assert (F : false = true <-> False) by (split; [discriminate|tauto]); rewrite ?F; try tauto.
    split; [tauto|discriminate].
Qed.

(** ** Printed times *)
Open Scope Z_scope.
Local Open Scope string_scope.
Lemma decimal_app a : forall acc b, decimal acc (a ++ b) = match decimal acc a with Some x => decimal x b | None => None end.
Proof. induction a as [|c a IH]; intros acc b; cbn [append decimal]; [reflexivity|]. destruct (is_dig c); [apply IH|reflexivity]. Qed.
Lemma decimal_zeros m : forall x, decimal x (zeros m) = Some (x * 10 ^ Z.of_nat m).
Proof.
  induction m as [|m IH]; intros x; cbn [zeros append decimal]; [f_equal; lia|]. change (is_dig "0") with true. cbn iota. change (Z.of_N (N_of_ascii "0") - 48) with 0.
  rewrite IH, Nat2Z.inj_succ, Z.pow_succ_r by lia. f_equal. ring.
Qed.
Lemma digit_dig d : 0 <= d <= 9 -> is_dig (digit d) = true /\ Z.of_N (N_of_ascii (digit d)) - 48 = d.
Proof.
  intros H. assert (C : d = 0 \/ d = 1 \/ d = 2 \/ d = 3 \/ d = 4 \/ d = 5 \/ d = 6 \/ d = 7 \/ d = 8 \/ d = 9) by lia.
  repeat (destruct C as [->|C]; [split; reflexivity|]). subst d. split; reflexivity.
Qed.
Lemma decimal_digits n : forall z, 0 <= z < 10 ^ Z.of_nat n -> decimal 0 (digits n z) = Some z.
Proof.
  induction n as [|n IH]; intros z H; cbn [digits]; [cbn in *; f_equal; lia|]. rewrite Nat2Z.inj_succ, Z.pow_succ_r in H by lia.
  rewrite decimal_app, IH by (split; [apply Z.div_pos; lia|apply Z.div_lt_upper_bound; lia]). cbn [decimal].
  destruct (digit_dig (z mod 10)) as [-> ->]; [pose proof (Z.mod_pos_bound z 10); lia|]. f_equal. pose proof (Z.div_mod z 10). lia.
Qed.
Lemma decimal_chars s : forall acc x, decimal acc s = Some x -> digit_chars s.
Proof. induction s as [|c s IH]; intros acc x; cbn [decimal]; [constructor|]. destruct (is_dig c) eqn:D; [|discriminate]. intros H. constructor; [apply digit_spec; exact D|exact (IH _ _ H)]. Qed.
Lemma fraction_printed ns : 0 <= ns < second_ns -> fraction_means (fraction ns) ns.
Proof.
  intros H. pose proof (decimal_digits 9 ns H) as D. destruct (trim_spec (digits 9 ns)) as [T L]. rewrite T, decimal_app in D. rewrite digits_length in *.
  unfold fraction. destruct (trim_zeros (digits 9 ns)) as [|c t] eqn:E.
  - cbn [decimal String.length] in D. rewrite decimal_zeros in D. injection D as D. replace ns with 0 by lia. constructor.
  - destruct (decimal 0 (String c t)) as [v|] eqn:V; [|discriminate]. rewrite decimal_zeros in D.
    assert (D' : v * 10 ^ Z.of_nat (9 - String.length (String c t)) = ns) by congruence. clear D. rename D' into D.
    change ("." ++ String c t) with (String "." (String c t)). rewrite <- D. pose proof (decimal_chars _ _ _ V) as C.
    replace (Z.of_nat (9 - String.length (String c t))) with (9 - Z.of_nat (String.length (String c t))) by lia.
    constructor; [exact C|cbn [String.length] in *; lia|]. apply integer_digits; [|exact V]. inversion C as [|c' s' Dc _]; subst. intros ->. apply digit_spec in Dc. discriminate Dc.
Qed.
Lemma time_printed t s : t_off t = 0 -> json_time t = Some (JStr s) -> time_means s t.
Proof.
  unfold json_time. intros O. destruct ((0 <=? time_year t) && (time_year t <=? 9999))%Z eqn:Y; [|discriminate]. intros E.
  assert (Es : s = format_date t ++ "T" ++ clock_string (clock_ns t) ++ "Z") by congruence. clear E. subst s.
  pose proof (clock_range t) as R. unfold day_ns in R.
  assert (Cd : civil_date (time_year t) (time_month t) (time_mday t)).
  { apply civil_iff. unfold time_year, time_month, time_mday, days_in. pose proof (mday_of_day_spec (local_day t)) as [H1 H2]. pose proof (month_of_day_range (local_day t)) as Hm. lia. }
  pose proof Cd as Cd'. apply civil_iff in Cd'. destruct Cd' as [Rm _]. pose proof (mday_range (local_day t)) as Rd. fold (time_mday t) in Rd.
  unfold format_date, clock_string. cbv zeta. set (c := clock_ns t) in *. set (sec := c / second_ns).
  assert (Rs : 0 <= sec < 86400) by (unfold sec, second_ns; split; [apply Z.div_pos; lia|apply Z.div_lt_upper_bound; lia]).
  assert (Rh : 0 <= sec / 3600 < 24) by (split; [apply Z.div_pos; lia|apply Z.div_lt_upper_bound; lia]).
  assert (Rmi : 0 <= sec / 60 mod 60 < 60) by (apply Z.mod_pos_bound; lia). assert (Rse : 0 <= sec mod 60 < 60) by (apply Z.mod_pos_bound; lia).
  rewrite four_padded, !two_padded by lia.
  assert (Et : t = (mkTime ((((day_number (time_year t) (time_month t) (time_mday t) * 24 + sec / 3600) * 60 + sec / 60 mod 60) * 60 + sec mod 60 - 0) * second_ns + c mod second_ns) 0)).
  { unfold time_year, time_month, time_mday. rewrite day_number_civil. destruct t as [n o]. cbn [t_off] in O. subst o. f_equal. unfold c, sec, clock_ns, local_day, local_ns, clock_ns, local_ns, day_ns, second_ns in *. cbn [t_ns t_off] in *. rewrite Z.add_0_r in *.
    set (d := n / 86400000000000) in *. set (q := n mod 86400000000000) in *. pose proof (Z.div_mod n 86400000000000). pose proof (Z.div_mod q 1000000000). 
    set (u := q / 1000000000) in *. pose proof (Z.div_mod u 60). pose proof (Z.div_mod (u / 60) 60). assert (u / 3600 = u / 60 / 60) by (rewrite Z.div_div by lia; reflexivity). lia. }
  match goal with |- time_means ?x _ => replace x with (iso_date (time_year t) (time_month t) (time_mday t) ++ "T" ++ padded 2 (sec / 3600) ++ ":" ++ padded 2 (sec / 60 mod 60) ++ ":" ++ padded 2 (sec mod 60) ++ fraction (c mod second_ns) ++ "Z") by (unfold iso_date; rewrite !app_assoc'; reflexivity) end.
  match type of Et with _ = ?m => apply (eq_ind_r (fun x => time_means _ x) (x := m)); [|exact Et] end.
  constructor; try assumption; try lia; [apply fraction_printed, Z.mod_pos_bound; reflexivity|constructor].
Qed.

(** ** The meaning of a response is unique *)
Lemma given_split f v v' l1 : forall k l2 l1' k' l2', (l1 ++ (k, v) :: l2 = l1' ++ (k', v') :: l2')%list -> v <> VNull -> v' <> VNull -> named f (k, v) -> named f (k', v') ->
  Forall (fun p => named f p -> snd p = VNull) l2 -> Forall (fun p => named f p -> snd p = VNull) l2' -> v = v'.
Proof.
  assert (N : forall l k w m, Forall (fun p => named f p -> snd p = VNull) (l ++ (k, w) :: m)%list -> named f (k, w) -> w = VNull).
  { intros l k w m F Nm. rewrite Forall_app in F. destruct F as [_ F]. inversion F as [|x y H]; subst. exact (H Nm). }
  induction l1 as [|p l1 IH]; intros k l2 [|q l1'] k' l2' E Nv Nv' M M' F F'; cbn [List.app] in E.
  - congruence.
  - injection E as <- ->. elim (Nv' (N _ _ _ _ F M')).
  - injection E as -> <-. elim (Nv (N _ _ _ _ F' M)).
  - injection E as -> E. exact (IH _ _ _ _ _ E Nv Nv' M M' F F').
Qed.
Lemma given_unique f l o o' : given f l o -> given f l o' -> o = o'.
Proof.
  assert (N : forall v, given f l None -> given f l (Some v) -> False).
  { intros v F (Nv & l1 & k & l2 & -> & M & _). cbn [SpecJson.given] in F. rewrite Forall_app in F. destruct F as [_ F]. inversion F as [|x y H]; subst. exact (Nv (H M)). }
  destruct o as [v|], o' as [v'|]; intros G G'; [|elim (N v G' G)|elim (N v' G G')|reflexivity].
  destruct G as (Nv & l1 & k & l2 & E & M & F), G' as (Nv' & l1' & k' & l2' & E' & M' & F'). f_equal. rewrite E in E'. exact (given_split f v v' l1 _ _ _ _ _ E' Nv Nv' M M' F F').
Qed.
Lemma field_unique {A} (zero : A) (P : value -> A -> Prop) f l x y : (forall v x y, P v x -> P v y -> x = y) -> field zero P f l x -> field zero P f l y -> x = y.
Proof.
  intros U [[G ->]|(v & G & Px)] [[G' ->]|(v' & G' & Py)]; pose proof (given_unique _ _ _ _ G G') as E; try discriminate E; [reflexivity|].
  injection E as <-. exact (U v x y Px Py).
Qed.
Lemma int64_unique v x y : int64_value v x -> int64_value v y -> x = y.
Proof. intros (r & -> & (i & E & <-) & _) (r' & E' & (i' & E2 & <-) & _). congruence. Qed.
Lemma time_unique v x y : time_value v x -> time_value v y -> x = y.
Proof. intros (r & -> & T) (r' & E' & T'). apply read_time_spec in T, T'. congruence. Qed.
Lemma string_unique v x y : string_value v x -> string_value v y -> x = y.
Proof. intros (r & -> & ->) (r' & E & ->). congruence. Qed.
Lemma bool_unique v x y : bool_value v x -> bool_value v y -> x = y.
Proof. unfold bool_value. congruence. Qed.
Lemma record_unique v x y : record_value v x -> record_value v y -> x = y.
Proof.
  intros [[-> ->]|(l & -> & H1 & H2 & H3 & H4)] [[E ->]|(l' & E & H1' & H2' & H3' & H4')]; try discriminate E; [reflexivity|]. injection E as <-.
  destruct x as [a b c d], y as [a' b' c' d']. cbn [r_Timestamp r_DateTimeISO r_Code r_Name] in *.
  rewrite (field_unique _ _ _ _ _ _ int64_unique H1 H1'), (field_unique _ _ _ _ _ _ time_unique H2 H2'), (field_unique _ _ _ _ _ _ int64_unique H3 H3'), (field_unique _ _ _ _ _ _ string_unique H4 H4'). reflexivity.
Qed.
Lemma last_split f v v' l1 : forall k l2 l1' k' l2', (l1 ++ (k, v) :: l2 = l1' ++ (k', v') :: l2')%list -> named f (k, v) -> named f (k', v') ->
  Forall (fun p => ~ named f p) l2 -> Forall (fun p => ~ named f p) l2' -> v = v'.
Proof.
  assert (N : forall l k w m, Forall (fun p => ~ named f p) (l ++ (k, w) :: m)%list -> ~ named f (k, w)).
  { intros l k w m F. rewrite Forall_app in F. destruct F as [_ F]. inversion F; assumption. }
  induction l1 as [|p l1 IH]; intros k l2 [|q l1'] k' l2' E M M' F F'; cbn [List.app] in E.
  - congruence.
  - injection E as <- ->. elim (N _ _ _ _ F M').
  - injection E as -> <-. elim (N _ _ _ _ F' M).
  - injection E as -> E. exact (IH _ _ _ _ _ E M M' F F').
Qed.
Lemma last_unique f l o o' : last_given f l o -> last_given f l o' -> o = o'.
Proof.
  assert (N : forall v, last_given f l None -> last_given f l (Some v) -> False).
  { intros v F (l1 & k & l2 & -> & M & _). cbn [SpecJson.last_given] in F. rewrite Forall_app in F. destruct F as [_ F]. inversion F; subst. contradiction. }
  destruct o as [v|], o' as [v'|]; intros G G'; [|elim (N v G' G)|elim (N v' G G')|reflexivity].
  destruct G as (l1 & k & l2 & E & M & F), G' as (l1' & k' & l2' & E' & M' & F'). f_equal. rewrite E in E'. exact (last_split f v v' l1 _ _ _ _ _ E' M M' F F').
Qed.
Lemma merged_unique f l m : merged f l m -> forall m', merged f l m' -> m = m'.
Proof.
  induction 1 as [|p l m H _ IH|k x l m H _ IH]; intros m' H'; inversion H' as [|p' l' n N M|k' x' l' n N M]; subst.
  - reflexivity.
  - exact (IH _ M).
  - destruct H as [H|H]; [contradiction|discriminate H].
  - destruct N as [N|N]; [contradiction|discriminate N].
  - rewrite (IH _ M). reflexivity.
Qed.
Lemma records_unique vs : forall l l', Forall2 record_value vs l -> Forall2 record_value vs l' -> l = l'.
Proof.
  induction vs as [|v vs IH]; intros l l' H H'; inversion H as [|? x ? xs Hx Hxs]; inversion H' as [|? y ? ys Hy Hys]; subst; [reflexivity|].
  rewrite (record_unique _ _ _ Hx Hy), (IH _ _ Hxs Hys). reflexivity.
Qed.
Lemma response_unique v p q : response_value v p -> response_value v q -> p = q.
Proof.
  intros [[-> ->]|(l & e & -> & H1 & H2 & H3 & H4 & H5)] [[E ->]|(l' & e' & E & H1' & H2' & H3' & H4' & H5')]; try discriminate E; [reflexivity|]. injection E as <-.
  pose proof (merged_unique _ _ _ H2 _ H2') as <-. destruct p as [a [b c] d], q as [a' [b' c'] d']. cbn [p_Success p_Error p_Response fst snd] in *.
  rewrite (field_unique _ _ _ _ _ _ bool_unique H1 H1'), (field_unique _ _ _ _ _ _ string_unique H3 H3'), (field_unique _ _ _ _ _ _ string_unique H4 H4').
  assert (d = d') as ->; [|reflexivity].
  destruct H5 as [[G ->]|(vs & G & R)], H5' as [[G' ->]|(vs' & G' & R')].
  - reflexivity.
  - destruct G as [G|G]; pose proof (last_unique _ _ _ _ G G') as E; discriminate E.
  - destruct G' as [G'|G']; pose proof (last_unique _ _ _ _ G G') as E; discriminate E.
  - pose proof (last_unique _ _ _ _ G G') as E. injection E as <-. exact (records_unique _ _ _ R R').
Qed.
