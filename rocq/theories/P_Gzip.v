(** Facts about base64, CRC-32, DEFLATE and gzip. *)
From Coq Require Import ZArith NArith List Bool String Ascii Lia.
From Verif Require Import Base64 Deflate Esc Gzip.
Import ListNotations.
Local Open Scope N_scope.

(** ** CRC-32 *)
Lemma odd_lxor a b : N.odd (N.lxor a b) = xorb (N.odd a) (N.odd b).
Proof. rewrite <- !N.bit0_odd. apply N.lxor_spec. Qed.
Lemma div2_lxor a b : N.div2 (N.lxor a b) = N.lxor (N.div2 a) (N.div2 b).
Proof. rewrite !N.div2_spec. apply N.shiftr_lxor. Qed.
Lemma crc_bit_lxor c e b : crc_bit (N.lxor c e) b = N.lxor (N.div2 c) (crc_bit e (xorb b (N.odd c))).
Proof.
  unfold crc_bit. rewrite odd_lxor, div2_lxor, xorb_assoc. destruct (xorb b (xorb (N.odd c) (N.odd e))); [apply N.lxor_assoc|reflexivity].
Qed.
Lemma crc_lookup_build bs : forall c e, crc_lookup (crc_build (List.length bs) e) bs c = fold_left crc_bit bs (N.lxor c e).
Proof.
  induction bs as [|b bs IH]; intros c e; cbn [List.length crc_build crc_lookup fold_left]; [reflexivity|].
  rewrite crc_bit_lxor. destruct (xorb b (N.odd c)); rewrite IH; reflexivity.
Qed.
Lemma crc_byte_bits c a : crc_byte c a = fold_left crc_bit (bits_of a) c.
Proof.
  unfold crc_byte. change crc_table with (crc_build 8 0). replace 8%nat with (List.length (bits_of a)) by (destruct a; reflexivity).
  rewrite crc_lookup_build, N.lxor_0_r. reflexivity.
Qed.
Definition bits (l : list ascii) : list bool := flat_map bits_of l.
Lemma crc_bits l : forall c, fold_left crc_byte l c = fold_left crc_bit (bits l) c.
Proof. induction l as [|a l IH]; intros c; cbn [fold_left bits flat_map]; [reflexivity|]. rewrite fold_left_app, <- crc_byte_bits. apply IH. Qed.

(** The register holds 32 bits, and a step can be undone. *)
Lemma poly_bits n : 32 <= n -> N.testbit poly n = false.
Proof. intros H. apply N.bits_above_log2. change (N.log2 poly) with 31. lia. Qed.
Definition small (c : N) : Prop := forall n, 32 <= n -> N.testbit c n = false.
Lemma small_lt c : c < 2 ^ 32 -> small c.
Proof. intros H n L. destruct (N.eq_0_gt_0_cases c) as [->|P]; [apply N.bits_0|]. apply N.bits_above_log2. apply N.log2_lt_pow2 in H; lia. Qed.
Lemma small_lxor a b : small a -> small b -> small (N.lxor a b).
Proof. intros A B n L. rewrite N.lxor_spec, A, B by exact L. reflexivity. Qed.
Lemma small_div2 a : small a -> small (N.div2 a) /\ N.testbit (N.div2 a) 31 = false.
Proof. intros A. rewrite N.div2_spec. split; [intros n L|]; rewrite N.shiftr_spec by lia; apply A; lia. Qed.
Lemma small_crc_bit c b : small c -> small (crc_bit c b).
Proof. intros A. unfold crc_bit. destruct (xorb b (N.odd c)); [apply small_lxor; [|exact poly_bits]|]; apply small_div2, A. Qed.
Lemma small_fold bs : forall c, small c -> small (fold_left crc_bit bs c).
Proof. induction bs as [|b bs IH]; intros c A; cbn [fold_left]; [exact A|]. apply IH, small_crc_bit, A. Qed.
Lemma top_crc_bit c b : small c -> N.testbit (crc_bit c b) 31 = xorb b (N.odd c).
Proof.
  intros A. unfold crc_bit. destruct (small_div2 c A) as [_ D]. destruct (xorb b (N.odd c)); [rewrite N.lxor_spec, D; reflexivity|exact D].
Qed.
Lemma crc_bit_inj c d b : small c -> small d -> crc_bit c b = crc_bit d b -> c = d.
Proof.
  intros C D E. assert (O : xorb b (N.odd c) = xorb b (N.odd d)) by (rewrite <- !top_crc_bit by assumption; congruence).
  unfold crc_bit in E. rewrite O in E. assert (Q : N.div2 c = N.div2 d).
  { destruct (xorb b (N.odd d)); [|exact E]. apply (f_equal (fun x => N.lxor x poly)) in E. rewrite !N.lxor_assoc, N.lxor_nilpotent, !N.lxor_0_r in E. exact E. }
  assert (P : N.odd c = N.odd d) by (destruct b, (N.odd c), (N.odd d); cbn in O; congruence).
  rewrite (N.div2_odd c), (N.div2_odd d), Q, P. reflexivity.
Qed.
Lemma crc_fold_inj bs : forall c d, small c -> small d -> fold_left crc_bit bs c = fold_left crc_bit bs d -> c = d.
Proof.
  induction bs as [|b bs IH]; intros c d C D E; cbn [fold_left] in E; [exact E|].
  apply IH in E; [apply crc_bit_inj in E; assumption| |]; apply small_crc_bit; assumption.
Qed.
(** Up to 32 bits go into the register as if they were added to it at once. *)
Fixpoint word (bs : list bool) : N := match bs with [] => 0 | b :: bs' => N.b2n b + 2 * word bs' end.
Lemma crc_word bs : forall c, fold_left crc_bit bs c = fold_left crc_bit (repeat false (List.length bs)) (N.lxor c (word bs)).
Proof.
  induction bs as [|b bs IH]; intros c; cbn [List.length repeat fold_left word]; [rewrite N.lxor_0_r; reflexivity|].
  rewrite IH. f_equal. replace (N.lxor c (N.b2n b + 2 * word bs)) with (N.lxor (2 * word bs) (N.lxor c (N.b2n b))).
  - rewrite crc_bit_lxor, N.div2_double, N.odd_mul. cbn [N.odd xorb andb]. rewrite (N.lxor_comm (word bs)). f_equal.
    unfold crc_bit. rewrite odd_lxor, div2_lxor. destruct b; cbn [N.b2n N.odd N.div2 xorb]; rewrite N.lxor_0_r, ?xorb_false_r, ?xorb_true_r; [|reflexivity].
    destruct (N.odd c); reflexivity.
  - rewrite N.lxor_comm, N.lxor_assoc. f_equal. apply N.bits_inj. intros n. rewrite N.lxor_spec.
    destruct b; cbn [N.b2n]; [|rewrite N.add_0_l, N.bits_0; apply xorb_false_l]. rewrite N.add_comm.
    destruct (N.eq_0_gt_0_cases n) as [->|P].
    + rewrite N.testbit_odd_0, N.testbit_even_0. reflexivity.
    + replace n with (N.succ (N.pred n)) by lia. rewrite N.testbit_odd_succ, N.testbit_even_succ by lia.
      rewrite (N.bits_above_log2 1) by (cbn; lia). apply xorb_false_l.
Qed.
Lemma word_bound bs : word bs < 2 ^ N.of_nat (List.length bs).
Proof.
  induction bs as [|b bs IH]; cbn [word List.length]; [reflexivity|]. rewrite Nat2N.inj_succ, N.pow_succ_r'. destruct b; cbn [N.b2n]; lia.
Qed.
Lemma word_inj bs : forall cs, List.length bs = List.length cs -> word bs = word cs -> bs = cs.
Proof.
  induction bs as [|b bs IH]; intros [|c cs] L E; try discriminate; [reflexivity|]. cbn [word List.length] in *.
  assert (b = c) by (destruct b, c; cbn [N.b2n] in E; [reflexivity|lia|lia|reflexivity]). subst c. f_equal. apply IH; [congruence|lia].
Qed.
Lemma crc_burst p v w s : List.length v = List.length w -> (List.length v <= 32)%nat -> v <> w ->
  forall c, small c -> fold_left crc_bit (p ++ v ++ s) c <> fold_left crc_bit (p ++ w ++ s) c.
Proof.
  intros L M N c C E. rewrite !fold_left_app in E. set (d := fold_left crc_bit p c) in *. assert (D : small d) by (apply small_fold, C).
  apply crc_fold_inj in E; [|apply small_fold, D|apply small_fold, D].
  rewrite (crc_word v), (crc_word w), <- L in E.
  assert (W : forall x, (List.length x <= 32)%nat -> small (word x)).
  { intros x X. apply small_lt. eapply N.lt_le_trans; [apply word_bound|]. apply N.pow_le_mono_r; lia. }
  apply crc_fold_inj in E; [|apply small_lxor; [exact D|apply W; lia]|apply small_lxor; [exact D|apply W; lia]].
  apply N, word_inj; [exact L|]. apply (f_equal (N.lxor d)) in E. rewrite <- !N.lxor_assoc, !N.lxor_nilpotent, !N.lxor_0_l in E. exact E.
Qed.

(** ** Base64 *)
Lemma newline_free_app a b : skip_newlines (a ++ b)%string = (skip_newlines a ++ skip_newlines b)%string.
Proof. induction a as [|c a IH]; cbn [append skip_newlines]; [reflexivity|]. rewrite IH. destruct (is_newline c); reflexivity. Qed.
(** The alphabet of RFC 4648. *)
Definition alphabet : string := "ABCDEFGHIJKLMNOPQRSTUVWXYZabcdefghijklmnopqrstuvwxyz0123456789+/".
Definition letter (n : N) : ascii := match String.get (N.to_nat n) alphabet with Some c => c | None => pad end.
(** The text of some bytes: three at a time as a number of 24 bits, written with four digits to the base 64. *)
Definition number24 (a b c : ascii) : N := (N_of_ascii a * 256 + N_of_ascii b) * 256 + N_of_ascii c.
Definition digit64 (n i : N) : ascii := letter (n / 64 ^ i mod 64).
Fixpoint encode (l : list ascii) : string :=
  match l with
  | [] => ""
  | [a] => let n := number24 a "000" "000" in String (digit64 n 3) (String (digit64 n 2) (String pad (String pad "")))
  | [a; b] => let n := number24 a b "000" in String (digit64 n 3) (String (digit64 n 2) (String (digit64 n 1) (String pad "")))
  | a :: b :: c :: l' =>
      let n := number24 a b c in
      String (digit64 n 3) (String (digit64 n 2) (String (digit64 n 1) (String (digit64 n 0) (encode l'))))
  end.
Definition six_n (s : six) : N :=
  let '(a, b, c, d, e, f) := s in word [a; b; c; d; e; f].
Lemma sextet_letter s : sextet (letter (six_n s)) = Some s.
Proof. destruct s as [[[[[a b] c] d] e] f]. destruct a, b, c, d, e, f; vm_compute; reflexivity. Qed.
Lemma letter_plain s : is_newline (letter (six_n s)) = false.
Proof. destruct s as [[[[[a b] c] d] e] f]. destruct a, b, c, d, e, f; vm_compute; reflexivity. Qed.
Lemma N_of_ascii_word a : N_of_ascii a = word (bits_of a).
Proof. destruct a as [[] [] [] [] [] [] [] []]; reflexivity. Qed.
(** The four digits are the bits in groups of six. *)
Definition hi6 (a : ascii) : six := let '(Ascii _ _ a2 a3 a4 a5 a6 a7) := a in (a2, a3, a4, a5, a6, a7).
Definition mid1 (a b : ascii) : six := let '(Ascii a0 a1 _ _ _ _ _ _) := a in let '(Ascii _ _ _ _ b4 b5 b6 b7) := b in (b4, b5, b6, b7, a0, a1).
Definition mid2 (b c : ascii) : six := let '(Ascii b0 b1 b2 b3 _ _ _ _) := b in let '(Ascii _ _ _ _ _ _ c6 c7) := c in (c6, c7, b0, b1, b2, b3).
Definition lo6 (c : ascii) : six := let '(Ascii c0 c1 c2 c3 c4 c5 _ _) := c in (c0, c1, c2, c3, c4, c5).
Lemma six_bound s : six_n s < 64.
Proof. destruct s as [[[[[a b] c] d] e] f]. apply (word_bound [a; b; c; d; e; f]). Qed.
Lemma digits_of a b c : number24 a b c = ((six_n (hi6 a) * 64 + six_n (mid1 a b)) * 64 + six_n (mid2 b c)) * 64 + six_n (lo6 c).
Proof.
  unfold number24. rewrite !N_of_ascii_word. destruct a as [a0 a1 a2 a3 a4 a5 a6 a7], b as [b0 b1 b2 b3 b4 b5 b6 b7], c as [c0 c1 c2 c3 c4 c5 c6 c7].
  unfold hi6, mid1, mid2, lo6, six_n, bits_of. cbn [word]. lia.
Qed.
Lemma digit64_0 a b c : digit64 (number24 a b c) 0 = letter (six_n (lo6 c)).
Proof. unfold digit64. rewrite digits_of, N.pow_0_r, N.div_1_r. f_equal. rewrite N.add_comm, N.mod_add by lia. apply N.mod_small, six_bound. Qed.
Lemma digit64_1 a b c : digit64 (number24 a b c) 1 = letter (six_n (mid2 b c)).
Proof.
  unfold digit64. rewrite digits_of. change (64 ^ 1) with 64. f_equal. rewrite N.div_add_l by lia. rewrite (N.div_small (six_n (lo6 c))) by apply six_bound.
  rewrite N.add_0_r, N.add_comm, N.mod_add by lia. apply N.mod_small, six_bound.
Qed.
Lemma digit64_2 a b c : digit64 (number24 a b c) 2 = letter (six_n (mid1 a b)).
Proof.
  unfold digit64. rewrite digits_of. change (64 ^ 2) with (64 * 64). f_equal. rewrite <- N.div_div by lia. rewrite N.div_add_l by lia. rewrite (N.div_small (six_n (lo6 c))) by apply six_bound.
  rewrite N.add_0_r. rewrite N.div_add_l by lia. rewrite (N.div_small (six_n (mid2 b c))) by apply six_bound.
  rewrite N.add_0_r, N.add_comm, N.mod_add by lia. apply N.mod_small, six_bound.
Qed.
Lemma digit64_3 a b c : digit64 (number24 a b c) 3 = letter (six_n (hi6 a)).
Proof.
  unfold digit64. rewrite digits_of. change (64 ^ 3) with (64 * 64 * 64). f_equal. rewrite <- !N.div_div by lia. rewrite N.div_add_l by lia. rewrite (N.div_small (six_n (lo6 c))) by apply six_bound.
  rewrite N.add_0_r. rewrite N.div_add_l by lia. rewrite (N.div_small (six_n (mid2 b c))) by apply six_bound.
  rewrite N.add_0_r. rewrite N.div_add_l by lia. rewrite (N.div_small (six_n (mid1 a b))) by apply six_bound.
  rewrite N.add_0_r. apply N.mod_small, six_bound.
Qed.
Lemma list_ind3 {A} (P : list A -> Prop) : P [] -> (forall a, P [a]) -> (forall a b, P [a; b]) -> (forall a b c l, P l -> P (a :: b :: c :: l)) -> forall l, P l.
Proof. intros H0 H1 H2 H3. fix IH 1. intros [|a [|b [|c l]]]; [exact H0|apply H1|apply H2|apply H3, IH]. Qed.
Lemma groups_encode l : groups (encode l) = (l, true).
Proof.
  induction l as [|a|a b|a b c l IH] using list_ind3; [reflexivity| | |]; cbn [encode groups]; rewrite ?digit64_3, ?digit64_2, ?digit64_1, ?digit64_0, ?sextet_letter.
  - change (sextet pad) with (@None six). cbn [Ascii.eqb]. destruct a as [[] [] [] [] [] [] [] []]; reflexivity.
  - change (sextet pad) with (@None six). destruct a, b. reflexivity.
  - rewrite IH. destruct a, b, c. reflexivity.
Qed.
Lemma encode_plain l : skip_newlines (encode l) = encode l.
Proof.
  assert (P : is_newline pad = false) by reflexivity.
  induction l as [|a|a b|a b c l IH] using list_ind3; [reflexivity| | |]; cbn [encode skip_newlines]; rewrite ?digit64_3, ?digit64_2, ?digit64_1, ?digit64_0, ?letter_plain, ?P;
  [reflexivity|reflexivity|]. rewrite IH. reflexivity.
Qed.
(** With line breaks (LF or CR LF) anywhere. *)
Lemma skip_concat nl ls : skip_newlines nl = ""%string -> skip_newlines (String.concat nl ls) = skip_newlines (String.concat "" ls).
Proof.
  intros H. induction ls as [|s ls IH]; [reflexivity|]. destruct ls as [|s' ls]; [reflexivity|].
  change (String.concat nl (s :: s' :: ls)) with (s ++ nl ++ String.concat nl (s' :: ls))%string.
  change (String.concat "" (s :: s' :: ls)) with (s ++ "" ++ String.concat "" (s' :: ls))%string. rewrite !newline_free_app, IH, H. reflexivity.
Qed.
Lemma base64_round l nl ls : skip_newlines nl = ""%string -> String.concat "" ls = encode l -> base64_decode (String.concat nl ls) = (l, true).
Proof. intros H E. unfold base64_decode. rewrite (skip_concat nl ls H), E, encode_plain. apply groups_encode. Qed.

(** ** DEFLATE: what comes after the blocks does not matter *)
Definition followed (s : stream) (x : list ascii) : stream := mkStream (s_bits s) (s_bytes s ++ x).
Lemma next_bit_followed s x b s' : next_bit s = Some (b, s') -> next_bit (followed s x) = Some (b, followed s' x).
Proof.
  destruct s as [[|c l] bs]; unfold next_bit, followed; cbn [s_bits s_bytes app].
  - destruct bs as [|[] bs]; [discriminate|]. cbn [app]. intros H. injection H as <- <-. reflexivity.
  - intros H. injection H as <- <-. reflexivity.
Qed.
Lemma number_followed x n : forall s v s', number n s = Some (v, s') -> number n (followed s x) = Some (v, followed s' x).
Proof.
  induction n as [|n IH]; intros s v s'; cbn [number]; [intros H; injection H as <- <-; reflexivity|].
  destruct (next_bit s) as [[b s1]|] eqn:B; [|discriminate]. rewrite (next_bit_followed s x b s1 B).
  destruct (number n s1) as [[w s2]|] eqn:E; [|discriminate]. rewrite (IH _ _ _ E). intros H. injection H as <- <-. reflexivity.
Qed.
Lemma symbol_followed x t : forall s v s', symbol t s = Some (v, s') -> symbol t (followed s x) = Some (v, followed s' x).
Proof.
  induction t as [|w|l IHl r IHr]; intros s v s'; cbn [symbol]; [discriminate|intros H; injection H as <- <-; reflexivity|].
  destruct (next_bit s) as [[b s1]|] eqn:B; [|discriminate]. rewrite (next_bit_followed s x b s1 B). destruct b; [apply IHr|apply IHl].
Qed.
Lemma symbols_followed x lit dist f : forall f' w out s w' out' s', (f <= f')%nat -> symbols f lit dist w out s = Done w' out' s' ->
  symbols f' lit dist w out (followed s x) = Done w' out' (followed s' x).
Proof.
  induction f as [|f IH]; intros [|f'] w out s w' out' s' F; cbn [symbols]; try discriminate; [lia|].
  destruct (symbol lit s) as [[v s1]|] eqn:E1; [|discriminate]. rewrite (symbol_followed x _ _ _ _ E1).
  destruct (v <? 256); [apply IH; lia|]. destruct (v =? 256); [intros H; injection H as <- <- <-; reflexivity|].
  destruct (length_base v) as [[lb ln]|]; [|discriminate].
  destruct (number ln s1) as [[lx s2]|] eqn:E2; [|discriminate]. rewrite (number_followed x _ _ _ _ E2).
  destruct (symbol dist s2) as [[dv s3]|] eqn:E3; [|discriminate]. rewrite (symbol_followed x _ _ _ _ E3).
  destruct (distance_base dv) as [[db dn]|]; [|discriminate].
  destruct (number dn s3) as [[dx s4]|] eqn:E4; [|discriminate]. rewrite (number_followed x _ _ _ _ E4).
  cbv zeta. destruct ((w <? db + dx) || (32768 <? db + dx)); [discriminate|]. apply IH. lia.
Qed.
Lemma code_lengths_followed x t n f : forall acc s l s', code_lengths f t n acc s = Some (l, s') -> code_lengths f t n acc (followed s x) = Some (l, followed s' x).
Proof.
  induction f as [|f IH]; intros acc s l s'; cbn [code_lengths]; [discriminate|].
  destruct (Nat.leb n (List.length acc)); [intros H; injection H as <- <-; reflexivity|].
  destruct (symbol t s) as [[v s1]|] eqn:E1; [|discriminate]. rewrite (symbol_followed x _ _ _ _ E1). destruct (v <? 16); [apply IH|].
  assert (A : forall value b base, match number b s1 with
      | None => None
      | Some (y, s2) => let r := (base + N.to_nat y)%nat in if Nat.ltb n (List.length acc + r) then None else code_lengths f t n (repeat value r ++ acc) s2 end = Some (l, s') ->
    match number b (followed s1 x) with
      | None => None
      | Some (y, s2) => let r := (base + N.to_nat y)%nat in if Nat.ltb n (List.length acc + r) then None else code_lengths f t n (repeat value r ++ acc) s2 end = Some (l, followed s' x)).
  { intros value b base. destruct (number b s1) as [[y s2]|] eqn:E2; [|discriminate]. rewrite (number_followed x _ _ _ _ E2). cbv zeta.
    destruct (Nat.ltb n _); [discriminate|apply IH]. }
  destruct (v =? 16); [destruct acc; [discriminate|apply A]|]. destruct (v =? 17); [apply A|]. destruct (v =? 18); [apply A|discriminate].
Qed.
Lemma numbers_followed x b k : forall s l s', numbers k b s = Some (l, s') -> numbers k b (followed s x) = Some (l, followed s' x).
Proof.
  induction k as [|k IH]; intros s l s'; cbn [numbers]; [intros H; injection H as <- <-; reflexivity|].
  destruct (number b s) as [[y s1]|] eqn:E; [|discriminate]. rewrite (number_followed x _ _ _ _ E).
  destruct (numbers k b s1) as [[l' s2]|] eqn:E2; [|discriminate]. rewrite (IH _ _ _ E2). intros H. injection H as <- <-. reflexivity.
Qed.
Lemma dynamic_followed x s lit dist s' : dynamic_codes s = Some (lit, dist, s') -> dynamic_codes (followed s x) = Some (lit, dist, followed s' x).
Proof.
  unfold dynamic_codes.
  destruct (number 5 s) as [[a s1]|] eqn:E1; [|discriminate]. rewrite (number_followed x _ _ _ _ E1).
  destruct (number 5 s1) as [[b s2]|] eqn:E2; [|discriminate]. rewrite (number_followed x _ _ _ _ E2).
  destruct (number 4 s2) as [[c s3]|] eqn:E3; [|discriminate]. rewrite (number_followed x _ _ _ _ E3). cbv zeta.
  destruct (Nat.ltb 286 _ || Nat.ltb 30 _); [discriminate|].
  destruct (numbers _ 3 s3) as [[cl s4]|] eqn:E4; [|discriminate]. rewrite (numbers_followed x _ _ _ _ _ E4).
  destruct (code (unscramble cl)) as [t|]; [|discriminate].
  destruct (code_lengths _ t _ [] s4) as [[r s5]|] eqn:E5; [|discriminate]. rewrite (code_lengths_followed x _ _ _ _ _ _ _ E5).
  destruct (code (firstn (N.to_nat a + 257) (rev r))), (code (skipn (N.to_nat a + 257) (rev r))); try discriminate. intros H. injection H as <- <- <-. reflexivity.
Qed.
Lemma stored_followed x w out s w' out' s' : stored w out s = Done w' out' s' -> stored w out (followed s x) = Done w' out' (followed s' x).
Proof.
  unfold stored. cbn [followed s_bytes]. destruct (s_bytes s) as [|a [|b [|c [|d l]]]]; try discriminate. cbn [app]. cbv zeta.
  destruct (negb _); [discriminate|]. set (n := N.to_nat (n_of_bytes a b)).
  destruct (Nat.ltb_spec (List.length (firstn n l)) n) as [|L]; [discriminate|]. rewrite firstn_length in L.
  intros H. injection H as <- <- <-. rewrite firstn_app. replace (n - List.length l)%nat with 0%nat by lia. cbn [firstn]. rewrite app_nil_r.
  destruct (Nat.ltb_spec (List.length (firstn n l)) n) as [L'|_]; [rewrite firstn_length in L'; lia|].
  rewrite skipn_app. replace (n - List.length l)%nat with 0%nat by lia. reflexivity.
Qed.
Lemma block_followed x k f f' w out s w' out' s' : (f <= f')%nat -> block f k w out s = Done w' out' s' -> block f' k w out (followed s x) = Done w' out' (followed s' x).
Proof.
  intros F. unfold block. generalize (code fixed_lengths) (code fixed_distances). intros c1 c2. destruct k as [|[p|[p|p|]|]]; try discriminate.
  - apply stored_followed.
  - destruct (dynamic_codes s) as [[[lit dist] s1]|] eqn:E; [|discriminate]. rewrite (dynamic_followed x _ _ _ _ E). apply symbols_followed, F.
  - destruct c1, c2; try discriminate. apply symbols_followed, F.
Qed.
Lemma blocks_followed x f : forall f' b b' w out s w' out' s', (f <= f')%nat -> (b <= b')%nat -> blocks f b w out s = Done w' out' s' ->
  blocks f' b' w out (followed s x) = Done w' out' (followed s' x).
Proof.
  induction f as [|f IH]; intros [|f'] b b' w out s w' out' s' F B; cbn [blocks]; try discriminate; [lia|].
  destruct (number 1 s) as [[fin s1]|] eqn:E1; [|discriminate]. rewrite (number_followed x _ _ _ _ E1).
  destruct (number 2 s1) as [[k s2]|] eqn:E2; [|discriminate]. rewrite (number_followed x _ _ _ _ E2).
  destruct (block b k w out s2) as [o|w1 o s3] eqn:E3; [discriminate|]. rewrite (block_followed x k b b' _ _ _ _ _ _ B E3).
  destruct (fin =? 1); [intros H; injection H as <- <- <-; reflexivity|]. apply IH; [lia|exact B].
Qed.
Lemma inflate_followed l out r x : inflate l = (out, Some r) -> inflate (l ++ x) = (out, Some (r ++ x)).
Proof.
  unfold inflate. destruct (blocks _ _ 0 [] (mkStream [] l)) as [o|w o s] eqn:E; intros H; [discriminate|]. injection H as <- <-.
  change (mkStream [] (l ++ x)) with (followed (mkStream [] l) x).
  set (n := S (8 * List.length l)) in *. set (m := S (8 * List.length (l ++ x))). assert (L : (n <= m)%nat) by (unfold n, m; rewrite app_length; lia).
  rewrite (blocks_followed x n m n m _ _ _ _ _ _ L L E). reflexivity.
Qed.

(** ** gzip: the header likewise *)
Lemma extra_followed x l r : extra l = Some r -> extra (l ++ x) = Some (r ++ x)%list.
Proof.
  unfold extra. destruct l as [|a [|b l]]; try discriminate. cbn [app]. cbv zeta. set (n := N.to_nat _).
  destruct (Nat.ltb_spec (List.length l) n) as [|L]; [discriminate|]. intros H. injection H as <-.
  destruct (Nat.ltb_spec (List.length (l ++ x)) n) as [L'|_]; [rewrite app_length in L'; lia|]. rewrite skipn_app.
  replace (n - List.length l)%nat with 0%nat by lia. reflexivity.
Qed.
Lemma zero_ended_followed x n : forall l r, zero_ended n l = Some r -> zero_ended n (l ++ x) = Some (r ++ x)%list.
Proof.
  induction n as [|n IH]; intros l r; cbn [zero_ended]; [discriminate|]. destruct l as [|c l]; [discriminate|]. cbn [app].
  destruct (Ascii.eqb c "000"); [intros H; injection H as <-; reflexivity|apply IH].
Qed.
Lemma opt_followed x b (f : list ascii -> option (list ascii)) : (forall l r, f l = Some r -> f (l ++ x)%list = Some (r ++ x)%list) ->
  forall l r, opt b f l = Some r -> opt b f (l ++ x)%list = Some (r ++ x)%list.
Proof. intros H l r. unfold opt. destruct b; [apply H|]. intros E. injection E as <-. reflexivity. Qed.
Lemma header_sum_followed x all l r : header_sum all l = Some r -> header_sum (all ++ x) (l ++ x) = Some (r ++ x)%list.
Proof.
  unfold header_sum. destruct l as [|a [|b l]]; try discriminate. cbn [app List.length]. rewrite !app_length.
  replace (List.length all + List.length x - S (S (List.length l + List.length x)))%nat with (List.length all - S (S (List.length l)))%nat by lia.
  rewrite firstn_app. replace (List.length all - S (S (List.length l)) - List.length all)%nat with 0%nat by lia. cbn [firstn]. rewrite app_nil_r.
  destruct (_ =? _); [|discriminate]. intros H. injection H as <-. reflexivity.
Qed.
Lemma header_followed x l r : header l = Some r -> header (l ++ x) = Some (r ++ x)%list.
Proof.
  unfold header. destruct l as [|i1 [|i2 [|m [|f [|a [|b [|c [|d [|e [|g l]]]]]]]]]]; try discriminate. cbn [app].
  destruct (negb _); [discriminate|].
  destruct (opt (flag f 2) extra l) as [l2|] eqn:E2; [|discriminate]. rewrite (opt_followed x _ _ (extra_followed x) _ _ E2).
  destruct (opt (flag f 3) _ l2) as [l3|] eqn:E3; [|discriminate]. rewrite (opt_followed x _ _ (zero_ended_followed x 512) _ _ E3).
  destruct (opt (flag f 4) _ l3) as [l4|] eqn:E4; [|discriminate]. rewrite (opt_followed x _ _ (zero_ended_followed x 512) _ _ E4).
  intros H. unfold opt in *. destruct (flag f 1); [|injection H as <-; reflexivity].
  apply (header_sum_followed x _ _ _ H).
Qed.

(** ** A file of one member *)
(** The bytes [l] are one gzip member with the content [out] and nothing after it. *)
Definition one_member (l out : list ascii) : Prop :=
  exists l1 c s, header l = Some l1 /\ inflate l1 = (out, Some (c ++ s)%list) /\ List.length c = 4%nat /\ List.length s = 4%nat.
Definition num32 (l : list ascii) : N := match l with [a; b; c; d] => le32 a b c d | _ => 0 end.
Lemma members_one f ok l1 out c s : inflate l1 = (out, Some (c ++ s)%list) -> List.length c = 4%nat -> List.length s = 4%nat ->
  members (S f) ok l1 = (out, negb ((num32 c =? crc32 out) && (num32 s =? mod32 (N.of_nat (List.length out))) && ok)).
Proof.
  intros E C S. cbn [members]. rewrite E. destruct c as [|a [|b [|c [|d [|]]]]]; try discriminate. destruct s as [|e [|g [|h [|i [|]]]]]; try discriminate.
  cbn [app num32]. destruct (_ && _); reflexivity.
Qed.
Lemma members_short f ok l1 out r : inflate l1 = (out, r) -> match r with Some r' => (List.length r' < 8)%nat | None => True end -> members (S f) ok l1 = (out, true).
Proof.
  intros E L. cbn [members]. rewrite E. destruct r as [[|a [|b [|c [|d [|e [|g [|h [|i r]]]]]]]]|]; try reflexivity. cbn [List.length] in L. lia.
Qed.
Lemma decode_truncated p x out t : one_member (p ++ x) out -> x <> [] -> fst (base64_decode t) = p ->
  decode t = NoHeader \/ exists b, decode t = ReadBytes b true.
Proof.
  intros (l1 & c & s & H & I & C & S) X T. unfold decode. destruct (base64_decode t) as [l ok]. cbn [fst] in T. subst l.
  destruct (header p) as [p1|] eqn:P; [|left; reflexivity]. right. rewrite (header_followed x p p1 P) in H. injection H as <-.
  destruct (inflate p1) as [o r] eqn:E. rewrite (members_short _ ok p1 o r E); [eauto|].
  destruct r as [r'|]; [|exact Logic.I]. rewrite (inflate_followed _ _ _ x E) in I. injection I as _ I. apply (f_equal (@List.length ascii)) in I. rewrite !app_length in I.
  destruct x; [congruence|]. cbn [List.length] in I. lia.
Qed.
Lemma decode_one t l l1 out c s : base64_decode t = (l, true) -> header l = Some l1 -> inflate l1 = (out, Some (c ++ s)%list) ->
  List.length c = 4%nat -> List.length s = 4%nat ->
  decode t = ReadBytes (string_of_list_ascii out) (negb ((num32 c =? crc32 out) && (num32 s =? mod32 (N.of_nat (List.length out))))).
Proof. intros B H I C S. unfold decode. rewrite B, H, (members_one _ true l1 out c s I C S), andb_true_r. reflexivity. Qed.

(** ** Packing without compression *)
Definition le (n : nat) (v : N) : list ascii := map (fun i => ascii_of_N (v / 256 ^ N.of_nat i mod 256)) (seq 0 n).
Fixpoint stored_blocks (chunks : list (list ascii)) : list ascii :=
  match chunks with
  | [] => []
  | c :: cs => ((if cs then "001" else "000")%char :: le 2 (N.of_nat (List.length c)) ++ le 2 (65535 - N.of_nat (List.length c)) ++ c) ++ stored_blocks cs
  end.
Definition gzip_header : list ascii := map ascii_of_N [31; 139; 8; 0; 0; 0; 0; 0; 0; 255].
Definition pack (chunks : list (list ascii)) : list ascii :=
  let out := List.concat chunks in
  (gzip_header ++ stored_blocks chunks ++ le 4 (crc32 out) ++ le 4 (N.of_nat (List.length out)))%list.
Lemma N_byte n : N_of_ascii (ascii_of_N (n mod 256)) = n mod 256.
Proof. apply N_ascii_embedding, N.mod_lt. lia. Qed.
Lemma le2 v : v < 65536 -> exists a b, le 2 v = [a; b] /\ n_of_bytes a b = v.
Proof.
  intros L. eexists _, _. split; [reflexivity|]. unfold n_of_bytes. rewrite !N_byte. change (256 ^ N.of_nat 0) with 1. change (256 ^ N.of_nat 1) with 256.
  rewrite N.div_1_r, (N.mod_small (v / 256)) by (apply N.div_lt_upper_bound; lia). rewrite (N.div_mod v 256) at 3 by lia. lia.
Qed.
Lemma le4 v : List.length (le 4 v) = 4%nat /\ num32 (le 4 v) = v mod 2 ^ 32.
Proof.
  split; [reflexivity|]. unfold le. cbn [seq map num32]. unfold le32, n_of_bytes. rewrite !N_byte.
  change (256 ^ N.of_nat 0) with 1. change (256 ^ N.of_nat 1) with 256. change (256 ^ N.of_nat 2) with (256 * 256). change (256 ^ N.of_nat 3) with (256 * 256 * 256).
  rewrite N.div_1_r, <- !N.div_div by lia. change (2 ^ 32) with (256 * (256 * (256 * 256))).
  rewrite !N.mod_mul_r by lia. lia.
Qed.
Lemma mod32_mod n : mod32 n = n mod 2 ^ 32.
Proof. unfold mod32, mask32. change 4294967295 with (N.ones 32). apply N.land_ones. Qed.
Lemma small_mod c : small c -> c mod 2 ^ 32 = c.
Proof.
  intros H. apply N.mod_small. destruct (N.eq_0_gt_0_cases c) as [->|P]; [reflexivity|]. apply N.log2_lt_pow2; [exact P|].
  destruct (N.lt_ge_cases (N.log2 c) 32) as [L|L]; [exact L|]. specialize (H _ L). rewrite N.bit_log2 in H by lia. discriminate.
Qed.
Lemma small_crc l : small (crc32 l).
Proof. unfold crc32. assert (M : small mask32) by (apply small_lt; reflexivity). apply small_lxor; [|exact M]. rewrite crc_bits. apply small_fold, M. Qed.
Lemma blocks_stored r chunks : forall f b w out, chunks <> [] -> (forall c, In c chunks -> N.of_nat (List.length c) < 65536) -> (List.length chunks <= f)%nat ->
  exists w', blocks f b w out (mkStream [] (stored_blocks chunks ++ r)) = Done w' (rev_append (List.concat chunks) out) (mkStream [] r).
Proof.
  induction chunks as [|c cs IH]; intros [|f] b w out N B F; cbn [List.length] in F; [congruence|congruence|lia|].
  assert (L : N.of_nat (List.length c) < 65536) by (apply B; left; reflexivity).
  destruct (le2 _ L) as (n0 & n1 & E1 & V1). destruct (le2 (65535 - N.of_nat (List.length c)) ltac:(lia)) as (m0 & m1 & E2 & V2).
  cbn [stored_blocks]. rewrite E1, E2. cbn [app]. rewrite <- app_assoc.
  assert (St : forall w out r', stored w out (mkStream [false; false; false; false; false] (n0 :: n1 :: m0 :: m1 :: c ++ r')) = Done (w + N.of_nat (List.length c)) (rev_append c out) (mkStream [] r')).
  { intros w0 out0 r'. unfold stored. cbn [s_bytes]. cbv zeta. rewrite V1, V2, N.eqb_refl. cbn [negb]. rewrite Nat2N.id.
    rewrite firstn_app, Nat.sub_diag, firstn_all. cbn [firstn]. rewrite app_nil_r, Nat.ltb_irrefl, skipn_app, Nat.sub_diag, skipn_all. reflexivity. }
  cbn [blocks]. destruct cs as [|c' cs].
  - cbn [number next_bit s_bits s_bytes block N.double N.succ_double stored_blocks app]. rewrite (St w out r). cbn [N.eqb Pos.eqb List.concat]. rewrite app_nil_r. eauto.
  - specialize (IH f b (w + N.of_nat (List.length c)) (rev_append c out) ltac:(discriminate) (fun x I => B x (or_intror I)) ltac:(lia)). destruct IH as [w' IH].
    exists w'. cbn [number next_bit s_bits s_bytes block N.double N.succ_double]. rewrite St. cbn [N.eqb]. rewrite IH. f_equal.
    cbn [List.concat]. rewrite !rev_append_rev, !rev_app_distr, !app_assoc. reflexivity.
Qed.
Lemma chunks_length chunks : (List.length chunks <= List.length (stored_blocks chunks))%nat.
Proof. induction chunks as [|c cs IH]; cbn [stored_blocks List.length]; [lia|]. rewrite app_length. cbn [List.length]. lia. Qed.
Lemma pack_one chunks : chunks <> [] -> (forall c, In c chunks -> N.of_nat (List.length c) < 65536) -> 
  header (pack chunks) = Some (stored_blocks chunks ++ le 4 (crc32 (List.concat chunks)) ++ le 4 (N.of_nat (List.length (List.concat chunks))))%list /\
  inflate (stored_blocks chunks ++ le 4 (crc32 (List.concat chunks)) ++ le 4 (N.of_nat (List.length (List.concat chunks)))) =
    (List.concat chunks, Some (le 4 (crc32 (List.concat chunks)) ++ le 4 (N.of_nat (List.length (List.concat chunks))))%list).
Proof.
  intros N B. split; [reflexivity|]. generalize (le 4 (crc32 (List.concat chunks)) ++ le 4 (N.of_nat (List.length (List.concat chunks))))%list. intros r.
  unfold inflate. set (n := S (8 * _)). destruct (blocks_stored r chunks n n 0 [] N B) as [w E].
  { unfold n. rewrite app_length. pose proof (chunks_length chunks). lia. }
  rewrite E. cbn [s_bytes]. rewrite !rev_append_rev, app_nil_r, app_nil_r, rev_involutive. reflexivity.
Qed.
