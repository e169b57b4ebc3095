(** Lemmas for C59: checksum, gzip and base64 against the relations of SpecFlate.v. *)
From Coq Require Import Arith PArith NArith List Bool String Ascii Lia ZifyBool ZifyN.
From Verif Require Import Base64 Deflate Esc Gzip P_Gzip SpecFlate P_Deflate.
Import ListNotations.
Local Open Scope N_scope.

(** ** The checksum *)
Lemma model_bits l : P_Gzip.bits l = bits l.
Proof. unfold P_Gzip.bits, bits. induction l as [|c l IH]; [reflexivity|]. cbn [flat_map]. rewrite IH, byte_bits_of. reflexivity. Qed.
Fixpoint zip_xor (a b : list bool) : list bool := match a, b with x :: a', y :: b' => xorb x y :: zip_xor a' b' | _, _ => [] end.
Lemma zip_xor_length a : forall b, List.length a = List.length b -> List.length (zip_xor a b) = List.length a.
Proof. induction a as [|x a IH]; intros [|y b] L; try discriminate L; [reflexivity|]. cbn [zip_xor List.length] in *. rewrite IH; lia. Qed.
Lemma double_lxor a b : 2 * N.lxor a b = N.lxor (2 * a) (2 * b).
Proof. destruct a, b; reflexivity. Qed.
Lemma push_lxor x y a b : N.lxor (N.b2n x + 2 * a) (N.b2n y + 2 * b) = N.b2n (xorb x y) + 2 * N.lxor a b.
Proof.
  apply N.bits_inj. intros n. rewrite N.lxor_spec. destruct (N.eq_dec n 0) as [->|H].
  - rewrite !(N.add_comm (N.b2n _)), !N.testbit_0_r. reflexivity.
  - replace n with (N.succ (N.pred n)) by lia. rewrite !(N.add_comm (N.b2n _)), !N.testbit_succ_r, N.lxor_spec. reflexivity.
Qed.
Lemma low_first_xor a : forall b, List.length a = List.length b -> low_first (zip_xor a b) = N.lxor (low_first a) (low_first b).
Proof. induction a as [|x a IH]; intros [|y b] L; try discriminate L; [reflexivity|]. cbn [zip_xor low_first]. rewrite push_lxor, IH by (cbn in L; lia). reflexivity. Qed.
Lemma zip_xor_app a : forall b c d, List.length a = List.length b -> zip_xor (a ++ c) (b ++ d) = (zip_xor a b ++ zip_xor c d)%list.
Proof. induction a as [|x a IH]; intros [|y b] c d L; try discriminate L; [reflexivity|]. cbn [zip_xor List.app]. rewrite IH by (cbn in L; lia). reflexivity. Qed.
Lemma zip_xor_rev a : forall b, List.length a = List.length b -> rev (zip_xor a b) = zip_xor (rev a) (rev b).
Proof.
  induction a as [|x a IH]; intros [|y b] L; try discriminate L; [reflexivity|]. cbn [zip_xor rev List.length] in *. rewrite IH by lia. rewrite zip_xor_app by (rewrite !rev_length; lia). reflexivity.
Qed.
Lemma high_first_xor a b : List.length a = List.length b -> high_first (zip_xor a b) = N.lxor (high_first a) (high_first b).
Proof. intros L. unfold high_first. rewrite zip_xor_rev by exact L. apply low_first_xor. rewrite !rev_length. exact L. Qed.
Lemma low_first_inj a : forall b, List.length a = List.length b -> low_first a = low_first b -> a = b.
Proof.
  induction a as [|x a IH]; intros [|y b] L E; try discriminate L; [reflexivity|]. cbn [low_first List.length] in *.
  assert (N.b2n x = N.b2n y /\ low_first a = low_first b) as [Ex Ea] by (destruct x, y; cbn [N.b2n] in *; lia).
  f_equal; [destruct x, y; cbn in Ex; congruence|apply IH; [lia|exact Ea]].
Qed.
Lemma high_first_inj a b : List.length a = List.length b -> high_first a = high_first b -> a = b.
Proof. intros L E. apply low_first_inj in E; [|rewrite !rev_length; exact L]. rewrite <- (rev_involutive a), E. apply rev_involutive. Qed.
Lemma add_lxor a r k : r < 2 ^ k -> a * 2 ^ k + r = N.lxor (a * 2 ^ k) r.
Proof.
  intros H. apply N.add_nocarry_lxor. apply N.bits_inj. intros n. rewrite N.land_spec, N.bits_0. destruct (N.ltb_spec n k) as [L|L].
  - rewrite N.mul_pow2_bits_low by exact L. reflexivity.
  - rewrite <- (N.mod_small r (2 ^ k) H), N.mod_pow2_bits_high by exact L. apply andb_false_r.
Qed.
Lemma product_push q (b : bool) g : product (N.b2n b + 2 * q) g = N.lxor (2 * product q g) (if b then g else 0).
Proof. destruct q as [|p], b; cbn [N.b2n]; rewrite ?N.lxor_0_r; try reflexivity. Qed.

Definition gen_word : list bool := map (N.testbit poly) (map N.of_nat (seq 0 32)).
Lemma gen_word_ok : List.length gen_word = 32%nat /\ low_first gen_word = poly /\ N.lxor (high_first gen_word) generator = 2 ^ 32.
Proof. vm_compute. auto. Qed.
Lemma crc_bit_word b x w : List.length w = 31%nat ->
  let w' := if xorb b x then zip_xor (w ++ [false]) gen_word else (w ++ [false])%list in
  crc_bit (low_first (x :: w)) b = low_first w' /\ List.length w' = 32%nat /\
  high_first w' = N.lxor (2 * high_first w) (if xorb b x then high_first gen_word else 0).
Proof.
  intros L w'. assert (D : N.div2 (low_first (x :: w)) = low_first (w ++ [false]) /\ N.odd (low_first (x :: w)) = x).
  { rewrite low_first_app. change (low_first [false]) with 0. rewrite N.mul_0_r, N.add_0_r. cbn [low_first]. destruct x, (low_first w); split; reflexivity. }
  destruct D as [D1 D2]. destruct gen_word_ok as (Lg & Gl & _). unfold crc_bit. rewrite D1, D2. unfold w'. destruct (xorb b x).
  - split; [rewrite low_first_xor, Gl by (rewrite app_length, Lg; cbn [List.length]; lia); reflexivity|]. split; [rewrite zip_xor_length; rewrite app_length, ?Lg; cbn [List.length]; lia|].
    rewrite high_first_xor by (rewrite app_length, Lg; cbn [List.length]; lia). rewrite high_first_app. reflexivity.
  - split; [reflexivity|]. split; [rewrite app_length; cbn [List.length]; lia|]. rewrite high_first_app, N.lxor_0_r. reflexivity.
Qed.
Lemma crc_poly bs : exists q w, List.length w = 32%nat /\ fold_left crc_bit bs mask32 = low_first w /\
  N.lxor (high_first bs * 2 ^ 32) ((2 ^ 32 - 1) * 2 ^ N.of_nat (List.length bs)) = N.lxor (product q generator) (high_first w).
Proof.
  induction bs as [|b bs (q & w & L & C & E)] using rev_ind.
  - exists 0, (repeat true 32). split; [reflexivity|]. split; vm_compute; reflexivity.
  - rewrite fold_left_app, C. cbn [fold_left]. destruct w as [|x w]; [discriminate L|]. assert (Lw : List.length w = 31%nat) by (cbn in L; lia).
    pose proof (crc_bit_word b x w Lw) as H. cbv zeta in H. set (w' := if xorb b x then zip_xor (w ++ [false]) gen_word else (w ++ [false])%list) in *. destruct H as (H1 & H2 & H3).
    exists (N.b2n (xorb b x) + 2 * q), w'. split; [exact H2|]. split; [exact H1|].
    rewrite high_first_app, app_length. cbn [List.length]. rewrite Nat.add_1_r, Nat2N.inj_succ, N.pow_succ_r'.
    replace ((2 ^ 32 - 1) * (2 * 2 ^ N.of_nat (List.length bs))) with (2 * ((2 ^ 32 - 1) * 2 ^ N.of_nat (List.length bs))) by lia.
    replace ((N.b2n b + 2 * high_first bs) * 2 ^ 32) with (N.lxor (2 * (high_first bs * 2 ^ 32)) (N.b2n b * 2 ^ 32)).
    2: { replace ((N.b2n b + 2 * high_first bs) * 2 ^ 32) with (high_first bs * 2 ^ 33 + N.b2n b * 2 ^ 32) by (change (2 ^ 33) with (2 * 2 ^ 32); lia). rewrite add_lxor by (destruct b; reflexivity). f_equal. change (2 ^ 33) with (2 * 2 ^ 32). lia. }
    rewrite (N.lxor_comm (2 * _) (N.b2n b * 2 ^ 32)), N.lxor_assoc, <- double_lxor, E, double_lxor.
    rewrite product_push, H3, high_first_cons, Lw. change (N.of_nat 31) with 31.
    assert (B : 2 * high_first w < 2 ^ 32) by (pose proof (high_first_bound w) as B; rewrite Lw in B; change (2 ^ N.of_nat 31) with 2147483648 in B; change (2 ^ 32) with 4294967296; lia).
    replace (2 * (N.b2n x * 2 ^ 31 + high_first w)) with (N.b2n x * 2 ^ 32 + 2 * high_first w) by (change (2 ^ 32) with (2 * 2 ^ 31); lia).
    rewrite add_lxor by exact B. destruct gen_word_ok as (_ & _ & G). set (P := 2 * product q generator). set (R := 2 * high_first w). clearbody P R. set (hg := high_first gen_word) in *. clearbody hg.
    destruct b, x; cbn [N.b2n xorb]; rewrite ?N.mul_0_l, ?N.mul_1_l, ?N.lxor_0_l, ?N.lxor_0_r; try (rewrite <- G).
    + rewrite !N.lxor_assoc, (N.lxor_comm generator (N.lxor P _)), !N.lxor_assoc. rewrite (N.lxor_comm R generator), <- (N.lxor_assoc generator generator R), N.lxor_nilpotent, N.lxor_0_l.
      rewrite (N.lxor_comm hg (N.lxor P _)), !N.lxor_assoc, (N.lxor_comm R hg), <- (N.lxor_assoc hg hg R), N.lxor_nilpotent, N.lxor_0_l. reflexivity.
    + apply N.bits_inj. intros n. rewrite !N.lxor_spec. destruct (N.testbit P n), (N.testbit R n), (N.testbit hg n), (N.testbit generator n); reflexivity.
    + apply N.bits_inj. intros n. rewrite !N.lxor_spec. destruct (N.testbit P n), (N.testbit R n), (N.testbit hg n), (N.testbit generator n); reflexivity.
    + reflexivity.
Qed.
Lemma product_unique q : forall q', N.lxor (product q generator) (product q' generator) < 2 ^ 32 -> q = q'.
Proof.
  assert (Sp : forall n, exists b m, n = N.b2n b + 2 * m /\ (n <> 0 -> m < n)).
  { intros n. exists (N.odd n), (N.div2 n). pose proof (N.div2_odd n) as E. split; [rewrite N.add_comm; exact E|]. intros H. destruct (N.odd n); cbn [N.b2n] in E; lia. }
  assert (Main : forall k q q', (N.to_nat q + N.to_nat q' <= k)%nat -> N.lxor (product q generator) (product q' generator) < 2 ^ 32 -> q = q').
  { induction k as [|k IH]; intros q0 q1 K H; [lia|]. destruct (N.eq_dec q0 q1) as [|Ne]; [assumption|].
    destruct (Sp q0) as (b & m & E & M), (Sp q1) as (b' & m' & E' & M').
    set (X := N.lxor (product m generator) (product m' generator)).
    assert (EX : N.lxor (product q0 generator) (product q1 generator) = N.lxor (2 * X) (if xorb b b' then generator else 0)).
    { rewrite E, E', !product_push. unfold X. rewrite double_lxor. apply N.bits_inj. intros n. destruct b, b'; cbn [xorb]; rewrite !N.lxor_spec, ?N.bits_0; 
      destruct (N.testbit (2 * product m generator) n), (N.testbit (2 * product m' generator) n); try destruct (N.testbit generator n); reflexivity. }
    rewrite EX in H. assert (Xb : X < 2 ^ 32).
    { assert (2 * X < 2 ^ 33); [|change (2 ^ 33) with (2 * 2 ^ 32) in *; lia]. 
      replace (2 * X) with (N.lxor (N.lxor (2 * X) (if xorb b b' then generator else 0)) (if xorb b b' then generator else 0)) by (rewrite N.lxor_assoc, N.lxor_nilpotent, N.lxor_0_r; reflexivity).
      set (Y := N.lxor (2 * X) _) in *. clearbody Y. set (g := if xorb b b' then generator else 0). assert (Gb : g < 2 ^ 33) by (unfold g; destruct (xorb b b'); reflexivity).
      assert (Yb : Y < 2 ^ 33) by (change (2 ^ 33) with (2 * 2 ^ 32); lia). clear - Gb Yb.
      destruct (N.eq_dec (N.lxor Y g) 0) as [->|Nz]; [reflexivity|]. apply N.log2_lt_pow2; [lia|].
      pose proof (N.log2_lxor Y g) as Lx. destruct (N.eq_dec Y 0) as [->|Ny]; [rewrite N.lxor_0_l in *; apply N.log2_lt_pow2; lia|].
      destruct (N.eq_dec g 0) as [->|Ng]; [rewrite N.lxor_0_r in *; apply N.log2_lt_pow2; lia|].
      apply N.log2_lt_pow2 in Gb; [|lia]. apply N.log2_lt_pow2 in Yb; [|lia]. lia. }
    assert (m = m') as <-.
    { destruct (N.eq_dec q0 0) as [Z0|Z0]; [destruct (N.eq_dec q1 0) as [Z1|Z1]; [lia|]|].
      - apply IH; [specialize (M' Z1); assert (m = 0) by (destruct b; cbn [N.b2n] in E; lia); lia|exact Xb].
      - apply IH; [specialize (M Z0); assert (m' <= q1) by lia; lia|exact Xb]. }
    assert (X = 0) as X0 by (unfold X; apply N.lxor_nilpotent). rewrite X0 in H. destruct b, b'; cbn [xorb] in H; try congruence; vm_compute in H; discriminate H. }
  intros q'. apply (Main (N.to_nat q + N.to_nat q')%nat). lia.
Qed.
Lemma low_first_negb w : low_first (map negb w) = N.lxor (low_first w) (low_first (repeat true (List.length w))).
Proof. rewrite <- low_first_xor by (rewrite repeat_length; reflexivity). f_equal. induction w as [|x w IH]; [reflexivity|]. cbn [map List.length repeat zip_xor]. rewrite IH. destruct x; reflexivity. Qed.
Lemma checksum_spec l v : checksum l v <-> v = crc32 l.
Proof.
  assert (C : checksum l (crc32 l)).
  { destruct (crc_poly (bits l)) as (q & w & L & C & E). exists q, w. split; [exact L|]. split; [|exact E].
    unfold crc32. rewrite crc_bits, model_bits, C, low_first_negb, L. reflexivity. }
  split; [|intros ->; exact C]. intros (q & w & L & -> & E). destruct C as (q' & w' & L' & C' & E').
  rewrite C'. rewrite E in E'. assert (Eq : q = q').
  { apply product_unique. replace (N.lxor (product q generator) (product q' generator)) with (N.lxor (high_first w) (high_first w')).
    - rewrite <- high_first_xor by congruence. replace (2 ^ 32) with (2 ^ N.of_nat (List.length (zip_xor w w'))) by (rewrite zip_xor_length, L by congruence; reflexivity). apply high_first_bound.
    - apply N.bits_inj. intros n. apply (f_equal (fun z => N.testbit z n)) in E'. rewrite !N.lxor_spec in *. 
      destruct (N.testbit (product q generator) n), (N.testbit (product q' generator) n), (N.testbit (high_first w) n), (N.testbit (high_first w') n); cbn in *; congruence. }
  subst q'. assert (Hw : high_first w = high_first w').
  { apply (f_equal (N.lxor (product q generator))) in E'. rewrite <- !N.lxor_assoc, N.lxor_nilpotent, !N.lxor_0_l in E'. exact E'. }
  apply high_first_inj in Hw; [congruence|congruence].
Qed.

(** ** The header *)
Lemma low_first_bits_bytes l : low_first (bits l) = match l with [] => 0 | c :: l' => N_of_ascii c + 256 * low_first (bits l') end.
Proof. destruct l as [|c l]; [reflexivity|]. rewrite bits_cons, low_first_app, low_first_byte, bits_of_length. reflexivity. Qed.
Lemma little_2 a b v : little_endian 2 v [a; b] <-> n_of_bytes a b = v.
Proof. unfold little_endian. rewrite low_first_two. cbn. tauto. Qed.
Lemma little_4 a b c d v : little_endian 4 v [a; b; c; d] <-> le32 a b c d = v.
Proof.
  unfold little_endian. change [a; b; c; d] with ([a; b] ++ [c; d])%list. rewrite bits_app, low_first_app, !low_first_two, bits_length. change (2 ^ N.of_nat (8 * List.length [a; b])) with 65536. cbn. unfold le32. tauto.
Qed.
Lemma zero_ended_spec n : forall l r, zero_ended n l = Some r <-> exists a, (List.length a < n)%nat /\ ~ In zero a /\ l = (a ++ [zero] ++ r)%list.
Proof.
  induction n as [|n IH]; intros l r; cbn [zero_ended].
  - split; [discriminate|]. intros (a & L & _). lia.
  - destruct l as [|c l]; [split; [discriminate|]; intros (a & _ & _ & E); destruct a; discriminate E|]. destruct (Ascii.eqb_spec c "000") as [->|Nc].
    + split.
      * intros E. injection E as <-. exists []. split; [cbn; lia|]. split; [intros []|reflexivity].
      * intros (a & L & Nz & E). destruct a as [|x a]; [cbn in E; congruence|]. cbn in E. injection E as <- _. elim Nz. left. reflexivity.
    + rewrite IH. split.
      * intros (a & L & Nz & ->). exists (c :: a). split; [cbn; lia|]. split; [|reflexivity]. intros [E|H]; [apply Nc; exact E|exact (Nz H)].
      * intros (a & L & Nz & E). destruct a as [|x a]; [cbn in E; injection E as -> _; elim Nc; reflexivity|]. cbn in E. injection E as <- ->. exists a. split; [cbn in L; lia|]. split; [intros H; apply Nz; right; exact H|reflexivity].
Qed.
Lemma extra_spec l r : extra l = Some r <-> exists x, extra_text x /\ l = (x ++ r)%list.
Proof.
  unfold extra, extra_text. split.
  - destruct l as [|a [|b l']]; try discriminate. cbv zeta. set (n := n_of_bytes a b). destruct (Nat.ltb_spec (List.length l') (N.to_nat n)) as [G|G]; [discriminate|]. intros E. injection E as <-.
    exists ([a; b] ++ firstn (N.to_nat n) l')%list. split; [|cbn [List.app]; rewrite firstn_skipn; reflexivity]. exists n, [a; b], (firstn (N.to_nat n) l'). split; [apply little_2; reflexivity|]. split; [rewrite firstn_length; lia|reflexivity].
  - intros (x & (n & p & q & L & Lq & ->) & ->). destruct p as [|a [|b [|? ?]]]; try (destruct L as [L _]; discriminate L). apply little_2 in L. cbn [List.app]. cbv zeta. rewrite L.
    replace (N.to_nat n) with (List.length q) by lia. rewrite app_length. destruct (Nat.ltb_spec (List.length q + List.length r) (List.length q)); [lia|]. f_equal. rewrite skipn_app, skipn_all, Nat.sub_diag. reflexivity.
Qed.
Lemma name_spec l r : zero_ended 512 l = Some r <-> exists x, name_text x /\ l = (x ++ r)%list.
Proof.
  rewrite zero_ended_spec. unfold name_text. split.
  - intros (a & L & Nz & ->). exists (a ++ [zero])%list. split; [exists a; split; [lia|auto]|]. rewrite <- app_assoc. reflexivity.
  - intros (x & (a & L & Nz & ->) & ->). exists a. split; [lia|]. split; [exact Nz|]. rewrite <- app_assoc. reflexivity.
Qed.
Lemma opt_spec b f (P : list ascii -> Prop) l r : (forall l r, f l = Some r <-> exists x, P x /\ l = (x ++ r)%list) ->
  (opt b f l = Some r <-> exists x, present b P x /\ l = (x ++ r)%list).
Proof.
  intros H. destruct b; cbn [opt present]; [apply H|]. split; [intros E; injection E as ->; exists []; auto|]. intros (x & -> & ->). reflexivity.
Qed.
Lemma header_spec l r : header l = Some r <-> exists h, header_text h /\ l = (h ++ r)%list.
Proof.
  assert (Sum : forall front l1 r, header_sum (front ++ l1) l1 = Some r <-> exists x, (exists s, checksum front s /\ little_endian 2 (s mod 2 ^ 16) x) /\ l1 = (x ++ r)%list).
  { intros front l1 r0. unfold header_sum.
    assert (F : firstn (List.length (front ++ l1) - List.length l1) (front ++ l1) = front) by (rewrite app_length, Nat.add_sub, firstn_app, Nat.sub_diag, firstn_all, app_nil_r; reflexivity).
    split.
    - destruct l1 as [|a [|b l1]]; try discriminate. rewrite F. destruct (N.eqb_spec (n_of_bytes a b) (N.land (crc32 front) 65535)) as [E|]; [|discriminate]. intros H. injection H as <-.
      exists [a; b]. split; [|reflexivity]. exists (crc32 front). split; [apply checksum_spec; reflexivity|]. apply little_2. rewrite E. change 65535 with (N.ones 16). apply N.land_ones.
    - intros (x & (s & C & L) & ->). apply checksum_spec in C. subst s. destruct x as [|a [|b [|? ?]]]; try (destruct L as [L _]; discriminate L). cbn [List.app] in *. rewrite F. apply little_2 in L. rewrite L.
      change 65535 with (N.ones 16). rewrite N.land_ones, N.eqb_refl. reflexivity. }
  assert (Sp : forall l r, header l = Some r <-> exists f six l1, List.length six = 6%nat /\ l = ([ascii_of_N 31; ascii_of_N 139; ascii_of_N 8; f] ++ six ++ l1)%list /\
    match opt (flag f 2) extra l1 with None => None | Some l2 => match opt (flag f 3) (zero_ended 512) l2 with None => None | Some l3 => match opt (flag f 4) (zero_ended 512) l3 with None => None | Some l4 => opt (flag f 1) (header_sum l) l4 end end end = Some r).
  { intros l0 r0. unfold header. split.
    - do 10 (destruct l0 as [|? l0]; [discriminate|]). destruct (N.eqb_spec (N_of_ascii a) 31) as [E1|]; [|discriminate]. destruct (N.eqb_spec (N_of_ascii a0) 139) as [E2|]; [|discriminate]. destruct (N.eqb_spec (N_of_ascii a1) 8) as [E3|]; [|discriminate].
      cbn [andb negb]. intros H. exists a2, [a3; a4; a5; a6; a7; a8], l0. split; [reflexivity|]. apply (f_equal ascii_of_N) in E1, E2, E3. rewrite ascii_N_embedding in E1, E2, E3. subst a a0 a1. split; [reflexivity|exact H].
    - intros (f & six & l1 & L & -> & H). do 6 (destruct six as [|? six]; [discriminate L|]). destruct six; [|discriminate L]. cbn [List.app] in *. exact H. }
  rewrite Sp. split.
  - intros (f & six & l1 & L & El & H). destruct (opt (flag f 2) extra l1) as [l2|] eqn:O1; [|discriminate H]. apply (opt_spec _ _ extra_text _ _ extra_spec) in O1. destruct O1 as (x1 & P1 & ->).
    destruct (opt (flag f 3) (zero_ended 512) l2) as [l3|] eqn:O2; [|discriminate H]. apply (opt_spec _ _ name_text _ _ name_spec) in O2. destruct O2 as (x2 & P2 & ->).
    destruct (opt (flag f 4) (zero_ended 512) l3) as [l4|] eqn:O3; [|discriminate H]. apply (opt_spec _ _ name_text _ _ name_spec) in O3. destruct O3 as (x3 & P3 & ->).
    set (front := ([ascii_of_N 31; ascii_of_N 139; ascii_of_N 8; f] ++ six ++ x1 ++ x2 ++ x3)%list).
    assert (El' : l = (front ++ l4)%list) by (rewrite El; unfold front; rewrite <- !app_assoc; reflexivity).
    assert (exists x4, present (flag f 1) (fun x => exists s, checksum front s /\ little_endian 2 (s mod 2 ^ 16) x) x4 /\ l4 = (x4 ++ r)%list) as (x4 & P4 & E4).
    { rewrite El' in H. destruct (flag f 1); cbn [opt present] in *; [apply Sum; exact H|]. exists []. split; [reflexivity|]. injection H as ->. reflexivity. }
    exists (front ++ x4)%list. split; [|rewrite El', E4, <- app_assoc; reflexivity].
    exists f, six, x1, x2, x3, x4. split; [exact L|]. cbv zeta. fold front. split; [reflexivity|]. unfold flag in *. auto.
  - intros (h & (f & six & x1 & x2 & x3 & x4 & L & H) & ->). cbv zeta in H. set (front := ([ascii_of_N 31; ascii_of_N 139; ascii_of_N 8; f] ++ six ++ x1 ++ x2 ++ x3)%list) in *. destruct H as (-> & P1 & P2 & P3 & P4).
    exists f, six, (x1 ++ x2 ++ x3 ++ x4 ++ r)%list. split; [exact L|]. split; [unfold front; rewrite <- !app_assoc; reflexivity|]. unfold flag.
    rewrite (proj2 (opt_spec _ _ extra_text (x1 ++ x2 ++ x3 ++ x4 ++ r)%list (x2 ++ x3 ++ x4 ++ r)%list extra_spec)) by (exists x1; auto).
    rewrite (proj2 (opt_spec _ _ name_text (x2 ++ x3 ++ x4 ++ r)%list (x3 ++ x4 ++ r)%list name_spec)) by (exists x2; auto).
    rewrite (proj2 (opt_spec _ _ name_text (x3 ++ x4 ++ r)%list (x4 ++ r)%list name_spec)) by (exists x3; auto).
    rewrite <- app_assoc. destruct (N.testbit (N_of_ascii f) 1); cbn [opt present] in *; [apply Sum; exists x4; auto|]. subst x4. reflexivity.
Qed.

(** ** Members *)
Lemma four (l : list ascii) : List.length l = 4%nat -> exists a b c d, l = [a; b; c; d].
Proof. intros L. destruct l as [|a [|b [|c [|d [|? ?]]]]]; try discriminate L. eauto. Qed.
Definition member_text (l out : list ascii) : Prop :=
  exists d o s c n rest o', l = (d ++ c ++ n ++ rest)%list /\ out = (o ++ o')%list /\ deflated d o /\ checksum o s /\ little_endian 4 s c /\
    little_endian 4 (N.of_nat (List.length o) mod 2 ^ 32) n /\ (rest = [] /\ o' = [] \/ gzip_text rest o').
Lemma gzip_member l out : gzip_text l out <-> exists h l1, header_text h /\ l = (h ++ l1)%list /\ member_text l1 out.
Proof.
  split.
  - intros [h d o s c n rest o' H D C Lc Ln R]. exists h, (d ++ c ++ n ++ rest)%list. split; [exact H|]. split; [reflexivity|]. exists d, o, s, c, n, rest, o'. auto 10.
  - intros (h & l1 & H & -> & (d & o & s & c & n & rest & o' & -> & -> & D & C & Lc & Ln & R)). apply (one_more h d o s c n rest o'); assumption.
Qed.
Lemma members_spec f : forall ok l out, (List.length l < f)%nat -> (members f ok l = (out, false) <-> ok = true /\ member_text l out).
Proof.
  induction f as [|f IH]; intros ok l out F; [lia|]. cbn [members]. split.
  - destruct (inflate l) as [o [rest|]] eqn:I; [|discriminate]. apply inflate_spec in I. destruct I as (d & -> & D).
    do 8 (destruct rest as [|? rest]; [discriminate|]). destruct (N.eqb_spec (le32 a a0 a1 a2) (crc32 o)) as [E1|]; [|discriminate]. destruct (N.eqb_spec (le32 a3 a4 a5 a6) (mod32 (N.of_nat (List.length o)))) as [E2|]; [|discriminate]. cbn [andb].
    assert (Ok : forall rest' o', ok = true -> (rest' = [] /\ o' = [] \/ gzip_text rest' o') -> ok = true /\ member_text (d ++ a :: a0 :: a1 :: a2 :: a3 :: a4 :: a5 :: a6 :: rest') (o ++ o')).
    { intros rest' o' O H. split; [exact O|]. exists d, o, (crc32 o), [a; a0; a1; a2], [a3; a4; a5; a6], rest', o'. split; [reflexivity|]. split; [reflexivity|]. split; [exact D|]. split; [apply checksum_spec; reflexivity|].
      split; [apply little_4; exact E1|]. split; [apply little_4; rewrite E2; apply mod32_mod|exact H]. }
    destruct rest as [|x rest].
    + intros E. injection E as <- E. rewrite <- (app_nil_r o). apply Ok; [destruct ok; [reflexivity|discriminate E]|auto].
    + destruct (header (x :: rest)) as [l2|] eqn:H; [|discriminate]. destruct (members f ok l2) as [o2 failed] eqn:M. intros E. injection E as <- ->.
      apply header_spec in H. destruct H as (h & H & El). rewrite app_length in F. cbn [List.length] in F. assert (Ll : (List.length l2 <= S (List.length rest))%nat) by (apply (f_equal (@List.length ascii)) in El; rewrite app_length in El; cbn [List.length] in El; lia).
      apply IH in M; [|lia]. destruct M as [O M]. apply Ok; [exact O|]. right. apply gzip_member. exists h, l2. auto.
  - intros (-> & d & o & s & c & n & rest & o' & -> & -> & D & C & Lc & Ln & R). rewrite (proj2 (inflate_spec _ o (c ++ n ++ rest))) by (exists d; auto).
    destruct (four c (proj1 Lc)) as (a & a0 & a1 & a2 & ->). destruct (four n (proj1 Ln)) as (a3 & a4 & a5 & a6 & ->). cbn [List.app].
    apply checksum_spec in C. subst s. apply little_4 in Lc, Ln. rewrite Lc, Ln, mod32_mod, !N.eqb_refl. cbn [andb].
    destruct R as [[-> ->]|R]; [rewrite app_nil_r; reflexivity|]. apply gzip_member in R. destruct R as (h & l2 & H & -> & M).
    rewrite (proj2 (header_spec (h ++ l2) l2)) by (exists h; auto). assert (Ml : members f true l2 = (o', false)) by (apply IH; [rewrite !app_length in F; cbn [List.length] in F; lia|auto]). rewrite Ml.
    destruct (h ++ l2)%list as [|? ?] eqn:Z; [|reflexivity]. exfalso. apply app_eq_nil in Z. destruct Z as [-> _]. destruct H as (? & ? & ? & ? & ? & ? & _ & H). cbv zeta in H. destruct H as [H _]. discriminate H.
Qed.

(** ** base64 *)
Lemma without_spec l : forall m, without_line_ends l m <-> m = list_ascii_of_string (skip_newlines (string_of_list_ascii l)).
Proof.
  assert (Q : forall c, is_newline c = true <-> line_end c).
  { intros c. unfold is_newline, line_end. rewrite orb_true_iff, !Ascii.eqb_eq. tauto. }
  induction l as [|c l IH]; intros m; cbn [string_of_list_ascii skip_newlines list_ascii_of_string].
  - split; [intros H; inversion H; reflexivity|intros ->; constructor].
  - destruct (is_newline c) eqn:Nc.
    + split.
      * intros H. inversion H as [|? ? ? _ H'|? ? ? H0]; subst; [apply IH; exact H'|]. apply Q in Nc. contradiction.
      * intros ->. apply skipped; [apply Q; exact Nc|apply IH; reflexivity].
    + assert (Nl : ~ line_end c) by (intros H; apply Q in H; congruence). cbn [list_ascii_of_string]. split.
      * intros H. inversion H as [|? ? ? H0|? ? ? _ H']; subst; [contradiction|]. f_equal. apply IH. exact H'.
      * intros ->. apply kept; [exact Nl|apply IH; reflexivity].
Qed.
Definition six_word (s : six) : list bool := let '(a0, a1, a2, a3, a4, a5) := s in [a5; a4; a3; a2; a1; a0].
Lemma character_spec c w : character c w <-> exists s, sextet c = Some s /\ w = six_word s.
Proof.
  split.
  - intros (i & G & L & H). assert (I : exists s, sextet c = Some s /\ high_first (six_word s) = N.of_nat i).
    { unfold base64_alphabet in G. do 64 (destruct i as [|i]; [cbn in G; injection G as <-; eexists; split; [reflexivity|reflexivity]|]). destruct i; discriminate G. }
    destruct I as (s & S1 & S2). exists s. split; [exact S1|]. apply high_first_inj; [rewrite L; destruct s as [[[[[? ?] ?] ?] ?] ?]; reflexivity|congruence].
  - intros (s & S1 & ->). unfold character. exists (N.to_nat (high_first (six_word s))). split; [|split; [destruct s as [[[[[? ?] ?] ?] ?] ?]; reflexivity|lia]].
    destruct c as [[] [] [] [] [] [] [] []]; vm_compute in S1; try discriminate S1; injection S1 as <-; reflexivity.
Qed.
Lemma mod4 n : (S (S (S (S n))) mod 4 = n mod 4)%nat.
Proof. replace (S (S (S (S n)))) with (n + 1 * 4)%nat by lia. apply Nat.mod_add. lia. Qed.
Lemma groups_sound n : forall s l, (String.length s <= n)%nat -> groups s = (l, true) ->
  exists chars ws padding rest, list_ascii_of_string s = (chars ++ padding)%list /\ Forall2 character chars ws /\ List.concat ws = (high_bits l ++ rest)%list /\
    (List.length rest < 6)%nat /\ (forall c, In c padding -> c = "="%char) /\ (List.length padding < 4)%nat /\ (List.length (chars ++ padding) mod 4 = 0)%nat.
Proof.
  induction n as [|n IH]; intros s l L.
  - destruct s; [|cbn in L; lia]. cbn. intros E. injection E as <-. exists [], [], [], []. split; [reflexivity|]. split; [constructor|]. split; [reflexivity|]. split; [cbn; lia|]. split; [intros ? []|]. split; [cbn; lia|reflexivity].
  - destruct s as [|p [|q [|r [|t s']]]]; try discriminate.
    { cbn. intros E. injection E as <-. exists [], [], [], []. split; [reflexivity|]. split; [constructor|]. split; [reflexivity|]. split; [cbn; lia|]. split; [intros ? []|]. split; [cbn; lia|reflexivity]. }
    cbn [groups]. destruct (sextet p) as [a|] eqn:Sa; [|discriminate]. destruct (sextet q) as [b|] eqn:Sb; [|discriminate].
    assert (Ca : character p (six_word a)) by (apply character_spec; eauto). assert (Cb : character q (six_word b)) by (apply character_spec; eauto).
    destruct (sextet r) as [c|] eqn:Sc.
    + assert (Cc : character r (six_word c)) by (apply character_spec; eauto). destruct (sextet t) as [d|] eqn:Sd.
      * assert (Cd : character t (six_word d)) by (apply character_spec; eauto). destruct (groups s') as [l' ok] eqn:G. intros E. injection E as <- ->.
        destruct (IH s' l') as (chars & ws & padding & rest & E1 & F & E2 & R & P & Lp & M); [cbn in L; lia|exact G|].
        exists (p :: q :: r :: t :: chars), (six_word a :: six_word b :: six_word c :: six_word d :: ws), padding, rest.
        split; [cbn [list_ascii_of_string List.app]; rewrite E1; reflexivity|]. split; [auto 6|]. split.
        -- cbn [List.concat]. rewrite E2. destruct a as [[[[[? ?] ?] ?] ?] ?], b as [[[[[? ?] ?] ?] ?] ?], c as [[[[[? ?] ?] ?] ?] ?], d as [[[[[? ?] ?] ?] ?] ?].
           unfold high_bits. cbn [flat_map byte1 byte2 byte3]. rewrite !byte_bits_of. cbn. reflexivity.
        -- split; [exact R|]. split; [exact P|]. split; [exact Lp|]. exact (eq_trans (mod4 (List.length (chars ++ padding))) M).
      * destruct (Ascii.eqb_spec t pad) as [->|]; [|discriminate]. destruct (String.eqb_spec s' "") as [->|]; [|discriminate]. cbn [andb]. intros E. injection E as <-.
        destruct a as [[[[[a0 a1] a2] a3] a4] a5], b as [[[[[b0 b1] b2] b3] b4] b5], c as [[[[[c0 c1] c2] c3] c4] c5].
        exists [p; q; r], [six_word (a0, a1, a2, a3, a4, a5); six_word (b0, b1, b2, b3, b4, b5); six_word (c0, c1, c2, c3, c4, c5)], [pad], [c1; c0].
        split; [reflexivity|]. split; [auto 6|]. split; [unfold high_bits; cbn [flat_map byte1 byte2]; rewrite !byte_bits_of; reflexivity|]. split; [cbn; lia|]. split; [intros ? [<-|[]]; reflexivity|]. split; [cbn; lia|reflexivity].
    + destruct (Ascii.eqb_spec r pad) as [->|]; [|discriminate]. destruct (Ascii.eqb_spec t pad) as [->|]; [|discriminate]. destruct (String.eqb_spec s' "") as [->|]; [|discriminate]. cbn [andb]. intros E. injection E as <-.
      destruct a as [[[[[a0 a1] a2] a3] a4] a5], b as [[[[[b0 b1] b2] b3] b4] b5].
      exists [p; q], [six_word (a0, a1, a2, a3, a4, a5); six_word (b0, b1, b2, b3, b4, b5)], [pad; pad], [b3; b2; b1; b0].
      split; [reflexivity|]. split; [auto 6|]. split; [unfold high_bits; cbn [flat_map byte1]; rewrite !byte_bits_of; reflexivity|]. split; [cbn; lia|]. split; [intros ? [<-|[<-|[]]]; reflexivity|]. split; [cbn; lia|reflexivity].
Qed.
Lemma high_bits_cons c l : high_bits (c :: l) = let '(Ascii a b d e f g h i) := c in i :: h :: g :: f :: e :: d :: b :: a :: high_bits l.
Proof. unfold high_bits. cbn [flat_map]. rewrite byte_bits_of. destruct c. reflexivity. Qed.
Lemma high_bits_length l : List.length (high_bits l) = (8 * List.length l)%nat.
Proof. induction l as [|c l IH]; [reflexivity|]. rewrite high_bits_cons. destruct c. cbn [List.length]. rewrite IH. lia. Qed.
Lemma character_length c w : character c w -> List.length w = 6%nat.
Proof. intros (i & _ & L & _). exact L. Qed.
Lemma chars_length chars ws : Forall2 character chars ws -> List.length (List.concat ws) = (6 * List.length chars)%nat.
Proof. induction 1 as [|c w chars ws C _ IH]; [reflexivity|]. cbn [List.concat List.length]. rewrite app_length, IH, (character_length _ _ C). lia. Qed.
Lemma groups_complete n : forall chars ws padding rest l, (List.length chars <= n)%nat -> Forall2 character chars ws -> List.concat ws = (high_bits l ++ rest)%list ->
  (List.length rest < 6)%nat -> (forall c, In c padding -> c = "="%char) -> (List.length padding < 4)%nat -> (List.length (chars ++ padding) mod 4 = 0)%nat ->
  groups (string_of_list_ascii (chars ++ padding)) = (l, true).
Proof.
  induction n as [|n IH]; intros chars ws padding rest l L F E R P Lp M.
  - destruct chars; [|cbn in L; lia]. cbn [List.app] in *. pose proof (chars_length _ _ F) as Lc. rewrite E, app_length, high_bits_length in Lc. cbn [List.length] in Lc. destruct l; [|cbn [List.length] in Lc; lia].
    rewrite Nat.mod_small in M by lia. destruct padding; [reflexivity|discriminate M].
  - pose proof (chars_length _ _ F) as Lc. rewrite E, app_length, high_bits_length in Lc. rewrite app_length in M.
    destruct chars as [|p [|q [|r [|t chars]]]].
    + cbn [List.app List.length] in *. destruct l; [|cbn [List.length] in Lc; lia]. rewrite Nat.mod_small in M by lia. destruct padding; [reflexivity|discriminate M].
    + cbn [List.length] in *. lia.
    + assert (Pp : padding = [pad; pad]).
      { destruct padding as [|x [|y [|? [|? ?]]]]; cbn [List.length] in *; try discriminate M; try lia. rewrite (P x), (P y) by (cbn; auto). reflexivity. }
      subst padding. inversion F as [|? wa ? ? Ca F1]; subst. inversion F1 as [|? wb ? ? Cb F2]; subst. inversion F2; subst. apply character_spec in Ca, Cb. destruct Ca as (a & Sa & ->), Cb as (b & Sb & ->).
      destruct l as [|x [|? ?]]; cbn [List.length] in Lc; try lia. cbn [List.app string_of_list_ascii groups]. rewrite Sa, Sb. change (sextet pad) with (@None six). cbv iota. change (Ascii.eqb pad pad) with true. change (String.eqb "" "") with true. cbn [andb].
      rewrite high_bits_cons in E. destruct a as [[[[[a0 a1] a2] a3] a4] a5], b as [[[[[b0 b1] b2] b3] b4] b5], x. cbn in E. injection E as <- <- <- <- <- <- <- <- _. reflexivity.
    + assert (Pp : padding = [pad]).
      { destruct padding as [|x [|? [|? [|? ?]]]]; cbn [List.length] in *; try discriminate M; try lia. rewrite (P x) by (cbn; auto). reflexivity. }
      subst padding. inversion F as [|? wa ? ? Ca F1]; subst. inversion F1 as [|? wb ? ? Cb F2]; subst. inversion F2 as [|? wc ? ? Cc F3]; subst. inversion F3; subst. apply character_spec in Ca, Cb, Cc. destruct Ca as (a & Sa & ->), Cb as (b & Sb & ->), Cc as (c & Sc & ->).
      destruct l as [|x [|y [|? ?]]]; cbn [List.length] in Lc; try lia. cbn [List.app string_of_list_ascii groups]. rewrite Sa, Sb, Sc. change (sextet pad) with (@None six). cbv iota. change (Ascii.eqb pad pad) with true. change (String.eqb "" "") with true. cbn [andb].
      rewrite !high_bits_cons in E. destruct a as [[[[[a0 a1] a2] a3] a4] a5], b as [[[[[b0 b1] b2] b3] b4] b5], c as [[[[[c0 c1] c2] c3] c4] c5], x, y. cbn in E. injection E as <- <- <- <- <- <- <- <- <- <- <- <- <- <- <- <- _. reflexivity.
    + inversion F as [|? wa ? ? Ca F1]; subst. inversion F1 as [|? wb ? ? Cb F2]; subst. inversion F2 as [|? wc ? ? Cc F3]; subst. inversion F3 as [|? wd ? ws' Cd F4]; subst. apply character_spec in Ca, Cb, Cc, Cd. destruct Ca as (a & Sa & ->), Cb as (b & Sb & ->), Cc as (c & Sc & ->), Cd as (d & Sd & ->).
      destruct l as [|x [|y [|z l]]]; cbn [List.length] in Lc; try lia. cbn [List.app string_of_list_ascii groups]. rewrite Sa, Sb, Sc, Sd.
      rewrite !high_bits_cons in E. cbn [List.concat] in E. destruct a as [[[[[a0 a1] a2] a3] a4] a5], b as [[[[[b0 b1] b2] b3] b4] b5], c as [[[[[c0 c1] c2] c3] c4] c5], d as [[[[[d0 d1] d2] d3] d4] d5], x, y, z. cbn [six_word List.app] in E.
      injection E as <- <- <- <- <- <- <- <- <- <- <- <- <- <- <- <- <- <- <- <- <- <- <- <- E.
      rewrite (IH chars ws' padding rest l); [reflexivity|cbn [List.length] in L; lia|exact F4|exact E|exact R|exact P|exact Lp|].
      rewrite app_length. exact (eq_trans (eq_sym (mod4 (List.length chars + List.length padding))) M).
Qed.
Lemma base64_spec t l : base64_decode t = (l, true) <-> base64_text t l.
Proof.
  unfold base64_decode, base64_text. split.
  - intros G. destruct (groups_sound _ _ _ (Nat.le_refl _) G) as (chars & ws & padding & rest & E & H). exists chars, ws, padding, rest. split; [|exact H].
    apply without_spec. rewrite string_of_list_ascii_of_string. symmetry. exact E.
  - intros (chars & ws & padding & rest & E & F & C & R & P & Lp & M). apply without_spec in E. rewrite string_of_list_ascii_of_string in E.
    rewrite <- (string_of_list_ascii_of_string (skip_newlines t)), <- E. exact (groups_complete _ _ _ _ _ _ (Nat.le_refl _) F C R P Lp M).
Qed.
Lemma decode_spec t out : decode t = ReadBytes (string_of_list_ascii out) false <-> exists l, base64_text t l /\ gzip_text l out.
Proof.
  unfold decode. destruct (base64_decode t) as [l ok] eqn:B. split.
  - destruct (header l) as [l1|] eqn:H; [|discriminate]. destruct (members (S (List.length l)) ok l1) as [o failed] eqn:M. intros E. injection E as E ->.
    apply (f_equal list_ascii_of_string) in E. rewrite !list_ascii_of_string_of_list_ascii in E. subst o. apply header_spec in H. destruct H as (h & H & El).
    apply members_spec in M; [|rewrite El, app_length; lia]. destruct M as [-> M]. exists l. split; [apply base64_spec; exact B|]. apply gzip_member. exists h, l1. auto.
  - intros (l' & B' & G). apply base64_spec in B'. rewrite B in B'. injection B' as <- ->. apply gzip_member in G. destruct G as (h & l1 & H & -> & M).
    rewrite (proj2 (header_spec (h ++ l1) l1)) by (exists h; auto). assert (Ml : members (S (List.length (h ++ l1))) true l1 = (out, false)) by (apply members_spec; [rewrite app_length; lia|auto]). rewrite Ml. reflexivity.
Qed.
