(** Lemmas for C59: the DEFLATE decoder against the relations of SpecFlate.v. *)
From Coq Require Import Arith PArith Pnat NArith List Bool String Ascii Lia ZifyBool ZifyN.
From Verif Require Import Deflate SpecFlate.
Import ListNotations.
Local Open Scope N_scope.

(** ** Bits *)
Lemma byte_bits_of c : byte_bits c = bits_of c.
Proof. destruct c as [[] [] [] [] [] [] [] []]; reflexivity. Qed.
Lemma bits_cons c l : bits (c :: l) = (bits_of c ++ bits l)%list.
Proof. unfold bits. cbn [flat_map]. rewrite byte_bits_of. reflexivity. Qed.
Lemma bits_app a b : bits (a ++ b) = (bits a ++ bits b)%list.
Proof. unfold bits. apply flat_map_app. Qed.
Lemma bits_length l : List.length (bits l) = (8 * List.length l)%nat.
Proof.
  induction l as [|c l IH]; [reflexivity|]. rewrite bits_cons, app_length, IH. destruct c; cbn [bits_of List.length]. lia.
Qed.
Lemma app_inv {A} (a b c d : list A) : (a ++ b = c ++ d)%list -> List.length a = List.length c -> a = c /\ b = d.
Proof.
  revert c. induction a as [|x a IH]; intros [|y c] E L; cbn in *; try discriminate L; [auto|].
  injection E as -> E. destruct (IH c E) as [-> ->]; [lia|auto].
Qed.
Lemma bits_inj a : forall b, bits a = bits b -> a = b.
Proof.
  induction a as [|x a IH]; intros [|y b] E; [reflexivity| | |].
  - apply (f_equal (@List.length bool)) in E. rewrite !bits_length in E. cbn [List.length] in E. lia.
  - apply (f_equal (@List.length bool)) in E. rewrite !bits_length in E. cbn [List.length] in E. lia.
  - rewrite !bits_cons in E. apply app_inv in E; [|destruct x, y; reflexivity]. destruct E as [E1 E2]. f_equal; [|exact (IH b E2)].
    destruct x, y. cbn [bits_of] in E1. congruence.
Qed.

(** ** Streams as lists of bits *)
Definition wf (s : stream) : Prop := (List.length (s_bits s) < 8)%nat.
Definition rem (s : stream) : list bool := (s_bits s ++ bits (s_bytes s))%list.
Lemma rem_length s : List.length (rem s) = (List.length (s_bits s) + 8 * List.length (s_bytes s))%nat.
Proof. unfold rem. rewrite app_length, bits_length. reflexivity. Qed.
Lemma rem_inj s s' : wf s -> wf s' -> rem s = rem s' -> s = s'.
Proof.
  intros W W' E. pose proof (f_equal (@List.length bool) E) as L. rewrite !rem_length in L. unfold wf in *.
  assert (List.length (s_bits s) = List.length (s_bits s')) as L' by lia. apply app_inv in E; [|exact L']. destruct E as [E1 E2]. apply bits_inj in E2.
  destruct s, s'. cbn in *. congruence.
Qed.
Lemma next_bit_spec s b s' : wf s -> (next_bit s = Some (b, s') <-> wf s' /\ rem s = b :: rem s').
Proof.
  intros W. assert (H : forall c t, next_bit s = Some (c, t) -> wf t /\ rem s = c :: rem t).
  { intros c t. unfold next_bit, wf, rem in *. destruct (s_bits s) as [|x l].
    - destruct (s_bytes s) as [|[] l]; [discriminate|]. intros E. injection E as <- <-. rewrite bits_cons. cbn. split; [lia|reflexivity].
    - intros E. injection E as <- <-. cbn in *. split; [lia|reflexivity]. }
  split; [apply H|]. intros [W' E]. destruct (next_bit s) as [[c t]|] eqn:N.
  - destruct (H _ _ eq_refl) as [Wt Et]. rewrite E in Et. injection Et as -> Et. rewrite (rem_inj s' t W' Wt Et). reflexivity.
  - unfold next_bit in N. unfold rem in E. destruct (s_bits s) as [|x l]; [|discriminate N]. destruct (s_bytes s) as [|[] l]; [discriminate E|discriminate N].
Qed.
Lemma suffix s : wf s -> forall w r, rem s = (w ++ r)%list -> exists s', wf s' /\ rem s' = r.
Proof.
  intros W w r. revert s W. induction w as [|b w IH]; intros s W E; [exists s; auto|]. cbn [List.app] in E.
  destruct (next_bit s) as [[c t]|] eqn:N.
  - apply next_bit_spec in N; [|exact W]. destruct N as [Wt Et]. rewrite E in Et. injection Et as _ Et. symmetry in Et. exact (IH t Wt Et).
  - unfold next_bit in N. unfold rem in E. destruct (s_bits s) as [|x l]; [|discriminate N]. destruct (s_bytes s) as [|[] l]; [discriminate E|discriminate N].
Qed.
Lemma push_bit (b : bool) v : (if b then N.succ_double v else N.double v) = N.b2n b + 2 * v.
Proof. destruct b, v; reflexivity. Qed.
Lemma number_spec n : forall s v s', wf s -> (number n s = Some (v, s') <-> wf s' /\ exists w, number_field n v w /\ rem s = (w ++ rem s')%list).
Proof.
  induction n as [|n IH]; intros s v s' W; cbn [number].
  - split.
    + intros E. injection E as <- <-. split; [exact W|]. exists []. split; [split; reflexivity|reflexivity].
    + intros (W' & w & [L V] & E). destruct w; [|discriminate L]. cbn in V, E. subst v. rewrite (rem_inj s s' W W' E). reflexivity.
  - split.
    + destruct (next_bit s) as [[b t]|] eqn:N; [|discriminate]. apply next_bit_spec in N; [|exact W]. destruct N as [Wt Et].
      destruct (number n t) as [[u t']|] eqn:M; [|discriminate]. intros E. injection E as <- <-. apply IH in M; [|exact Wt].
      destruct M as (W' & w & [L V] & E). split; [exact W'|]. exists (b :: w). split; [|rewrite Et, E; reflexivity].
      split; cbn [List.length low_first]; [lia|]. rewrite V. symmetry. apply push_bit.
    + intros (W' & w & [L V] & E). destruct w as [|b w]; [discriminate L|]. cbn [List.app] in E. destruct (suffix s W [b] (w ++ rem s')%list E) as (t & Wt & Et).
      assert (N : next_bit s = Some (b, t)) by (apply next_bit_spec; [exact W|]; split; [exact Wt|congruence]). rewrite N.
      assert (M : number n t = Some (low_first w, s')). { apply IH; [exact Wt|]. split; [exact W'|]. exists w. split; [|exact Et]. split; [cbn in L; lia|reflexivity]. }
      rewrite M. f_equal. f_equal. subst v. cbn [low_first]. apply push_bit.
Qed.

(** ** Trees *)
Fixpoint path (t : tree) (p : list bool) (v : N) : Prop :=
  match t, p with
  | Leaf x, [] => x = v
  | Node l r, b :: p' => path (if b then r else l) p' v
  | _, _ => False
  end.
Lemma symbol_path t : forall s v s', wf s -> (symbol t s = Some (v, s') <-> wf s' /\ exists p, path t p v /\ rem s = (p ++ rem s')%list).
Proof.
  induction t as [|x|l IHl r IHr]; intros s v s' W; cbn [symbol].
  - split; [discriminate|]. intros (_ & p & P & _). destruct p; destruct P.
  - split.
    + intros E. injection E as <- <-. split; [exact W|]. exists []. split; reflexivity.
    + intros (W' & p & P & E). destruct p; [|destruct P]. cbn in P, E. subst x. rewrite (rem_inj s s' W W' E). reflexivity.
  - split.
    + destruct (next_bit s) as [[b t]|] eqn:N; [|discriminate]. apply next_bit_spec in N; [|exact W]. destruct N as [Wt Et]. intros E.
      assert (wf s' /\ exists p, path (if b then r else l) p v /\ rem t = (p ++ rem s')%list) as (W' & p & P & E').
      { destruct b; [apply IHr|apply IHl]; assumption. }
      split; [exact W'|]. exists (b :: p). split; [exact P|]. rewrite Et, E'. reflexivity.
    + intros (W' & p & P & E). destruct p as [|b p]; [destruct P|]. cbn [List.app path] in *. destruct (suffix s W [b] (p ++ rem s')%list E) as (t & Wt & Et).
      assert (N : next_bit s = Some (b, t)) by (apply next_bit_spec; [exact W|]; split; [exact Wt|congruence]). rewrite N.
      destruct b; [apply IHr|apply IHl]; try assumption; split; try exact W'; exists p; auto.
Qed.
Lemma high_first_app a b : high_first (a ++ [b]) = N.b2n b + 2 * high_first a.
Proof. unfold high_first. rewrite rev_app_distr. reflexivity. Qed.
Lemma low_first_app a : forall b, low_first (a ++ b) = low_first a + 2 ^ N.of_nat (List.length a) * low_first b.
Proof.
  induction a as [|x a IH]; intros b; cbn [List.app low_first List.length]; [change (2 ^ N.of_nat 0) with 1; lia|].
  rewrite IH, Nat2N.inj_succ, N.pow_succ_r'. lia.
Qed.
Lemma high_first_cons b p : high_first (b :: p) = N.b2n b * 2 ^ N.of_nat (List.length p) + high_first p.
Proof. unfold high_first. cbn [rev]. rewrite low_first_app, rev_length. cbn [low_first]. lia. Qed.
Lemma low_first_bound p : low_first p < 2 ^ N.of_nat (List.length p).
Proof.
  induction p as [|b p IH]; cbn [low_first List.length]; [reflexivity|]. rewrite Nat2N.inj_succ, N.pow_succ_r'. destruct b; cbn [N.b2n]; lia.
Qed.
Lemma high_first_bound p : high_first p < 2 ^ N.of_nat (List.length p).
Proof. unfold high_first. rewrite <- (rev_length p). apply low_first_bound. Qed.

(** The symbols of one length, in order. *)
Lemma of_length_nth k ls : forall i j v, nth_error (of_length k (numbered i ls)) j = Some v <->
  exists m, v = i + N.of_nat m /\ nth_error ls m = Some k /\ count_occ N.eq_dec (firstn m ls) k = j.
Proof.
  induction ls as [|l ls IH]; intros i j v; cbn [numbered].
  - split; [destruct j; discriminate|]. intros (m & _ & E & _). destruct m; discriminate E.
  - unfold of_length. cbn [filter snd]. destruct (N.eqb_spec l k) as [->|Nk].
    + cbn [map fst]. change (map fst (filter (fun p => snd p =? k) (numbered (N.succ i) ls))) with (of_length k (numbered (N.succ i) ls)). split.
      * destruct j as [|j]; cbn [nth_error].
        -- intros E. injection E as <-. exists 0%nat. split; [lia|]. split; reflexivity.
        -- intros E. apply IH in E. destruct E as (m & -> & E & C). exists (S m). split; [lia|]. split; [exact E|]. cbn [firstn count_occ]. destruct (N.eq_dec k k); [lia|contradiction].
      * intros (m & -> & E & C). destruct m as [|m]; cbn [firstn count_occ nth_error] in *.
        -- subst j. cbn. f_equal. lia.
        -- destruct (N.eq_dec k k); [|contradiction]. destruct j as [|j]; [lia|]. cbn [nth_error]. apply IH. exists m. split; [lia|]. split; [exact E|lia].
    + change (map fst (filter (fun p => snd p =? k) (numbered (N.succ i) ls))) with (of_length k (numbered (N.succ i) ls)). rewrite IH. split.
      * intros (m & -> & E & C). exists (S m). split; [lia|]. split; [exact E|]. cbn [firstn count_occ]. destruct (N.eq_dec l k); [contradiction|exact C].
      * intros (m & -> & E & C). destruct m as [|m]; cbn [firstn count_occ nth_error] in *; [congruence|]. destruct (N.eq_dec l k); [contradiction|].
        exists m. split; [lia|]. auto.
Qed.
Definition amount (k : N) (ls : list N) : N := total (fun l => if l =? k then 1 else 0) ls.
Lemma of_length_amount k ls : forall i, N.of_nat (List.length (of_length k (numbered i ls))) = amount k ls.
Proof.
  induction ls as [|l ls IH]; intros i; [reflexivity|]. unfold of_length, amount, total. cbn [numbered filter fold_right snd].
  destruct (l =? k); cbn [map List.length]; change (fold_right _ 0 ls) with (amount k ls); rewrite <- (IH (N.succ i)); unfold of_length; lia.
Qed.
(** Words of length [k .. k+e-1], in units of depth [k+e]. *)
Definition taken (k e : N) (ls : list N) : N := total (fun l => if (k <=? l) && (l <? k + e) then 2 ^ (k + e - l) else 0) ls.
Lemma taken_0 k ls : taken k 0 ls = 0.
Proof. unfold taken, total. induction ls as [|l ls IH]; [reflexivity|]. cbn [fold_right]. rewrite IH. destruct ((k <=? l) && (l <? k + 0)) eqn:E; [lia|reflexivity]. Qed.
Lemma taken_succ k e ls : taken k (N.succ e) ls = amount k ls * 2 ^ N.succ e + taken (k + 1) e ls.
Proof.
  unfold taken, amount, total. induction ls as [|l ls IH]; [reflexivity|]. cbn [fold_right]. rewrite IH.
  destruct (N.eqb_spec l k) as [->|N].
  - replace ((k <=? k) && (k <? k + N.succ e)) with true by lia. replace ((k + 1 <=? k) && (k <? k + 1 + e)) with false by lia.
    replace (k + N.succ e - k) with (N.succ e) by lia. lia.
  - replace ((k <=? l) && (l <? k + N.succ e)) with ((k + 1 <=? l) && (l <? k + 1 + e)) by lia. replace (k + N.succ e - l) with (k + 1 + e - l) by lia. lia.
Qed.
Lemma pairs_nth n : forall ts j, List.length ts = (2 * n)%nat -> (j < n)%nat -> nth j (pairs ts) Empty = Node (nth (2 * j) ts Empty) (nth (2 * j + 1) ts Empty).
Proof.
  induction n as [|n IH]; intros ts j L J; [lia|]. destruct ts as [|a [|b ts]]; cbn [List.length] in L; try lia. destruct j as [|j]; [reflexivity|].
  cbn [pairs nth]. rewrite IH by lia. replace (2 * S j)%nat with (S (S (2 * j))) by lia. reflexivity.
Qed.
Lemma pairs_length n : forall ts, List.length ts = (2 * n)%nat -> List.length (pairs ts) = n.
Proof. induction n as [|n IH]; intros [|a [|b ts]] L; cbn [List.length pairs] in *; try lia. rewrite IH; lia. Qed.
Definition holds (ls : list N) (k : N) (j : nat) (p : list bool) (v : N) : Prop :=
  exists r, nth_error (of_length (k + N.of_nat (List.length p)) (numbered 0 ls)) r = Some v /\
    N.of_nat j * 2 ^ N.of_nat (List.length p) + high_first p = taken k (N.of_nat (List.length p)) ls + N.of_nat r.
Lemma subtrees_spec ls d : forall k nodes, taken k (N.of_nat d + 1) ls <= N.of_nat nodes * 2 ^ (N.of_nat d + 1) ->
  let F := subtrees d k (numbered 0 ls) nodes in
  List.length F = nodes /\ forall j p v, (j < nodes)%nat -> (path (nth j F Empty) p v <-> (List.length p <= d)%nat /\ holds ls k j p v).
Proof.
  induction d as [|d IH]; intros k nodes K F.
  - assert (Hn : (List.length (of_length k (numbered 0 ls)) <= nodes)%nat).
    { change (N.of_nat 0 + 1) with (N.succ 0) in K. rewrite taken_succ, taken_0 in K. rewrite <- (of_length_amount k ls 0) in K. change (2 ^ N.succ 0) with 2 in K. lia. }
    set (here := of_length k (numbered 0 ls)) in *.
    assert (EF : F = (map Leaf here ++ repeat Empty (nodes - List.length here))%list).
    { unfold F. cbn [subtrees]. fold here. rewrite firstn_all2; [reflexivity|]. rewrite map_length. exact Hn. }
    clearbody F. subst F. split; [rewrite app_length, map_length, repeat_length; lia|]. intros j p v J.
    assert (Hh : holds ls k j [] v <-> nth_error here j = Some v).
    { unfold holds. cbn [List.length]. change (N.of_nat 0) with 0. rewrite N.add_0_r, taken_0. fold here. change (high_first []) with 0. change (2 ^ 0) with 1. split.
      - intros (r & E & H). replace j with r by lia. exact E.
      - intros E. exists j. split; [exact E|lia]. }
    destruct (Nat.ltb_spec j (List.length here)) as [Jh|Jh].
    + rewrite app_nth1 by (rewrite map_length; exact Jh). rewrite (nth_indep _ Empty (Leaf 0)) by (rewrite map_length; exact Jh). rewrite (map_nth Leaf).
      destruct p as [|b p]; cbn [path List.length].
      * rewrite Hh, (nth_error_nth' here 0 Jh). split; [intros ->; split; [lia|reflexivity]|intros [_ E]; congruence].
      * split; [tauto|]. intros [H _]. lia.
    + rewrite app_nth2 by (rewrite map_length; exact Jh). rewrite map_length. rewrite nth_repeat. destruct p as [|b p]; cbn [path List.length].
      * rewrite Hh. split; [tauto|]. intros [_ E]. apply nth_error_Some in Jh || (assert (nth_error here j = None) by (apply nth_error_None; exact Jh); congruence).
      * split; [tauto|]. intros [H _]. lia.
  - assert (K1 : amount k ls * 2 ^ (N.of_nat (S d) + 1) + taken (k + 1) (N.of_nat d + 1) ls <= N.of_nat nodes * 2 ^ (N.of_nat (S d) + 1)).
    { replace (N.of_nat (S d) + 1) with (N.succ (N.of_nat d + 1)) in * by lia. rewrite taken_succ in K. exact K. }
    assert (P0 : 2 ^ (N.of_nat (S d) + 1) <> 0) by (apply N.pow_nonzero; lia).
    assert (Hn : (List.length (of_length k (numbered 0 ls)) <= nodes)%nat).
    { pose proof (of_length_amount k ls 0). assert (amount k ls <= N.of_nat nodes) by nia. lia. }
    pose proof (of_length_amount k ls 0) as Am. set (here := of_length k (numbered 0 ls)) in *. set (free := (nodes - List.length here)%nat).
    assert (K' : taken (k + 1) (N.of_nat d + 1) ls <= N.of_nat (2 * free) * 2 ^ (N.of_nat d + 1)).
    { replace (N.of_nat (S d) + 1) with (N.succ (N.of_nat d + 1)) in K1 by lia. rewrite N.pow_succ_r' in K1. rewrite <- Am in K1. unfold free. nia. }
    destruct (IH (k + 1) (2 * free)%nat K') as [L' P']. cbv zeta in L', P'. set (F' := subtrees d (k + 1) (numbered 0 ls) (2 * free)) in *.
    assert (EF : F = (map Leaf here ++ pairs F')%list).
    { unfold F. cbn [subtrees]. fold here. fold free. rewrite firstn_all2 by (rewrite map_length; exact Hn). f_equal. fold F'. destruct free; [|reflexivity].
      destruct F'; [reflexivity|discriminate L']. }
    clearbody F. subst F. split; [rewrite app_length, map_length, (pairs_length free F' L'); unfold free; lia|]. intros j p v J.
    assert (Hh : holds ls k j [] v <-> nth_error here j = Some v).
    { unfold holds. cbn [List.length]. change (N.of_nat 0) with 0. rewrite N.add_0_r, taken_0. fold here. change (high_first []) with 0. change (2 ^ 0) with 1. split.
      - intros (r & E & H). replace j with r by lia. exact E.
      - intros E. exists j. split; [exact E|lia]. }
    assert (Hc : forall b q, holds ls k j (b :: q) v <-> (List.length here <= j)%nat /\ holds ls (k + 1) (2 * (j - List.length here) + N.to_nat (N.b2n b)) q v).
    { intros b q. unfold holds. cbn [List.length]. rewrite high_first_cons, Nat2N.inj_succ, taken_succ, <- Am. fold here.
      replace (k + 1 + N.of_nat (List.length q)) with (k + N.succ (N.of_nat (List.length q))) by lia. rewrite !N.pow_succ_r'.
      pose proof (high_first_bound q) as Bq. set (e := N.of_nat (List.length q)) in *. assert (2 ^ e <> 0) by (apply N.pow_nonzero; lia).
      assert (Bb : N.b2n b <= 1) by (destruct b; cbn; lia). split.
      - intros (r & E & H'). assert (Jh : (List.length here <= j)%nat) by nia. split; [exact Jh|]. exists r. split; [exact E|].
        replace (N.of_nat (2 * (j - List.length here) + N.to_nat (N.b2n b))) with (2 * N.of_nat j - 2 * N.of_nat (List.length here) + N.b2n b) by lia. nia.
      - intros (Jh & r & E & H'). exists r. split; [exact E|].
        replace (N.of_nat (2 * (j - List.length here) + N.to_nat (N.b2n b))) with (2 * N.of_nat j - 2 * N.of_nat (List.length here) + N.b2n b) in H' by lia. nia. }
    destruct (Nat.ltb_spec j (List.length here)) as [Jh|Jh].
    + rewrite app_nth1 by (rewrite map_length; exact Jh). rewrite (nth_indep _ Empty (Leaf 0)) by (rewrite map_length; exact Jh). rewrite (map_nth Leaf).
      destruct p as [|b p]; cbn [path List.length].
      * rewrite Hh, (nth_error_nth' here 0 Jh). split; [intros ->; split; [lia|reflexivity]|intros [_ E]; congruence].
      * split; [tauto|]. rewrite Hc. intros [_ [H _]]. lia.
    + rewrite app_nth2 by (rewrite map_length; exact Jh). rewrite map_length, (pairs_nth free F' _ L') by (unfold free; lia). destruct p as [|b p]; cbn [path List.length].
      * rewrite Hh. split; [tauto|]. intros [_ E]. assert (nth_error here j = None) by (apply nth_error_None; exact Jh). congruence.
      * rewrite Hc. destruct b; cbn [N.b2n]; [change (N.to_nat 1) with 1%nat|change (N.to_nat 0) with 0%nat; rewrite Nat.add_0_r];
          rewrite P' by (unfold free; lia); split; intros [H1 H2]; (split; [lia|]); tauto.
Qed.
Lemma total_ext {A} (f g : A -> N) l : (forall x, In x l -> f x = g x) -> total f l = total g l.
Proof. intros H. unfold total. induction l as [|x l IH]; [reflexivity|]. cbn [fold_right]. rewrite H, IH; [reflexivity| |left; reflexivity]. intros y Hy. apply H. right. exact Hy. Qed.
Lemma total_mul {A} (f g : A -> N) a b l : (forall x, In x l -> f x * a = g x * b) -> total f l * a = total g l * b.
Proof.
  intros H. unfold total. induction l as [|x l IH]; [reflexivity|]. cbn [fold_right]. rewrite !N.mul_add_distr_r, H, IH; [reflexivity| |left; reflexivity].
  intros y Hy. apply H. right. exact Hy.
Qed.
Lemma max_ge ls l : In l ls -> l <= fold_right N.max 0 ls.
Proof. induction ls as [|x ls IH]; [intros []|]. cbn [fold_right]. intros [->|H]; [lia|]. specialize (IH H). lia. Qed.
Lemma max_le ls m : (forall l, In l ls -> l <= m) -> fold_right N.max 0 ls <= m.
Proof. induction ls as [|x ls IH]; intros H; [cbn; lia|]. cbn [fold_right]. apply N.max_lub; [apply H; left; reflexivity|]. apply IH. intros l Hl. apply H. right. exact Hl. Qed.
Lemma weight_total ls : weight ls = total (fun l => if l =? 0 then 0 else 2 ^ (15 - l)) ls.
Proof. unfold weight, total. induction ls as [|l ls IH]; [reflexivity|]. cbn [fold_right]. rewrite IH. destruct (l =? 0); reflexivity. Qed.
Lemma word_holds ls b q v : code_word ls v (b :: q) <-> holds ls 1 (N.to_nat (N.b2n b)) q v.
Proof.
  unfold code_word, holds. cbn [List.length]. rewrite high_first_cons. setoid_rewrite of_length_nth. 
  assert (T : forall n, n = 1 + N.of_nat (List.length q) -> first_word ls n = taken 1 (N.of_nat (List.length q)) ls).
  { intros n ->. unfold first_word, taken. apply total_ext. intros l _. replace (0 <? l) with (1 <=? l) by lia. reflexivity. }
  rewrite N2Nat.id. split.
  - intros (n & E & P & L & H). assert (Hn : n = 1 + N.of_nat (List.length q)) by lia. rewrite (T n Hn) in H. exists (count_occ N.eq_dec (firstn (N.to_nat v) ls) n).
    split; [exists (N.to_nat v); rewrite <- Hn; split; [lia|split; [exact E|reflexivity]]|exact H].
  - intros (r & (m & -> & E & C) & H). exists (1 + N.of_nat (List.length q)). replace (N.to_nat (0 + N.of_nat m)) with m by lia. split; [exact E|]. split; [lia|]. split; [lia|].
    rewrite (T _ eq_refl), C. exact H.
Qed.
Lemma code_word_length ls v p : code_word ls v p -> (0 < List.length p)%nat /\ exists l, In l ls /\ N.of_nat (List.length p) = l.
Proof. intros (n & E & P & L & _). split; [lia|]. exists n. split; [exact (nth_error_In _ _ E)|exact L]. Qed.
Lemma code_spec ls t : (forall l, In l ls -> l <= 15) -> code ls = Some t -> forall p v, path t p v <-> code_word ls v p.
Proof.
  intros B. unfold code. set (m := fold_right N.max 0 ls). destruct (N.eqb_spec m 0) as [M|M].
  - intros E p v. injection E as <-. split; [destruct p; intros []|]. intros H. apply code_word_length in H. destruct H as (P & l & I & E). apply max_ge in I. fold m in I. lia.
  - destruct ((weight ls =? 2 ^ 15) || ((weight ls =? 2 ^ 14) && (m =? 1))) eqn:W; [|discriminate].
    assert (Wb : weight ls <= 2 ^ 15) by (change (2 ^ 15) with 32768 in *; change (2 ^ 14) with 16384 in *; lia).
    assert (Mb : m <= 15) by (apply max_le; exact B).
    assert (T : taken 1 m ls * 2 ^ 15 = weight ls * 2 ^ (1 + m)).
    { rewrite weight_total. apply total_mul. intros l I. pose proof (B l I). pose proof (max_ge ls l I) as Il. fold m in Il. destruct (N.eqb_spec l 0) as [->|N0]; [reflexivity|].
      replace ((1 <=? l) && (l <? 1 + m)) with true by lia. rewrite <- !N.pow_add_r. f_equal. lia. }
    set (d := (N.to_nat m - 1)%nat). assert (D : N.of_nat d + 1 = m) by (unfold d; lia).
    assert (K : taken 1 (N.of_nat d + 1) ls <= N.of_nat 2 * 2 ^ (N.of_nat d + 1)).
    { rewrite D. change (N.of_nat 2) with 2. rewrite <- N.pow_succ_r'. replace (N.succ m) with (1 + m) by lia. assert (2 ^ (1 + m) <> 0) by (apply N.pow_nonzero; lia). change (2 ^ 15) with 32768 in *. nia. }
    destruct (subtrees_spec ls d 1 2 K) as [L P]. cbv zeta in L, P. set (F := subtrees d 1 (numbered 0 ls) 2) in *. clearbody F.
    destruct F as [|a [|b [|c F]]]; try discriminate L. cbn [pairs]. intros E. injection E as <-. intros p v. destruct p as [|x q].
    + split; [intros []|]. intros H. apply code_word_length in H. destruct H as [H _]. cbn in H. lia.
    + cbn [path]. assert (Q : path (if x then b else a) q v <-> (List.length q <= d)%nat /\ holds ls 1 (N.to_nat (N.b2n x)) q v).
      { destruct x; [exact (P 1%nat q v ltac:(lia))|exact (P 0%nat q v ltac:(lia))]. }
      rewrite Q, <- word_holds. split; [tauto|]. intros H. split; [|exact H]. apply code_word_length in H. destruct H as (_ & l & I & E). apply max_ge in I. fold m in I. cbn [List.length] in E. lia.
Qed.
Lemma zeros_weight ls : (forall l, In l ls -> l = 0) -> weight ls = 0.
Proof. induction ls as [|x ls IH]; intros H; [reflexivity|]. unfold weight. cbn [fold_right]. rewrite (H x) by (left; reflexivity). apply IH. intros l Hl. apply H. right. exact Hl. Qed.
Lemma weight_cons l ls : weight (l :: ls) = (if l =? 0 then 0 else 2 ^ (15 - l)) + weight ls.
Proof. unfold weight. cbn [fold_right]. destruct (l =? 0); reflexivity. Qed.
Lemma weight_app a b : weight (a ++ b) = weight a + weight b.
Proof. induction a as [|x a IH]; [reflexivity|]. cbn [List.app]. rewrite !weight_cons, IH. lia. Qed.
Lemma weight_zeros ls : (forall l, In l ls -> l <= 1) -> weight ls = 0 -> forall l, In l ls -> l = 0.
Proof.
  induction ls as [|x ls IH]; intros B W l; [intros []|]. rewrite weight_cons in W. destruct (N.eqb_spec x 0) as [->|N].
  - intros [<-|H]; [reflexivity|]. apply IH; [|lia|exact H]. intros y Hy. apply B. right. exact Hy.
  - assert (2 ^ (15 - x) <> 0) by (apply N.pow_nonzero; lia). lia.
Qed.
Lemma single ls : (forall l, In l ls -> l <= 1) -> weight ls = 2 ^ 14 -> exists a b, (ls = a ++ 1 :: b /\ forall l, In l (a ++ b) -> l = 0)%list.
Proof.
  induction ls as [|x ls IH]; intros B W; [discriminate W|]. rewrite weight_cons in W.
  assert (B' : forall l, In l ls -> l <= 1) by (intros y Hy; apply B; right; exact Hy). destruct (N.eqb_spec x 0) as [->|N].
  - destruct (IH B' W) as (a & b & -> & Z). exists (0 :: a), b. split; [reflexivity|]. intros l [<-|H]; [reflexivity|]. apply Z. exact H.
  - assert (x = 1) as -> by (specialize (B x (or_introl eq_refl)); lia). exists [], ls. split; [reflexivity|]. cbn [List.app]. apply weight_zeros; [exact B'|]. change (2 ^ (15 - 1)) with (2 ^ 14) in W. lia.
Qed.
Lemma code_usable ls : (forall l, In l ls -> l <= 15) -> (exists t, code ls = Some t) <-> usable ls.
Proof.
  intros B. unfold usable. rewrite <- weight_total. split.
  - intros (t & C). unfold code in C. set (m := fold_right N.max 0 ls) in *. destruct (N.eqb_spec m 0) as [M|M].
    + right. left. intros l I. apply max_ge in I. fold m in I. lia.
    + destruct ((weight ls =? 2 ^ 15) || ((weight ls =? 2 ^ 14) && (m =? 1))) eqn:W; [|discriminate]. destruct (N.eqb_spec (weight ls) (2 ^ 15)) as [W1|W1]; [left; exact W1|].
      right. right. apply single; [|cbn [orb] in W; lia]. intros l I. apply max_ge in I. fold m in I. lia.
  - intros U. unfold code. set (m := fold_right N.max 0 ls). destruct (N.eqb_spec m 0) as [M|M]; [eexists; reflexivity|].
    assert (W : (weight ls =? 2 ^ 15) || ((weight ls =? 2 ^ 14) && (m =? 1)) = true).
    { destruct U as [->|[Z|(a & b & -> & Z)]]; [reflexivity| |].
      - exfalso. assert (m <= 0); [|lia]. apply max_le. intros l I. rewrite (Z l I). lia.
      - assert (W1 : weight (a ++ 1 :: b) = 2 ^ 14).
        { rewrite weight_app, weight_cons, (zeros_weight a), (zeros_weight b); [reflexivity| |]; intros l I; apply Z; apply in_or_app; auto. }
        assert (m <= 1). { apply max_le. intros l I. apply in_app_or in I. destruct I as [I|[<-|I]]; [rewrite (Z l); [lia|apply in_or_app; auto]|lia|rewrite (Z l); [lia|apply in_or_app; auto]]. }
        rewrite W1. replace (m =? 1) with true by lia. apply orb_true_r. }
    rewrite W. 
    assert (Wb : weight ls <= 2 ^ 15) by (change (2 ^ 15) with 32768 in *; change (2 ^ 14) with 16384 in *; lia).
    assert (Mb : m <= 15) by (apply max_le; exact B).
    assert (T : taken 1 m ls * 2 ^ 15 = weight ls * 2 ^ (1 + m)).
    { rewrite weight_total. apply total_mul. intros l I. pose proof (B l I). pose proof (max_ge ls l I) as Il. fold m in Il. destruct (N.eqb_spec l 0) as [->|N0]; [reflexivity|].
      replace ((1 <=? l) && (l <? 1 + m)) with true by lia. rewrite <- !N.pow_add_r. f_equal. lia. }
    set (d := (N.to_nat m - 1)%nat). assert (D : N.of_nat d + 1 = m) by (unfold d; lia).
    assert (K : taken 1 (N.of_nat d + 1) ls <= N.of_nat 2 * 2 ^ (N.of_nat d + 1)).
    { rewrite D. change (N.of_nat 2) with 2. rewrite <- N.pow_succ_r'. replace (N.succ m) with (1 + m) by lia. assert (2 ^ (1 + m) <> 0) by (apply N.pow_nonzero; lia). change (2 ^ 15) with 32768 in *. nia. }
    destruct (subtrees_spec ls d 1 2 K) as [L _]. cbv zeta in L. set (F := subtrees d 1 (numbered 0 ls) 2) in *. clearbody F.
    destruct F as [|a [|b [|c F]]]; try discriminate L. eexists. reflexivity.
Qed.
Lemma symbol_spec ls t s v s' : (forall l, In l ls -> l <= 15) -> code ls = Some t -> wf s ->
  (symbol t s = Some (v, s') <-> wf s' /\ exists w, code_word ls v w /\ rem s = (w ++ rem s')%list).
Proof.
  intros B C W. rewrite (symbol_path t s v s' W). pose proof (code_spec ls t B C) as P. split; intros (W' & p & H & E); (split; [exact W'|]); exists p; (split; [apply P; exact H|exact E]).
Qed.

(** ** Copies *)
Lemma skipn_skipn {A} a b (l : list A) : skipn a (skipn b l) = skipn (b + a) l.
Proof. revert l. induction b as [|b IH]; intros l; [reflexivity|]. destruct l; [cbn [skipn]; destruct a; reflexivity|]. cbn [skipn Nat.add]. apply IH. Qed.
Lemma back_pos_skipn p : forall out, back_pos p out = skipn (Pos.to_nat p) out.
Proof.
  induction p as [p IH|p IH|]; intros out; cbn [back_pos].
  - rewrite !IH, skipn_skipn, Pos2Nat.inj_xI. destruct out; [cbn [tl]; rewrite !skipn_nil; reflexivity|]. cbn [tl]. change (S (2 * Pos.to_nat p)) with (1 + (2 * Pos.to_nat p))%nat. cbn [skipn Nat.add]. f_equal. lia.
  - rewrite !IH, skipn_skipn, Pos2Nat.inj_xO. f_equal. lia.
  - destruct out; reflexivity.
Qed.
Lemma back_skipn n out : back n out = skipn (N.to_nat n) out.
Proof. destruct n as [|p]; [reflexivity|]. cbn [back N.to_nat]. apply back_pos_skipn. Qed.
Lemma nth_error_skipn' {A} n : forall (l : list A) i, nth_error (skipn n l) i = nth_error l (n + i).
Proof. induction n as [|n IH]; intros l i; [reflexivity|]. destruct l; [cbn [skipn]; destruct i; reflexivity|]. cbn [skipn Nat.add nth_error]. apply IH. Qed.
Lemma nth_error_firstn' {A} n : forall (l : list A) i, (i < n)%nat -> nth_error (firstn n l) i = nth_error l i.
Proof. induction n as [|n IH]; intros l i L; [lia|]. destruct l; [reflexivity|]. destruct i; [reflexivity|]. cbn [firstn nth_error]. apply IH. lia. Qed.
Lemma copy_spec f : forall l d out, (N.to_nat l <= f)%nat -> 1 <= d -> (N.to_nat d <= List.length out)%nat ->
  exists m, (copy f l d out = m ++ out)%list /\ List.length m = N.to_nat l /\
    forall i, (i < List.length m)%nat -> nth_error (m ++ out) i = nth_error (m ++ out) (i + N.to_nat d).
Proof.
  induction f as [|f IH]; intros l d out F D L; cbn [copy].
  - exists []. split; [reflexivity|]. split; [cbn; lia|]. cbn. lia.
  - destruct (N.leb_spec l d) as [H|H].
    + rewrite back_skipn. set (m := firstn (N.to_nat l) (skipn (N.to_nat (d - l)) out)). assert (Lm : List.length m = N.to_nat l) by (unfold m; rewrite firstn_length, skipn_length; lia).
      exists m. split; [reflexivity|]. split; [exact Lm|]. intros i I. rewrite nth_error_app1 by exact I. rewrite nth_error_app2 by lia. unfold m. rewrite nth_error_firstn' by lia. rewrite nth_error_skipn'. fold m. rewrite Lm. f_equal. lia.
    + destruct (IH (l - d) d (firstn (N.to_nat d) out ++ out)%list) as (m & E & Lm & P); [lia|exact D|rewrite app_length, firstn_length; lia|].
      exists (m ++ firstn (N.to_nat d) out)%list. rewrite <- app_assoc. split; [exact E|]. assert (Lf : List.length (firstn (N.to_nat d) out) = N.to_nat d) by (rewrite firstn_length; lia).
      split; [rewrite app_length, Lm, Lf; lia|]. intros i I. rewrite app_length, Lf in I. destruct (Nat.ltb_spec i (List.length m)) as [J|J]; [apply P; exact J|].
      rewrite !(app_assoc m). rewrite (nth_error_app1 (m ++ firstn (N.to_nat d) out)) by (rewrite app_length, Lf; lia). rewrite (nth_error_app2 (m ++ firstn (N.to_nat d) out)) by (rewrite app_length, Lf; lia).
      rewrite nth_error_app2 by exact J. rewrite nth_error_firstn' by lia. rewrite app_length, Lf. f_equal. lia.
Qed.
Lemma nth_error_same {A} (a : list A) : forall b, (forall i, nth_error a i = nth_error b i) -> a = b.
Proof.
  induction a as [|x a IH]; intros [|y b] H; [reflexivity|specialize (H 0%nat); discriminate H..|].
  pose proof (H 0%nat) as E. cbn in E. injection E as ->. f_equal. apply IH. intros i. exact (H (S i)).
Qed.
Lemma copy_unique {A} d (m m' out : list A) : (1 <= d)%nat -> List.length m = List.length m' ->
  (forall i, (i < List.length m)%nat -> nth_error (m ++ out) i = nth_error (m ++ out) (i + d)) ->
  (forall i, (i < List.length m')%nat -> nth_error (m' ++ out) i = nth_error (m' ++ out) (i + d)) -> m = m'.
Proof.
  intros D L P P'. assert (H : forall k i, (List.length m <= i + k)%nat -> nth_error (m ++ out) i = nth_error (m' ++ out) i).
  { induction k as [|k IH]; intros i I.
    - rewrite !nth_error_app2 by lia. f_equal. lia.
    - destruct (Nat.ltb_spec i (List.length m)) as [J|J]; [|rewrite !nth_error_app2 by lia; f_equal; lia].
      rewrite P, P' by lia. apply IH. lia. }
  assert (E : (m ++ out = m' ++ out)%list) by (apply nth_error_same; intros i; apply (H (List.length m)); lia). apply app_inv in E; [tauto|exact L].
Qed.
Lemma nth_error_rev' {A} (l : list A) : forall i, (i < List.length l)%nat -> nth_error (rev l) i = nth_error l (List.length l - 1 - i).
Proof.
  intros i I. destruct l as [|x0 l0]; [cbn in I; lia|]. set (l := x0 :: l0) in *. rewrite (nth_error_nth' (rev l) x0) by (rewrite rev_length; exact I).
  rewrite (nth_error_nth' l x0) by lia. f_equal. rewrite rev_nth by exact I. f_equal. lia.
Qed.
Lemma adds_copy l d out out' : adds (Copy l d) (rev out) out' <->
  1 <= d <= 32768 /\ d <= N.of_nat (List.length out) /\ out' = rev (copy (N.to_nat l) l d out).
Proof.
  cbn [adds]. rewrite rev_length.
  assert (Q : forall m : list ascii, 1 <= d -> d <= N.of_nat (List.length out) -> (forall i, (i < List.length m)%nat -> nth_error (rev out ++ rev m)%list (List.length out + i) = nth_error (rev out ++ rev m)%list (List.length out + i - N.to_nat d)) <->
      forall i, (i < List.length m)%nat -> nth_error (m ++ out)%list i = nth_error (m ++ out)%list (i + N.to_nat d)).
  { intros m D1 D2. rewrite <- rev_app_distr. split; intros H i I.
    - specialize (H (List.length m - 1 - i)%nat ltac:(lia)). rewrite !nth_error_rev' in H by (rewrite app_length; lia). rewrite app_length in H.
      replace (List.length m + List.length out - 1 - (List.length out + (List.length m - 1 - i)))%nat with i in H by lia.
      replace (List.length m + List.length out - 1 - (List.length out + (List.length m - 1 - i) - N.to_nat d))%nat with (i + N.to_nat d)%nat in H by lia. exact H.
    - rewrite !nth_error_rev' by (rewrite app_length; lia). rewrite app_length. specialize (H (List.length m - 1 - i)%nat ltac:(lia)).
      replace (List.length m + List.length out - 1 - (List.length out + i))%nat with (List.length m - 1 - i)%nat by lia.
      replace (List.length m + List.length out - 1 - (List.length out + i - N.to_nat d))%nat with (List.length m - 1 - i + N.to_nat d)%nat by lia. exact H. }
  split.
  - intros (D1 & D2 & mf & -> & Lm & P). split; [exact D1|]. split; [exact D2|].
    destruct (copy_spec (N.to_nat l) l d out) as (m & E & Lm' & P'); [lia|lia|lia|]. rewrite E, rev_app_distr. f_equal.
    assert (rev mf = m); [|subst m; rewrite rev_involutive; reflexivity]. apply (copy_unique (N.to_nat d) _ _ out); [lia|rewrite rev_length; lia| |exact P'].
    apply (Q (rev mf)); [lia|lia|]. rewrite rev_involutive, rev_length. exact P.
  - intros (D1 & D2 & ->). split; [exact D1|]. split; [exact D2|]. destruct (copy_spec (N.to_nat l) l d out) as (m & E & Lm & P); [lia|lia|lia|].
    exists (rev m). rewrite E, rev_app_distr, rev_length. split; [reflexivity|]. split; [exact Lm|]. apply Q; [lia|lia|exact P].
Qed.
Lemma copy_length l d out : 1 <= d -> d <= N.of_nat (List.length out) -> N.of_nat (List.length (copy (N.to_nat l) l d out)) = N.of_nat (List.length out) + l.
Proof. intros D1 D2. destruct (copy_spec (N.to_nat l) l d out) as (m & E & Lm & _); [lia|lia|lia|]. rewrite E, app_length. lia. Qed.

(** ** Tables *)
Lemma length_base_spec v lb ln : length_base v = Some (lb, ln) <-> exists i, v = 257 + N.of_nat i /\ nth_error length_table i = Some (N.of_nat ln, lb).
Proof.
  split.
  - intros E. assert (V : 257 <= v < 286).
    { unfold length_base in E. destruct (N.ltb_spec v 257); [discriminate E|]. destruct (N.ltb_spec v 286); [lia|].
      repeat match type of E with context [?a <? ?b] => replace (a <? b) with false in E by lia end. discriminate E. }
    exists (N.to_nat (v - 257)). split; [lia|]. assert (v = 257 + N.of_nat (N.to_nat (v - 257))) as Ev by lia. set (i := N.to_nat (v - 257)) in *.
    assert (I : (i < 29)%nat) by lia. clearbody i. subst v. do 29 (destruct i as [|i]; [vm_compute in E; injection E as <- <-; reflexivity|]). lia.
  - intros (i & -> & E). do 29 (destruct i as [|i]; [cbn in E; injection E as E1 E2;
      rewrite <- (Nat2N.id ln), <- E1, <- E2; reflexivity|]). destruct i; discriminate E.
Qed.
Lemma distance_base_spec v db dn : distance_base v = Some (db, dn) <-> exists i, v = 0 + N.of_nat i /\ nth_error distance_table i = Some (N.of_nat dn, db).
Proof.
  split.
  - intros E. assert (V : v < 30).
    { unfold distance_base in E. destruct (N.ltb_spec v 4); [lia|]. destruct (N.ltb_spec v 30); [lia|]. discriminate E. }
    exists (N.to_nat v). split; [lia|]. assert (v = N.of_nat (N.to_nat v)) as Ev by lia. set (i := N.to_nat v) in *.
    assert (I : (i < 30)%nat) by lia. clearbody i. subst v. do 30 (destruct i as [|i]; [vm_compute in E; injection E as <- <-; reflexivity|]). lia.
  - intros (i & -> & E). do 30 (destruct i as [|i]; [cbn in E; injection E as E1 E2; rewrite <- (Nat2N.id dn), <- E1, <- E2; reflexivity|]). destruct i; discriminate E.
Qed.

(** ** Tokens *)
Definition short (ls : list N) : Prop := forall l, In l ls -> l <= 15.
Definition olen (out : list ascii) : N := N.of_nat (List.length out).
Lemma symbols_sound lit dist lt dt (Bl : short lit) (Bd : short dist) (Cl : code lit = Some lt) (Cd : code dist = Some dt) f :
  forall out s w' out' s', wf s -> symbols f lt dt (olen out) out s = Done w' out' s' ->
  wf s' /\ w' = olen out' /\ tokens_text lit dist (rev out) (rem s) (rev out') (rem s').
Proof.
  induction f as [|f IH]; intros out s w' out' s' W E; [discriminate E|]. cbn [symbols] in E.
  destruct (symbol lt s) as [[v s1]|] eqn:S1; [|discriminate E]. apply (symbol_spec lit lt s v s1 Bl Cl W) in S1. destruct S1 as (W1 & x & X & R1).
  destruct (N.ltb_spec v 256) as [V|V].
  - assert (A : olen out + 1 = olen (ascii_of_N v :: out)) by (unfold olen; cbn [List.length]; lia). rewrite A in E.
    destruct (IH _ _ _ _ _ W1 E) as (W' & Ew & T). split; [exact W'|]. split; [exact Ew|]. rewrite R1. apply (one_token lit dist (Literal (ascii_of_N v)) x _ (rev out ++ [ascii_of_N v])%list).
    + cbn [token_text]. rewrite N_ascii_embedding by exact V. exact X.
    + reflexivity.
    + exact T.
  - destruct (N.eqb_spec v 256) as [->|V'].
    + injection E as <- <- <-. split; [exact W1|]. split; [reflexivity|]. rewrite R1. apply end_of_block. exact X.
    + destruct (length_base v) as [[lb ln]|] eqn:LB; [|discriminate E]. apply length_base_spec in LB. destruct LB as (i & -> & LB).
      destruct (number ln s1) as [[lx s2]|] eqn:N2; [|discriminate E]. apply (number_spec ln s1 lx s2 W1) in N2. destruct N2 as (W2 & x2 & X2 & R2).
      destruct (symbol dt s2) as [[w s3]|] eqn:S3; [|discriminate E]. apply (symbol_spec dist dt s2 w s3 Bd Cd W2) in S3. destruct S3 as (W3 & x3 & X3 & R3).
      destruct (distance_base w) as [[db dn]|] eqn:DB; [|discriminate E]. apply distance_base_spec in DB. destruct DB as (j & -> & DB).
      destruct (number dn s3) as [[dx s4]|] eqn:N4; [|discriminate E]. apply (number_spec dn s3 dx s4 W3) in N4. destruct N4 as (W4 & x4 & X4 & R4).
      cbv zeta in E. set (l := lb + lx) in *. set (d := db + dx) in *. destruct ((olen out <? d) || (32768 <? d)) eqn:C; [discriminate E|].
      assert (D1 : 1 <= d). { assert (1 <= db); [|unfold d; lia]. apply nth_error_In in DB. clear - DB. repeat (destruct DB as [DB|DB]; [injection DB as _ <-; lia|]). destruct DB. }
      assert (D2 : d <= N.of_nat (List.length out)) by (unfold olen in C; lia).
      rewrite <- (copy_length l d out D1 D2 : olen _ = olen _ + _) in E.
      destruct (IH _ _ _ _ _ W4 E) as (W' & Ew & T). split; [exact W'|]. split; [exact Ew|]. rewrite R1, R2, R3, R4.
      replace (x ++ x2 ++ x3 ++ x4 ++ rem s4)%list with (((x ++ x2) ++ x3 ++ x4) ++ rem s4)%list by (rewrite <- !app_assoc; reflexivity).
      apply (one_token lit dist (Copy l d) _ _ (rev (copy (N.to_nat l) l d out))); [| |exact T].
      * cbn [token_text]. exists (x ++ x2)%list, (x3 ++ x4)%list. split; [|split; [|reflexivity]].
        -- exists i, (N.of_nat ln), lb, x, x2, lx. rewrite Nat2N.id. auto.
        -- exists j, (N.of_nat dn), db, x3, x4, dx. rewrite Nat2N.id. auto.
      * apply adds_copy. split; [lia|]. split; [exact D2|reflexivity].
Qed.
Lemma table_pos t from ls v w : table_text t from ls v w -> (0 < List.length w)%nat.
Proof. intros (i & e & b & w1 & w2 & x & _ & C & _ & _ & ->). apply code_word_length in C. rewrite app_length. lia. Qed.
Lemma token_pos lit dist t w : token_text lit dist t w -> (0 < List.length w)%nat.
Proof. destruct t; cbn [token_text]; [intros C; apply code_word_length in C; lia|]. intros (w1 & w2 & T & _ & ->). apply table_pos in T. rewrite app_length. lia. Qed.
Lemma symbols_complete lit dist lt dt (Bl : short lit) (Bd : short dist) (Cl : code lit = Some lt) (Cd : code dist = Some dt) o b o' r :
  tokens_text lit dist o b o' r -> forall s f, wf s -> rem s = b -> (List.length b < f)%nat ->
  exists s', wf s' /\ rem s' = r /\ symbols f lt dt (olen o) (rev o) s = Done (olen o') (rev o') s'.
Proof.
  induction 1 as [out w r X|t w out out1 out2 b r T A _ IH]; intros s f W R F; (destruct f as [|f]; [lia|]); cbn [symbols].
  - destruct (suffix s W w r R) as (s' & W' & R'). exists s'. split; [exact W'|]. split; [exact R'|].
    rewrite (proj2 (symbol_spec lit lt s 256 s' Bl Cl W)); [reflexivity|]. split; [exact W'|]. exists w. rewrite R'. auto.
  - pose proof (token_pos _ _ _ _ T) as Tp. rewrite app_length in F. destruct t as [c|l d]; cbn [token_text adds] in T, A.
    + destruct (suffix s W w b R) as (s1 & W1 & R1). rewrite (proj2 (symbol_spec lit lt s (N_of_ascii c) s1 Bl Cl W)) by (split; [exact W1|]; exists w; rewrite R1; auto).
      pose proof (N_ascii_bounded c) as Bc. destruct (N.ltb_spec (N_of_ascii c) 256); [|lia]. rewrite ascii_N_embedding.
      destruct (IH s1 f W1 R1) as (s' & W' & R' & E); [lia|]. exists s'. split; [exact W'|]. split; [exact R'|]. rewrite <- E. subst out1. rewrite rev_app_distr. unfold olen. rewrite app_length. cbn [rev List.app List.length].
      f_equal. lia.
    + destruct T as (wa & wb & (i & ea & la & x1 & x2 & lx & Ti & X1 & X2 & El & Ea) & (j & eb & lb & x3 & x4 & dx & Tj & X3 & X4 & Ed & Eb) & ->). subst wa wb. rewrite <- !app_assoc in R.
      destruct (suffix s W _ _ R) as (s1 & W1 & R1). destruct (suffix s1 W1 _ _ R1) as (s2 & W2 & R2). destruct (suffix s2 W2 _ _ R2) as (s3 & W3 & R3). destruct (suffix s3 W3 _ _ R3) as (s4 & W4 & R4).
      rewrite (proj2 (symbol_spec lit lt s (257 + N.of_nat i) s1 Bl Cl W)) by (split; [exact W1|]; exists x1; rewrite R1; auto).
      replace (257 + N.of_nat i <? 256) with false by lia. replace (257 + N.of_nat i =? 256) with false by lia.
      rewrite (proj2 (length_base_spec (257 + N.of_nat i) la (N.to_nat ea))) by (exists i; rewrite N2Nat.id; auto).
      rewrite (proj2 (number_spec (N.to_nat ea) s1 lx s2 W1)) by (split; [exact W2|]; exists x2; rewrite R2; auto).
      rewrite (proj2 (symbol_spec dist dt s2 (0 + N.of_nat j) s3 Bd Cd W2)) by (split; [exact W3|]; exists x3; rewrite R3; auto).
      rewrite (proj2 (distance_base_spec (0 + N.of_nat j) lb (N.to_nat eb))) by (exists j; rewrite N2Nat.id; auto).
      rewrite (proj2 (number_spec (N.to_nat eb) s3 dx s4 W3)) by (split; [exact W4|]; exists x4; rewrite R4; auto).
      cbv zeta. rewrite <- El, <- Ed. change (adds (Copy l d) out out1) in A. rewrite <- (rev_involutive out) in A at 1. apply adds_copy in A. rewrite rev_length in A. destruct A as (D1 & D2 & ->).
      replace ((olen out <? d) || (32768 <? d)) with false by (unfold olen; lia).
      destruct (IH s4 f W4 R4) as (s' & W' & R' & E); [rewrite !app_length in *; lia|]. exists s'. split; [exact W'|]. split; [exact R'|]. rewrite <- E. rewrite rev_involutive. f_equal.
      unfold olen. rewrite rev_length, copy_length; rewrite ?rev_length; lia.
Qed.

(** ** Code lengths *)
Lemma lengths_grow cl ls b ls' r : lengths_text cl ls b ls' r -> exists x, ls' = (ls ++ x)%list.
Proof.
  induction 1 as [ls r|v w ls b ls' r _ _ _ [x ->]|v w1 x w2 ls b ls' r _ _ _ [y ->]|v bs least w1 x w2 ls b ls' r _ _ _ _ [y ->]].
  - exists []. rewrite app_nil_r. reflexivity.
  - exists ([v] ++ x)%list. rewrite <- !app_assoc. reflexivity.
  - exists (repeat v (3 + N.to_nat x) ++ y)%list. rewrite <- !app_assoc. reflexivity.
  - exists (repeat 0 (least + N.to_nat x) ++ y)%list. rewrite <- !app_assoc. reflexivity.
Qed.
Lemma repeat_rev {A} (x : A) n : rev (repeat x n) = repeat x n.
Proof. induction n as [|n IH]; [reflexivity|]. cbn [repeat rev]. rewrite IH. clear IH. induction n as [|n IH]; [reflexivity|]. cbn [repeat List.app]. rewrite IH. reflexivity. Qed.
Lemma code_lengths_sound cl t n (B : short cl) (C : code cl = Some t) f : forall acc s l s', wf s -> code_lengths f t n acc s = Some (l, s') ->
  (List.length acc <= n)%nat -> short acc -> wf s' /\ List.length l = n /\ short l /\ lengths_text cl (rev acc) (rem s) (rev l) (rem s').
Proof.
  induction f as [|f IH]; intros acc s l s' W E L Sh; [discriminate E|]. cbn [code_lengths] in E. destruct (Nat.leb_spec n (List.length acc)) as [G|G].
  - injection E as <- <-. split; [exact W|]. split; [lia|]. split; [exact Sh|]. constructor.
  - destruct (symbol t s) as [[v s1]|] eqn:S1; [|discriminate E]. apply (symbol_spec cl t s v s1 B C W) in S1. destruct S1 as (W1 & x & X & R1).
    destruct (N.ltb_spec v 16) as [V|V].
    + destruct (IH _ _ _ _ W1 E) as (W' & Ll & Shl & T); [cbn [List.length]; lia|intros y [<-|Hy]; [lia|exact (Sh y Hy)]|].
      split; [exact W'|]. split; [exact Ll|]. split; [exact Shl|]. rewrite R1. apply (lengths_one cl v); [exact V|exact X|exact T].
    + cbv zeta in E.
      assert (Again : forall value bits base, value <= 15 -> match number bits s1 with None => None | Some (x, s2) =>
            if Nat.ltb n (List.length acc + (base + N.to_nat x)) then None else code_lengths f t n (repeat value (base + N.to_nat x) ++ acc) s2 end = Some (l, s') ->
          exists x2 w2 b, rem s1 = (w2 ++ b)%list /\ number_field bits x2 w2 /\ wf s' /\ List.length l = n /\ short l /\ lengths_text cl (rev acc ++ repeat value (base + N.to_nat x2)) b (rev l) (rem s')).
      { intros value bits base Bv E'. destruct (number bits s1) as [[x2 s2]|] eqn:N2; [|discriminate E']. apply (number_spec bits s1 x2 s2 W1) in N2. destruct N2 as (W2 & w2 & X2 & R2).
        destruct (Nat.ltb_spec n (List.length acc + (base + N.to_nat x2))) as [G'|G']; [discriminate E'|].
        destruct (IH _ _ _ _ W2 E') as (W' & Ll & Shl & T); [rewrite app_length, repeat_length; lia| |].
        - intros y Hy. apply in_app_or in Hy. destruct Hy as [Hy|Hy]; [apply repeat_spec in Hy; lia|exact (Sh y Hy)].
        - rewrite rev_app_distr, repeat_rev in T. exists x2, w2, (rem s2). auto 8. }
      destruct (N.eqb_spec v 16) as [->|V1].
      { destruct acc as [|p acc]; [discriminate E|]. apply (Again p 2%nat 3%nat) in E; [|apply Sh; left; reflexivity]. destruct E as (x2 & w2 & b & R2 & X2 & W' & Ll & Shl & T).
        split; [exact W'|]. split; [exact Ll|]. split; [exact Shl|]. rewrite R1, R2. cbn [rev] in *. rewrite <- app_assoc in T. apply (lengths_previous cl p _ x2); assumption. }
      destruct (N.eqb_spec v 17) as [->|V2].
      { apply (Again 0 3%nat 3%nat) in E; [|lia]. destruct E as (x2 & w2 & b & R2 & X2 & W' & Ll & Shl & T).
        split; [exact W'|]. split; [exact Ll|]. split; [exact Shl|]. rewrite R1, R2. apply (lengths_zeros cl 17 3 3 _ x2); [left; reflexivity|assumption..]. }
      destruct (N.eqb_spec v 18) as [->|V3]; [|discriminate E].
      { apply (Again 0 7%nat 11%nat) in E; [|lia]. destruct E as (x2 & w2 & b & R2 & X2 & W' & Ll & Shl & T).
        split; [exact W'|]. split; [exact Ll|]. split; [exact Shl|]. rewrite R1, R2. apply (lengths_zeros cl 18 7 11 _ x2); [right; left; reflexivity|assumption..]. }
Qed.
Lemma code_lengths_complete cl t n (B : short cl) (C : code cl = Some t) ls b ls' r : lengths_text cl ls b ls' r -> List.length ls' = n ->
  forall f s, wf s -> rem s = b -> (n - List.length ls < f)%nat ->
  exists s', wf s' /\ rem s' = r /\ code_lengths f t n (rev ls) s = Some (rev ls', s').
Proof.
  induction 1 as [ls r|v w ls b ls' r V X T IH|v w1 x w2 ls b ls' r X1 X2 T IH|v bs least w1 x w2 ls b ls' r I X1 X2 T IH]; intros Ln f s W R F; (destruct f as [|f]; [lia|]); cbn [code_lengths]; rewrite rev_length.
  - exists s. split; [exact W|]. split; [exact R|]. destruct (Nat.leb_spec n (List.length ls)); [reflexivity|lia].
  - destruct (lengths_grow _ _ _ _ _ T) as [y Ey]. pose proof (f_equal (@List.length N) Ey) as Ly. rewrite !app_length in Ly. cbn [List.length] in Ly.
    destruct (Nat.leb_spec n (List.length ls)); [lia|]. destruct (suffix s W _ _ R) as (s1 & W1 & R1).
    rewrite (proj2 (symbol_spec cl t s v s1 B C W)) by (split; [exact W1|]; exists w; rewrite R1; auto). destruct (N.ltb_spec v 16); [|lia].
    destruct (IH Ln f s1 W1 R1) as (s' & W' & R' & E); [rewrite app_length; cbn [List.length]; lia|]. exists s'. split; [exact W'|]. split; [exact R'|]. rewrite <- E, rev_app_distr. reflexivity.
  - destruct (lengths_grow _ _ _ _ _ T) as [y Ey]. pose proof (f_equal (@List.length N) Ey) as Ly. rewrite !app_length, repeat_length in Ly. cbn [List.length] in Ly. rewrite app_length in *. cbn [List.length] in *.
    destruct (Nat.leb_spec n (List.length ls + 1)); [lia|]. destruct (suffix s W _ _ R) as (s1 & W1 & R1). destruct (suffix s1 W1 _ _ R1) as (s2 & W2 & R2).
    rewrite (proj2 (symbol_spec cl t s 16 s1 B C W)) by (split; [exact W1|]; exists w1; rewrite R1; auto). rewrite rev_app_distr. cbn [rev List.app]. change (16 <? 16) with false. change (16 =? 16) with true. cbv iota zeta.
    rewrite (proj2 (number_spec 2 s1 x s2 W1)) by (split; [exact W2|]; exists w2; rewrite R2; auto).
    destruct (Nat.ltb_spec n (List.length ls + 1 + (3 + N.to_nat x))); [lia|].
    destruct (IH Ln f s2 W2 R2) as (s' & W' & R' & E); [rewrite !app_length, repeat_length; cbn [List.length]; lia|]. exists s'. split; [exact W'|]. split; [exact R'|]. rewrite <- E, !rev_app_distr, repeat_rev, <- app_assoc. reflexivity.
  - destruct (lengths_grow _ _ _ _ _ T) as [y Ey]. pose proof (f_equal (@List.length N) Ey) as Ly. rewrite !app_length, repeat_length in Ly.
    assert (Lb : (3 <= least)%nat) by (destruct I as [I|[I|[]]]; injection I as _ _ <-; lia).
    destruct (Nat.leb_spec n (List.length ls)); [lia|]. destruct (suffix s W _ _ R) as (s1 & W1 & R1). destruct (suffix s1 W1 _ _ R1) as (s2 & W2 & R2).
    rewrite (proj2 (symbol_spec cl t s v s1 B C W)) by (split; [exact W1|]; exists w1; rewrite R1; auto). 
    destruct (IH Ln f s2 W2 R2) as (s' & W' & R' & E); [rewrite app_length, repeat_length; lia|]. rewrite rev_app_distr, repeat_rev in E.
    exists s'. split; [exact W'|]. split; [exact R'|]. 
    pose proof (proj2 (number_spec bs s1 x s2 W1)) as Nm. specialize (Nm ltac:(split; [exact W2|]; exists w2; rewrite R2; auto)).
    destruct I as [I|[I|[]]]; injection I as <- <- <-.
    + change (17 <? 16) with false. change (17 =? 16) with false. change (17 =? 17) with true. cbv iota zeta. rewrite Nm. destruct (Nat.ltb_spec n (List.length ls + (3 + N.to_nat x))); [lia|]. exact E.
    + change (18 <? 16) with false. change (18 =? 16) with false. change (18 =? 17) with false. change (18 =? 18) with true. cbv iota zeta. rewrite Nm. destruct (Nat.ltb_spec n (List.length ls + (11 + N.to_nat x))); [lia|]. exact E.
Qed.
Lemma lengths_short cl ls b ls' r : lengths_text cl ls b ls' r -> short ls -> short ls'.
Proof.
  induction 1 as [ls r|v w ls b ls' r V _ _ IH|v w1 x w2 ls b ls' r _ _ _ IH|v bs least w1 x w2 ls b ls' r _ _ _ _ IH]; intros Sh; [exact Sh|apply IH..]; intros y Hy.
  - apply in_app_or in Hy. destruct Hy as [Hy|[<-|[]]]; [exact (Sh y Hy)|lia].
  - apply in_app_or in Hy. destruct Hy as [Hy|Hy]; [apply Sh; apply in_or_app; auto|]. cbn [List.app In] in Hy. destruct Hy as [<-|Hy]; [apply Sh; apply in_or_app; right; left; reflexivity|].
    apply repeat_spec in Hy. subst y. apply Sh. apply in_or_app. right. left. reflexivity.
  - apply in_app_or in Hy. destruct Hy as [Hy|Hy]; [exact (Sh y Hy)|apply repeat_spec in Hy; lia].
Qed.
Lemma numbers_spec b k : forall s vs s', wf s -> (numbers k b s = Some (vs, s') <->
  wf s' /\ exists ws, Forall2 (number_field b) vs ws /\ List.length vs = k /\ rem s = (List.concat ws ++ rem s')%list).
Proof.
  induction k as [|k IH]; intros s vs s' W; cbn [numbers].
  - split.
    + intros E. injection E as <- <-. split; [exact W|]. exists []. split; [constructor|]. split; reflexivity.
    + intros (W' & ws & F & L & E). destruct F; [|discriminate L]. cbn in E. rewrite (rem_inj s s' W W' E). reflexivity.
  - split.
    + destruct (number b s) as [[x s1]|] eqn:N1; [|discriminate]. apply (number_spec b s x s1 W) in N1. destruct N1 as (W1 & w & X & R1).
      destruct (numbers k b s1) as [[l s2]|] eqn:N2; [|discriminate]. intros E. injection E as <- <-. apply (IH s1 l s2 W1) in N2. destruct N2 as (W2 & ws & F & L & R2).
      split; [exact W2|]. exists (w :: ws). split; [constructor; assumption|]. split; [cbn; lia|]. rewrite R1, R2. cbn [List.concat]. rewrite <- app_assoc. reflexivity.
    + intros (W' & ws & F & L & E). destruct F as [|x w vs ws X F]; [discriminate L|]. cbn [List.concat] in E. rewrite <- app_assoc in E.
      destruct (suffix s W _ _ E) as (s1 & W1 & R1). rewrite (proj2 (number_spec b s x s1 W)) by (split; [exact W1|]; exists w; rewrite R1; auto).
      rewrite (proj2 (IH s1 vs s' W1)); [reflexivity|]. split; [exact W'|]. exists ws. split; [exact F|]. split; [cbn in L; lia|exact R1].
Qed.
Lemma unscramble_nth vs : (List.length vs <= 19)%nat -> forall i, (i < 19)%nat -> nth (nth i written_order 0%nat) (unscramble vs) 0 = nth i vs 0.
Proof.
  intros L i I. unfold unscramble. do 19 (destruct vs as [|? vs]; [do 19 (destruct i as [|i]; [reflexivity|]); lia|]).
  destruct vs; [|cbn in L; lia]. do 19 (destruct i as [|i]; [reflexivity|]). lia.
Qed.
Lemma unscramble_unique vs cl : (List.length vs <= 19)%nat -> List.length cl = 19%nat -> (forall i, (i < 19)%nat -> nth (nth i written_order 0%nat) cl 0 = nth i vs 0) -> cl = unscramble vs.
Proof.
  intros L Lc H. apply (nth_ext _ _ 0 0); [unfold unscramble; rewrite map_length, seq_length; exact Lc|]. intros j J. rewrite Lc in J.
  assert (exists i, (i < 19)%nat /\ nth i written_order 0%nat = j) as (i & I & <-).
  { assert (Hj : In j written_order) by (do 19 (destruct j as [|j]; [cbn; tauto|]); lia). apply (In_nth _ _ 0%nat) in Hj. exact Hj. }
  rewrite (H i I). symmetry. apply unscramble_nth; assumption.
Qed.
Lemma unscramble_short vs ws : Forall2 (number_field 3) vs ws -> short (unscramble vs).
Proof.
  intros F l I. unfold unscramble in I. apply in_map_iff in I. destruct I as (i & <- & _). destruct (find _ _) as [[a b]|] eqn:E; [|lia]. apply find_some in E. destruct E as [E _]. apply in_combine_r in E. cbn [snd].
  assert (exists w, number_field 3 b w) as (w & L & <-). { clear - F E. induction F as [|x y l m H F IH]; [destruct E|]. destruct E as [->|E]; [exists y; exact H|exact (IH E)]. }
  pose proof (low_first_bound w) as B. rewrite L in B. change (2 ^ N.of_nat 3) with 8 in B. lia.
Qed.
Lemma field_bound n v w : number_field n v w -> v < 2 ^ N.of_nat n.
Proof. intros [<- <-]. apply low_first_bound. Qed.
Lemma dynamic_sound s lt dt s' : wf s -> dynamic_codes s = Some (lt, dt, s') ->
  exists lit dist, codes_text lit dist (rem s) (rem s') /\ short lit /\ short dist /\ code lit = Some lt /\ code dist = Some dt /\ wf s'.
Proof.
  intros W. unfold dynamic_codes. destruct (number 5 s) as [[hlit s1]|] eqn:N1; [|discriminate]. apply (number_spec 5 s hlit s1 W) in N1. destruct N1 as (W1 & w1 & X1 & R1).
  destruct (number 5 s1) as [[hdist s2]|] eqn:N2; [|discriminate]. apply (number_spec 5 s1 hdist s2 W1) in N2. destruct N2 as (W2 & w2 & X2 & R2).
  destruct (number 4 s2) as [[hclen s3]|] eqn:N3; [|discriminate]. apply (number_spec 4 s2 hclen s3 W2) in N3. destruct N3 as (W3 & w3 & X3 & R3).
  cbv zeta. set (nlit := (N.to_nat hlit + 257)%nat). set (ndist := (N.to_nat hdist + 1)%nat).
  destruct (Nat.ltb_spec 286 nlit) as [G1|G1]; [discriminate|]. destruct (Nat.ltb_spec 30 ndist) as [G2|G2]; [discriminate|]. cbn [orb].
  destruct (numbers (N.to_nat hclen + 4) 3 s3) as [[vs s4]|] eqn:N4; [|discriminate]. apply (numbers_spec 3 _ s3 vs s4 W3) in N4. destruct N4 as (W4 & ws & F & L & R4).
  destruct (code (unscramble vs)) as [t|] eqn:C; [|discriminate]. pose proof (unscramble_short vs ws F) as Su.
  destruct (code_lengths (S (nlit + ndist)) t (nlit + ndist) [] s4) as [[racc s5]|] eqn:CL; [|discriminate].
  destruct (code_lengths_sound _ t (nlit + ndist) Su C _ [] s4 racc s5 W4 CL) as (W5 & Ll & Sr & T); [cbn; lia|intros ? []|].
  assert (Srev : short (rev racc)) by (intros y Hy; apply Sr; apply in_rev; exact Hy).
  destruct (code (firstn nlit (rev racc))) as [lt'|] eqn:Cl; [|discriminate]. destruct (code (skipn nlit (rev racc))) as [dt'|] eqn:Cd; [|discriminate].
  intros E. injection E as <- <- <-. set (lit := firstn nlit (rev racc)) in *. set (dist := skipn nlit (rev racc)) in *. exists lit, dist.
  assert (Sl : short lit). { intros y Hy. apply Srev. rewrite <- (firstn_skipn nlit (rev racc)). apply in_or_app. left. exact Hy. }
  assert (Sd : short dist). { intros y Hy. apply Srev. rewrite <- (firstn_skipn nlit (rev racc)). apply in_or_app. right. exact Hy. }
  split; [|auto 8]. rewrite R1, R2, R3, R4. pose proof (field_bound _ _ _ X3) as B3. change (2 ^ N.of_nat 4) with 16 in B3.
  apply (codes lit dist hlit hdist hclen w1 w2 w3 ws vs (unscramble vs)); try assumption; try (unfold nlit, ndist in *; lia).
  - unfold unscramble. rewrite map_length, seq_length. reflexivity.
  - apply unscramble_nth. lia.
  - apply code_usable; [exact Su|]. exists t. exact C.
  - unfold lit, dist. rewrite firstn_skipn. exact T.
  - unfold lit. rewrite firstn_length, rev_length. unfold nlit in *. lia.
  - unfold dist. rewrite skipn_length, rev_length. unfold ndist in *. lia.
  - apply code_usable; [exact Sl|]. exists lt'. exact Cl.
  - apply code_usable; [exact Sd|]. exists dt'. exact Cd.
Qed.
Lemma dynamic_complete s lit dist r : wf s -> codes_text lit dist (rem s) r ->
  exists lt dt s', dynamic_codes s = Some (lt, dt, s') /\ short lit /\ short dist /\ code lit = Some lt /\ code dist = Some dt /\ wf s' /\ rem s' = r.
Proof.
  intros W T. remember (rem s) as b0 eqn:R. destruct T as [hlit hdist hclen w1 w2 w3 ws vs cl b r X1 X2 X3 H1 H2 F L Lc O U T Ll Ld Ul Ud]. symmetry in R.
  destruct (suffix s W _ _ R) as (s1 & W1 & R1). destruct (suffix s1 W1 _ _ R1) as (s2 & W2 & R2). destruct (suffix s2 W2 _ _ R2) as (s3 & W3 & R3). destruct (suffix s3 W3 _ _ R3) as (s4 & W4 & R4).
  pose proof (field_bound _ _ _ X3) as B3. change (2 ^ N.of_nat 4) with 16 in B3.
  assert (Ec : cl = unscramble vs) by (apply unscramble_unique; [lia|exact Lc|exact O]). subst cl. pose proof (unscramble_short vs ws F) as Su.
  destruct (proj2 (code_usable _ Su) U) as [t C].
  destruct (code_lengths_complete _ t (N.to_nat hlit + 257 + (N.to_nat hdist + 1)) Su C _ _ _ _ T) with (f := S (N.to_nat hlit + 257 + (N.to_nat hdist + 1))) (s := s4) as (s5 & W5 & R5 & E5); [rewrite app_length; lia|exact W4|exact R4|lia|].
  pose proof (lengths_short _ _ _ _ _ T ltac:(intros ? [])) as Sa.
  assert (Sl : short lit) by (intros y Hy; apply Sa; apply in_or_app; left; exact Hy). assert (Sd : short dist) by (intros y Hy; apply Sa; apply in_or_app; right; exact Hy).
  destruct (proj2 (code_usable _ Sl) Ul) as [lt Cl]. destruct (proj2 (code_usable _ Sd) Ud) as [dt Cd].
  exists lt, dt, s5. split; [|auto 8]. unfold dynamic_codes.
  rewrite (proj2 (number_spec 5 s hlit s1 W)) by (split; [exact W1|]; exists w1; rewrite R1; auto).
  rewrite (proj2 (number_spec 5 s1 hdist s2 W1)) by (split; [exact W2|]; exists w2; rewrite R2; auto).
  rewrite (proj2 (number_spec 4 s2 hclen s3 W2)) by (split; [exact W3|]; exists w3; rewrite R3; auto). cbv zeta.
  destruct (Nat.ltb_spec 286 (N.to_nat hlit + 257)); [lia|]. destruct (Nat.ltb_spec 30 (N.to_nat hdist + 1)); [lia|]. cbn [orb].
  rewrite (proj2 (numbers_spec 3 (N.to_nat hclen + 4) s3 vs s4 W3)) by (split; [exact W4|]; exists ws; split; [exact F|split; [lia|congruence]]).
  rewrite C. cbn [rev] in E5. rewrite E5, rev_involutive.
  replace (firstn (N.to_nat hlit + 257) (lit ++ dist)) with lit by (rewrite firstn_app, firstn_all2 by lia; replace (N.to_nat hlit + 257 - List.length lit)%nat with 0%nat by lia; rewrite app_nil_r; reflexivity).
  replace (skipn (N.to_nat hlit + 257) (lit ++ dist)) with dist by (rewrite skipn_app, skipn_all2 by lia; replace (N.to_nat hlit + 257 - List.length lit)%nat with 0%nat by lia; reflexivity).
  rewrite Cl, Cd. reflexivity.
Qed.

(** ** Blocks *)
Lemma low_first_byte c : low_first (bits_of c) = N_of_ascii c.
Proof. destruct c as [[] [] [] [] [] [] [] []]; reflexivity. Qed.
Lemma bits_of_length c : List.length (bits_of c) = 8%nat.
Proof. destruct c; reflexivity. Qed.
Lemma low_first_two a b : low_first (bits [a; b]) = n_of_bytes a b.
Proof.
  rewrite !bits_cons. unfold bits at 1. cbn [flat_map]. rewrite app_nil_r, low_first_app, !low_first_byte, bits_of_length. change (2 ^ N.of_nat 8) with 256. reflexivity.
Qed.
Lemma field_16 a b v : number_field 16 v (bits [a; b]) <-> n_of_bytes a b = v.
Proof. unfold number_field. rewrite bits_length, low_first_two. cbn. tauto. Qed.
Lemma n_of_bytes_bound a b : n_of_bytes a b < 65536.
Proof. unfold n_of_bytes. pose proof (N_ascii_bounded a). pose proof (N_ascii_bounded b). lia. Qed.
Lemma stored_sound out s w' out' s' : wf s -> stored (olen out) out s = Done w' out' s' ->
  wf s' /\ w' = olen out' /\ block_text (rev out) ([false; false] ++ rem s) (rev out') (rem s').
Proof.
  intros W. unfold stored. destruct (s_bytes s) as [|a [|b [|c [|d l]]]] eqn:B; try discriminate. cbv zeta. pose proof (n_of_bytes_bound a b) as Bn. set (n := n_of_bytes a b) in *.
  destruct (N.eqb_spec (n_of_bytes c d) (65535 - n)) as [C|C]; [|discriminate]. cbn [negb]. set (data := firstn (N.to_nat n) l). destruct (Nat.ltb_spec (List.length data) (N.to_nat n)) as [G|G]; [discriminate|].
  assert (Ld : List.length data = N.to_nat n) by (pose proof (firstn_le_length (N.to_nat n) l) as H; fold data in H; lia).
  intros E. injection E as <- <- <-. split; [unfold wf; cbn; lia|]. rewrite rev_append_rev. split; [unfold olen; rewrite app_length, rev_length; lia|].
  rewrite rev_app_distr, rev_involutive. unfold rem at 1. rewrite B. change (a :: b :: c :: d :: l) with ([a; b] ++ [c; d] ++ l)%list. rewrite <- (firstn_skipn (N.to_nat n) l) at 1. fold data. rewrite !bits_app.
  change (rem (mkStream [] (skipn (N.to_nat n) l))) with (bits (skipn (N.to_nat n) l)).
  apply (stored_block (rev out) (s_bits s) n (bits [a; b]) (bits [c; d]) data (bits (skipn (N.to_nat n) l))).
  - exact W.
  - rewrite bits_length, Nat.mul_comm. apply Nat.mod_mul. lia.
  - lia.
  - apply field_16. reflexivity.
  - apply field_16. exact C.
Qed.
Lemma stored_complete out s padding n w1 w2 data r : wf s -> rem s = (padding ++ w1 ++ w2 ++ bits data ++ r)%list ->
  (List.length padding < 8)%nat -> (List.length r mod 8 = 0)%nat -> N.of_nat (List.length data) = n -> number_field 16 n w1 -> number_field 16 (65535 - n) w2 ->
  exists s', wf s' /\ rem s' = r /\ stored (olen out) (rev out) s = Done (olen (out ++ data)) (rev (out ++ data)) s'.
Proof.
  intros W R P M L X1 X2. pose proof (f_equal (@List.length bool) R) as Lr. rewrite rem_length, !app_length, bits_length in Lr. pose proof (proj1 X1) as L1. pose proof (proj1 X2) as L2.
  assert (Lp : List.length (s_bits s) = List.length padding /\ (8 * List.length (s_bytes s) = 32 + 8 * List.length data + List.length r)%nat).
  { unfold wf in W. pose proof (Nat.div_mod (List.length r) 8 ltac:(lia)) as Dm. rewrite M in Dm. split; lia. }
  destruct Lp as [Lp Lb]. unfold rem in R. apply app_inv in R; [|exact Lp]. destruct R as [_ R].
  destruct (s_bytes s) as [|a [|b [|c [|d l]]]] eqn:B; cbn [List.length] in Lb; try lia.
  change (a :: b :: c :: d :: l) with ([a; b] ++ [c; d] ++ l)%list in R. rewrite !bits_app in R.
  apply app_inv in R; [|rewrite bits_length; cbn [List.length]; lia]. destruct R as [E1 R]. apply app_inv in R; [|rewrite bits_length; cbn [List.length]; lia]. destruct R as [E2 R]. subst w1 w2.
  apply field_16 in X1, X2. rewrite <- (firstn_skipn (List.length data) l), bits_app in R. assert (Ll : (List.length data <= List.length l)%nat) by lia.
  apply app_inv in R; [|rewrite !bits_length, firstn_length; lia]. destruct R as [E3 R]. apply bits_inj in E3.
  exists (mkStream [] (skipn (List.length data) l)). split; [unfold wf; cbn; lia|]. split; [exact R|]. unfold stored. rewrite B, X1, X2, N.eqb_refl. cbv zeta. cbn [negb].
  assert (Nd : N.to_nat n = List.length data) by lia. rewrite Nd, E3, Nat.ltb_irrefl, rev_append_rev, rev_app_distr. f_equal. unfold olen. rewrite app_length. lia.
Qed.
Lemma fixed_code : exists lt dt, code fixed_lengths = Some lt /\ code fixed_distances = Some dt /\ code fixed_literals = Some lt /\ code fixed_distance_code = Some dt /\ short fixed_literals /\ short fixed_distance_code.
Proof.
  assert (A : short fixed_literals).
  { intros l H. assert (F : forallb (fun l => l <=? 15) fixed_literals = true) by (vm_compute; reflexivity). rewrite forallb_forall in F. specialize (F l H). lia. }
  assert (B : short fixed_distance_code).
  { intros l H. assert (F : forallb (fun l => l <=? 15) fixed_distance_code = true) by (vm_compute; reflexivity). rewrite forallb_forall in F. specialize (F l H). lia. }
  destruct (proj2 (code_usable _ A)) as [lt Cl]; [left; vm_compute; reflexivity|]. destruct (proj2 (code_usable _ B)) as [dt Cd]; [left; vm_compute; reflexivity|].
  exists lt, dt. auto 8.
Qed.
Lemma two_bits v w : number_field 2 v w -> (v = 0 /\ w = [false; false]) \/ (v = 1 /\ w = [true; false]) \/ (v = 2 /\ w = [false; true]) \/ (v = 3 /\ w = [true; true]).
Proof. intros [L <-]. destruct w as [|[] [|[] [|? ?]]]; try discriminate L; cbn; auto. Qed.
Lemma block_sound f kind w out s w' out' s' : number_field 2 kind w -> wf s -> block f kind (olen out) out s = Done w' out' s' ->
  wf s' /\ w' = olen out' /\ block_text (rev out) (w ++ rem s) (rev out') (rem s').
Proof.
  intros K W. apply two_bits in K. destruct fixed_code as (lt & dt & C1 & C2 & C3 & C4 & S1 & S2). destruct K as [[-> ->]|[[-> ->]|[[-> ->]|[-> ->]]]]; cbn [block].
  - apply stored_sound. exact W.
  - rewrite C1, C2. intros E. destruct (symbols_sound _ _ _ _ S1 S2 C3 C4 _ _ _ _ _ _ W E) as (W' & Ew & T). split; [exact W'|]. split; [exact Ew|]. apply fixed_block. exact T.
  - destruct (dynamic_codes s) as [[[lt' dt'] s1]|] eqn:D; [|discriminate]. destruct (dynamic_sound _ _ _ _ W D) as (lit & dist & T1 & Sl & Sd & Cl & Cd & W1).
    intros E. destruct (symbols_sound _ _ _ _ Sl Sd Cl Cd _ _ _ _ _ _ W1 E) as (W' & Ew & T). split; [exact W'|]. split; [exact Ew|]. apply (dynamic_block lit dist _ _ (rem s1)); assumption.
  - discriminate.
Qed.
Lemma codes_shorter lit dist b r : codes_text lit dist b r -> (List.length r <= List.length b)%nat.
Proof.
  intros [hlit hdist hclen w1 w2 w3 ws vs cl b0 r0 _ _ _ _ _ _ _ _ _ _ T _ _ _ _]. assert (List.length r0 <= List.length b0)%nat by (clear - T; induction T; rewrite ?app_length in *; lia). rewrite !app_length. lia.
Qed.
Lemma block_complete out b out' r : block_text out b out' r -> forall s f, wf s -> rem s = b -> (List.length b <= f)%nat ->
  exists kind s1 s', number 2 s = Some (kind, s1) /\ wf s' /\ rem s' = r /\ block f kind (olen out) (rev out) s1 = Done (olen out') (rev out') s'.
Proof.
  intros T s f W R F. destruct fixed_code as (lt & dt & C1 & C2 & C3 & C4 & S1 & S2).
  assert (K : forall k w b', number_field 2 k w -> rem s = (w ++ b')%list -> exists s1, number 2 s = Some (k, s1) /\ wf s1 /\ rem s1 = b' /\ (List.length b' < List.length (rem s))%nat).
  { intros k w b' X E. destruct (suffix s W w b' E) as (s1 & W1 & R1). exists s1. split; [|split; [exact W1|split; [exact R1|]]].
    - apply (number_spec 2 s k s1 W). split; [exact W1|]. exists w. rewrite R1. auto.
    - rewrite E, app_length, (proj1 X). lia. }
  destruct T as [out padding n w1 w2 data r P M L X1 X2|out b out' r T|lit dist out b b' out' r T1 T].
  - destruct (K 0 [false; false] _ (conj eq_refl eq_refl) R) as (s1 & N2 & W1 & R1 & _). destruct (stored_complete out s1 padding n w1 w2 data r W1 R1 P M L X1 X2) as (s' & W' & R' & E). exists 0, s1, s'. auto.
  - destruct (K 1 [true; false] _ (conj eq_refl eq_refl) R) as (s1 & N2 & W1 & R1 & G). rewrite R in G. destruct (symbols_complete _ _ _ _ S1 S2 C3 C4 _ _ _ _ T s1 f W1 R1) as (s' & W' & R' & E); [lia|].
    exists 1, s1, s'. cbn [block]. rewrite C1, C2. auto.
  - destruct (K 2 [false; true] _ (conj eq_refl eq_refl) R) as (s1 & N2 & W1 & R1 & G). rewrite R in G. pose proof (codes_shorter _ _ _ _ T1) as Sh. rewrite <- R1 in T1. destruct (dynamic_complete _ _ _ _ W1 T1) as (lt' & dt' & s2 & D & Sl & Sd & Cl & Cd & W2 & R2).
    destruct (symbols_complete _ _ _ _ Sl Sd Cl Cd _ _ _ _ T s2 f W2 R2) as (s' & W' & R' & E); [lia|]. exists 2, s1, s'. cbn [block]. rewrite D. auto.
Qed.
Lemma tokens_shorter lit dist out b out' r : tokens_text lit dist out b out' r -> (List.length r <= List.length b)%nat.
Proof. induction 1; rewrite ?app_length in *; lia. Qed.
Lemma block_shorter out b out' r : block_text out b out' r -> (List.length r <= List.length b)%nat.
Proof.
  intros [? ? ? ? ? ? ? ? ? ? ? ?|? ? ? ? T|? ? ? ? ? ? ? C T]; [rewrite !app_length; lia|apply tokens_shorter in T; cbn [List.app List.length]; lia|apply tokens_shorter in T; apply codes_shorter in C; cbn [List.app List.length]; lia].
Qed.
Lemma one_bit v w : number_field 1 v w -> (v = 0 /\ w = [false]) \/ (v = 1 /\ w = [true]).
Proof. intros [L <-]. destruct w as [|[] [|? ?]]; try discriminate L; cbn; auto. Qed.
Lemma blocks_sound g f : forall out s w' out' s', wf s -> blocks f g (olen out) out s = Done w' out' s' ->
  wf s' /\ blocks_text (rev out) (rem s) (rev out') (rem s').
Proof.
  induction f as [|f IH]; intros out s w' out' s' W E; [discriminate E|]. cbn [blocks] in E.
  destruct (number 1 s) as [[final s1]|] eqn:N1; [|discriminate E]. apply (number_spec 1 s final s1 W) in N1. destruct N1 as (W1 & w1 & X1 & R1).
  destruct (number 2 s1) as [[kind s2]|] eqn:N2; [|discriminate E]. apply (number_spec 2 s1 kind s2 W1) in N2. destruct N2 as (W2 & w2 & X2 & R2).
  destruct (block g kind (olen out) out s2) as [?|w3 out3 s3] eqn:B; [discriminate E|]. destruct (block_sound _ _ _ _ _ _ _ _ X2 W2 B) as (W3 & -> & T). rewrite <- R2 in T.
  apply one_bit in X1. destruct X1 as [[-> ->]|[-> ->]]; cbn [N.eqb List.app] in *.
  - change (0 =? 1) with false in E. cbv iota in E. destruct (IH _ _ _ _ _ W3 E) as (W' & T'). split; [exact W'|]. rewrite R1. apply (more_blocks _ _ (rev out3) (rem s3)); assumption.
  - change (1 =? 1) with true in E. cbv iota in E. injection E as _ <- <-. split; [exact W3|]. rewrite R1. apply last_block. exact T.
Qed.
Lemma blocks_complete out b out' r : blocks_text out b out' r -> forall s f g, wf s -> rem s = b -> (List.length b < f)%nat -> (List.length b <= g)%nat ->
  exists s', wf s' /\ rem s' = r /\ blocks f g (olen out) (rev out) s = Done (olen out') (rev out') s'.
Proof.
  assert (K : forall (x : bool) s b, wf s -> rem s = x :: b -> exists s1, number 1 s = Some (N.b2n x, s1) /\ wf s1 /\ rem s1 = b).
  { intros x s b0 W E. destruct (suffix s W [x] b0 E) as (s1 & W1 & R1). exists s1. split; [|auto]. apply (number_spec 1 s _ s1 W). split; [exact W1|]. exists [x]. rewrite R1. split; [|exact E]. split; [reflexivity|]. cbn [low_first]. lia. }
  induction 1 as [out b out' r T|out b out' b' out'' r T _ IH]; intros s f g W R F G; (destruct f as [|f]; [lia|]); cbn [blocks List.length] in *; destruct (K _ _ _ W R) as (s1 & N1 & W1 & R1); rewrite N1.
  - destruct (block_complete _ _ _ _ T s1 g W1 R1) as (kind & s2 & s' & N2 & W' & R' & B); [lia|]. rewrite N2, B. exists s'. auto.
  - pose proof (block_shorter _ _ _ _ T) as Sh. destruct (block_complete _ _ _ _ T s1 g W1 R1) as (kind & s2 & s' & N2 & W' & R' & B); [lia|]. rewrite N2, B.
    change (N.b2n false =? 1) with false. cbv iota. apply IH; [exact W'|exact R'|lia|lia].
Qed.
(** Decompression succeeds exactly on the texts of the format, whatever follows them. *)
Lemma blocks_prefix out b out' r : blocks_text out b out' r -> exists w, b = (w ++ r)%list /\ forall x, (List.length x mod 8 = List.length r mod 8)%nat -> blocks_text out (w ++ x) out' x.
Proof.
  assert (Tk : forall lit dist out b out' r, tokens_text lit dist out b out' r -> exists w, b = (w ++ r)%list /\ forall x, tokens_text lit dist out (w ++ x) out' x).
  { induction 1 as [out0 w r0 X|t w out0 out1 out2 b0 r0 T A _ (w' & -> & IH)].
    - exists w. split; [reflexivity|]. intros x. apply end_of_block. exact X.
    - exists (w ++ w')%list. rewrite <- app_assoc. split; [reflexivity|]. intros x. rewrite <- app_assoc. apply (one_token lit dist t w _ out1); [exact T|exact A|apply IH]. }
  assert (Lt : forall cl ls b ls' r, lengths_text cl ls b ls' r -> exists w, b = (w ++ r)%list /\ forall x, lengths_text cl ls (w ++ x) ls' x).
  { induction 1 as [ls r0|v w ls b0 ls' r0 V X _ (w' & -> & IH)|v w1 y w2 ls b0 ls' r0 X1 X2 _ (w' & -> & IH)|v bs least w1 y w2 ls b0 ls' r0 I X1 X2 _ (w' & -> & IH)].
    - exists []. split; [reflexivity|]. intros x. constructor.
    - exists (w ++ w')%list. rewrite <- app_assoc. split; [reflexivity|]. intros x. rewrite <- app_assoc. apply (lengths_one cl v); [exact V|exact X|apply IH].
    - exists (w1 ++ w2 ++ w')%list. rewrite <- !app_assoc. split; [reflexivity|]. intros x. rewrite <- !app_assoc. apply (lengths_previous cl v w1 y); [exact X1|exact X2|apply IH].
    - exists (w1 ++ w2 ++ w')%list. rewrite <- !app_assoc. split; [reflexivity|]. intros x. rewrite <- !app_assoc. apply (lengths_zeros cl v bs least w1 y); [exact I|exact X1|exact X2|apply IH]. }
  assert (Bk : forall out b out' r, block_text out b out' r -> exists w, b = (w ++ r)%list /\ forall x, (List.length x mod 8 = List.length r mod 8)%nat -> block_text out (w ++ x) out' x).
  { intros ? ? ? ? [out0 padding n w1 w2 data r0 P M L X1 X2|out0 b0 out1 r0 T|lit dist out0 b0 b' out1 r0 [hlit hdist hclen w1 w2 w3 ws vs cl b1 r1 Y1 Y2 Y3 Y4 Y5 Y6 Y7 Y8 Y9 Y10 T1 Y11 Y12 Y13 Y14] T].
    - exists ([false; false] ++ padding ++ w1 ++ w2 ++ bits data)%list. rewrite <- !app_assoc. split; [reflexivity|]. intros x E. rewrite <- !app_assoc. apply (stored_block out0 padding n); try assumption. congruence.
    - destruct (Tk _ _ _ _ _ _ T) as (w & -> & H). exists ([true; false] ++ w)%list. rewrite <- app_assoc. split; [reflexivity|]. intros x _. rewrite <- app_assoc. apply fixed_block. apply H.
    - destruct (Tk _ _ _ _ _ _ T) as (w & -> & H). destruct (Lt _ _ _ _ _ T1) as (w' & -> & H'). exists ([false; true] ++ w1 ++ w2 ++ w3 ++ List.concat ws ++ w' ++ w)%list. rewrite <- !app_assoc. split; [reflexivity|]. intros x _. rewrite <- !app_assoc.
      apply (dynamic_block lit dist _ _ (w ++ x)%list); [|apply H]. apply (codes lit dist hlit hdist hclen w1 w2 w3 ws vs cl); try assumption. apply H'. }
  induction 1 as [out0 b0 out1 r0 T|out0 b0 out1 b' out2 r0 T _ (w & -> & IH)].
  - destruct (Bk _ _ _ _ T) as (w & -> & H). exists (true :: w). split; [reflexivity|]. intros x E. apply last_block. apply H. exact E.
  - destruct (Bk _ _ _ _ T) as (w' & -> & H). exists (false :: w' ++ w). cbn [List.app]. rewrite <- app_assoc. split; [reflexivity|]. intros x E. rewrite <- app_assoc. apply (more_blocks _ _ out1 (w ++ x)%list); [|apply IH; exact E].
    apply H. rewrite !app_length. rewrite (Nat.add_mod (List.length w)), (Nat.add_mod (List.length w) (List.length r0)), E by lia. reflexivity.
Qed.
Lemma inflate_spec l out rest : inflate l = (out, Some rest) <-> exists d, l = (d ++ rest)%list /\ deflated d out.
Proof.
  unfold inflate. set (n := S (8 * List.length l)). set (s0 := mkStream [] l). assert (W0 : wf s0) by (unfold wf; cbn; lia). assert (R0 : rem s0 = bits l) by reflexivity. split.
  - destruct (blocks n n 0 [] s0) as [?|w o s] eqn:B; [discriminate|]. intros E. injection E as <- <-. rewrite rev_append_rev, app_nil_r.
    destruct (blocks_sound n n [] s0 w o s W0 B) as (W & T). rewrite R0 in T. cbn [rev] in T. destruct (blocks_prefix _ _ _ _ T) as (x & E & H).
    unfold rem in E. rewrite app_assoc in E. pose proof (f_equal (@List.length bool) E) as Le. rewrite app_length, !bits_length in Le.
    exists (firstn (List.length l - List.length (s_bytes s)) l). rewrite <- (firstn_skipn (List.length l - List.length (s_bytes s)) l), bits_app in E. apply app_inv in E; [|rewrite bits_length, firstn_length; lia].
    destruct E as [E1 E2]. apply bits_inj in E2. split; [rewrite <- E2 at 2; symmetry; apply firstn_skipn|]. exists (s_bits s). split; [exact W|]. rewrite E1. apply H. unfold rem. rewrite app_length, bits_length, (Nat.mul_comm 8), Nat.mod_add by lia. reflexivity.
  - intros (d & -> & padding & P & T). destruct (blocks_prefix _ _ _ _ T) as (x & E & H). specialize (H (padding ++ bits rest)%list). 
    assert (M : (List.length (padding ++ bits rest) mod 8 = List.length padding mod 8)%nat) by (rewrite app_length, bits_length, (Nat.mul_comm 8), Nat.mod_add by lia; reflexivity). specialize (H M).
    assert (Eb : bits (d ++ rest) = (x ++ padding ++ bits rest)%list) by (rewrite bits_app, E, <- app_assoc; reflexivity). rewrite <- Eb in H.
    destruct (blocks_complete _ _ _ _ H s0 n n W0 R0) as (s' & W' & R' & B); [unfold n; rewrite bits_length; lia|unfold n; rewrite bits_length; lia|]. change (olen []) with 0 in B. cbn [rev] in B. rewrite B.
    rewrite rev_append_rev, rev_involutive, app_nil_r. assert (s' = mkStream padding rest) as ->; [|reflexivity]. apply rem_inj; [exact W'|exact P|exact R'].
Qed.
