(** Proofs about paths and about concurrent calls of FSByte. *)
From Coq Require Import ZArith Lia Bool ZifyBool List String Ascii.
From Verif Require Import Text Esc P_Text.
Import ListNotations.
Open Scope Z_scope.

(** ** Counting calls *)
Fixpoint count {A} (f : A -> bool) (l : list A) : nat :=
  match l with [] => 0 | x :: l' => (if f x then 1 else 0) + count f l' end.
Lemma count_set {A} (f : A -> bool) l : forall i p p', nth_error l i = Some p ->
  (count f (set_nth l i p') + (if f p then 1 else 0) = count f l + (if f p' then 1 else 0))%nat.
Proof.
  induction l as [|x l IH]; intros [|i] p p' H; cbn [nth_error] in H; try discriminate.
  - injection H as ->. cbn [set_nth count]. lia.
  - cbn [set_nth count]. specialize (IH i p p' H). lia.
Qed.
Lemma count_pos {A} (f : A -> bool) l i p : nth_error l i = Some p -> f p = true -> (1 <= count f l)%nat.
Proof.
  revert i. induction l as [|x l IH]; intros [|i] H F; cbn [nth_error] in H; try discriminate; cbn [count].
  - injection H as ->. rewrite F. lia.
  - specialize (IH i H F). lia.
Qed.
Lemma count_ex {A} (f : A -> bool) l : (1 <= count f l)%nat -> exists i p, nth_error l i = Some p /\ f p = true.
Proof.
  induction l as [|x l IH]; cbn [count]; [lia|]. destruct (f x) eqn:F.
  - intros _. exists 0%nat, x. auto.
  - intros H. destruct (IH ltac:(lia)) as (i & p & E & Fp). exists (S i), p. auto.
Qed.
Lemma nth_set {A} (l : list A) : forall i j p p', nth_error l i = Some p ->
  nth_error (set_nth l i p') j = if Nat.eqb i j then Some p' else nth_error l j.
Proof.
  induction l as [|x l IH]; intros [|i] [|j] p p' H; cbn [nth_error] in H; try discriminate; cbn [set_nth nth_error Nat.eqb]; try reflexivity.
  apply (IH i j p p' H).
Qed.
Lemma map_set {A B} (f : A -> B) l : forall i p p', nth_error l i = Some p -> f p' = f p -> map f (set_nth l i p') = map f l.
Proof.
  induction l as [|x l IH]; intros [|i] p p' H E; cbn [nth_error] in H; try discriminate; cbn [set_nth map].
  - injection H as ->. rewrite E. reflexivity.
  - rewrite (IH i p p' H E). reflexivity.
Qed.

(** ** The invariant *)
Section Table.
Variable table : string -> option asset.
Definition final_data (a : asset) : string :=
  if as_size a =? 0 then "" else match as_decoding a with NoHeader => "" | ReadBytes b _ => b end.
Definition final_err (a : asset) : bool :=
  if as_size a =? 0 then false else match as_decoding a with NoHeader => true | ReadBytes _ e => e end.
Definition decodings (a : asset) : nat := if as_size a =? 0 then 0%nat else 1%nat.

Definition name_of (p : pc) : string :=
  match p with Calling n | Waiting n | Naming n | Decoding n | Leaving n _ | Checking n _ | Reading n | Returned n _ => n end.
Definition inside (k : string) (p : pc) : bool :=
  match p with Naming n | Decoding n | Leaving n _ => String.eqb (clean n) k | _ => false end.
Definition erring (k : string) (p : pc) : bool :=
  match p with Checking n true | Returned n Corrupt => String.eqb (clean n) k | _ => false end.
Definition local_ok (fs : files) (p : pc) : Prop :=
  let f := fs (clean (name_of p)) in
  match table (clean (name_of p)) with
  | None => match p with Calling _ => True | Returned _ NotExist => True | _ => False end
  | Some a =>
      match p with
      | Calling _ | Waiting _ => True
      | Naming _ => f_once f = Busy /\ f_data f = ""%string /\ f_decoded f = 0%nat
      | Decoding _ => f_once f = Busy /\ f_data f = ""%string /\ f_decoded f = 0%nat /\ as_size a <> 0
      | Leaving _ e => f_once f = Busy /\ f_data f = final_data a /\ f_decoded f = decodings a /\ e = final_err a
      | Checking _ e => f_once f = Finished /\ (e = true -> final_err a = true)
      | Reading _ => f_once f = Finished
      | Returned _ (Data b) => f_once f = Finished /\ b = final_data a
      | Returned _ NotExist => False
      | Returned _ Corrupt => f_once f = Finished /\ final_err a = true
      end
  end.
Definition key_ok (st : state) (k : string) (a : asset) : Prop :=
  let f := st_files st k in
  count (inside k) (st_calls st) = (match f_once f with Busy => 1 | _ => 0 end)%nat /\
  count (erring k) (st_calls st) = (match f_once f with Finished => if final_err a then 1 else 0 | _ => 0 end)%nat /\
  match f_once f with
  | NotDone => f_data f = ""%string /\ f_decoded f = 0%nat
  | Busy => (f_decoded f <= 1)%nat
  | Finished => f_data f = final_data a /\ f_decoded f = decodings a
  end.
Definition good (names : list string) (st : state) : Prop :=
  map name_of (st_calls st) = names /\
  (forall i p, nth_error (st_calls st) i = Some p -> local_ok (st_files st) p) /\
  (forall k a, table k = Some a -> key_ok st k a).

Lemma good_initial names : good names (initial names).
Proof.
  split; [unfold initial; cbn [st_calls]; rewrite map_map; apply map_id|]. split.
  - intros i p H. cbn [initial st_calls] in H. rewrite nth_error_map in H. destruct (nth_error names i); [|discriminate]. injection H as <-.
    unfold local_ok. cbn [name_of]. destruct (table _); exact I.
  - intros k a _. unfold key_ok, initial. cbn [st_calls st_files fresh_file f_once f_data f_decoded].
    assert (C : forall f, (forall n, f (Calling n) = false) -> count f (map Calling names) = 0%nat) by (intros f F; induction names as [|n ns IH]; cbn [map count]; [reflexivity|rewrite F, IH; reflexivity]).
    rewrite !C by reflexivity. auto.
Qed.

Lemma put_same fs k f : put fs k f k = f.
Proof. unfold put. rewrite String.eqb_refl. reflexivity. Qed.
Lemma put_other fs k f k' : k' <> k -> put fs k f k' = fs k'.
Proof. unfold put. intros N. apply String.eqb_neq in N. rewrite N. reflexivity. Qed.

(** The other calls of the same file, when its state changes. *)
Lemma good_step names st st' : good names st -> step table st st' -> good names st'.
Proof.
  intros (Hn & Hl & Hk) Hs. destruct Hs as [fs l i p fs' p' Hi Hx]. cbn [st_calls st_files] in *.
  pose proof (Hl i p Hi) as Lp.
  assert (Nm : name_of p' = name_of p).
  { destruct p; cbn [next] in Hx; repeat match type of Hx with context [match ?x with _ => _ end] => destruct x end; try discriminate Hx; injection Hx as <- <-; reflexivity. }
  split; [cbn [st_calls]; rewrite (map_set name_of l i p p' Hi Nm); exact Hn|].
  remember (clean (name_of p)) as k0 eqn:Ek0.
  assert (Fr : forall k, k <> k0 -> fs' k = fs k).
  { intros k N. rewrite Ek0 in N. clear Ek0. destruct p; cbn [next name_of] in *; repeat match type of Hx with context [match ?x with _ => _ end] => destruct x end;
      try discriminate Hx; injection Hx as <- <-; try reflexivity; apply put_other; exact N. }
  assert (Ci : forall k, k <> k0 -> inside k p' = false /\ inside k p = false /\ erring k p' = false /\ erring k p = false).
  { intros k N. assert (E : String.eqb (clean (name_of p)) k = false) by (apply String.eqb_neq; intros X; apply N; rewrite Ek0; symmetry; exact X).
    assert (E' : String.eqb (clean (name_of p')) k = false) by (rewrite Nm; exact E).
    split; [|split; [|split]]; [destruct p'|destruct p|destruct p'|destruct p]; cbn [inside erring name_of] in *; try reflexivity; try assumption;
      repeat match goal with |- context [match ?x with _ => _ end] => destruct x end; try reflexivity; assumption. }
  (* Facts about the file of the step. *)
  destruct (table k0) as [a|] eqn:T.
  2:{ (* no such file *)
    assert (fs' = fs /\ exists n, p = Calling n /\ p' = Returned n NotExist) as [-> (n & -> & ->)].
    { unfold local_ok in Lp. rewrite <- Ek0, T in Lp. destruct p; try contradiction.
      - cbn [next] in Hx. cbn [name_of] in Ek0. rewrite <- Ek0, T in Hx. injection Hx as <- <-. split; [reflexivity|]. eexists. split; reflexivity.
      - discriminate Hx. }
    split.
    - intros j q. cbn [st_calls st_files]. rewrite (nth_set l i j _ _ Hi). destruct (Nat.eqb_spec i j) as [->|Nj]; [|apply Hl].
      intros E. injection E as <-. unfold local_ok. cbn [name_of] in *. rewrite <- Ek0, T. exact I.
    - intros k b Tb. assert (N : k <> k0) by congruence. destruct (Ci k N) as (C1 & C2 & C3 & C4).
      pose proof (Hk k b Tb) as K. unfold key_ok in *. cbn [st_calls st_files] in *.
      pose proof (count_set (inside k) l i _ (Returned n NotExist) Hi) as P1. rewrite C1, C2 in P1.
      pose proof (count_set (erring k) l i _ (Returned n NotExist) Hi) as P2. rewrite C3, C4 in P2.
      replace (count (inside k) (set_nth l i (Returned n NotExist))) with (count (inside k) l) by lia.
      replace (count (erring k) (set_nth l i (Returned n NotExist))) with (count (erring k) l) by lia. exact K. }
  pose proof (Hk k0 a T) as (K1 & K2 & K3). cbn [st_calls st_files] in K1, K2, K3.
  pose proof (count_set (inside k0) l i p p' Hi) as P1. pose proof (count_set (erring k0) l i p p' Hi) as P2.
  assert (Sf : forall n, name_of p = n -> String.eqb (clean n) k0 = true) by (intros n <-; rewrite Ek0; apply String.eqb_refl).
  (* What the step does to its file, and the new counts. *)
  assert (Main : local_ok fs' p' /\ key_ok (mkState fs' (set_nth l i p')) k0 a /\
    (forall q, p <> q \/ True -> clean (name_of q) = k0 -> local_ok fs q ->
       (inside k0 q = true -> (count (inside k0) l <= 1)%nat -> inside k0 p = true -> False) -> local_ok fs' q)).
  { unfold key_ok. cbn [st_calls st_files].
    unfold local_ok in Lp. rewrite <- Ek0, T in Lp. unfold local_ok. rewrite Nm, <- Ek0, T.
    destruct p as [n|n|n|n|n e|n e|n|n r]; cbn [name_of] in *; cbn [next] in Hx; rewrite <- ?Ek0, ?T in Hx.
    - (* Calling *)
      injection Hx as <- <-. cbn [inside erring] in P1, P2. split; [exact I|]. split; [|auto].
      split; [lia|]. split; [lia|]. exact K3.
    - (* Waiting *)
      destruct (f_once (fs k0)) eqn:O; [|discriminate Hx|].
      + injection Hx as <- <-. cbn [inside erring] in P1, P2. rewrite (Sf n eq_refl) in P1. rewrite put_same. cbn [f_once f_data f_decoded].
        destruct K3 as [D C]. split; [rewrite D, C; auto|]. split; [split; [lia|]; split; [lia|lia]|].
        intros q _ Eq Lq _. cbv zeta in *. rewrite Eq, T in *. rewrite put_same. cbn [f_once f_data f_decoded].
        destruct q as [m|m|m|m|m e|m e|m|m [b| |]]; cbn [name_of] in *; try exact Lq; try (destruct Lq; congruence); congruence.
      + injection Hx as <- <-. cbn [inside erring] in P1, P2. rewrite O. split; [split; [reflexivity|discriminate]|]. split; [|auto].
        split; [lia|]. split; [lia|exact K3].
    - (* Naming *)
      destruct Lp as (O & D & C). rewrite O in *.
      destruct (Z.eqb_spec (as_size a) 0) as [Z0|Z0]; injection Hx as <- <-; cbn [inside erring] in P1, P2; rewrite (Sf n eq_refl) in P1; rewrite put_same; cbn [f_once f_data f_decoded]; rewrite ?O.
      + split; [unfold final_data, final_err, decodings; rewrite Z0; auto|]. split; [split; [lia|]; split; [lia|lia]|].
        intros q _ Eq Lq X. cbv zeta in *. rewrite Eq, T in *. rewrite put_same. cbn [f_once f_data f_decoded].
        destruct q as [m|m|m|m|m e|m e|m|m [b| |]]; cbn [name_of inside] in *; try exact Lq; try congruence; try (destruct Lq; congruence);
          exfalso; apply X; try (rewrite Eq; apply String.eqb_refl); try lia; apply Sf; reflexivity.
      + split; [auto|]. split; [split; [lia|]; split; [lia|lia]|].
        intros q _ Eq Lq X. cbv zeta in *. rewrite Eq, T in *. rewrite put_same. cbn [f_once f_data f_decoded].
        destruct q as [m|m|m|m|m e|m e|m|m [b| |]]; cbn [name_of inside] in *; try exact Lq; try congruence; try (destruct Lq; congruence);
          exfalso; apply X; try (rewrite Eq; apply String.eqb_refl); try lia; apply Sf; reflexivity.
    - (* Decoding *)
      destruct Lp as (O & D & C & Z0). rewrite O in *. apply Z.eqb_neq in Z0.
      destruct (as_decoding a) as [|b e0] eqn:A; injection Hx as <- <-; cbn [inside erring] in P1, P2; rewrite (Sf n eq_refl) in P1; rewrite put_same; cbn [f_once f_data f_decoded]; rewrite ?O.
      + split; [unfold final_data, final_err, decodings; rewrite Z0, A, C; auto|]. split; [split; [lia|]; split; [lia|lia]|].
        intros q _ Eq Lq X. cbv zeta in *. rewrite Eq, T in *. rewrite put_same. cbn [f_once f_data f_decoded].
        destruct q as [m|m|m|m|m e|m e|m|m [b| |]]; cbn [name_of inside] in *; try exact Lq; try congruence; try (destruct Lq; congruence);
          exfalso; apply X; try (rewrite Eq; apply String.eqb_refl); try lia; apply Sf; reflexivity.
      + split; [unfold final_data, final_err, decodings; rewrite Z0, A, C; auto|]. split; [split; [lia|]; split; [lia|lia]|].
        intros q _ Eq Lq X. cbv zeta in *. rewrite Eq, T in *. rewrite put_same. cbn [f_once f_data f_decoded].
        destruct q as [m|m|m|m|m e|m e|m|m [b'| |]]; cbn [name_of inside] in *; try exact Lq; try congruence; try (destruct Lq; congruence);
          exfalso; apply X; try (rewrite Eq; apply String.eqb_refl); try lia; apply Sf; reflexivity.
    - (* Leaving *)
      destruct Lp as (O & D & C & Ee). rewrite O in *. injection Hx as <- <-. cbn [inside erring] in P1, P2. rewrite (Sf n eq_refl) in P1.
      rewrite put_same; cbn [f_once f_data f_decoded]. split; [split; [reflexivity|congruence]|]. split.
      + split; [lia|]. split; [|auto]. rewrite <- Ee. destruct e; [rewrite (Sf n eq_refl) in P2|]; lia.
      + intros q _ Eq Lq X. cbv zeta in *. rewrite Eq, T in *. rewrite put_same. cbn [f_once f_data f_decoded].
        destruct q as [m|m|m|m|m e1|m e1|m|m [b'| |]]; cbn [name_of inside] in *; try exact Lq; try congruence; try (destruct Lq; congruence);
          exfalso; apply X; try (rewrite Eq; apply String.eqb_refl); try lia; apply Sf; reflexivity.
    - (* Checking *)
      destruct Lp as (O & Ee). rewrite O in *. injection Hx as <- <-. cbn [inside erring] in P1, P2. destruct e; cbn [inside erring name_of] in *.
      + rewrite (Sf n eq_refl) in P2. rewrite O. split; [auto|]. split; [split; [lia|]; split; [lia|exact K3]|auto].
      + rewrite O. split; [reflexivity|]. split; [split; [lia|]; split; [lia|exact K3]|auto].
    - (* Reading *)
      rewrite Lp in *. injection Hx as <- <-. cbn [inside erring] in P1, P2. rewrite <- ?Ek0, ?Lp.
      split; [split; [reflexivity|apply K3]|]. split; [split; [lia|]; split; [lia|exact K3]|auto].
    - discriminate Hx. }
  destruct Main as (M1 & M2 & M3). split.
  - intros j q. cbn [st_calls st_files]. rewrite (nth_set l i j _ _ Hi). destruct (Nat.eqb_spec i j) as [->|Nj].
    + intros E. injection E as <-. exact M1.
    + intros Hj. pose proof (Hl j q Hj) as Lq. destruct (string_dec (clean (name_of q)) k0) as [E|N].
      * apply M3; [right; exact I|exact E|exact Lq|]. intros Iq Cq Ip.
        (* two calls inside *)
        assert (C2 : forall (f : pc -> bool) l i j p q, i <> j -> nth_error l i = Some p -> nth_error l j = Some q -> f p = true -> f q = true -> (2 <= count f l)%nat).
        { clear. intros f l. induction l as [|x l IH]; intros [|i] [|j] p q N Hp Hq Fp Fq; cbn [nth_error] in *; try discriminate; try congruence; cbn [count].
          - injection Hp as ->. rewrite Fp. pose proof (count_pos f l j q Hq Fq). lia.
          - injection Hq as ->. rewrite Fq. pose proof (count_pos f l i p Hp Fp). lia.
          - pose proof (IH i j p q ltac:(congruence) Hp Hq Fp Fq). lia. }
        pose proof (C2 (inside k0) l i j p q Nj Hi Hj Ip Iq). lia.
      * unfold local_ok in *. rewrite (Fr _ N). exact Lq.
  - intros k b Tb. destruct (string_dec k k0) as [->|N].
    + rewrite T in Tb. injection Tb as <-. exact M2.
    + destruct (Ci k N) as (C1 & C2 & C3 & C4). pose proof (Hk k b Tb) as K. unfold key_ok in *. cbn [st_calls st_files] in *. rewrite (Fr k N).
      pose proof (count_set (inside k) l i p p' Hi) as Q1. rewrite C1, C2 in Q1.
      pose proof (count_set (erring k) l i p p' Hi) as Q2. rewrite C3, C4 in Q2.
      replace (count (inside k) (set_nth l i p')) with (count (inside k) l) by lia.
      replace (count (erring k) (set_nth l i p')) with (count (erring k) l) by lia. exact K.
Qed.
Lemma good_run names n st : run table n (initial names) st -> good names st.
Proof.
  intros H. remember (initial names) as s0 eqn:E. induction H as [s|n s t u R IH S]; subst; [apply good_initial|].
  apply (good_step _ t); [apply IH; reflexivity|exact S].
Qed.

(** ** Progress *)
Definition rank (p : pc) : nat :=
  match p with Calling _ => 7 | Waiting _ => 6 | Naming _ => 5 | Decoding _ => 4 | Leaving _ _ => 3 | Checking _ _ => 2 | Reading _ => 1 | Returned _ _ => 0 end.
Fixpoint total (l : list pc) : nat := match l with [] => 0 | p :: l' => rank p + total l' end.
Lemma total_set l : forall i p p', nth_error l i = Some p -> (total (set_nth l i p') + rank p = total l + rank p')%nat.
Proof.
  induction l as [|x l IH]; intros [|i] p p' H; cbn [nth_error] in H; try discriminate; cbn [set_nth total].
  - injection H as ->. lia.
  - specialize (IH i p p' H). lia.
Qed.
Lemma step_rank st st' : step table st st' -> (total (st_calls st') < total (st_calls st))%nat.
Proof.
  intros [fs l i p fs' p' Hi Hx]. cbn [st_calls]. pose proof (total_set l i p p' Hi) as E.
  assert (R : (rank p' < rank p)%nat); [|lia].
  destruct p; cbn [next] in Hx; repeat match type of Hx with context [match ?x with _ => _ end] => destruct x end; try discriminate Hx; injection Hx as <- <-; cbn [rank]; lia.
Qed.
Lemma run_bound names n st : run table n (initial names) st -> (n + total (st_calls st) <= 7 * List.length names)%nat.
Proof.
  intros H. remember (initial names) as s0 eqn:E. induction H as [s|n s t u R IH S]; subst.
  - cbn [initial st_calls]. induction names as [|x names IH]; cbn [map total rank List.length]; lia.
  - specialize (IH eq_refl). pose proof (step_rank t u S). lia.
Qed.
Lemma stuck_returned names st : good names st -> (forall st', ~ step table st st') ->
  forall i p, nth_error (st_calls st) i = Some p -> exists n r, p = Returned n r.
Proof.
  intros (_ & Hl & Hk) Hs i p Hi. destruct st as [fs l]. cbn [st_calls st_files] in *.
  assert (Blocked : forall j q, nth_error l j = Some q -> next table fs q = None).
  { intros j q Hj. destruct (next table fs q) as [[fs' q']|] eqn:X; [|reflexivity]. elim (Hs (mkState fs' (set_nth l j q'))). econstructor; eassumption. }
  pose proof (Blocked i p Hi) as B. pose proof (Hl i p Hi) as L. unfold local_ok in L.
  destruct p as [n|n|n|n|n e|n e|n|n r]; cbn [next name_of] in *.
  - destruct (table (clean n)); discriminate.
  - destruct (table (clean n)) as [a|] eqn:T; [|contradiction].
    destruct (f_once (fs (clean n))) eqn:O; [discriminate| |discriminate].
    destruct (Hk (clean n) a T) as (K1 & _ & _). cbn [st_calls st_files] in K1. rewrite O in K1.
    destruct (count_ex (inside (clean n)) l ltac:(lia)) as (j & q & Hj & Fq). pose proof (Blocked j q Hj) as Bq. pose proof (Hl j q Hj) as Lq. unfold local_ok in Lq.
    destruct q as [m|m|m|m|m e|m e|m|m r]; cbn [inside next name_of] in *; try discriminate;
      apply String.eqb_eq in Fq; rewrite Fq, T in *; try discriminate. destruct (as_decoding a); discriminate.
  - destruct (table (clean n)); [discriminate|contradiction].
  - destruct (table (clean n)) as [a|]; [|contradiction]. destruct (as_decoding a); discriminate.
  - discriminate.
  - discriminate.
  - discriminate.
  - eauto.
Qed.
End Table.

Lemma good_absent table names n st k : run table n (initial names) st -> table k = None -> st_files st k = fresh_file.
Proof.
  intros H N. remember (initial names) as s0 eqn:E. induction H as [s|n s t u R IH S]; subst; [reflexivity|].
  specialize (IH eq_refl). pose proof (good_run table names n t R) as (_ & Hl & _).
  destruct S as [fs l i p fs' p' Hi Hx]. cbn [st_files st_calls] in *. rewrite <- IH. pose proof (Hl i p Hi) as L. unfold local_ok in L.
  destruct (string_dec k (clean (name_of p))) as [->|D].
  - rewrite N in L. destruct p; try contradiction; cbn [next name_of] in *; [rewrite N in Hx; injection Hx as <- <-; reflexivity|discriminate].
  - destruct p; cbn [next name_of] in *; repeat match type of Hx with context [match ?x with _ => _ end] => destruct x end;
      try discriminate Hx; injection Hx as <- <-; try reflexivity; apply put_other; exact D.
Qed.

(** ** Paths *)
Local Open Scope string_scope.
Definition no_slash (s : string) : Prop := all_chars (fun c => negb (Ascii.eqb c slash)) s = true.
Lemma parts_nonnil s : parts s <> [].
Proof. destruct s; cbn [parts]; [discriminate|]. destruct (Ascii.eqb a slash); [discriminate|]. destruct (parts s); discriminate. Qed.
Lemma parts_app a b : parts (a ++ "/" ++ b) = (parts a ++ parts b)%list.
Proof.
  induction a as [|c a IH]; [reflexivity|]. change (String c a ++ "/" ++ b) with (String c (a ++ "/" ++ b)). cbn [parts]. rewrite IH.
  destruct (Ascii.eqb c slash); [reflexivity|]. pose proof (parts_nonnil a). destruct (parts a); [contradiction|reflexivity].
Qed.
Lemma parts_plain s : no_slash s -> parts s = [s].
Proof.
  unfold no_slash. induction s as [|c s IH]; [reflexivity|]. cbn [all_chars]. intros H. apply andb_true_iff in H as [H1 H2].
  cbn [parts]. apply negb_true_iff in H1. rewrite H1, (IH H2). reflexivity.
Qed.
Lemma parts_plain_all s : Forall no_slash (parts s).
Proof.
  induction s as [|c s IH]; cbn [parts]; [repeat constructor|]. destruct (Ascii.eqb c slash) eqn:E; [constructor; [reflexivity|exact IH]|].
  destruct (parts s) as [|p ps]; [repeat constructor; unfold no_slash; cbn [all_chars]; rewrite E; reflexivity|].
  inversion IH; subst. constructor; [|assumption]. unfold no_slash in *. cbn [all_chars]. rewrite E. assumption.
Qed.
Lemma parts_concat l : l <> [] -> Forall no_slash l -> parts (String.concat "/" l) = l.
Proof.
  induction l as [|x l IH]; [congruence|]. intros _ F. inversion F; subst. destruct l as [|y l].
  - cbn [String.concat]. apply parts_plain; assumption.
  - change (String.concat "/" (x :: y :: l)) with (x ++ "/" ++ String.concat "/" (y :: l)).
    rewrite parts_app, IH, parts_plain by (assumption || discriminate). reflexivity.
Qed.
(** The component stack [push] keeps: no empty, "." components; ".." only at the bottom, and only when not rooted. *)
Definition plain_part (p : string) : Prop := p <> "" /\ p <> "." /\ p <> ".." /\ no_slash p.
Definition stack (r : bool) (out : list string) : Prop :=
  exists a n, out = (a ++ repeat ".." n)%list /\ Forall plain_part a /\ (r = true -> n = O).
Lemma push_stack r out p : stack r out -> no_slash p -> stack r (push r out p).
Proof.
  intros (a & n & -> & Fa & Hn) Np. unfold push.
  destruct (String.eqb_spec p ""); [cbn [orb]; exists a, n; auto|]. destruct (String.eqb_spec p "."); [cbn [orb]; exists a, n; auto|]. cbn [orb].
  destruct (String.eqb_spec p "..").
  - subst. destruct a as [|x a]; cbn [app].
    + destruct n as [|n]; cbn [repeat].
      * destruct r; [exists [], O; auto|]. exists [], 1%nat. repeat split; auto. discriminate.
      * rewrite String.eqb_refl. exists [], (S (S n)). repeat split; auto. intros E. specialize (Hn E). discriminate.
    + inversion Fa as [|? ? (_ & _ & X & _) Fa']; subst. apply String.eqb_neq in X. rewrite X. exists a, n. auto.
  - exists (p :: a), n. repeat split; auto. constructor; [repeat split; assumption|assumption].
Qed.
Lemma fold_stack r ps : forall out, stack r out -> Forall no_slash ps -> stack r (fold_left (push r) ps out).
Proof.
  induction ps as [|p ps IH]; intros out S F; [exact S|]. inversion F; subst. cbn [fold_left]. apply IH; [apply push_stack|]; assumption.
Qed.
Lemma fold_plain r a : forall out, Forall plain_part a -> fold_left (push r) a out = (rev a ++ out)%list.
Proof.
  induction a as [|x a IH]; intros out F; [reflexivity|]. inversion F as [|? ? (H1 & H2 & H3 & _) F']; subst. cbn [fold_left rev]. rewrite IH by assumption.
  apply String.eqb_neq in H1, H2, H3. unfold push. rewrite H1, H2, H3. cbn [orb]. rewrite <- app_assoc. reflexivity.
Qed.
Lemma fold_dots n : forall m, fold_left (push false) (repeat ".." n) (repeat ".." m) = repeat ".." (n + m).
Proof.
  induction n as [|n IH]; intros m; [reflexivity|]. cbn [repeat fold_left].
  replace (push false (repeat ".." m) "..") with (repeat ".." (S m)) by (destruct m; reflexivity).
  rewrite IH. replace (S n + m)%nat with (n + S m)%nat by lia. reflexivity.
Qed.
Lemma rev_repeat {A} (x : A) n : rev (repeat x n) = repeat x n.
Proof.
  induction n as [|n IH]; [reflexivity|]. cbn [repeat rev]. rewrite IH. clear IH. induction n as [|n IH]; [reflexivity|]. cbn [repeat app]. rewrite IH. reflexivity.
Qed.
Lemma fold_again r out : stack r out -> fold_left (push r) (rev out) [] = out.
Proof.
  intros (a & n & -> & Fa & Hn). rewrite rev_app_distr, fold_left_app, rev_repeat.
  replace (fold_left (push r) (repeat ".." n) []) with (repeat ".." n).
  - rewrite fold_plain by (apply Forall_rev; assumption). rewrite rev_involutive. reflexivity.
  - destruct r; [rewrite Hn by reflexivity; reflexivity|]. change (@nil string) with (repeat ".." 0). rewrite fold_dots. f_equal. lia.
Qed.
Lemma stack_parts r out : stack r out -> Forall no_slash (rev out).
Proof.
  intros (a & n & -> & Fa & _). apply Forall_rev. apply Forall_app. split.
  - eapply Forall_impl; [|exact Fa]. intros x (_ & _ & _ & H). exact H.
  - clear. induction n; cbn [repeat]; constructor; [reflexivity|assumption].
Qed.
Lemma stack_head r out x l : stack r out -> rev out = x :: l -> x <> "".
Proof.
  intros (a & n & -> & Fa & _) E. assert (H : In x (a ++ repeat ".." n)) by (apply in_rev; rewrite E; left; reflexivity).
  apply in_app_or in H as [H|H].
  - rewrite Forall_forall in Fa. apply (Fa x H).
  - apply repeat_spec in H. subst. discriminate.
Qed.
Lemma clean_idem s : clean (clean s) = clean s.
Proof.
  set (r := is_rooted s). set (out := fold_left (push r) (parts s) []).
  assert (S : stack r out) by (apply fold_stack; [exists [], O; auto|apply parts_plain_all]).
  assert (E : clean s = let t := String.concat "/" (rev out) in if r then String slash t else if String.eqb t "" then "." else t) by reflexivity.
  rewrite E. cbv zeta. pose proof (fold_again r out S) as G. pose proof (stack_parts r out S) as P. pose proof (stack_head r out) as Hd. clearbody out r. clear E s.
  destruct (rev out) as [|x l] eqn:R.
  - destruct r; reflexivity.
  - specialize (Hd x l S eq_refl). assert (Nx : no_slash x) by (inversion P; assumption).
    destruct x as [|c x]; [congruence|]. unfold no_slash in Nx. cbn [all_chars] in Nx. apply andb_true_iff in Nx as [Nc _]. apply negb_true_iff in Nc.
    assert (T : exists u, String.concat "/" (String c x :: l) = String c u) by (destruct l as [|y l]; cbn [String.concat append]; eexists; reflexivity).
    assert (Q : parts (String.concat "/" (String c x :: l)) = String c x :: l) by (apply parts_concat; [discriminate|exact P]).
    destruct r.
    + unfold clean. change (is_rooted (String slash (String.concat "/" (String c x :: l)))) with true. cbv iota zeta.
      change (String slash (String.concat "/" (String c x :: l))) with ("" ++ "/" ++ String.concat "/" (String c x :: l)).
      rewrite parts_app, Q. change (fold_left (push true) (parts "" ++ (String c x :: l))%list []) with (fold_left (push true) (String c x :: l) []). rewrite G, R. reflexivity.
    + assert (Z : String.eqb (String.concat "/" (String c x :: l)) "" = false) by (destruct T as [u ->]; reflexivity). rewrite Z.
      unfold clean. assert (I0 : is_rooted (String.concat "/" (String c x :: l)) = false) by (destruct T as [u ->]; cbn [is_rooted]; exact Nc).
      rewrite I0. cbv iota zeta. rewrite Q, G, R, Z. reflexivity.
Qed.

(** ** The files of the years *)
Lemma all_chars_app p a b : all_chars p (a ++ b) = (all_chars p a && all_chars p b)%bool.
Proof. induction a as [|c a IH]; [reflexivity|]. cbn [append all_chars]. rewrite IH. apply andb_assoc. Qed.
Lemma year_part y : no_slash ("astro-" ++ fmt_d y ++ ".json").
Proof.
  unfold no_slash. rewrite !all_chars_app. apply andb_true_iff. split; [reflexivity|]. apply andb_true_iff. split; [|reflexivity].
  eapply all_chars_impl; [|apply (fmt_d_chars y)]. intros c H. destruct (Ascii.eqb_spec c slash) as [->|]; [vm_compute in H; discriminate|reflexivity].
Qed.
Lemma file_name_eq y : file_name y = "/data/astro/astro-" ++ fmt_d y ++ ".json".
Proof.
  unfold file_name, join. pose proof (year_part y) as H. change ("/data/astro/astro-" ++ fmt_d y ++ ".json") with ("/data/astro/" ++ ("astro-" ++ fmt_d y ++ ".json")).
  assert (E : exists u, "astro-" ++ fmt_d y ++ ".json" = String "a" u) by (eexists; reflexivity).
  set (b := "astro-" ++ fmt_d y ++ ".json") in *. clearbody b. unfold clean.
  change (is_rooted ("./data/astro" ++ "/" ++ b)) with false. rewrite parts_app, (parts_plain b H). destruct E as [u ->]. reflexivity.
Qed.
Lemma clean_file_name y : clean (file_name y) = file_name y.
Proof.
  rewrite file_name_eq. pose proof (year_part y) as H. change ("/data/astro/astro-" ++ fmt_d y ++ ".json") with ("/data/astro" ++ "/" ++ ("astro-" ++ fmt_d y ++ ".json")).
  assert (E : exists u, "astro-" ++ fmt_d y ++ ".json" = String "a" u) by (eexists; reflexivity).
  set (b := "astro-" ++ fmt_d y ++ ".json") in *. clearbody b. unfold clean.
  change (is_rooted ("/data/astro" ++ "/" ++ b)) with true. rewrite parts_app, (parts_plain b H). destruct E as [u ->]. reflexivity.
Qed.
Lemma file_name_inj y z : file_name y = file_name z -> y = z.
Proof.
  rewrite !file_name_eq. intros H. apply app_cancel in H. apply fmt_d_split in H; [apply H|reflexivity|reflexivity].
Qed.
Fixpoint years_from (y : Z) (n : nat) : list Z := match n with O => [] | S n' => y :: years_from (y + 1) n' end.
Lemma keys_eq : map fst EscData.esc_entries = (map (fun y => "/data/astro/astro-" ++ fmt_d y ++ ".json")%string (years_from 1900 141) ++ ["/"; "/data"; "/data/astro"])%list.
Proof. vm_cast_no_check (eq_refl (map fst EscData.esc_entries)). Qed.
Lemma years_from_in n : forall y z, In z (years_from y n) <-> y <= z < y + Z.of_nat n.
Proof.
  induction n as [|n IH]; intros y z; cbn [years_from In]; [lia|]. rewrite IH. lia.
Qed.
Lemma has_key_file y : has_key (clean (file_name y)) = true <-> 1900 <= y <= 2040.
Proof.
  rewrite clean_file_name. unfold has_key. rewrite existsb_exists. split.
  - intros (e & I & E). apply String.eqb_eq in E. apply (in_map fst) in I. rewrite keys_eq, <- E, file_name_eq in I. apply in_app_or in I as [I|I].
    + apply in_map_iff in I as (z & Ez & Iz). apply app_cancel in Ez. apply fmt_d_split in Ez as [-> _]; [|reflexivity|reflexivity]. apply years_from_in in Iz. lia.
    + destruct I as [I|[I|[I|[]]]]; discriminate I.
  - intros R. assert (I : In (file_name y) (map fst EscData.esc_entries)).
    { rewrite keys_eq, file_name_eq. apply in_or_app. left. apply in_map_iff. exists y. split; [reflexivity|]. apply years_from_in. lia. }
    apply in_map_iff in I as (e & E & I). exists e. split; [exact I|]. rewrite E. apply String.eqb_refl.
Qed.
