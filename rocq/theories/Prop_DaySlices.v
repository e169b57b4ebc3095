(** Theorems C73: AddHalfMoonDays and the array it is given. *)
From Coq Require Import ZArith Lia Bool List String Arith Permutation.
From Verif Require Import GoTime SuriyaYear UposathaMoon CalDay DaySlices SpecCal.
From Verif Require Import Prop_CalDay.
Import ListNotations.
Local Open Scope nat_scope.

(** A slice of the program: inside an array that exists. *)
Definition live (m : memory) (v : view) : Prop := v_len v <= v_cap v /\ (v_cap v = 0 \/ v_arr v < m_next m).
Lemma live_arr m v i : live m v -> i < v_len v -> v_arr v < m_next m.
Proof. intros [L [C|C]] H; lia. Qed.
Lemma get_set m v i x w j : get (set m v i x) w j = if (v_arr w =? v_arr v) && (v_off w + j =? v_off v + i) then x else get m w j.
Proof. reflexivity. Qed.
Lemma next_set_all v l : forall m i, m_next (set_all m v i l) = m_next m.
Proof. induction l as [|x l IH]; intros m i; [reflexivity|]. cbn [set_all]. rewrite IH. reflexivity. Qed.
Lemma cell_set_all v l : forall m i a j, m_cell (set_all m v i l) a j =
  if (a =? v_arr v) && (v_off v + i <=? j) && (j <? v_off v + i + List.length l) then nth (j - (v_off v + i)) l (m_cell m a j) else m_cell m a j.
Proof.
  induction l as [|x l IH]; intros m i a j; cbn [set_all List.length].
  - destruct (a =? v_arr v); cbn [andb]; [|reflexivity]. destruct (Nat.leb_spec (v_off v + i) j), (Nat.ltb_spec j (v_off v + i + 0)); cbn [andb]; try reflexivity; lia.
  - rewrite IH. cbn [set m_cell]. destruct (Nat.eqb_spec a (v_arr v)) as [->|Na]; cbn [andb]; [|reflexivity].
    destruct (Nat.leb_spec (v_off v + S i) j), (Nat.ltb_spec j (v_off v + S i + List.length l)), (Nat.leb_spec (v_off v + i) j), (Nat.ltb_spec j (v_off v + i + S (List.length l)));
      destruct (Nat.eqb_spec j (v_off v + i)); cbn [andb]; try lia; try reflexivity.
    + replace (j - (v_off v + i)) with (S (j - (v_off v + S i))) by lia. cbn [nth]. reflexivity.
    + subst j. rewrite Nat.sub_diag. reflexivity.
Qed.
Lemma nth_elements m v d i : i < v_len v -> nth i (elements m v) d = get m v i.
Proof.
  intros H. unfold elements. rewrite (nth_indep _ d (get m v 0)) by (rewrite map_length, seq_length; exact H).
  rewrite map_nth, seq_nth by exact H. reflexivity.
Qed.
Lemma length_elements m v : List.length (elements m v) = v_len v.
Proof. unfold elements. rewrite map_length, seq_length. reflexivity. Qed.
Lemma elements_ext m m' v v' : v_len v = v_len v' -> (forall i, i < v_len v -> get m v i = get m' v' i) -> elements m v = elements m' v'.
Proof. intros E H. unfold elements. rewrite <- E. apply map_ext_in. intros i Hi. apply in_seq in Hi. apply H. lia. Qed.
(** The cells an append in place writes are those behind the slice. *)
Definition behind (v : view) (n : nat) (w : view) : Prop :=
  v_arr w = v_arr v /\ exists i j, i < v_len w /\ j < n /\ v_off w + i = v_off v + v_len v + j.
(** [append] gives the elements of both, and changes only slices that reach into the room it fills. *)
Lemma append_spec grow m v l : live m v -> let '(m', v') := append_all grow m v l in
  elements m' v' = elements m v ++ l /\ live m' v' /\ m_next m <= m_next m' /\ v_len v' = v_len v + List.length l /\
  (v_arr v' = v_arr v /\ v_len v + List.length l <= v_cap v \/ m_next m <= v_arr v' \/ l = []) /\
  (forall w, live m w -> (v_cap v < v_len v + List.length l \/ ~ behind v (List.length l) w) -> elements m' w = elements m w) /\
  (v_len v + List.length l <= v_cap v -> elements m' (mkView (v_arr v) (v_off v + v_len v) (List.length l) (v_cap v - v_len v)) = l).
Proof.
  intros L. unfold append_all. destruct l as [|x l0] eqn:El.
  { rewrite app_nil_r. cbn [List.length]. repeat split; try reflexivity; try apply L; auto; lia. }
  rewrite <- El. assert (Hp : 0 < List.length l) by (subst l; cbn; lia). clear El x l0.
  destruct (Nat.leb_spec (v_len v + List.length l) (v_cap v)) as [C|C].
  - assert (W : forall w, v_arr w = v_arr v -> forall i, get (set_all m v (v_len v) l) w i =
      if (v_off v + v_len v <=? v_off w + i) && (v_off w + i <? v_off v + v_len v + List.length l) then nth (v_off w + i - (v_off v + v_len v)) l (get m w i) else get m w i).
    { intros w E i. unfold get. rewrite cell_set_all, E, Nat.eqb_refl. reflexivity. }
    split; [|split; [|split; [|split; [|split; [|split]]]]].
    + apply (nth_ext _ _ zero_calday zero_calday); [rewrite app_length, !length_elements; reflexivity|].
      rewrite length_elements. cbn [v_len]. intros i Hi. rewrite nth_elements by exact Hi.
      rewrite W by reflexivity. cbn [v_off]. destruct (Nat.ltb_spec i (v_len v)) as [I|I].
      * rewrite app_nth1 by (rewrite length_elements; exact I). rewrite nth_elements by exact I.
        destruct (Nat.leb_spec (v_off v + v_len v) (v_off v + i)); [lia|]. reflexivity.
      * rewrite app_nth2 by (rewrite length_elements; exact I). rewrite length_elements.
        destruct (Nat.leb_spec (v_off v + v_len v) (v_off v + i)); [|lia]. destruct (Nat.ltb_spec (v_off v + i) (v_off v + v_len v + List.length l)); [|lia].
        cbn [andb]. replace (v_off v + i - (v_off v + v_len v)) with (i - v_len v) by lia. apply nth_indep. lia.
    + split; cbn [v_len v_cap v_arr]; [exact C|]. right. rewrite next_set_all. destruct L as [_ [L|L]]; [lia|exact L].
    + rewrite next_set_all. lia.
    + reflexivity.
    + left. split; [reflexivity|exact C].
    + intros w Lw [H|H]; [lia|]. apply elements_ext; [reflexivity|]. intros i Hi. destruct (Nat.eq_dec (v_arr w) (v_arr v)) as [E|N].
      * rewrite W by exact E. destruct (Nat.leb_spec (v_off v + v_len v) (v_off w + i)); [|reflexivity].
        destruct (Nat.ltb_spec (v_off w + i) (v_off v + v_len v + List.length l)); [|reflexivity].
        elim H. split; [exact E|]. exists i, (v_off w + i - (v_off v + v_len v)). lia.
      * unfold get. rewrite cell_set_all. destruct (Nat.eqb_spec (v_arr w) (v_arr v)); [contradiction|reflexivity].
    + intros _. apply (nth_ext _ _ zero_calday zero_calday); [rewrite length_elements; reflexivity|].
      rewrite length_elements. cbn [v_len]. intros i Hi. rewrite nth_elements by exact Hi. rewrite W by reflexivity. cbn [v_off].
      destruct (Nat.leb_spec (v_off v + v_len v) (v_off v + v_len v + i)); [|lia].
      destruct (Nat.ltb_spec (v_off v + v_len v + i) (v_off v + v_len v + List.length l)); [|lia].
      cbn [andb]. replace (v_off v + v_len v + i - (v_off v + v_len v)) with i by lia. apply nth_indep. exact Hi.
  - set (n := v_len v + List.length l) in *. set (w0 := mkView (m_next m) 0 n (n + grow n)).
    assert (W : forall w i, get (set_all (mkMemory (m_cell m) (S (m_next m))) w0 0 (elements m v ++ l)) w i =
      if (v_arr w =? m_next m) && (v_off w + i <? n) then nth (v_off w + i) (elements m v ++ l) (get m w i) else get m w i).
    { intros w i. unfold get. rewrite cell_set_all. cbn [w0 v_arr v_off m_cell]. rewrite app_length, length_elements. fold n. cbn [Nat.add].
      rewrite Nat.sub_0_r. cbn [Nat.leb]. rewrite andb_true_r. reflexivity. }
    split; [|split; [|split; [|split; [|split; [|split]]]]].
    + apply (nth_ext _ _ zero_calday zero_calday); [rewrite app_length, !length_elements; reflexivity|].
      rewrite length_elements. intros i Hi. rewrite nth_elements by exact Hi. rewrite W. cbn [w0 v_arr v_off v_len] in *. rewrite Nat.eqb_refl. cbn [andb Nat.add].
      destruct (Nat.ltb_spec i n); [|lia]. apply nth_indep. rewrite app_length, length_elements. exact Hi.
    + split; cbn [w0 v_len v_cap v_arr]; [lia|]. right. rewrite next_set_all. cbn [m_next]. lia.
    + rewrite next_set_all. cbn [m_next]. lia.
    + reflexivity.
    + right. left. cbn [w0 v_arr]. lia.
    + intros w Lw _. apply elements_ext; [reflexivity|]. intros i Hi. rewrite W. pose proof (live_arr _ _ _ Lw Hi).
      destruct (Nat.eqb_spec (v_arr w) (m_next m)); [lia|reflexivity].
    + intros H. lia.
Qed.
(** The loop collects the half moon days in arrays of its own. *)
Lemma half_loop_spec grow m v : live m v -> let '(m', half) := half_loop grow m v in
  elements m' half = flat_map half_days (elements m v) /\ m_next m <= m_next m' /\
  (forall w, live m w -> elements m' w = elements m w).
Proof.
  intros L. unfold half_loop.
  assert (G : forall k, k <= v_len v -> let '(m', half) := fold_left (fun st i => let '(m, half) := st in
      match half_moon_day (get m v i) with Some d => append_all grow m half [d] | None => st end) (seq 0 k) (m, nil_view) in
    elements m' half = filter_map half_moon_day (firstn k (elements m v)) /\ m_next m <= m_next m' /\ live m' half /\
    (half = nil_view \/ m_next m <= v_arr half) /\ (forall w, live m w -> elements m' w = elements m w)).
  { induction k as [|k IH]; intros Hk.
    - cbn. repeat split; auto; try lia.
    - rewrite seq_S, fold_left_app. cbn [Nat.add]. specialize (IH ltac:(lia)).
      destruct (fold_left _ (seq 0 k) (m, nil_view)) as [m1 half]. destruct IH as (I1 & I2 & I3 & I4 & I5). cbn [fold_left].
      assert (Gk : get m1 v k = get m v k).
      { pose proof (f_equal (fun l => nth k l zero_calday) (I5 v L)) as E. cbv beta in E. rewrite !nth_elements in E by lia. exact E. }
      assert (F : firstn (S k) (elements m v) = firstn k (elements m v) ++ [get m v k]).
      { rewrite <- (nth_elements m v zero_calday k) by lia. clear -Hk. assert (H : k < List.length (elements m v)) by (rewrite length_elements; lia). clear Hk.
        revert H. generalize (elements m v). intros l. revert k. induction l as [|x l IH]; intros k H; [cbn in H; lia|].
        destruct k as [|k]; [reflexivity|]. cbn [firstn nth app]. f_equal. apply IH. cbn in H. lia. }
      assert (FM : filter_map half_moon_day (firstn (S k) (elements m v)) = filter_map half_moon_day (firstn k (elements m v)) ++ match half_moon_day (get m v k) with Some d => [d] | None => [] end).
      { rewrite F. generalize (firstn k (elements m v)). intros l. induction l as [|x l IH]; cbn [app filter_map].
        - destruct (half_moon_day (get m v k)); reflexivity.
        - rewrite IH. destruct (half_moon_day x); reflexivity. }
      rewrite Gk, FM. destruct (half_moon_day (get m v k)) as [d|]; [|rewrite app_nil_r; repeat split; assumption || apply I3].
      pose proof (append_spec grow m1 half [d] I3) as A. destruct (append_all grow m1 half [d]) as [m2 half2].
      destruct A as (A1 & A2 & A3 & A4 & A5 & A6 & _). split; [rewrite A1, I1; reflexivity|]. split; [lia|]. split; [exact A2|].
      split; [right; destruct A5 as [[A5 A5']|[A5|A5]]; [|lia|discriminate]|].
      + destruct I4 as [->|I4]; [cbn in A5'; lia|lia].
      + intros w Lw. assert (Lw1 : live m1 w) by (destruct Lw as [Lw [Lw'|Lw']]; split; lia). rewrite A6; [apply I5; exact Lw|exact Lw1|].
        destruct I4 as [->|I4]; [left; cbn; lia|]. right. intros (E & i & j & Hi & _). pose proof (live_arr _ _ _ Lw Hi). lia. }
  specialize (G (v_len v) (le_n _)). destruct (fold_left _ (seq 0 (v_len v)) (m, nil_view)) as [m' half]. destruct G as (G1 & G2 & _ & _ & G5).
  split; [|split; assumption]. rewrite G1, firstn_all2 by (rewrite length_elements; lia).
  pose proof (C42_half_moon_days (elements m v)) as H. unfold add_half_moon_days in H. exact (app_inv_head _ _ _ H).
Qed.

(** ** What the caller sees *)
(** The result is the days given and the half moon days; the days given are still what they were. *)
Theorem C73_value : forall grow m v, live m v -> let '(m', v') := add_half_moons grow m v in
  elements m' v' = add_half_moon_days (elements m v) /\ elements m' v = elements m v /\ live m' v'.
Proof.
  intros grow m v L. unfold add_half_moons. pose proof (half_loop_spec grow m v L) as H. destruct (half_loop grow m v) as [m1 half].
  destruct H as (H1 & H2 & H3). assert (L1 : live m1 v) by (destruct L as [A [B|B]]; split; lia).
  pose proof (append_spec grow m1 v (elements m1 half) L1) as A. destruct (append_all grow m1 v (elements m1 half)) as [m2 v2].
  destruct A as (A1 & A2 & _ & _ & _ & A6 & _). split; [rewrite A1, H1, (H3 v L), C42_half_moon_days; reflexivity|]. split; [|exact A2].
  rewrite A6; [apply H3; exact L|exact L1|]. right. intros (_ & i & j & Hi & Hj & E). lia.
Qed.
(** How many half moon days there are. *)
Definition extra (m : memory) (v : view) : nat := List.length (flat_map half_days (elements m v)).
(** Another slice of the program keeps its days, unless it has elements just behind the given one in the same array,
    among as many as there are half moon days, and the capacity of the given slice extends over all these. *)
Theorem C73_others : forall grow m v w, live m v -> live m w ->
  v_cap v < v_len v + extra m v \/
  (forall i, i < v_len w -> v_arr w <> v_arr v \/ v_off w + i < v_off v + v_len v \/ v_off v + v_len v + extra m v <= v_off w + i) ->
  elements (fst (add_half_moons grow m v)) w = elements m w.
Proof.
  intros grow m v w L Lw D. unfold add_half_moons. pose proof (half_loop_spec grow m v L) as H. destruct (half_loop grow m v) as [m1 half].
  destruct H as (H1 & H2 & H3). assert (L1 : live m1 v) by (destruct L as [A [B|B]]; split; lia).
  assert (Lw1 : live m1 w) by (destruct Lw as [A [B|B]]; split; lia).
  pose proof (append_spec grow m1 v (elements m1 half) L1) as A. destruct (append_all grow m1 v (elements m1 half)) as [m2 v2].
  destruct A as (_ & _ & _ & _ & _ & A6 & _). cbn [fst]. rewrite H1 in A6. fold (extra m v) in A6. rewrite A6; [apply H3; exact Lw|exact Lw1|].
  destruct D as [D|D]; [left; exact D|]. right. intros (E & i & j & Hi & Hj & Ei). destruct (D i Hi) as [D'|[D'|D']]; [contradiction|lia|lia].
Qed.
Lemma elements_cut m arr off a b c c1 c2 : elements m (mkView arr off (a + b) c) = elements m (mkView arr off a c1) ++ elements m (mkView arr (off + a) b c2).
Proof.
  unfold elements. cbn [v_len]. rewrite seq_app, map_app. f_equal. cbn [Nat.add].
  assert (G : forall b z, map (get m (mkView arr off (a + b) c)) (seq (a + z) b) = map (get m (mkView arr (off + a) b c2)) (seq z b)).
  { clear b. induction b as [|b IH]; intros z; [reflexivity|]. cbn [seq map]. f_equal; [unfold get; cbn [v_arr v_off]; f_equal; lia|].
    specialize (IH (S z)). replace (a + S z) with (S (a + z)) in IH by lia. exact IH. }
  specialize (G b 0). rewrite Nat.add_0_r in G. exact G.
Qed.
Lemma elements_cap m arr off n c c' : elements m (mkView arr off n c) = elements m (mkView arr off n c').
Proof. reflexivity. Qed.
(** Given the days [lo..hi-1] of a longer slice, it replaces the following days of that slice by their half moon days. *)
Theorem C73_overwrites : forall grow m v lo hi, live m v -> lo <= hi -> hi + extra m (sub v lo hi) <= v_len v ->
  let m' := fst (add_half_moons grow m (sub v lo hi)) in let n := extra m (sub v lo hi) in
  elements m' v = firstn hi (elements m v) ++ flat_map half_days (skipn lo (firstn hi (elements m v))) ++ skipn (hi + n) (elements m v).
Proof.
  intros grow m v lo hi L Hlo Hk m' n. set (s := sub v lo hi) in *.
  assert (Ls : live m s). { destruct L as [A [B|B]]; split; cbn [s sub v_len v_cap v_arr]; lia. }
  assert (Es : s = mkView (v_arr v) (v_off v + lo) (hi - lo) (v_cap v - lo)) by reflexivity.
  set (p0 := mkView (v_arr v) (v_off v) lo (v_cap v)).
  set (p2 := mkView (v_arr v) (v_off v + hi) n (v_cap v - hi)). set (p3 := mkView (v_arr v) (v_off v + (hi + n)) (v_len v - (hi + n)) (v_cap v - (hi + n))).
  assert (Cut : forall x, elements x v = (elements x p0 ++ elements x s) ++ elements x p2 ++ elements x p3).
  { intros x. destruct v as [arr off len cap]. cbn [v_arr v_off v_len v_cap] in *. rewrite Es. unfold p0, p2, p3. fold n in Hk. rewrite <- app_assoc.
    replace len with (lo + ((hi - lo) + (n + (len - (hi + n))))) at 1 by lia. rewrite (elements_cut x arr off lo _ cap cap (cap - lo)). f_equal.
    rewrite (elements_cut x arr (off + lo) (hi - lo) _ (cap - lo) (cap - lo) (cap - hi)). f_equal. replace (off + lo + (hi - lo)) with (off + hi) by lia.
    rewrite (elements_cut x arr (off + hi) n _ (cap - hi) (cap - hi) (cap - (hi + n))). f_equal. replace (off + hi + n) with (off + (hi + n)) by lia. reflexivity. }
  assert (L0 : live m p0). { destruct L as [A [B|B]]; split; cbn [p0 v_len v_cap v_arr]; fold n in Hk; lia. }
  assert (L3 : live m p3). { destruct L as [A [B|B]]; split; cbn [p3 v_len v_cap v_arr]; fold n in Hk; lia. }
  assert (N01 : List.length (elements m p0 ++ elements m s) = hi) by (rewrite app_length, !length_elements, Es; cbn [p0 v_len]; lia).
  assert (F : firstn hi (elements m v) = elements m p0 ++ elements m s).
  { rewrite Cut, firstn_app, N01, Nat.sub_diag. cbn [firstn]. rewrite app_nil_r. apply firstn_all2. rewrite N01. reflexivity. }
  assert (G : skipn lo (firstn hi (elements m v)) = elements m s).
  { rewrite F, skipn_app, length_elements. cbn [p0 v_len]. rewrite Nat.sub_diag, skipn_all2 by (rewrite length_elements; reflexivity). reflexivity. }
  assert (K : skipn (hi + n) (elements m v) = elements m p3).
  { rewrite Cut, (app_assoc (_ ++ _)), skipn_app, app_length, N01, length_elements. cbn [p2 v_len]. rewrite Nat.sub_diag, skipn_all2 by (rewrite app_length, N01, length_elements; reflexivity). reflexivity. }
  rewrite (Cut m'), G, F, K. f_equal; [f_equal|f_equal].
  - apply C73_others; [exact Ls|exact L0|]. right. intros i Hi. right. left. rewrite Es. cbn [v_off v_len p0] in *. lia.
  - pose proof (C73_value grow m s Ls) as V. unfold m'. destruct (add_half_moons grow m s) as [m1 v1]. cbn [fst]. apply V.
  - unfold m', add_half_moons. pose proof (half_loop_spec grow m s Ls) as H. destruct (half_loop grow m s) as [m1 half].
    destruct H as (H1 & H2 & H3). assert (L1 : live m1 s) by (destruct Ls as [A [B|B]]; split; lia).
    pose proof (append_spec grow m1 s (elements m1 half) L1) as A. destruct (append_all grow m1 s (elements m1 half)) as [m2 v2].
    destruct A as (_ & _ & _ & _ & _ & _ & A7). cbn [fst]. rewrite H1 in A7. fold (extra m s) in A7. fold n in A7.
    rewrite Es in A7. cbn [v_len v_cap v_arr v_off] in A7. rewrite <- Es in A7. 
    replace (v_off v + lo + (hi - lo)) with (v_off v + hi) in A7 by lia. unfold p2.
    rewrite (elements_cap m2 _ _ _ (v_cap v - hi) (v_cap v - lo - (hi - lo))). apply A7. destruct L as [A _]. fold n in Hk. lia.
  - apply C73_others; [exact Ls|exact L3|]. right. intros i Hi. right. right. fold n. rewrite Es. cbn [v_off v_len p3]. lia.
Qed.
(** With the capacity cut to the length nothing of the program changes. *)
Theorem C73_capped : forall grow m v lo hi w, live m v -> lo <= hi <= v_len v -> live m w ->
  elements (fst (add_half_moons grow m (sub3 v lo hi hi))) w = elements m w.
Proof.
  intros grow m v lo hi w L Hk Lw. apply C73_others; [|exact Lw|].
  - destruct L as [A [B|B]]; split; cbn [sub3 v_len v_cap v_arr]; lia.
  - cbn [sub3 v_len v_cap]. destruct (extra m (sub3 v lo hi hi)) as [|n] eqn:E; [|left; lia]. right. intros i Hi. cbn [v_off]. lia.
Qed.
(** Nor if there is not room for all the half moon days in the slice it is cut from. *)
Theorem C73_no_room : forall grow m v lo hi w, live m v -> lo <= hi <= v_len v -> v_cap v < hi + extra m (sub v lo hi) -> live m w ->
  elements (fst (add_half_moons grow m (sub v lo hi))) w = elements m w.
Proof.
  intros grow m v lo hi w L Hk Hc Lw. apply C73_others; [|exact Lw|].
  - destruct L as [A [B|B]]; split; cbn [sub v_len v_cap v_arr]; lia.
  - left. change (v_cap (sub v lo hi)) with (v_cap v - lo). change (v_len (sub v lo hi)) with (hi - lo). destruct L as [A _]. lia.
Qed.
(** A part [v[lo:hi]] or [v[lo:hi:hi]] is those days of the slice, and the half moon days found are theirs. *)
Theorem C73_part : forall grow m v lo hi, live m v -> lo <= hi <= v_len v -> forall s, s = sub v lo hi \/ s = sub3 v lo hi hi ->
  let part := skipn lo (firstn hi (elements m v)) in
  let '(m', r) := add_half_moons grow m s in elements m' r = part ++ flat_map half_days part.
Proof.
  intros grow m v lo hi L Hk s Hs part.
  assert (Ls : live m s). { destruct L as [A [B|B]]; destruct Hs as [->| ->]; split; cbn [sub sub3 v_len v_cap v_arr]; lia. }
  assert (G : elements m s = part).
  { unfold part. replace (elements m s) with (elements m (mkView (v_arr v) (v_off v + lo) (hi - lo) (v_cap v))) by (destruct Hs as [->| ->]; reflexivity).
    destruct v as [arr off len cap]. cbn [v_arr v_off v_len v_cap] in *.
    replace len with (lo + ((hi - lo) + (len - hi))) by lia. rewrite (elements_cut m arr off lo _ cap cap cap), (elements_cut m arr (off + lo) (hi - lo) _ cap cap cap).
    rewrite app_assoc, firstn_app, app_length, !length_elements. cbn [v_len]. replace (hi - (lo + (hi - lo))) with 0 by lia. cbn [firstn]. rewrite app_nil_r.
    rewrite firstn_all2 by (rewrite app_length, !length_elements; cbn [v_len]; lia).
    rewrite skipn_app, length_elements. cbn [v_len]. rewrite Nat.sub_diag, skipn_all2 by (rewrite length_elements; reflexivity). reflexivity. }
  pose proof (C73_value grow m s Ls) as V. destruct (add_half_moons grow m s) as [m1 r]. rewrite <- G, <- C42_half_moon_days. apply V.
Qed.
Lemma swap_permutes m v i j : i < v_len v -> j < v_len v -> Permutation (elements m v) (elements (swap m v i j) v).
Proof.
  intros Hi Hj. assert (S : forall k, get (swap m v i j) v k = get m v (if k =? j then i else if k =? i then j else k)).
  { intros k. unfold swap. rewrite !get_set, Nat.eqb_refl. cbn [andb].
    destruct (Nat.eqb_spec k j) as [->|Nj]; [rewrite Nat.eqb_refl; reflexivity|]. destruct (Nat.eqb_spec (v_off v + k) (v_off v + j)); [lia|].
    destruct (Nat.eqb_spec k i) as [->|Ni]; [rewrite Nat.eqb_refl; reflexivity|]. destruct (Nat.eqb_spec (v_off v + k) (v_off v + i)); [lia|]. reflexivity. }
  set (t := fun k => if k =? j then i else if k =? i then j else k) in *.
  replace (elements (swap m v i j) v) with (map (get m v) (map t (seq 0 (v_len v)))).
  2: { unfold elements. rewrite map_map. apply map_ext. intros k. rewrite S. reflexivity. }
  apply Permutation_map. apply NoDup_Permutation.
  - apply seq_NoDup.
  - apply FinFun.Injective_map_NoDup; [|apply seq_NoDup]. intros x y. unfold t.
    destruct (Nat.eqb_spec x j), (Nat.eqb_spec x i), (Nat.eqb_spec y j), (Nat.eqb_spec y i); lia.
  - intros x. rewrite in_map_iff. setoid_rewrite in_seq. split.
    + intros H. exists (t x). unfold t. destruct (Nat.eqb_spec x j), (Nat.eqb_spec x i); subst; repeat match goal with |- context [?a =? ?b] => destruct (Nat.eqb_spec a b) end; lia.
    + intros (y & <- & H). unfold t. destruct (Nat.eqb_spec y j), (Nat.eqb_spec y i); lia.
Qed.
(** [Swap] exchanges elements: after any swaps the slice has the same days in another order, and slices that have
    no element in common with it are as before. *)
Theorem C73_swaps : forall m v l, live m v -> Forall (fun p => fst p < slice_len v /\ snd p < slice_len v) l ->
  Permutation (elements m v) (elements (swaps m v l) v) /\
  forall w, (forall i, i < v_len w -> v_arr w <> v_arr v \/ v_off w + i < v_off v \/ v_off v + v_len v <= v_off w + i) ->
    elements (swaps m v l) w = elements m w.
Proof.
  intros m v l _ F. revert m. unfold slice_len in F. induction F as [|[i j] l [Hi Hj] F IH]; intros m; [split; reflexivity|].
  cbn [swaps fold_left fst snd] in *. fold (swaps (swap m v i j) v l). destruct (IH (swap m v i j)) as [I1 I2]. split.
  - etransitivity; [|exact I1]. apply swap_permutes; assumption.
  - intros w D. rewrite (I2 w D). apply elements_ext; [reflexivity|]. intros k Hk. unfold swap. rewrite !get_set.
    destruct (D k Hk) as [N|N].
    + destruct (Nat.eqb_spec (v_arr w) (v_arr v)); [contradiction|reflexivity].
    + destruct (Nat.eqb_spec (v_off w + k) (v_off v + j)); [lia|]. destruct (Nat.eqb_spec (v_off w + k) (v_off v + i)); [lia|].
      rewrite !andb_false_r. reflexivity.
Qed.

(** ** Example: the first two uposathas of 2016 taken from the first four *)
Definition moon_day (u : UposathaMoon) : CalDay := mkCalDay (u_Date u) [u] [] [] [] [].
Definition first_four : list CalDay := map moon_day (firstn 4 (uposathas_of (events_of_year cfg_default 2016))).
Definition no_room (n : nat) : nat := 0.
Definition date_of (d : CalDay) : Z * Z := (time_month (cd_Date d), time_mday (cd_Date d)).
Definition held : memory * view := append_all no_room empty_memory nil_view first_four.
Example C73_example :
  let '(m, v) := held in let '(m', half) := add_half_moons no_room m (sub v 0 2) in
  map date_of (elements m v) = [(1, 8); (1, 23); (2, 7); (2, 22)]%Z /\
  map date_of (elements m' half) = [(1, 8); (1, 23); (1, 16); (1, 31)]%Z /\
  map date_of (elements m' v) = [(1, 8); (1, 23); (1, 16); (1, 31)]%Z /\
  map date_of (elements (fst (add_half_moons no_room m (sub3 v 0 2 2))) v) = [(1, 8); (1, 23); (2, 7); (2, 22)]%Z /\
  map date_of (elements (fst (add_half_moons no_room m (sub v 1 2))) v) = [(1, 8); (1, 23); (1, 31); (2, 22)]%Z.
Proof. vm_compute. repeat split. Qed.
(** So asking for the half moons of some days can lose other days, although they are not passed to the function. *)
Theorem C73_keeps_the_rest_refuted : exists grow m v k, live m v /\ k < v_len v /\
  elements (fst (add_half_moons grow m (sub v 0 k))) v <> elements m v.
Proof.
  exists no_room, (fst held), (snd held), 2. split; [vm_compute; lia|]. split; [vm_compute; lia|].
  intros E. apply (f_equal (map date_of)) in E. vm_compute in E. discriminate.
Qed.
(** And sorting the result in place reorders the days given, if there was room behind them. *)
Theorem C73_sorting_keeps_the_given_refuted : exists grow m v, live m v /\ let '(m', v') := add_half_moons grow m v in
  exists l, Forall (fun p => fst p < slice_len v' /\ snd p < slice_len v') l /\ elements (swaps m' v' l) v <> elements m v.
Proof.
  exists no_room, (fst held), (sub (snd held) 0 2). split; [vm_compute; lia|].
  destruct (add_half_moons no_room (fst held) (sub (snd held) 0 2)) as [m' v'] eqn:E. exists [(1, 2)].
  assert (Ev : v' = mkView 0 0 4 4) by (apply (f_equal snd) in E; vm_compute in E; symmetry; exact E).
  split; [rewrite Ev; repeat constructor; cbn; lia|]. intros Q. apply (f_equal (map date_of)) in Q.
  replace m' with (fst (add_half_moons no_room (fst held) (sub (snd held) 0 2))) in Q by (rewrite E; reflexivity). rewrite Ev in Q. vm_compute in Q. discriminate.
Qed.
