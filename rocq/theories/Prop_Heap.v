(** Theorem C41: copies of a CalDay share their moons; GetCalDays' own entries do not. *)
From Coq Require Import ZArith Lia Bool List String Arith.
From Verif Require Import GoTime UposathaMoon CalDay CalDayHeap.
Import ListNotations.

Lemma kind_eqb_spec a b : reflect (a = b) (kind_eqb a b).
Proof. destruct a, b; constructor; congruence. Qed.

(** ** Slices *)
Definition wf_slice (h : heap) (s : slice) : Prop :=
  (s_len s <= s_cap s)%nat /\ ((0 < s_cap s)%nat -> (s_arr s < h_next h)%nat).
(** Two slices do not share an array. *)
Definition apart (s t : slice) : Prop := (0 < s_cap s)%nat -> (0 < s_cap t)%nat -> s_arr s <> s_arr t.

Lemma read_length h s : List.length (read h s) = s_len s.
Proof. unfold read. rewrite map_length, seq_length. reflexivity. Qed.
Lemma map_seq_ext {A} (f g : nat -> A) n k : (forall i, (k <= i < k + n)%nat -> f i = g i) -> map f (seq k n) = map g (seq k n).
Proof. intros H. apply map_ext_in. intros i Hi. apply in_seq in Hi. apply H. lia. Qed.

Lemma read_write_other h s a i x : ((0 < s_cap s)%nat -> s_arr s <> a) -> (s_len s <= s_cap s)%nat -> read (write h a i x) s = read h s.
Proof.
  intros H Hl. unfold read. apply map_seq_ext. intros j Hj. cbn [write h_cell].
  destruct (Nat.eqb_spec (s_arr s) a); [elim H; [lia|assumption]|reflexivity].
Qed.
Lemma read_set h s x : s_len s <> O -> read (write h (s_arr s) 0 x) s = x :: tl (read h s).
Proof.
  intros H. unfold read. destruct (s_len s) as [|n]; [congruence|]. cbn [seq map tl write h_cell].
  rewrite Nat.eqb_refl. cbn [andb Nat.eqb]. f_equal. apply map_seq_ext. intros i Hi.
  cbn [write h_cell]. destruct i; [lia|]. cbn [Nat.eqb]. rewrite ?andb_false_r. reflexivity.
Qed.

Lemma append_spec grow h s x h' s' : wf_slice h s -> append grow h s x = (h', s') ->
  read h' s' = read h s ++ [x] /\ wf_slice h' s' /\ (h_next h <= h_next h')%nat /\
  (s_arr s' = s_arr s /\ (0 < s_cap s)%nat \/ s_arr s' = h_next h) /\
  (forall t, wf_slice h t -> apart s t -> read h' t = read h t).
Proof.
  intros [Hl Ha] E. unfold append in E. destruct (Nat.ltb_spec (s_len s) (s_cap s)) as [L|L]; injection E as <- <-.
  - split; [|split; [split; cbn [s_len s_cap s_arr h_next write]; [lia|exact Ha]|split; [cbn; lia|split]]].
    + unfold read. cbn [s_len s_arr]. rewrite seq_S, map_app. cbn [map Nat.add]. f_equal.
      * apply map_seq_ext. intros i Hi. cbn [write h_cell]. destruct (Nat.eqb_spec i (s_len s)); [lia|]. rewrite andb_false_r. reflexivity.
      * cbn [write h_cell]. rewrite !Nat.eqb_refl. reflexivity.
    + left. cbn [s_arr]. split; [reflexivity|lia].
    + intros t [Ht _] Hd. apply read_write_other; [|exact Ht]. intros Hc He. apply Hd; [lia|exact Hc|congruence].
  - split; [|split; [split; cbn [s_len s_cap s_arr h_next]; [lia|intros _; lia]|split; [cbn; lia|split]]].
    + unfold read. cbn [s_len s_arr]. rewrite seq_S, map_app. cbn [map Nat.add h_cell]. rewrite !Nat.eqb_refl. f_equal.
      apply map_seq_ext. intros i Hi. destruct (Nat.eqb_spec i (s_len s)); [lia|reflexivity].
    + right. reflexivity.
    + intros t [Ht Hn] _. unfold read. apply map_seq_ext. intros i Hi. cbn [h_cell].
      destruct (Nat.eqb_spec (s_arr t) (h_next h)); [|reflexivity]. specialize (Hn ltac:(lia)). lia.
Qed.

(** ** Days *)
Definition wf_day (h : heap) (d : hday) : Prop := forall k, wf_slice h (hd_slice d k) /\ Forall (fun e => kind_of e = k) (read h (hd_slice d k)).
Definition apart_self (d : hday) : Prop := forall k k', k <> k' -> apart (hd_slice d k) (hd_slice d k').
Definition apart_days (d d' : hday) : Prop := forall k k', apart (hd_slice d k) (hd_slice d' k').

Lemma wf_slice_mono h h' s : (h_next h <= h_next h')%nat -> wf_slice h s -> wf_slice h' s.
Proof. intros H [H1 H2]. split; [exact H1|]. intros Hc. specialize (H2 Hc). lia. Qed.
Lemma apart_sym s t : apart s t -> apart t s.
Proof. intros H Hs Ht E. apply (H Ht Hs). symmetry. exact E. Qed.

Definition value_put (e : CalendarEvent) (d : CalDay) : CalDay :=
  match e with
  | EvUposatha u => set_uposatha d u | EvHalf u => set_half d u | EvAstro u => set_astro d u
  | EvMajor m => mkCalDay (cd_Date d) (cd_Uposatha d) (cd_Half d) (cd_Astro d) (cd_Major d ++ [m]) (cd_Events d)
  | EvEvent m => mkCalDay (cd_Date d) (cd_Uposatha d) (cd_Half d) (cd_Astro d) (cd_Major d) (cd_Events d ++ [m])
  end.

(** The effect of one put on the day itself, and on any day apart from it. *)
Lemma put_effect grow h d e h' d' : wf_day h d -> apart_self d -> h_put grow h d e = (h', d') ->
  wf_day h' d' /\ apart_self d' /\ (h_next h <= h_next h')%nat /\ hd_date d' = hd_date d /\
  (forall k, k <> kind_of e -> hd_slice d' k = hd_slice d k /\ read h' (hd_slice d' k) = read h (hd_slice d k)) /\
  read h' (hd_slice d' (kind_of e)) =
    (match kind_of e with
     | KMajor | KEvent => read h (hd_slice d (kind_of e)) ++ [e]
     | _ => e :: tl (read h (hd_slice d (kind_of e)))
     end) /\
  (forall t, wf_slice h t -> (forall k, apart (hd_slice d k) t) -> read h' t = read h t /\ forall k, apart (hd_slice d' k) t).
Proof.
  intros Hw Hs E.
  assert (G : forall h1 s1, append grow h (hd_slice d (kind_of e)) e = (h1, s1) -> (h1, put_slice d (kind_of e) s1) = (h', d') ->
    wf_day h' d' /\ apart_self d' /\ (h_next h <= h_next h')%nat /\ hd_date d' = hd_date d /\
    (forall k, k <> kind_of e -> hd_slice d' k = hd_slice d k /\ read h' (hd_slice d' k) = read h (hd_slice d k)) /\
    read h' (hd_slice d' (kind_of e)) = read h (hd_slice d (kind_of e)) ++ [e] /\
    (forall t, wf_slice h t -> (forall k, apart (hd_slice d k) t) -> read h' t = read h t /\ forall k, apart (hd_slice d' k) t)).
  { intros h1 s1 A X. injection X as <- <-. destruct (Hw (kind_of e)) as [W F].
    destruct (append_spec grow h _ e h1 s1 W A) as (R & W' & N & Ar & O).
    assert (SL : forall k, hd_slice (put_slice d (kind_of e) s1) k = if kind_eqb k (kind_of e) then s1 else hd_slice d k) by reflexivity.
    assert (Fresh : forall t, wf_slice h t -> apart (hd_slice d (kind_of e)) t -> apart s1 t).
    { intros t Ht Ap Hc1 Hc2 Ea. destruct Ar as [[Ar1 Ar2]|Ar1].
      - apply (Ap Ar2 Hc2). congruence.
      - destruct Ht as [_ Ht]. specialize (Ht Hc2). lia. }
    repeat split.
    - rewrite SL. destruct (kind_eqb_spec k (kind_of e)) as [->|]; [apply W'|apply Hw].
    - rewrite SL. destruct (kind_eqb_spec k (kind_of e)) as [->|]; [apply W'|]. intros Hc. destruct (Hw k) as [[_ Hb] _]. specialize (Hb Hc). lia.
    - rewrite SL. destruct (kind_eqb_spec k (kind_of e)) as [->|Nk].
      + rewrite R. apply Forall_app. split; [exact F|constructor; [reflexivity|constructor]].
      + rewrite O; [apply Hw|apply Hw|apply Hs; congruence].
    - intros k k' Hk. rewrite !SL. destruct (kind_eqb_spec k (kind_of e)) as [->|Nk], (kind_eqb_spec k' (kind_of e)) as [->|Nk'].
      + congruence.
      + apply Fresh; [apply Hw|apply Hs; congruence].
      + apply apart_sym. apply Fresh; [apply Hw|apply Hs; congruence].
      + apply Hs. exact Hk.
    - exact N.
    - rewrite SL. destruct (kind_eqb_spec k (kind_of e)); [contradiction|reflexivity].
    - rewrite SL. destruct (kind_eqb_spec k (kind_of e)); [contradiction|]. apply O; [apply Hw|apply Hs; congruence].
    - rewrite SL. destruct (kind_eqb_spec (kind_of e) (kind_of e)); [exact R|contradiction].
    - apply O; [assumption|auto].
    - intros k. rewrite SL. destruct (kind_eqb_spec k (kind_of e)); [apply Fresh; auto|auto]. }
  assert (Single : (if (s_len (hd_slice d (kind_of e)) =? 0)%nat then let '(h1, s1) := append grow h (hd_slice d (kind_of e)) e in (h1, put_slice d (kind_of e) s1)
                    else (write h (s_arr (hd_slice d (kind_of e))) 0 e, d)) = (h', d') ->
    wf_day h' d' /\ apart_self d' /\ (h_next h <= h_next h')%nat /\ hd_date d' = hd_date d /\
    (forall k, k <> kind_of e -> hd_slice d' k = hd_slice d k /\ read h' (hd_slice d' k) = read h (hd_slice d k)) /\
    read h' (hd_slice d' (kind_of e)) = e :: tl (read h (hd_slice d (kind_of e))) /\
    (forall t, wf_slice h t -> (forall k, apart (hd_slice d k) t) -> read h' t = read h t /\ forall k, apart (hd_slice d' k) t)).
  { destruct (Nat.eqb_spec (s_len (hd_slice d (kind_of e))) 0) as [L|L].
    - destruct (append grow h (hd_slice d (kind_of e)) e) as [h1 s1] eqn:A. intros X. specialize (G h1 s1 eq_refl X).
      assert (R0 : read h (hd_slice d (kind_of e)) = []).
      { pose proof (read_length h (hd_slice d (kind_of e))) as RL. rewrite L in RL. destruct (read h _); [reflexivity|discriminate]. }
      rewrite R0 in *. cbn [app tl] in *. exact G.
    - intros X. injection X as <- <-. destruct (Hw (kind_of e)) as [[W1 W2] F]. 
      assert (Other : forall t, (s_len t <= s_cap t)%nat -> apart (hd_slice d (kind_of e)) t -> read (write h (s_arr (hd_slice d (kind_of e))) 0 e) t = read h t).
      { intros t Ht Ap. apply read_write_other; [|exact Ht]. intros Hc Ea. apply Ap; [lia|exact Hc|congruence]. }
      repeat split.
      + apply Hw.
      + intros Hc. destruct (Hw k) as [[_ Hb] _]. exact (Hb Hc).
      + destruct (kind_eqb_spec k (kind_of e)) as [->|Nk].
        * rewrite read_set by exact L. constructor; [reflexivity|]. destruct (read h (hd_slice d (kind_of e))); [constructor|]. inversion F; assumption.
        * rewrite Other; [apply Hw|apply Hw|apply Hs; congruence].
      + exact Hs.
      + cbn. lia.
      + apply Other; [apply Hw|apply Hs; congruence].
      + apply read_set. exact L.
      + apply Other; [apply H|auto].
      + auto. }
  unfold h_put in E. cbv zeta in E. destruct (kind_of e) eqn:K; try (apply Single; exact E);
    destruct (append grow h (hd_slice d _) e) as [h1 s1] eqn:A; exact (G h1 s1 eq_refl E).
Qed.

Lemma set_single_tl {A} (l : list A) x : set_single l x = x :: tl l.
Proof. destruct l; reflexivity. Qed.

Lemma put_value grow h d e h' d' : wf_day h d -> apart_self d -> h_put grow h d e = (h', d') ->
  decode h' d' = value_put e (decode h d).
Proof.
  intros Hw Hs E. destruct (put_effect grow h d e h' d' Hw Hs E) as (_ & _ & _ & Ed & Eo & Er & _).
  assert (T : forall {A} (f : CalendarEvent -> list A) k, Forall (fun e => kind_of e = k) (read h (hd_slice d k)) ->
    (forall e, kind_of e = k -> exists a, f e = [a]) -> flat_map f (tl (read h (hd_slice d k))) = tl (flat_map f (read h (hd_slice d k)))).
  { intros A f k F Hf. destruct (read h (hd_slice d k)) as [|x l]; [reflexivity|]. inversion F; subst. cbn [tl flat_map].
    destruct (Hf x eq_refl) as [a ->]. reflexivity. }
  unfold decode. rewrite Ed.
  destruct e as [u|u|u|u|u]; cbn [kind_of value_put] in *; unfold set_uposatha, set_half, set_astro; cbn [cd_Date cd_Uposatha cd_Half cd_Astro cd_Major cd_Events];
    rewrite Er; rewrite !(fun k Hk => proj2 (Eo k Hk)) by discriminate; f_equal; cbn [flat_map app];
    rewrite ?flat_map_app, ?set_single_tl; cbn [flat_map app]; try reflexivity; f_equal; rewrite ?app_nil_r; try reflexivity;
    apply T; try apply Hw; intros [] Hk; try discriminate Hk; eexists; reflexivity.
Qed.

Lemma decode_other h h' d : (forall k, read h' (hd_slice d k) = read h (hd_slice d k)) -> decode h' d = decode h d.
Proof. intros H. unfold decode. rewrite !H. reflexivity. Qed.

(** ** The merge loop *)
Definition separate (h : heap) (l : list hday) : Prop :=
  (forall i d, nth_error l i = Some d -> wf_day h d /\ apart_self d) /\
  (forall i j d d', nth_error l i = Some d -> nth_error l j = Some d' -> i <> j -> apart_days d d').

Lemma h_find_eq h l date : h_find l date = find_cal_day (map (decode h) l) date.
Proof. induction l as [|d l IH]; [reflexivity|]. cbn [h_find map find_cal_day]. rewrite IH. reflexivity. Qed.
Lemma find_bound l date k : find_cal_day l date = Some k -> exists c, nth_error l k = Some c.
Proof.
  revert k. induction l as [|c l IH]; intros k; cbn [find_cal_day]; [discriminate|].
  destruct (time_equal _ _); [intros E; injection E as <-; exists c; reflexivity|].
  destruct (find_cal_day l date) as [k'|]; [|discriminate]. intros E. injection E as <-. exact (IH k' eq_refl).
Qed.
Lemma nth_update {A} (l : list A) k f i : nth_error (update_nth l k f) i = if (i =? k)%nat then option_map f (nth_error l i) else nth_error l i.
Proof.
  revert k i. induction l as [|x l IH]; intros k i; cbn [update_nth].
  - destruct (i =? k)%nat; destruct i; reflexivity.
  - destruct k, i; cbn [nth_error Nat.eqb]; try reflexivity. apply IH.
Qed.
Lemma nth_error_ext {A} (l m : list A) : (forall i, nth_error l i = nth_error m i) -> l = m.
Proof.
  revert m. induction l as [|x l IH]; intros [|y m] H; [reflexivity|specialize (H O); discriminate|specialize (H O); discriminate|].
  pose proof (H O) as E. injection E as ->. f_equal. apply IH. intros i. exact (H (S i)).
Qed.

Lemma add_effect grow h d e h' d' : wf_day h d -> apart_self d -> h_add grow h d e = (h', d') ->
  decode h' d' = add_to_day e (decode h d) /\ wf_day h' d' /\ apart_self d' /\ (h_next h <= h_next h')%nat /\
  (forall t, wf_slice h t -> (forall k, apart (hd_slice d k) t) -> read h' t = read h t /\ forall k, apart (hd_slice d' k) t).
Proof.
  intros Hw Hs E. unfold h_add in E. set (d0 := mkHDay (ev_date e) (hd_slice d)) in *.
  assert (Hw0 : wf_day h d0) by exact Hw. assert (Hs0 : apart_self d0) by exact Hs.
  pose proof (put_value grow h d0 e h' d' Hw0 Hs0 E) as V.
  destruct (put_effect grow h d0 e h' d' Hw0 Hs0 E) as (W & S & N & _ & _ & _ & O).
  split; [rewrite V; destruct e; reflexivity|]. split; [exact W|]. split; [exact S|]. split; [exact N|]. exact O.
Qed.

Lemma zero_wf h : wf_day h zero_hday /\ apart_self zero_hday.
Proof.
  split; [intros k; split; [split; cbn; [lia|intros H; inversion H]|constructor]|]. intros k k' _ H. inversion H.
Qed.

Lemma merge_refines grow h l e h' l' : separate h l -> h_merge grow (h, l) e = (h', l') ->
  separate h' l' /\ map (decode h') l' = merge_into_cal_days (map (decode h) l) e.
Proof.
  intros [Hd Ha] E. unfold h_merge in E. unfold merge_into_cal_days. rewrite (h_find_eq h) in E.
  destruct (find_cal_day (map (decode h) l) (ev_date e)) as [k|] eqn:F.
  - destruct (find_bound _ _ _ F) as (c & Hc). rewrite nth_error_map in Hc. destruct (nth_error l k) as [d|] eqn:Hk; [|discriminate].
    destruct (Hd k d Hk) as [W S]. destruct (h_add grow h d e) as [h1 d1] eqn:A. injection E as <- <-.
    destruct (add_effect grow h d e h1 d1 W S A) as (V & W1 & S1 & N & O).
    assert (Oth : forall i d', nth_error l i = Some d' -> i <> k -> decode h1 d' = decode h d' /\ wf_day h1 d' /\ apart_days d1 d').
    { intros i d' Hi Nk. pose proof (Ha k i d d' Hk Hi ltac:(congruence)) as Ap. destruct (Hd i d' Hi) as [W' _].
      assert (R : forall q, read h1 (hd_slice d' q) = read h (hd_slice d' q)) by (intros q; apply O; [apply W'|intros q'; apply Ap]).
      split; [apply decode_other; exact R|]. split.
      - intros q. split; [apply (wf_slice_mono h); [exact N|apply W']|]. rewrite R. apply W'.
      - intros q q'. apply O; [apply W'|intros q''; apply Ap]. }
    split; [split|].
    + intros i d' Hi. rewrite nth_update in Hi. destruct (Nat.eqb_spec i k) as [->|Nk].
      * rewrite Hk in Hi. injection Hi as <-. split; assumption.
      * split; [apply (Oth i d' Hi Nk)|apply (Hd i d' Hi)].
    + intros i j a b Hi Hj Nij. rewrite nth_update in Hi, Hj.
      destruct (Nat.eqb_spec i k) as [->|Ni], (Nat.eqb_spec j k) as [->|Nj]; [congruence| | |exact (Ha i j a b Hi Hj Nij)].
      * rewrite Hk in Hi. injection Hi as <-. apply (Oth j b Hj Nj).
      * rewrite Hk in Hj. injection Hj as <-. intros q q'. apply apart_sym. apply (Oth i a Hi Ni).
    + apply nth_error_ext. intros i. rewrite nth_error_map, !nth_update, nth_error_map.
      destruct (Nat.eqb_spec i k) as [->|Nk]; [rewrite Hk; cbn [option_map]; rewrite V; reflexivity|].
      destruct (nth_error l i) as [d'|] eqn:Hi; [|reflexivity]. cbn [option_map]. f_equal. apply (Oth i d' Hi Nk).
  - destruct (h_add grow h zero_hday e) as [h1 d1] eqn:A. injection E as <- <-. destruct (zero_wf h) as [W S].
    destruct (add_effect grow h zero_hday e h1 d1 W S A) as (V & W1 & S1 & N & O).
    assert (Oth : forall i d', nth_error l i = Some d' -> decode h1 d' = decode h d' /\ wf_day h1 d' /\ apart_days d1 d').
    { intros i d' Hi. destruct (Hd i d' Hi) as [W' _].
      assert (Z : forall k t, apart (hd_slice zero_hday k) t) by (intros k t H; inversion H).
      assert (R : forall q, read h1 (hd_slice d' q) = read h (hd_slice d' q)) by (intros q; apply O; [apply W'|intros q'; apply Z]).
      split; [apply decode_other; exact R|]. split.
      - intros q. split; [apply (wf_slice_mono h); [exact N|apply W']|]. rewrite R. apply W'.
      - intros q q'. apply O; [apply W'|intros q''; apply Z]. }
    assert (Snoc : forall i d', nth_error (l ++ [d1]) i = Some d' -> nth_error l i = Some d' \/ (i = List.length l /\ d' = d1)).
    { intros i d' Hi. destruct (Nat.lt_ge_cases i (List.length l)) as [L|L].
      - rewrite nth_error_app1 in Hi by exact L. left. exact Hi.
      - rewrite nth_error_app2 in Hi by exact L. destruct (i - List.length l)%nat as [|m] eqn:M.
        + injection Hi as <-. right. split; [lia|reflexivity].
        + destruct m; discriminate Hi. }
    split; [split|].
    + intros i d' Hi. destruct (Snoc i d' Hi) as [Hi'|[_ ->]]; [|split; assumption].
      split; [apply (Oth i d' Hi')|apply (Hd i d' Hi')].
    + intros i j a b Hi Hj Nij. destruct (Snoc i a Hi) as [Hi'|[Ei ->]], (Snoc j b Hj) as [Hj'|[Ej ->]].
      * exact (Ha i j a b Hi' Hj' Nij).
      * intros q q'. apply apart_sym. apply (Oth i a Hi').
      * apply (Oth j b Hj').
      * congruence.
    + rewrite map_app. cbn [map]. rewrite V. f_equal. apply map_ext_in. intros d' Hi.
      apply In_nth_error in Hi. destruct Hi as [i Hi]. apply (Oth i d' Hi).
Qed.

Definition heap_days (grow : nat -> nat) (evs : list CalendarEvent) : heap * list hday :=
  fold_left (h_merge grow) evs (empty_heap, []).

(** * C41 Copies of a CalDay are not independent *)
(** The days that GetCalDays builds never share storage, and reading them gives exactly
    what the value-level model computes, whatever capacities append chooses. *)
Theorem C41_merge_refines : forall grow evs,
  let '(h, l) := heap_days grow evs in
  map (decode h) l = fold_left merge_into_cal_days evs [] /\
  forall i j d d' k k', nth_error l i = Some d -> nth_error l j = Some d' ->
    (0 < s_cap (hd_slice d k))%nat -> (0 < s_cap (hd_slice d' k'))%nat ->
    s_arr (hd_slice d k) = s_arr (hd_slice d' k') -> i = j /\ k = k'.
Proof.
  intros grow evs. destruct (heap_days grow evs) as [h l] eqn:E.
  assert (H : separate h l /\ map (decode h) l = fold_left merge_into_cal_days evs []).
  { revert h l E. unfold heap_days. induction evs as [|e evs IH] using rev_ind; intros h l E.
    - injection E as <- <-. split; [|reflexivity]. split; intros i; destruct i; discriminate.
    - rewrite fold_left_app in E |- *. cbn [fold_left] in *.
      destruct (fold_left (h_merge grow) evs (empty_heap, [])) as [h0 l0]. destruct (IH h0 l0 eq_refl) as [S V].
      destruct (merge_refines grow h0 l0 e h l S E) as [S' V']. split; [exact S'|]. rewrite V', V. reflexivity. }
  destruct H as [[Hd Ha] V]. split; [exact V|]. intros i j d d' k k' Hi Hj Hc Hc' Ea.
  destruct (Nat.eq_dec i j) as [->|Nij].
  - split; [reflexivity|]. rewrite Hi in Hj. injection Hj as <-. destruct (kind_eqb_spec k k') as [|Nk]; [assumption|].
    destruct (Hd j d Hi) as [_ S]. elim (S k k' Nk Hc Hc' Ea).
  - elim (Ha i j d d' Hi Hj Nij k k' Hc Hc' Ea).
Qed.

(** The moon of the kind of [e] that a day shows. *)
Definition shows (d : CalDay) (e : CalendarEvent) : Prop :=
  match e with
  | EvUposatha u => get_uposatha d = u | EvHalf u => get_half d = u | EvAstro u => get_astro d = u
  | EvMajor _ | EvEvent _ => True
  end.
Definition is_moon (e : CalendarEvent) : Prop :=
  match e with EvMajor _ | EvEvent _ => False | _ => True end.

Lemma value_put_shows e d : shows (value_put e d) e.
Proof.
  destruct e; cbn [value_put shows]; try exact I; unfold get_uposatha, set_uposatha, get_half, set_half, get_astro, set_astro;
    cbn [cd_Uposatha cd_Half cd_Astro]; rewrite set_single_tl; reflexivity.
Qed.

(** Setting a moon on a copy of a day that has one changes the original: [d] is both the
    original and the copy, as struct copies are equal.  The same for each of the three kinds. *)
Theorem C41_copy_shares : forall grow h d e h' copy',
  wf_day h d -> apart_self d -> is_moon e -> s_len (hd_slice d (kind_of e)) <> O ->
  h_put grow h d e = (h', copy') ->
  shows (decode h' copy') e /\ shows (decode h' d) e.
Proof.
  intros grow h d e h' c' Hw Hs Hm Hl E. pose proof (put_value grow h d _ h' c' Hw Hs E) as V.
  assert (Ec : d = c').
  { unfold h_put in E. cbv zeta in E. apply Nat.eqb_neq in Hl. destruct e; try contradiction Hm; cbn [kind_of] in *; rewrite Hl in E; congruence. }
  rewrite <- Ec in *. rewrite V. split; apply value_put_shows.
Qed.
(** Setting it on a copy of a day with a nil slice leaves the original as it was. *)
Theorem C41_copy_of_empty : forall grow h d e h' copy',
  wf_day h d -> apart_self d -> hd_slice d (kind_of e) = nil_slice ->
  h_put grow h d e = (h', copy') ->
  shows (decode h' copy') e /\ decode h' d = decode h d.
Proof.
  intros grow h d e h' c' Hw Hs Hl E. pose proof (put_value grow h d _ h' c' Hw Hs E) as V. split.
  - rewrite V. apply value_put_shows.
  - apply decode_other. intros k.
    assert (X : exists s1, append grow h nil_slice e = (h', s1)).
    { unfold h_put in E. cbv zeta in E. rewrite Hl in E. cbn [s_len nil_slice Nat.eqb] in E.
      change {| s_arr := 0; s_len := 0; s_cap := 0 |} with nil_slice in E.
      destruct (append grow h nil_slice e) as [h1 s1]. exists s1. destruct (kind_of e); congruence. }
    destruct X as [s1 A].
    destruct (append_spec grow h nil_slice _ h' s1 ltac:(split; cbn; [lia|intros H; inversion H]) A) as (_ & _ & _ & _ & O).
    apply O; [apply Hw|]. intros H. inversion H.
Qed.

(** Appending different major events to two copies: with room for one more element in the
    array the second append overwrites the first copy's event. *)
Definition major (s : string) : CalendarEvent := EvMajor (mkEvent zero_time 0 s s).
Definition grow1 (_ : nat) : nat := 1.
Theorem C41_append_refuted : exists h d h1 d1 h2 d2,
  h_put grow1 empty_heap zero_hday (major "a") = (h, d) /\
  h_put grow1 h d (major "b") = (h1, d1) /\ h_put grow1 h1 d (major "c") = (h2, d2) /\
  map e_Summary (cd_Major (decode h1 d1)) = ["a"%string; "b"%string] /\
  map e_Summary (cd_Major (decode h2 d1)) = ["a"%string; "c"%string].
Proof.
  destruct (h_put grow1 empty_heap zero_hday (major "a")) as [h d] eqn:E1.
  destruct (h_put grow1 h d (major "b")) as [h1 d1] eqn:E2. destruct (h_put grow1 h1 d (major "c")) as [h2 d2] eqn:E3.
  exists h, d, h1, d1, h2, d2. split; [reflexivity|]. split; [exact E2|]. split; [exact E3|].
  injection E1 as <- <-. injection E2 as <- <-. injection E3 as <- <-. split; reflexivity.
Qed.
Example C41_example :
  let u p := EvUposatha (mkUposatha zero_time 0 0 p "" 1 8 15 30 1 1 2500 false "" "") in
  let '(h, d) := h_put grow1 empty_heap zero_hday (u "new"%string) in
  let '(h', copy) := h_put grow1 h d (u "full"%string) in
  u_Phase (get_uposatha (decode h d)) = "new"%string /\ u_Phase (get_uposatha (decode h' d)) = "full"%string.
Proof. split; reflexivity. Qed.
