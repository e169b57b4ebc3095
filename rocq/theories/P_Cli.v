(** Lemmas for the command line theorems: grouping by key and the order of keys. *)
From Coq Require Import ZArith NArith Lia Bool ZifyBool List String Ascii Permutation Sorted.
From Verif Require Import GoTime CalDay Text Cli SpecText P_Text P_Date.
Import ListNotations.
Open Scope Z_scope.

(** ** Order of byte strings *)
Lemma ascii_compare_trans a b c : Ascii.compare a b = Lt -> Ascii.compare b c = Lt -> Ascii.compare a c = Lt.
Proof. unfold Ascii.compare. rewrite !N.compare_lt_iff. lia. Qed.
Lemma ascii_compare_eq a b : Ascii.compare a b = Eq -> a = b.
Proof. unfold Ascii.compare. intros H. apply N.compare_eq_iff in H. rewrite <- (ascii_N_embedding a), <- (ascii_N_embedding b), H. reflexivity. Qed.
Lemma ascii_compare_refl a : Ascii.compare a a = Eq.
Proof. unfold Ascii.compare. apply N.compare_refl. Qed.
Lemma compare_trans a : forall b c, String.compare a b = Lt -> String.compare b c = Lt -> String.compare a c = Lt.
Proof.
  induction a as [|x a IH]; intros [|y b] [|z c]; cbn [String.compare]; try discriminate; try reflexivity.
  intros H1 H2. destruct (Ascii.compare x y) eqn:E1; try discriminate; destruct (Ascii.compare y z) eqn:E2; try discriminate.
  - apply ascii_compare_eq in E1, E2. subst. rewrite ascii_compare_refl. exact (IH b c H1 H2).
  - apply ascii_compare_eq in E1. subst. rewrite E2. reflexivity.
  - apply ascii_compare_eq in E2. subst. rewrite E1. reflexivity.
  - rewrite (ascii_compare_trans x y z E1 E2). reflexivity.
Qed.
Definition key_lt (a b : string) : Prop := String.compare a b = Lt.
Lemma key_lt_irrefl a : ~ key_lt a a.
Proof. unfold key_lt. induction a as [|x a IH]; cbn [String.compare]; [discriminate|]. rewrite ascii_compare_refl. exact IH. Qed.
Lemma key_lt_asym a b : key_lt a b -> key_lt b a -> False.
Proof. intros H1 H2. exact (key_lt_irrefl a (compare_trans a b a H1 H2)). Qed.

(** ** Sorting by key *)
Section Keys.
Context {A : Type}.
Implicit Types (p q : string * A) (m : list (string * A)).
Lemma insert_key_perm p m : Permutation (p :: m) (insert_key p m).
Proof.
  induction m as [|q m IH]; cbn [insert_key]; [apply Permutation_refl|]. destruct (key_leb (fst p) (fst q)); [apply Permutation_refl|].
  eapply Permutation_trans; [apply perm_swap|]. apply perm_skip. exact IH.
Qed.
Lemma sort_keys_perm m : Permutation m (sort_keys m).
Proof.
  induction m as [|p m IH]; cbn [sort_keys fold_right]; [apply Permutation_refl|].
  eapply Permutation_trans; [apply perm_skip; exact IH|]. apply insert_key_perm.
Qed.
Definition before_key p q : Prop := key_lt (fst p) (fst q).
Lemma insert_key_sorted p m : StronglySorted before_key m -> ~ In (fst p) (map fst m) -> StronglySorted before_key (insert_key p m).
Proof.
  induction m as [|q m IH]; intros Hs Hn; cbn [insert_key].
  - repeat constructor.
  - inversion Hs as [|? ? Hs' Hq]; subst. cbn [map] in Hn. assert (Nq : fst q <> fst p) by (intros E; apply Hn; left; exact E).
    unfold key_leb. destruct (String.compare (fst p) (fst q)) eqn:C.
    + apply String.compare_eq_iff in C. congruence.
    + constructor; [exact Hs|]. constructor; [exact C|]. eapply Forall_impl; [|exact Hq]. intros r Hr. exact (compare_trans _ _ _ C Hr).
    + assert (L : key_lt (fst q) (fst p)) by (unfold key_lt; rewrite String.compare_antisym, C; reflexivity).
      constructor; [apply IH; [exact Hs'|intros Hi; apply Hn; right; exact Hi]|].
      apply Forall_forall. intros r Hr. apply (Permutation_in _ (Permutation_sym (insert_key_perm p m))) in Hr.
      destruct Hr as [<-|Hr]; [exact L|]. rewrite Forall_forall in Hq. exact (Hq r Hr).
Qed.
Lemma sort_keys_sorted m : NoDup (map fst m) -> StronglySorted before_key (sort_keys m).
Proof.
  induction m as [|p m IH]; cbn [sort_keys fold_right map]; intros H; [constructor|]. inversion H as [|? ? Hn Hd]; subst.
  apply insert_key_sorted; [apply IH; exact Hd|]. intros Hi. apply Hn.
  apply (Permutation_in _ (Permutation_sym (Permutation_map fst (sort_keys_perm m)))). exact Hi.
Qed.
End Keys.

(** ** Grouping *)
Section Group.
Context {A : Type} (key : A -> string).
Definition group_all (l : list A) : list (string * list A) := fold_left (fun m d => map_append m (key d) d) l [].

Lemma map_append_keys (m : list (string * list A)) k x : map fst (map_append m k x) = if existsb (String.eqb k) (map fst m) then map fst m else (map fst m ++ [k])%list.
Proof.
  induction m as [|[k' l] m IH]; [reflexivity|]. cbn [map_append map fst existsb]. destruct (String.eqb k k') eqn:E; cbn [map fst orb]; [reflexivity|].
  rewrite IH. destruct (existsb _ _); reflexivity.
Qed.
Lemma existsb_key k l : existsb (String.eqb k) l = true <-> In k l.
Proof. rewrite existsb_exists. split; [intros (x & Hx & E); apply String.eqb_eq in E; subst; exact Hx|intros H; exists k; split; [exact H|apply String.eqb_refl]]. Qed.
Lemma map_append_nodup (m : list (string * list A)) k x : NoDup (map fst m) -> NoDup (map fst (map_append m k x)).
Proof.
  intros H. rewrite map_append_keys. destruct (existsb (String.eqb k) (map fst m)) eqn:E; [exact H|].
  apply (Permutation_NoDup (Permutation_cons_append (map fst m) k)). constructor; [|exact H]. rewrite <- existsb_key, E. discriminate.
Qed.
Lemma map_append_in (m : list (string * list A)) k x k' ds : NoDup (map fst m) ->
  (In (k', ds) (map_append m k x) <->
   (k' <> k /\ In (k', ds) m) \/ (k' = k /\ ((exists l0, In (k, l0) m /\ ds = l0 ++ [x])%list \/ (~ In k (map fst m) /\ ds = [x])))).
Proof.
  induction m as [|[k0 l0] m IH]; intros Hn; cbn [map_append].
  - cbn [In map]. split.
    + intros [E|[]]. injection E as <- <-. right. split; [reflexivity|]. right. split; [intros []|reflexivity].
    + intros [[_ []]|[-> [(l & [] & _)|[_ ->]]]]. left. reflexivity.
  - cbn [map fst] in Hn. inversion Hn as [|? ? Hk Hm]; subst. destruct (String.eqb_spec k k0) as [->|Nk].
    + cbn [In]. split.
      * intros [E|Hi].
        -- injection E as <- <-. right. split; [reflexivity|]. left. exists l0. split; [left; reflexivity|reflexivity].
        -- left. split; [|right; exact Hi]. intros ->. apply Hk. apply (in_map fst) in Hi. exact Hi.
      * intros [[Nk [E|Hi]]|[-> [(l & [E|Hi] & ->)|[Hx _]]]].
        -- injection E as <- <-. congruence.
        -- right. exact Hi.
        -- injection E as <-. left. reflexivity.
        -- elim Hk. apply (in_map fst) in Hi. exact Hi.
        -- elim Hx. left. reflexivity.
    + cbn [In]. rewrite (IH Hm). split.
      * intros [E|[[N Hi]|[-> [(l & Hi & ->)|[Hx ->]]]]].
        -- injection E as <- <-. left. split; [congruence|left; reflexivity].
        -- left. split; [exact N|right; exact Hi].
        -- right. split; [reflexivity|]. left. exists l. split; [right; exact Hi|reflexivity].
        -- right. split; [reflexivity|]. right. split; [|reflexivity]. intros [E|Hi]; [cbn [fst] in E; congruence|exact (Hx Hi)].
      * intros [[N [E|Hi]]|[-> [(l & [E|Hi] & ->)|[Hx ->]]]].
        -- left. exact E.
        -- right. left. split; assumption.
        -- injection E as E _. congruence.
        -- right. right. split; [reflexivity|]. left. exists l. split; [exact Hi|reflexivity].
        -- right. right. split; [reflexivity|]. right. split; [|reflexivity]. intros Hi. apply Hx. right. exact Hi.
Qed.

Lemma group_spec l : NoDup (map fst (group_all l)) /\
  forall k ds, In (k, ds) (group_all l) <-> (ds = filter (fun d => String.eqb (key d) k) l /\ ds <> []).
Proof.
  unfold group_all. induction l as [|x l [Hn Hg]] using rev_ind.
  - split; [constructor|]. intros k ds. cbn. split; [intros []|]. intros [-> H]. congruence.
  - rewrite fold_left_app. cbn [fold_left]. set (m := fold_left _ l []) in *. split; [apply map_append_nodup; exact Hn|].
    intros k ds. rewrite (map_append_in m (key x) x k ds Hn). rewrite filter_app. cbn [filter].
    assert (K : forall k, In k (map fst m) <-> filter (fun d => String.eqb (key d) k) l <> []).
    { intros k0. rewrite in_map_iff. split.
      - intros ([k1 d1] & E & Hi). cbn [fst] in E. subst k1. apply Hg in Hi. destruct Hi as [-> Hi]. exact Hi.
      - intros H. exists (k0, filter (fun d => String.eqb (key d) k0) l). split; [reflexivity|]. apply Hg. split; [reflexivity|exact H]. }
    destruct (String.eqb_spec (key x) k) as [<-|Nk].
    + split.
      * intros [[N _]|[_ [(l0 & Hi & ->)|[Hx ->]]]]; [congruence| |].
        -- apply Hg in Hi. destruct Hi as [-> _]. split; [reflexivity|]. destruct (filter _ l); discriminate.
        -- split; [|discriminate]. rewrite K in Hx. destruct (filter (fun d => (key d =? key x)%string) l) as [|z zs] eqn:F; [reflexivity|]. elim Hx. discriminate.
      * intros [-> _]. right. split; [reflexivity|]. destruct (filter (fun d => (key d =? key x)%string) l) as [|z zs] eqn:F.
        -- right. split; [|reflexivity]. rewrite K, F. intros H. apply H. reflexivity.
        -- left. exists (z :: zs). split; [|reflexivity]. apply Hg. rewrite F. split; [reflexivity|discriminate].
    + rewrite app_nil_r. split.
      * intros [[_ Hi]|[E _]]; [apply Hg; exact Hi|congruence].
      * intros H. left. split; [congruence|]. apply Hg. exact H.
Qed.

(** Concatenating the groups in the order of the keys gives back a list sorted by key. *)
Lemma regroup ks : forall l, StronglySorted key_lt ks -> (forall x, In x l -> In (key x) ks) ->
  StronglySorted (fun a b => key a = key b \/ key_lt (key a) (key b)) l ->
  flat_map (fun k => filter (fun d => String.eqb (key d) k) l) ks = l.
Proof.
  induction ks as [|k ks IH]; intros l Hk Hi Hl; cbn [flat_map].
  - destruct l as [|x l]; [reflexivity|]. destruct (Hi x (or_introl eq_refl)).
  - inversion Hk as [|? ? Hk' Hlt]; subst.
    assert (P : (l = filter (fun d => String.eqb (key d) k) l ++ filter (fun d => negb (String.eqb (key d) k)) l)%list).
    { clear IH Hk Hk'. induction l as [|x l IHl]; [reflexivity|]. inversion Hl as [|? ? Hl' Hx]; subst. cbn [filter].
      destruct (String.eqb_spec (key x) k) as [E|N]; cbn [negb app].
      - f_equal. apply IHl; [intros y Hy; apply Hi; right; exact Hy|exact Hl'].
      - replace (filter (fun d => String.eqb (key d) k) l) with (@nil A).
        + cbn [app]. f_equal. clear - Hl' Hx N Hlt Hi. symmetry.
          assert (H : forall y, In y l -> key y <> k).
          { intros y Hy E. rewrite Forall_forall in Hx. destruct (Hi x (or_introl eq_refl)) as [E'|Hin]; [congruence|].
            rewrite Forall_forall in Hlt. specialize (Hlt _ Hin). destruct (Hx y Hy) as [E'|L]; [congruence|]. rewrite E in L. exact (key_lt_asym _ _ L Hlt). }
          clear - H. induction l as [|y l IH]; [reflexivity|]. cbn [filter]. destruct (String.eqb_spec (key y) k) as [E|_]; [elim (H y (or_introl eq_refl) E)|].
          cbn [negb]. f_equal. apply IH. intros z Hz. apply H. right. exact Hz.
        + symmetry. assert (H : forall y, In y l -> key y <> k).
          { intros y Hy E. rewrite Forall_forall in Hx. destruct (Hi x (or_introl eq_refl)) as [E'|Hin]; [congruence|].
            rewrite Forall_forall in Hlt. specialize (Hlt _ Hin). destruct (Hx y Hy) as [E'|L]; [congruence|]. rewrite E in L. exact (key_lt_asym _ _ L Hlt). }
          clear - H. induction l as [|y l IH]; [reflexivity|]. cbn [filter]. destruct (String.eqb_spec (key y) k) as [E|_]; [elim (H y (or_introl eq_refl) E)|].
          apply IH. intros z Hz. apply H. right. exact Hz. }
    set (r := filter (fun d => negb (String.eqb (key d) k)) l) in *.
    transitivity (filter (fun d => String.eqb (key d) k) l ++ r)%list; [|symmetry; exact P]. f_equal. rewrite <- (IH r).
    + assert (X : forall k', In k' ks -> filter (fun d => String.eqb (key d) k') l = filter (fun d => String.eqb (key d) k') r).
      { intros k' Hk2. rewrite Forall_forall in Hlt. specialize (Hlt k' Hk2). assert (N : k' <> k) by (intros ->; exact (key_lt_irrefl _ Hlt)).
        clear - N. unfold r. induction l as [|x l IH]; [reflexivity|]. cbn [filter]. destruct (String.eqb_spec (key x) k) as [E|_].
        - cbn [negb]. rewrite E. destruct (String.eqb_spec k k'); [congruence|]. exact IH.
        - cbn [negb filter]. rewrite IH. reflexivity. }
      clear - X. induction ks as [|k' ks IHk]; [reflexivity|]. cbn [flat_map]. rewrite X by (left; reflexivity). f_equal. apply IHk. intros k2 H2. apply X. right. exact H2.
    + exact Hk'.
    + intros x Hx. unfold r in Hx. apply filter_In in Hx. destruct Hx as [Hx N]. destruct (Hi x Hx) as [E|H]; [|exact H]. subst k. rewrite String.eqb_refl in N. discriminate.
    + unfold r. clear - Hl. induction Hl as [|x l Hl IHl Hx]; cbn [filter]; [constructor|]. destruct (negb _); [|exact IHl]. constructor; [exact IHl|].
      rewrite Forall_forall in Hx |- *. intros y Hy. apply filter_In in Hy. apply Hx. apply Hy.
Qed.
End Group.

(** ** Four-digit numerals are in numeric order *)
Lemma numeral_step_all : forallb (fun z => match String.compare (fmt_d z) (fmt_d (z + 1)) with Lt => true | _ => false end) (up (Z.to_nat 8999) 1000) = true.
Proof. vm_cast_no_check (eq_refl true). Qed.
Lemma numeral_step z : 1000 <= z < 9999 -> key_lt (fmt_d z) (fmt_d (z + 1)).
Proof.
  intros H. pose proof numeral_step_all as A. rewrite forallb_forall in A. specialize (A z). unfold key_lt.
  destruct (String.compare (fmt_d z) (fmt_d (z + 1))); try reflexivity; exfalso; assert (X : false = true) by (apply A; apply up_in; rewrite Z2Nat.id by lia; lia); discriminate X.
Qed.
Lemma numeral_order a b : 1000 <= a -> a < b -> b <= 9999 -> key_lt (fmt_d a) (fmt_d b).
Proof.
  intros Ha Hab Hb. replace b with (a + 1 + (b - a - 1)) in * by lia. set (k := b - a - 1) in *. assert (Hk : 0 <= k) by lia. clearbody k.
  revert Hb. clear Hab b. revert k Hk. apply (natlike_ind (fun k => a + 1 + k <= 9999 -> key_lt (fmt_d a) (fmt_d (a + 1 + k)))).
  - intros H. rewrite Z.add_0_r. apply numeral_step. lia.
  - intros k Hk IH H. replace (a + 1 + Z.succ k) with (a + 1 + k + 1) by lia. eapply compare_trans; [apply IH; lia|]. apply numeral_step. lia.
Qed.
