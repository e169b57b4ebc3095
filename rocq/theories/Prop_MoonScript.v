(** Theorems C72: the script that fetched the moon files. *)
From Coq Require Import ZArith Lia Bool ZifyBool List String Ascii.
From Verif Require Import GoTime Text SpecCal SpecText SpecAstro AstroData MoonScript Esc.
From Verif Require Import P_Text P_Esc P_Astro Prop_Esc.
Import ListNotations.
Open Scope Z_scope.
Local Open Scope string_scope.

(** The years asked for, with the times of the requests. *)
Definition asked (l : list action) : list (Z * Z) := flat_map (fun a => match a with Request y _ _ t => [(y, t)] | Print _ => [] end) l.
(** No step takes negative time. *)
Definition forward (delays : nat -> Z) : Prop := forall i, 0 <= delays i.
Definition given (s : string) : Prop := s <> "".
Lemma given_test id secret : given id -> given secret -> (id =? "") || (secret =? "") = false.
Proof. intros H K. apply orb_false_intro; apply String.eqb_neq; assumption. Qed.

(** ** The loops *)
Definition prints_only (l : list action) : Prop := asked l = [].
Lemma asked_app a b : asked (a ++ b) = (asked a ++ asked b)%list.
Proof. apply flat_map_app. Qed.
Lemma wait_spec delays year last : forward delays -> forall fuel n l n', wait_loop delays fuel year last n = Some (l, n') ->
  asked l = [] /\ at_ns n <= at_ns n' /\ last + 61 <= date_s n'.
Proof.
  intros F. induction fuel as [|f IH]; intros n l n'; cbn [wait_loop]; [discriminate|].
  pose proof (F (steps n)) as Fn. destruct (Z.ltb_spec (date_s (tick delays n) - last) 61) as [L|L].
  - destruct (wait_loop _ _ _ _ _) as [[l0 n0]|] eqn:W; [|discriminate]. intros E. injection E as <- <-.
    destruct (IH _ _ _ W) as (A & B & C). split; [exact A|]. split; [|exact C]. cbn [at_ns tick] in B. unfold second_ns in B. lia.
  - intros E. injection E as <- <-. split; [reflexivity|]. split; [cbn [at_ns tick]; lia|lia].
Qed.
Lemma wait_ends delays year last : forward delays -> forall fuel n, last + 61 <= date_s n + Z.of_nat fuel - 1 -> (0 < fuel)%nat ->
  exists l n', wait_loop delays fuel year last n = Some (l, n').
Proof.
  intros F. induction fuel as [|f IH]; intros n H Hp; [lia|]. cbn [wait_loop]. pose proof (F (steps n)) as Fn.
  destruct (Z.ltb_spec (date_s (tick delays n) - last) 61) as [L|L]; [|eauto].
  assert (D : date_s n <= date_s (tick delays n)) by (unfold date_s, second_ns; cbn [at_ns tick]; apply Z.div_le_mono; lia).
  assert (D' : date_s (mkNow (steps (tick delays n)) (at_ns (tick delays n) + second_ns)) = date_s (tick delays n) + 1).
  { unfold date_s, second_ns. cbn [at_ns]. replace (at_ns (tick delays n) + 1000000000) with (at_ns (tick delays n) + 1 * 1000000000) by lia.
    rewrite Z.div_add by lia. reflexivity. }
  destruct (IH (mkNow (steps (tick delays n)) (at_ns (tick delays n) + second_ns))) as (l & n' & ->); [rewrite D'; lia|lia|]. eauto.
Qed.
(** The requests of a run come in batches of at most eleven, each batch starting more than a minute after the one before. *)
Inductive batches : Z -> Z -> Z -> list Z -> Prop :=
| batches_nil r b t : batches r b t []
| batches_same r b t u l : r <= 10 -> t <= u -> batches (r + 1) b u l -> batches r b t (u :: l)
| batches_next r b t b' u l : r = 11 -> t <= b' -> b + 60 * second_ns < b' -> b' <= u -> batches 1 b' u l -> batches r b t (u :: l).
Lemma loop_spec delays waits id secret to : forward delays -> forall fuel year last req n l b,
  year_loop delays waits fuel id secret to year last req n = Some l -> 0 <= req <= 11 -> last = b / second_ns -> b <= at_ns n ->
  map fst (asked l) = years year (Z.to_nat (to - year + 1)) /\ batches req b (at_ns n) (map snd (asked l)).
Proof.
  intros F. induction fuel as [|f IH]; intros year last req n l b; cbn [year_loop]; [discriminate|].
  destruct (Z.leb_spec year to) as [Y|Y].
  2: { intros E _ _ _. injection E as <-. replace (Z.to_nat (to - year + 1)) with O by lia. split; [reflexivity|constructor]. }
  unfold pause. intros E Hr El Hb. replace (Z.to_nat (to - year + 1)) with (S (Z.to_nat (to - (year + 1) + 1))) by lia. cbn [years].
  destruct (Z.ltb_spec 10 req) as [R|R].
  - destruct (wait_loop _ _ _ _ _) as [[l0 n0]|] eqn:W; [|discriminate]. destruct (wait_spec _ _ _ F _ _ _ _ W) as (A & B & C).
    set (n1 := tick delays n0) in *. set (n2 := tick delays n1) in *.
    assert (T1 : at_ns n0 <= at_ns n1) by (unfold n1; cbn [tick at_ns]; pose proof (F (steps n0)); lia).
    assert (T2 : at_ns n1 <= at_ns n2) by (unfold n2; cbn [tick at_ns]; pose proof (F (steps n1)); lia).
    destruct (year_loop _ _ _ _ _ _ _ _ _ _) as [rest|] eqn:L; [|discriminate]. injection E as <-.
    destruct (IH _ _ _ _ _ (at_ns n1) L) as [I1 I2]; [lia|reflexivity|lia|].
    cbn [asked flat_map app]. change (flat_map _ (l0 ++ ?x)) with (asked (l0 ++ x)). rewrite asked_app, A. cbn [asked flat_map app map fst snd].
    change (flat_map _ rest) with (asked rest). split; [rewrite I1; reflexivity|].
    apply (batches_next _ _ _ (at_ns n1)); [lia|lia| |exact T2|exact I2].
    assert (C' : last + 61 <= date_s n1) by (etransitivity; [exact C|]; unfold date_s, second_ns; apply Z.div_le_mono; lia).
    unfold date_s in C'. subst last. unfold second_ns in *. pose proof (Z.div_mod b 1000000000 ltac:(lia)). pose proof (Z.mod_pos_bound b 1000000000 ltac:(lia)).
    pose proof (Z.div_mod (at_ns n1) 1000000000 ltac:(lia)). pose proof (Z.mod_pos_bound (at_ns n1) 1000000000 ltac:(lia)). lia.
  - set (n2 := tick delays n) in *.
    assert (T2 : at_ns n <= at_ns n2) by (unfold n2; cbn [tick at_ns]; pose proof (F (steps n)); lia).
    destruct (year_loop _ _ _ _ _ _ _ _ _ _) as [rest|] eqn:L; [|discriminate]. injection E as <-.
    destruct (IH _ _ _ _ _ b L) as [I1 I2]; [lia|exact El|lia|].
    cbn [asked flat_map app map fst snd]. change (flat_map _ rest) with (asked rest). split; [rewrite I1; reflexivity|].
    apply batches_same; [lia|exact T2|exact I2].
Qed.
Lemma batches_le r b t l : batches r b t l -> Forall (fun u => t <= u) l.
Proof.
  induction 1; constructor; try lia; (eapply Forall_impl; [|eassumption]; cbv beta; intros; lia).
Qed.
Lemma nth_forall {A} (P : A -> Prop) l j x : Forall P l -> nth_error l j = Some x -> P x.
Proof. intros H E. rewrite Forall_forall in H. apply H. apply (nth_error_In _ _ E). Qed.
(** From the next batch on, more than a minute after the start of this one. *)
Lemma batches_far r b t l : batches r b t l -> 0 <= r <= 11 -> forall j u, nth_error l j = Some u -> 11 <= r + Z.of_nat j -> b + 60 * second_ns < u.
Proof.
  induction 1 as [r b t|r b t u0 l Hr Ht H IH|r b t b' u0 l Hr Ht Hb Hu H IH]; intros R j u E J.
  - destruct j; discriminate.
  - destruct j as [|j]; [lia|]. cbn [nth_error] in E. apply (IH ltac:(lia) j u E). lia.
  - destruct j as [|j]; [injection E as <-; lia|]. cbn [nth_error] in E. pose proof (nth_forall _ _ _ _ (batches_le _ _ _ _ H) E). cbv beta in *. lia.
Qed.
(** From the batch after the next on, more than a minute after now. *)
Lemma batches_two r b t l : batches r b t l -> 0 <= r <= 11 -> forall j u, nth_error l j = Some u -> 22 <= r + Z.of_nat j -> t + 60 * second_ns < u.
Proof.
  induction 1 as [r b t|r b t u0 l Hr Ht H IH|r b t b' u0 l Hr Ht Hb Hu H IH]; intros R j u E J.
  - destruct j; discriminate.
  - destruct j as [|j]; [lia|]. cbn [nth_error] in E. pose proof (IH ltac:(lia) j u E ltac:(lia)). lia.
  - destruct j as [|j]; [lia|]. cbn [nth_error] in E. pose proof (batches_far _ _ _ _ H ltac:(lia) j u E ltac:(lia)). lia.
Qed.
Lemma batches_step r b t l : batches r b t l -> 0 <= r <= 11 -> forall i d u v, (22 <= d)%nat -> nth_error l i = Some u -> nth_error l (i + d) = Some v -> u + 60 * second_ns < v.
Proof.
  assert (G : forall r b u l, batches r b u l -> 1 <= r <= 11 -> forall d v, (22 <= d)%nat -> nth_error (u :: l) d = Some v -> u + 60 * second_ns < v).
  { intros r0 b0 u l0 H R d v D E. destruct d as [|d]; [lia|]. cbn [nth_error] in E. apply (batches_two _ _ _ _ H ltac:(lia) _ _ E). lia. }
  induction 1 as [r b t|r b t u0 l Hr Ht H IH|r b t b' u0 l Hr Ht Hb Hu H IH]; intros R i d u v D E E'.
  - destruct i; discriminate.
  - destruct i as [|i]; [|cbn [nth_error Nat.add] in E, E'; apply (IH ltac:(lia) i d u v D E E')].
    injection E as <-. apply (G _ _ _ _ H ltac:(lia) d v D E').
  - destruct i as [|i]; [|cbn [nth_error Nat.add] in E, E'; apply (IH ltac:(lia) i d u v D E E')].
    injection E as <-. apply (G _ _ _ _ H ltac:(lia) d v D E').
Qed.
Lemma batches_sorted r b t l : batches r b t l -> forall i j u v, (i <= j)%nat -> nth_error l i = Some u -> nth_error l j = Some v -> u <= v.
Proof.
  assert (G : forall r b t u l, Forall (fun x => u <= x) l -> (forall i j x y, (i <= j)%nat -> nth_error l i = Some x -> nth_error l j = Some y -> x <= y) ->
    batches r b t l -> forall i j x y, (i <= j)%nat -> nth_error (u :: l) i = Some x -> nth_error (u :: l) j = Some y -> x <= y).
  { intros r0 b0 t0 u l0 Fo IH _ i j x y L E E'. destruct i as [|i]; [injection E as <-|].
    - destruct j as [|j]; [injection E' as <-; lia|]. cbn [nth_error] in E'. apply (nth_forall _ _ _ _ Fo E').
    - destruct j as [|j]; [lia|]. cbn [nth_error] in E, E'. apply (IH i j x y); [lia|assumption|assumption]. }
  induction 1 as [r b t|r b t u0 l Hr Ht H IH|r b t b' u0 l Hr Ht Hb Hu H IH]; intros i j u v L E E'.
  - destruct i; discriminate.
  - exact (G _ _ _ _ _ (batches_le _ _ _ _ H) IH H i j u v L E E').
  - exact (G _ _ _ _ _ (batches_le _ _ _ _ H) IH H i j u v L E E').
Qed.
(** In a list in order in which entries 22 places apart differ by more than [w], a window of width [w] holds at most 22. *)
Lemma window_count w a : forall l, (forall i j u v, (i <= j)%nat -> nth_error l i = Some u -> nth_error l j = Some v -> u <= v) ->
  (forall i u v, nth_error l i = Some u -> nth_error l (i + 22) = Some v -> u + w < v) ->
  (List.length (filter (fun t => (a <=? t)%Z && (t <=? a + w)%Z) l) <= 22)%nat.
Proof.
  induction l as [|t l IH]; intros S D; [cbn; lia|].
  assert (S' : forall i j u v, (i <= j)%nat -> nth_error l i = Some u -> nth_error l j = Some v -> u <= v).
  { intros i j u v L E E'. apply (S (Datatypes.S i) (Datatypes.S j) u v); [lia|exact E|exact E']. }
  cbn [filter]. destruct ((a <=? t)%Z && (t <=? a + w)%Z) eqn:B.
  2: { apply IH; [exact S'|]. intros i u v E E'. apply (D (Datatypes.S i) u v E E'). }
  cbn [List.length]. clear IH.
  assert (P : forall k m, (forall i u v, (i <= m)%nat -> nth_error k i = Some u -> nth_error k m = Some v -> u <= v) ->
    (forall j v, (m <= j)%nat -> nth_error k j = Some v -> a + w < v) -> (List.length (filter (fun t => (a <=? t)%Z && (t <=? a + w)%Z) k) <= m)%nat).
  { induction k as [|x k IH]; intros m K H; [cbn; lia|]. cbn [filter]. destruct m as [|m].
    - assert (X : a + w < x) by (apply (H O x); [lia|reflexivity]). replace ((a <=? x) && (x <=? a + w))%Z with false by lia.
      apply IH.
      + intros i u v Hi E E'. assert (i = O) by lia. subst i. rewrite E in E'. injection E' as <-. lia.
      + intros j v _ E. apply (H (Datatypes.S j) v); [lia|exact E].
    - assert (Q : (List.length (filter (fun t => (a <=? t)%Z && (t <=? a + w)%Z) k) <= m)%nat).
      { apply IH; [intros i u v Hi E E'; apply (K (Datatypes.S i) u v); [lia|exact E|exact E']|]. intros j v Hj E. apply (H (Datatypes.S j) v); [lia|exact E]. }
      destruct ((a <=? x)%Z && (x <=? a + w)%Z); cbn [List.length]; lia. }
  apply le_n_S. apply P.
  - intros i u v Hi E E'. apply (S' i 21%nat u v); [lia|exact E|exact E'].
  - intros j v Hj E. assert (L : (21 < List.length l)%nat) by (assert (j < List.length l)%nat by (apply nth_error_Some; congruence); lia).
    destruct (nth_error l 21) as [z|] eqn:Z21; [|apply nth_error_None in Z21; lia].
    pose proof (D O t z eq_refl Z21). pose proof (S' 21%nat j z v Hj Z21 E). lia.
Qed.

(** ** The theorems *)
(** Called as its usage text says, the script ends, with status 0. *)
Theorem C72_ends : forall delays waits fuel id secret from to start, forward delays -> given id -> given secret ->
  (62 <= waits)%nat -> (Z.to_nat (to - from + 1) < fuel)%nat ->
  exists l, script delays waits fuel id secret (Some from) (Some to) start = Some (l, 0).
Proof.
  intros delays waits fuel id secret from to start F Hi Hs Hw Hf. unfold script.
  rewrite (given_test id secret Hi Hs).
  enough (G : forall fuel year last req n, (Z.to_nat (to - year + 1) < fuel)%nat -> last <= date_s n ->
    exists l, year_loop delays waits fuel id secret to year last req n = Some l).
  { destruct (G fuel from (date_s (tick delays (mkNow 0 start))) 0 (tick delays (mkNow 0 start)) Hf ltac:(lia)) as (l & E). rewrite E. exists l. reflexivity. }
  clear fuel Hf from. intros fuel. induction fuel as [|f IH]; intros year last req n Hf Hl; [lia|]. cbn [year_loop].
  destruct (Z.leb_spec year to) as [Y|Y]; [|eauto]. unfold pause.
  assert (M : forall m, date_s m <= date_s (tick delays m)).
  { intros m. unfold date_s, second_ns. cbn [tick at_ns]. pose proof (F (steps m)). apply Z.div_le_mono; lia. }
  destruct (Z.ltb_spec 10 req) as [R|R].
  - destruct (wait_ends delays year last F waits n) as (l0 & n0 & W); [lia|lia|]. rewrite W.
    destruct (IH (year + 1) (date_s (tick delays n0)) (0 + 1) (tick delays (tick delays n0))) as (l & ->); [lia|apply M|]. eauto.
  - destruct (IH (year + 1) last (req + 1) (tick delays n)) as (l & ->); [lia|pose proof (M n); lia|]. eauto.
Qed.

(** It asks for each year from the first to the last, once and in order. *)
Theorem C72_years : forall delays waits fuel id secret from to start l s, forward delays -> given id -> given secret ->
  script delays waits fuel id secret (Some from) (Some to) start = Some (l, s) ->
  s = 0 /\ map fst (asked l) = years from (Z.to_nat (to - from + 1)).
Proof.
  intros delays waits fuel id secret from to start l s F Hi Hs. unfold script.
  rewrite (given_test id secret Hi Hs).
  destruct (year_loop _ _ _ _ _ _ _ _ _ _) as [l0|] eqn:E; [|discriminate]. intros Q. injection Q as <- <-. split; [reflexivity|].
  refine (proj1 (loop_spec _ _ _ _ _ F _ _ _ _ _ _ (at_ns (tick delays (mkNow 0 start))) E ltac:(lia) eq_refl (Z.le_refl _))).
Qed.

(** In no minute it makes more than 22 requests. *)
Theorem C72_rate : forall delays waits fuel id secret from to start l s a, forward delays ->
  script delays waits fuel id secret from to start = Some (l, s) ->
  (List.length (filter (fun t => (a <=? t)%Z && (t <=? a + 60 * 10 ^ 9)%Z) (map snd (asked l))) <= 22)%nat.
Proof.
  intros delays waits fuel id secret from to start l s a F. unfold script.
  assert (U : Some ([Print usage], 1) = Some (l, s) -> (List.length (filter (fun t => (a <=? t)%Z && (t <=? a + 60 * 10 ^ 9)%Z) (map snd (asked l))) <= 22)%nat)
    by (intros E; injection E as <- <-; cbn; lia).
  destruct from as [from|]; [|exact U]. destruct to as [to|]; [|exact U]. destruct ((id =? "") || (secret =? "")); [exact U|]. clear U.
  destruct (year_loop _ _ _ _ _ _ _ _ _ _) as [l0|] eqn:E; [|discriminate]. intros Q. injection Q as <- <-.
  destruct (loop_spec _ _ _ _ _ F _ _ _ _ _ _ (at_ns (tick delays (mkNow 0 start))) E ltac:(lia) eq_refl (Z.le_refl _)) as [_ B].
  apply window_count.
  - apply (batches_sorted _ _ _ _ B).
  - intros i u v Hu Hv. exact (batches_step _ _ _ _ B ltac:(lia) i 22%nat u v (le_n _) Hu Hv).
Qed.

(** The comment in the script, "Stay under 10 requests per minute", is not true: it makes eleven at once if the answers are quick. *)
Theorem C72_ten_a_minute_refuted : exists delays from to l, forward delays /\
  script delays 100 100 "id" "secret" (Some from) (Some to) 0 = Some (l, 0) /\
  List.length (filter (fun t => (0 <=? t)%Z && (t <=? 10 ^ 9)%Z) (map snd (asked l))) = 11%nat.
Proof.
  exists (fun _ => 0), 2000, 2010.
  destruct (script (fun _ => 0) 100 100 "id" "secret" (Some 2000) (Some 2010) 0) as [[l s]|] eqn:E; [|vm_compute in E; discriminate].
  exists l. split; [intros i; lia|]. vm_compute in E. injection E as <- <-. split; reflexivity.
Qed.
(** The bound of 22 is reached within seven seconds: the first answer takes 54 seconds. *)
Definition slow_start (i : nat) : Z := match i with 1%nat => 54 * 10 ^ 9 | _ => 0 end.
Example C72_rate_example : exists l, forward slow_start /\
  script slow_start 62 31 "id" "secret" (Some 1990) (Some 2019) 0 = Some (l, 0) /\
  List.length (filter (fun t => (54 * 10 ^ 9 <=? t)%Z && (t <=? 61 * 10 ^ 9)%Z) (map snd (asked l))) = 22%nat /\
  nth_error (asked l) 22 = Some (2012, 122 * 10 ^ 9).
Proof.
  destruct (script slow_start 62 31 "id" "secret" (Some 1990) (Some 2019) 0) as [[l s]|] eqn:E; [|vm_compute in E; discriminate].
  exists l. split; [intros [|[|i]]; cbn [slow_start]; lia|]. vm_compute in E. injection E as <- <-. repeat split.
Qed.
(** Nor does it keep to the 750 requests a day: 800 years take less than 74 minutes. *)
Theorem C72_daily_limit_refuted : exists delays l, forward delays /\
  script delays 100 1000 "id" "secret" (Some 1500) (Some 2299) 0 = Some (l, 0) /\
  List.length (filter (fun t => (0 <=? t)%Z && (t <=? 74 * 60 * 10 ^ 9)%Z) (map snd (asked l))) = Z.to_nat 800.
Proof.
  exists (fun _ => 0).
  assert (C : match script (fun _ => 0) 100 1000 "id" "secret" (Some 1500) (Some 2299) 0 with
    Some (l, s) => (s =? 0)%Z && Nat.eqb (List.length (filter (fun t => (0 <=? t)%Z && (t <=? 74 * 60 * 10 ^ 9)%Z) (map snd (asked l)))) (Z.to_nat 800) | None => false end = true) by (vm_compute; reflexivity).
  destruct (script _ _ _ _ _ _ _ _) as [[l s]|]; [|discriminate]. exists l. apply andb_true_iff in C. destruct C as [C1 C2].
  apply Z.eqb_eq in C1. apply Nat.eqb_eq in C2. subst s. split; [intros i; lia|]. split; [reflexivity|exact C2].
Qed.

(** ** The files *)
Lemma stored_app reply a b d : stored reply (a ++ b) d = stored reply b (stored reply a d).
Proof. apply fold_left_app. Qed.
Lemma wait_prints delays year last reply : forall fuel n l n', wait_loop delays fuel year last n = Some (l, n') -> forall d, stored reply l d = d.
Proof.
  induction fuel as [|f IH]; intros n l n'; cbn [wait_loop]; [discriminate|]. destruct (_ <? _)%Z.
  - destruct (wait_loop _ _ _ _ _) as [[l0 n0]|] eqn:W; [|discriminate]. intros E d. injection E as <- <-. apply (IH _ _ _ W).
  - intros E d. injection E as <- <-. reflexivity.
Qed.
Lemma output_file_inj y z : output_file y = output_file z -> y = z.
Proof.
  unfold output_file. cbn [append]. intros E. injection E as E. refine (proj1 (fmt_d_split y z ".json" ".json" _ _ E)); reflexivity.
Qed.
(** After the script the directory has the answer for each year in the file of that year and is else as before. *)
Theorem C72_files : forall delays waits fuel id secret from to start l s reply d, given id -> given secret ->
  script delays waits fuel id secret (Some from) (Some to) start = Some (l, s) ->
  (forall y, from <= y <= to -> stored reply l d ("astro-" ++ numeral y ++ ".json") = Some (reply (address id secret y))) /\
  (forall name, (forall y, from <= y <= to -> name <> "astro-" ++ numeral y ++ ".json") -> stored reply l d name = d name).
Proof.
  intros delays waits fuel id secret from to start l s reply d Hi Hs. unfold script.
  rewrite (given_test id secret Hi Hs).
  destruct (year_loop _ _ _ _ _ _ _ _ _ _) as [l0|] eqn:E; [|discriminate]. intros Q. injection Q as <- <-.
  change (forall y, from <= y <= to -> stored reply l0 d ("astro-" ++ numeral y ++ ".json") = Some (reply (address id secret y)))
    with (forall y, from <= y <= to -> stored reply l0 d (output_file y) = Some (reply (address id secret y))).
  change (forall name, (forall y, from <= y <= to -> name <> "astro-" ++ numeral y ++ ".json") -> stored reply l0 d name = d name)
    with (forall name, (forall y, from <= y <= to -> name <> output_file y) -> stored reply l0 d name = d name).
  revert E d. generalize (date_s (tick delays (mkNow 0 start))) as last. generalize 0 as req. generalize (tick delays (mkNow 0 start)) as n. revert from l0.
  induction fuel as [|f IH]; intros from l0 n req last; cbn [year_loop]; [discriminate|].
  destruct (Z.leb_spec from to) as [Y|Y]; [|intros E; injection E as <-; split; [intros y Hy; lia|reflexivity]].
  destruct (pause _ _ _ _ _ _) as [[[[l1 last'] req'] n']|] eqn:P; [|discriminate].
  assert (K : forall d, stored reply l1 d = d).
  { unfold pause in P. destruct (10 <? req)%Z; [|injection P as <- _ _ _; reflexivity].
    destruct (wait_loop _ _ _ _ _) as [[l2 n2]|] eqn:W; [|discriminate]. injection P as <- _ _ _. apply (wait_prints _ _ _ _ _ _ _ _ W). }
  destruct (year_loop _ _ _ _ _ _ _ _ _ _) as [rest|] eqn:L; [|discriminate]. intros E d. injection E as <-.
  change (stored reply (Print (fmt_d from ++ " ... ") :: ?x) d) with (stored reply x d). rewrite stored_app, K.
  change (stored reply (Request ?a ?b ?c ?t :: Print ?u :: rest) d) with (stored reply rest (store reply d (Request a b c t))).
  destruct (IH _ _ _ _ _ L (store reply d (Request from (address id secret from) (output_file from) (at_ns (tick delays n'))))) as [I1 I2]. split.
  - intros y Hy. destruct (Z.eq_dec y from) as [->|N]; [|apply I1; lia].
    rewrite I2; [cbn [store]; rewrite String.eqb_refl; reflexivity|]. intros z Hz F. apply output_file_inj in F. lia.
  - intros name Hn. rewrite I2; [|intros z Hz; apply Hn; lia]. cbn [store].
    destruct (String.eqb_spec name (output_file from)) as [F|F]; [elim (Hn from ltac:(lia) F)|reflexivity].
Qed.
(** These are the files that the library looks for. *)
Theorem C72_names : forall y, clean (file_name y) = "/data/astro/" ++ output_file y.
Proof. intros y. rewrite C46_name. reflexivity. Qed.
Example C72_files_example : exists l, script (fun i => Z.of_nat i * 10 ^ 9) 62 3 "me" "s3" (Some 2032) (Some 2033) 5 = Some (l, 0) /\
  asked l = [(2032, 1000000005); (2033, 3000000005)] /\
  stored (fun url => url) l (fun _ => None) "astro-2033.json" =
    Some "http://api.aerisapi.com/sunmoon/moonphases/london,uk?from=2033/01/01&to=2033/12/31&limit=250&client_id=me&client_secret=s3" /\
  stored (fun url => url) l (fun _ => None) "astro-2034.json" = None.
Proof.
  destruct (script (fun i => Z.of_nat i * 10 ^ 9) 62 3 "me" "s3" (Some 2032) (Some 2033) 5) as [[l s]|] eqn:E; [|vm_compute in E; discriminate].
  exists l. vm_compute in E. injection E as <- <-. vm_compute. auto.
Qed.

(** If a year or a part of the credentials is missing it says how it is used, fails and changes nothing. *)
Theorem C72_refuses : forall delays waits fuel id secret from to start, from = None \/ to = None \/ id = "" \/ secret = "" ->
  script delays waits fuel id secret from to start =
    Some ([Print ("Usage: CLIENT_ID=appid CLIENT_SECRET=secretkey ./get-astromoons.sh FROM_YEAR TO_YEAR" ++ String (ascii_of_nat 10) "")], 1).
Proof.
  intros delays waits fuel id secret from to start H. unfold script.
  destruct from; [|reflexivity]. destruct to; [|reflexivity].
  replace ((id =? "") || (secret =? "")) with true; [reflexivity|]. destruct H as [H|[H|[->| ->]]]; try discriminate; [reflexivity|rewrite orb_true_r; reflexivity].
Qed.

(** ** The terminal: each year, a count of the seconds left while it waits, which is never negative and never more than 60, and OK *)
Theorem C72_terminal : forall delays waits fuel id secret from to start l text, forward delays ->
  script delays waits fuel id secret (Some from) (Some to) start = Some (l, 0) -> In (Print text) l ->
  text = "OK" ++ String (ascii_of_nat 10) "" \/
  exists y, from <= y <= to /\ (text = numeral y ++ " ... " \/
    exists k, 0 <= k <= 60 /\ text = String (ascii_of_nat 13) (numeral y ++ " ... wait: " ++ numeral k ++ " ")).
Proof.
  intros delays waits fuel id secret from to start l text F. unfold script. destruct ((id =? "") || (secret =? "")); [discriminate|].
  destruct (year_loop _ _ _ _ _ _ _ _ _ _) as [l0|] eqn:E; [|discriminate]. intros Q. injection Q as <-. revert E.
  generalize (Z.le_refl (date_s (tick delays (mkNow 0 start)))). generalize (date_s (tick delays (mkNow 0 start))) at 1 3 as last. generalize 0 at 1 as req.
  generalize (tick delays (mkNow 0 start)) as n. revert from l0.
  assert (M : forall m, date_s m <= date_s (tick delays m)).
  { intros m. unfold date_s, second_ns. cbn [tick at_ns]. pose proof (F (steps m)). apply Z.div_le_mono; lia. }
  induction fuel as [|f IH]; intros from l0 n req last Hl; cbn [year_loop]; [discriminate|].
  destruct (Z.leb_spec from to) as [Y|Y]; [|intros E; injection E as <-; intros []].
  destruct (pause _ _ _ _ _ _) as [[[[l1 last'] req'] n']|] eqn:P; [|discriminate].
  assert (K : last' <= date_s n' /\ (In (Print text) l1 -> exists k, 0 <= k <= 60 /\ text = String (ascii_of_nat 13) (numeral from ++ " ... wait: " ++ numeral k ++ " "))).
  { unfold pause in P. destruct (10 <? req)%Z; [|injection P as <- <- _ <-; split; [exact Hl|intros []]].
    destruct (wait_loop _ _ _ _ _) as [[l2 n2]|] eqn:W; [|discriminate]. injection P as <- <- _ <-. split; [lia|].
    clear IH Y req req'. revert n l2 n2 Hl W. induction waits as [|w IHw]; intros n l2 n2 Hl; cbn [wait_loop]; [discriminate|].
    pose proof (M n) as Mn. destruct (Z.ltb_spec (date_s (tick delays n) - last) 61) as [L|L]; [|intros E; injection E as <- _; intros []].
    destruct (wait_loop _ _ _ _ _) as [[l3 n3]|] eqn:W; [|discriminate]. intros E. injection E as <- _. intros [T|T].
    - injection T as <-. exists (60 - (date_s (tick delays n) - last)). split; [lia|reflexivity].
    - refine (IHw _ _ _ _ W T). unfold date_s, second_ns in *. cbn [at_ns]. etransitivity; [exact Hl|]. etransitivity; [exact Mn|]. apply Z.div_le_mono; lia. }
  destruct K as [K1 K2]. destruct (year_loop _ _ _ _ _ _ _ _ _ _) as [rest|] eqn:L; [|discriminate]. intros E. injection E as <-.
  intros [T|T]; [injection T as <-; right; exists from; split; [lia|left; reflexivity]|].
  apply in_app_or in T. destruct T as [T|[T|[T|T]]].
  - right. exists from. split; [lia|]. right. exact (K2 T).
  - discriminate.
  - injection T as <-. left. reflexivity.
  - assert (N : last' <= date_s (tick delays n')) by (pose proof (M n'); lia).
    destruct (IH _ _ _ _ _ N L T) as [R|(y & Hy & R)]; [left; exact R|right; exists y; split; [lia|exact R]].
Qed.
Example C72_terminal_example : exists l, script slow_start 62 13 "id" "secret" (Some 1990) (Some 2001) 0 = Some (l, 0) /\
  nth_error l 34 = Some (Print (String (ascii_of_nat 13) "2001 ... wait: 6 ")) /\ nth_error l 40 = Some (Print (String (ascii_of_nat 13) "2001 ... wait: 0 ")) /\
  List.length l = 43%nat.
Proof.
  destruct (script slow_start 62 13 "id" "secret" (Some 1990) (Some 2001) 0) as [[l s]|] eqn:E; [|vm_compute in E; discriminate].
  exists l. vm_compute in E. injection E as <- <-. vm_compute. auto.
Qed.

(** ** The address *)
(** A query is read by its fields, which "&" separates. *)
Fixpoint cut (c : ascii) (s : string) : list string :=
  match s with
  | "" => [""]
  | String x s' => if Ascii.eqb x c then "" :: cut c s' else match cut c s' with w :: l => String x w :: l | [] => [] end
  end.
Definition without (c : ascii) (s : string) : Prop := all_chars (fun x => negb (Ascii.eqb x c)) s = true.
Lemma cut_without c s : without c s -> cut c s = [s].
Proof.
  unfold without. induction s as [|x s IH]; cbn [all_chars cut]; [reflexivity|]. destruct (Ascii.eqb x c); [discriminate|]. cbn [negb andb]. intros H.
  rewrite (IH H). reflexivity.
Qed.
Lemma cut_app c a b : without c a -> cut c (a ++ String c b) = a :: cut c b.
Proof.
  unfold without. induction a as [|x a IH]; cbn [all_chars cut append]; [rewrite Ascii.eqb_refl; reflexivity|].
  destruct (Ascii.eqb x c); [discriminate|]. cbn [negb andb]. intros H. rewrite (IH H). reflexivity.
Qed.
Lemma without_app c a b : without c a -> without c b -> without c (a ++ b).
Proof. unfold without. induction a as [|x a IH]; cbn [all_chars append]; [auto|]. intros H K. apply andb_prop in H. rewrite (proj1 H), (IH (proj2 H) K). reflexivity. Qed.
Lemma number_without z : without "&" (fmt_d z).
Proof.
  unfold without. apply (all_chars_impl num_char); [|apply fmt_d_chars]. intros c. destruct (Ascii.eqb_spec c "&") as [->|_]; [intros H; vm_compute in H; discriminate|reflexivity].
Qed.
(** Credentials without "&" arrive as they are, with the year, its first and its last day. *)
Theorem C72_address : forall id secret y, without "&" id -> without "&" secret ->
  cut "&" (address id secret y) =
    ["http://api.aerisapi.com/sunmoon/moonphases/london,uk?from=" ++ numeral y ++ "/01/01"; "to=" ++ numeral y ++ "/12/31"; "limit=250";
     "client_id=" ++ id; "client_secret=" ++ secret].
Proof.
  intros id secret y Hi Hs. unfold address.
  pose proof (number_without y) as N. change (fmt_d 250) with "250". change (numeral y) with (fmt_d y). set (m := fmt_d y) in *. clearbody m.
  assert (A : "http://api.aerisapi.com/sunmoon/moonphases/london,uk?from=" ++ m ++ "/01/01&to=" ++ m ++ "/12/31&limit=" ++ "250" ++ "&client_id=" ++ id ++ "&client_secret=" ++ secret
    = ("http://api.aerisapi.com/sunmoon/moonphases/london,uk?from=" ++ m ++ "/01/01") ++ String "&" (("to=" ++ m ++ "/12/31") ++ String "&" ("limit=250" ++ String "&" (("client_id=" ++ id) ++ String "&" ("client_secret=" ++ secret))))).
  { rewrite !app_assoc'. reflexivity. }
  rewrite A. clear A.
  rewrite cut_app by (repeat apply without_app; [reflexivity|exact N|reflexivity]).
  rewrite cut_app by (repeat apply without_app; [reflexivity|exact N|reflexivity]).
  rewrite cut_app by reflexivity.
  rewrite cut_app by (apply without_app; [reflexivity|exact Hi]).
  rewrite cut_without by (apply without_app; [reflexivity|exact Hs]). reflexivity.
Qed.
(** They are not escaped, so others do not. *)
Theorem C72_escaped_refuted : cut "&" (address "me" "a&limit=1" 2016) =
  ["http://api.aerisapi.com/sunmoon/moonphases/london,uk?from=2016/01/01"; "to=2016/12/31"; "limit=250"; "client_id=me"; "client_secret=a"; "limit=1"].
Proof. reflexivity. Qed.

(** ** What came back *)
(** The day of a record as its date is written in the file. *)
Definition written_day (r : record) : Z := (rec_iso r + rec_offset r) / 86400.
(** No file has more than 50 moons, so the limit of 250 in the address lost none; the comment expects about 208. *)
Theorem C72_limit : forall y f, In (y, f) astro_files -> (List.length (file_records f) <= 50)%nat.
Proof.
  assert (C : forallb (fun p => Nat.leb (List.length (file_records (snd p))) 50) astro_files = true) by (vm_cast_no_check (eq_refl true)).
  intros y f H. rewrite forallb_forall in C. apply Nat.leb_le. exact (C _ H).
Qed.
(** The day asked for as the last, 31 December, is not among the answers: in 131 years of data no moon is on it,
    while every other day of the year has one. *)
Definition dates : list (Z * Z) :=
  flat_map (fun p => map (fun r => (month_of_day (written_day r), mday_of_day (written_day r))) (file_records (snd p))) astro_files.
Definition has_date (p : Z * Z) : bool := existsb (fun q => (fst p =? fst q)%Z && (snd p =? snd q)%Z) dates.
Definition month_days (m : Z) : Z := if (m =? 2)%Z then 29 else if existsb (Z.eqb m) [4; 6; 9; 11] then 30 else 31.
Lemma dates_check : forallb (fun m => forallb (fun d => Bool.eqb (has_date (m, d)) (negb ((m =? 12)%Z && (d =? 31)%Z))) (years 1 (Z.to_nat (month_days m)))) (years 1 12) = true.
Proof. vm_cast_no_check (eq_refl true). Qed.
Theorem C72_last_day_lost : forall m d, 1 <= m <= 12 -> 1 <= d <= month_days m ->
  ((m, d) <> (12, 31) <-> exists y f r, In (y, f) astro_files /\ In r (file_records f) /\ month_of_day (written_day r) = m /\ mday_of_day (written_day r) = d).
Proof.
  intros m d Hm Hd. assert (Y : forall n a z, a <= z < a + Z.of_nat n -> In z (years a n)).
  { induction n as [|n IH]; intros a z H; [lia|]. cbn [years]. destruct (Z.eq_dec z a) as [->|]; [left; reflexivity|right; apply IH; lia]. }
  pose proof dates_check as C. rewrite forallb_forall in C. specialize (C m (Y 12%nat 1 m ltac:(lia))). rewrite forallb_forall in C.
  specialize (C d (Y (Z.to_nat (month_days m)) 1 d ltac:(lia))). apply Bool.eqb_prop in C. clear Y.
  assert (D : has_date (m, d) = true <-> exists y f r, In (y, f) astro_files /\ In r (file_records f) /\ month_of_day (written_day r) = m /\ mday_of_day (written_day r) = d).
  { clear C. unfold has_date, dates. generalize astro_files. intros files. rewrite existsb_exists. split.
    - intros (q & Hq & E). apply in_flat_map in Hq. destruct Hq as ([y f] & Hf & Hq). apply in_map_iff in Hq. destruct Hq as (r & <- & Hr). cbn [fst snd] in *.
      exists y, f, r. rewrite andb_true_iff, !Z.eqb_eq in E. destruct E as [E1 E2]. repeat split; [exact Hf|exact Hr|symmetry; exact E1|symmetry; exact E2].
    - intros (y & f & r & Hf & Hr & Em & Ed). exists (m, d). split; [|cbn [fst snd]; rewrite !Z.eqb_refl; reflexivity].
      apply in_flat_map. exists (y, f). split; [exact Hf|]. apply in_map_iff. exists r. split; [rewrite Em, Ed; reflexivity|exact Hr]. }
  rewrite <- D, C. destruct (Z.eqb_spec m 12) as [->|N1]; cbn [andb negb].
  - destruct (Z.eqb_spec d 31) as [->|N2]; cbn [negb]; split; intros H; congruence.
  - split; intros H; [reflexivity|]. congruence.
Qed.
(** December 2009: the full moon of the 31st is missing between the first quarter of the 24th and the last quarter of 7 January. *)
Example C72_last_day_example :
  map (fun r => (rec_code r, written_day r - day_number 2009 12 1 + 1)) (filter (fun r => (day_number 2009 12 1 <=? written_day r)%Z) (file_records file_2009))
    = [(2, 2); (3, 9); (0, 16); (1, 24)] /\
  map (fun r => (rec_code r, written_day r - day_number 2010 1 1 + 1)) (filter (fun r => (written_day r <? day_number 2010 1 9)%Z) (file_records file_2010))
    = [(3, 7)] /\
  cut "&" (address "me" "s3" 2009) = ["http://api.aerisapi.com/sunmoon/moonphases/london,uk?from=2009/01/01"; "to=2009/12/31"; "limit=250"; "client_id=me"; "client_secret=s3"].
Proof. vm_compute. auto. Qed.
