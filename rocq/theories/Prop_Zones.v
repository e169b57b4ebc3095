(** C74: days and half moons in a zone with daylight saving. *)
From Coq Require Import ZArith List Bool String Lia.
From Verif Require Import GoTime P_Time UposathaMoon CalDay Zones.
Import ListNotations.
Open Scope Z_scope.

(** ** Vocabulary *)

(** One of the two ways Go has had of finding a wall clock time. *)
Definition go_rule (rule : location -> Z -> Z) : Prop := rule = date_sec \/ rule = date_sec_old.

(** The offsets of the location stay within a day of one another (this leaves out the few
    zones that have changed sides of the date line). *)
Definition narrow (loc : location) : Prop := forall s u, z_off (loc s) - z_off (loc u) < 86400.

(** The periods the location reports are those in which it reports them. *)
Definition proper (loc : location) : Prop := forall s u,
  (before_zone (loc s) u = false /\ after_zone (loc s) u = false) <-> loc u = loc s.

(** The offsets are at most 100000 seconds (more than 27 hours), and within as much of [w]
    the clocks change at most once, at [c]. *)
Definition one_change (loc : location) (w c : Z) (before after : zone) : Prop :=
  (forall s, Z.abs (z_off (loc s)) <= 100000) /\
  forall s, w - 100000 <= s <= w + 100000 -> loc s = if s <? c then before else after.

Definition in_location (loc : location) (t : time) : Prop := t = time_in loc (t_ns t).

(** The same year, month and day. *)
Definition same_date (a b : time) : Prop :=
  time_year a = time_year b /\ time_month a = time_month b /\ time_mday a = time_mday b.
Definition same_dateb (a b : time) : bool :=
  (time_year a =? time_year b) && (time_month a =? time_month b) && (time_mday a =? time_mday b).

(** The events that are the first on their date, given the events [seen] before. *)
Fixpoint firsts (seen evs : list CalendarEvent) : list CalendarEvent :=
  match evs with
  | [] => []
  | e :: rest =>
      (if existsb (fun x => same_dateb (ev_date x) (ev_date e)) seen then [] else [e]) ++ firsts (e :: seen) rest
  end.
(** A day with all the events that are on the date of [e]. *)
Definition whole_day (evs : list CalendarEvent) (e : CalendarEvent) : CalDay :=
  fold_left (fun d x => add_to_day x d) (filter (fun x => same_dateb (ev_date x) (ev_date e)) evs) zero_calday.

(** The local time [day_ns]-wise: what the calendar and the clock show, as one number. *)
Definition shown (t : time) : Z := local_day t * day_ns + clock_ns t.

(** ** Lemmas *)

Lemma same_date_day a b : same_date a b <-> local_day a = local_day b.
Proof.
  unfold same_date, time_year, time_month, time_mday. split.
  - intros (Y & M & D). rewrite <- (day_number_civil (local_day a)), <- (day_number_civil (local_day b)). congruence.
  - intros ->. auto.
Qed.
Lemma same_dateb_iff a b : same_dateb a b = true <-> same_date a b.
Proof. unfold same_dateb, same_date. rewrite !andb_true_iff, !Z.eqb_eq. tauto. Qed.
Lemma same_dateb_day a b : same_dateb a b = (local_day a =? local_day b).
Proof.
  destruct (same_dateb a b) eqn:E; symmetry.
  - apply Z.eqb_eq, same_date_day, same_dateb_iff, E.
  - apply Z.eqb_neq. intros H. apply same_date_day, same_dateb_iff in H. congruence.
Qed.
Lemma shown_local t : shown t = local_ns t.
Proof. unfold shown. rewrite <- local_ns_split. reflexivity. Qed.

Lemma rule_offset rule loc w : go_rule rule -> exists u, rule loc w = w - z_off (loc u).
Proof.
  intros [-> | ->]; unfold date_sec, date_sec_old; cbv zeta.
  - destruct (z_off (loc w) =? 0) eqn:E; [exists w; lia|].
    destruct (before_zone _ _ || _); eexists; reflexivity.
  - destruct (z_off (loc w) =? 0) eqn:E; [exists w; lia|].
    destruct (before_zone _ _); [destruct (z_start _); eexists; reflexivity|].
    destruct (after_zone _ _); [destruct (z_end _); eexists; reflexivity|]. eexists; reflexivity.
Qed.

Lemma start_ns rule loc t : t_ns (day_start_in rule loc t) = rule loc (local_day t * 86400) * second_ns.
Proof.
  unfold day_start_in, date_in, time_in. cbn [t_ns]. unfold time_year, time_month, time_mday.
  rewrite day_number_civil. change (0 / second_ns) with 0. change (0 mod second_ns) with 0.
  rewrite !Z.add_0_r. reflexivity.
Qed.

Lemma start_equal rule loc a b : go_rule rule -> narrow loc ->
  time_equal (day_start_in rule loc a) (day_start_in rule loc b) = same_dateb a b.
Proof.
  intros R N. unfold time_equal. rewrite !start_ns, same_dateb_day.
  destruct (rule_offset rule loc (local_day a * 86400) R) as [u U].
  destruct (rule_offset rule loc (local_day b * 86400) R) as [v V].
  pose proof (N u v). pose proof (N v u).
  destruct (local_day a =? local_day b) eqn:E.
  - apply Z.eqb_eq in E. rewrite E. apply Z.eqb_refl.
  - apply Z.eqb_neq in E. apply Z.eqb_neq. rewrite U, V. unfold second_ns. lia.
Qed.

(** ** Finding a day *)

(** findCalDay finds the first day of the list with the year, month and day asked for, and
    nothing if there is none. *)
Theorem C74_find : forall rule loc l date, go_rule rule -> narrow loc ->
  match find_cal_day_in rule loc l date with
  | Some k => exists a d b, l = a ++ d :: b /\ List.length a = k /\ same_date (cd_Date d) date /\
                Forall (fun x => ~ same_date (cd_Date x) date) a
  | None => Forall (fun x => ~ same_date (cd_Date x) date) l
  end.
Proof.
  intros rule loc l date R N. induction l as [|d l IH]; cbn [find_cal_day_in]; [constructor|].
  rewrite (start_equal rule loc _ _ R N).
  destruct (same_dateb (cd_Date d) date) eqn:E.
  - apply same_dateb_iff in E. exists [], d, l. repeat split; auto; apply E.
  - assert (F : ~ same_date (cd_Date d) date) by (rewrite <- same_dateb_iff; congruence).
    destruct (find_cal_day_in rule loc l date) as [k|]; cbn [option_map].
    + destruct IH as (a & x & b & -> & L & S & A). exists (d :: a), x, b. cbn. auto.
    + auto.
Qed.

(** ** Merging *)

Fixpoint first_on (date : time) (l : list CalendarEvent) : option nat :=
  match l with [] => None | x :: r => if same_dateb (ev_date x) date then Some O else option_map S (first_on date r) end.
Lemma first_on_some date l : existsb (fun x => same_dateb (ev_date x) date) l = match first_on date l with Some _ => true | None => false end.
Proof.
  induction l as [|x l IH]; [reflexivity|]. cbn [existsb first_on]. destruct (same_dateb (ev_date x) date); [reflexivity|].
  rewrite IH. cbn [orb]. destruct (first_on date l); reflexivity.
Qed.
Lemma find_in_map rule loc (f : CalendarEvent -> CalDay) l date : go_rule rule -> narrow loc ->
  (forall x, In x l -> same_date (cd_Date (f x)) (ev_date x)) ->
  find_cal_day_in rule loc (map f l) date =
  first_on date l.
Proof.
  intros R N. induction l as [|x l IH]; intros H; [reflexivity|]. cbn [map find_cal_day_in first_on].
  rewrite (start_equal rule loc _ _ R N).
  assert (same_dateb (cd_Date (f x)) date = same_dateb (ev_date x) date) as ->.
  { specialize (H x (or_introl eq_refl)). apply same_date_day in H. rewrite !same_dateb_day, H. reflexivity. }
  destruct (same_dateb (ev_date x) date); [reflexivity|]. rewrite IH; [reflexivity|]. intros y Y. apply H. now right.
Qed.

Lemma firsts_snoc e evs : forall seen,
  firsts seen (evs ++ [e]) = firsts seen evs ++
    (if existsb (fun x => same_dateb (ev_date x) (ev_date e)) (seen ++ evs) then [] else [e]).
Proof.
  induction evs as [|x evs IH]; intros seen; cbn [firsts app].
  - rewrite !app_nil_r. reflexivity.
  - rewrite IH, app_assoc. f_equal. rewrite existsb_app. cbn [existsb app]. rewrite !existsb_app. cbn [existsb].
    destruct (same_dateb (ev_date x) (ev_date e)), (existsb _ seen), (existsb _ evs); reflexivity.
Qed.

(** No two of the first events share a date, and they are among the events. *)
Lemma firsts_in evs : forall seen x, In x (firsts seen evs) ->
  In x evs /\ existsb (fun y => same_dateb (ev_date y) (ev_date x)) seen = false.
Proof.
  induction evs as [|e evs IH]; intros seen x; cbn [firsts]; [intros []|].
  rewrite in_app_iff. intros [H|H].
  - destruct (existsb _ seen) eqn:E; [destruct H|]. destruct H as [<-|[]]. split; [now left|exact E].
  - destruct (IH _ _ H) as [I E]. cbn [existsb] in E. apply orb_false_iff in E. split; [now right|apply E].
Qed.
Lemma firsts_covers evs : forall seen date,
  existsb (fun x => same_dateb (ev_date x) date) (firsts seen evs) ||
  existsb (fun x => same_dateb (ev_date x) date) seen =
  existsb (fun x => same_dateb (ev_date x) date) (seen ++ evs).
Proof.
  induction evs as [|e evs IH]; intros seen date; cbn [firsts].
  - rewrite app_nil_r. reflexivity.
  - rewrite existsb_app. specialize (IH (e :: seen) date). cbn [existsb app] in IH.
    rewrite (existsb_app _ seen (e :: evs)). cbn [existsb].
    rewrite existsb_app in IH.
    destruct (existsb (fun x => same_dateb (ev_date x) (ev_date e)) seen) eqn:E.
    + cbn [existsb orb]. rewrite existsb_exists in E. destruct E as (y & Y & S).
      assert (existsb (fun x => same_dateb (ev_date x) date) seen = true \/ same_dateb (ev_date e) date = false) as Q.
      { destruct (same_dateb (ev_date e) date) eqn:T; [left|now right].
        rewrite same_dateb_day in S, T. apply existsb_exists. exists y. split; [exact Y|]. rewrite same_dateb_day. lia. }
      destruct Q as [Q|Q]; rewrite ?Q in IH |- *; cbn [orb] in *.
      * rewrite !orb_true_r. reflexivity.
      * exact IH.
    + cbn [existsb orb].
      destruct (same_dateb (ev_date e) date), (existsb (fun x => same_dateb (ev_date x) date) (firsts (e :: seen) evs)),
        (existsb (fun x => same_dateb (ev_date x) date) seen), (existsb (fun x => same_dateb (ev_date x) date) evs); cbn in *; congruence.
Qed.

Lemma add_date_field e d : cd_Date (add_to_day e d) = ev_date e.
Proof. destruct e; reflexivity. Qed.

Lemma fold_date l : forall d, cd_Date (fold_left (fun d x => add_to_day x d) l d) = last (map ev_date l) (cd_Date d).
Proof.
  induction l as [|e l IH]; intros d; [reflexivity|]. cbn [fold_left map]. rewrite IH, add_date_field.
  destruct l; [reflexivity|]. cbn [map]. generalize (ev_date c). intros t. revert t. generalize (map ev_date l).
  induction l0 as [|y l0 IH0]; intros t; [reflexivity|]. cbn [last] in *. apply (IH0 y).
Qed.

Lemma last_in {A} (l : list A) x : l <> [] -> In (last l x) l.
Proof. induction l as [|a l IH]; [easy|]. intros _. destruct l; [now left|]. right. apply IH. discriminate. Qed.

Lemma whole_day_date evs e : In e evs -> same_date (cd_Date (whole_day evs e)) (ev_date e).
Proof.
  intros I. unfold whole_day. rewrite fold_date.
  set (l := filter _ evs). assert (In e l) as L.
  { unfold l. apply filter_In. split; [exact I|]. apply same_dateb_iff. repeat split. }
  assert (map ev_date l <> []) as NE by (destruct l; [destruct L|discriminate]).
  pose proof (last_in _ (cd_Date zero_calday) NE) as X. apply in_map_iff in X. destruct X as (y & Y & YL).
  rewrite <- Y. unfold l in YL. apply filter_In in YL. apply same_dateb_iff, YL.
Qed.

Lemma whole_day_snoc evs e x :
  whole_day (evs ++ [e]) x = if same_dateb (ev_date e) (ev_date x) then add_to_day e (whole_day evs x) else whole_day evs x.
Proof.
  unfold whole_day. rewrite filter_app. cbn [filter].
  destruct (same_dateb (ev_date e) (ev_date x)); [rewrite fold_left_app; reflexivity | rewrite app_nil_r; reflexivity].
Qed.

Lemma whole_day_none evs e : existsb (fun x => same_dateb (ev_date x) (ev_date e)) evs = false -> whole_day evs e = zero_calday.
Proof.
  intros H. unfold whole_day. induction evs as [|x evs IH]; [reflexivity|]. cbn [existsb filter] in *.
  apply orb_false_iff in H. destruct H as [-> H]. apply IH, H.
Qed.

Lemma same_dateb_sym a b : same_dateb a b = same_dateb b a.
Proof. rewrite !same_dateb_day. apply Z.eqb_sym. Qed.

Lemma update_first (f g : CalendarEvent -> CalDay) (h : CalDay -> CalDay) date l :
  (forall x, In x l -> same_dateb (ev_date x) date = false -> g x = f x) ->
  (forall x, In x l -> same_dateb (ev_date x) date = true -> g x = h (f x)) ->
  ForallOrdPairs (fun x y => same_dateb (ev_date x) (ev_date y) = false) l ->
  forall k, first_on date l = Some k ->
  update_nth (map f l) k h = map g l.
Proof.
  induction l as [|x l IH]; intros H1 H2 P k; [discriminate|]. cbn [first_on].
  inversion P as [|? ? P1 P2]; subst.
  destruct (same_dateb (ev_date x) date) eqn:E.
  - intros Q. injection Q as <-. cbn [map update_nth]. rewrite (H2 x (or_introl eq_refl) E). f_equal.
    apply map_ext_in. intros y Y. symmetry. apply H1; [now right|].
    rewrite Forall_forall in P1. specialize (P1 y Y). rewrite same_dateb_day in *. lia.
  - destruct (first_on date l) as [k'|] eqn:G; [|discriminate]. intros Q. injection Q as <-. cbn [map update_nth].
    rewrite (H1 x (or_introl eq_refl) E). f_equal. apply IH; auto; intros y Y; [apply H1 | apply H2]; now right.
Qed.

Lemma firsts_distinct evs : forall seen,
  ForallOrdPairs (fun x y => same_dateb (ev_date x) (ev_date y) = false) (firsts seen evs).
Proof.
  induction evs as [|e evs IH]; intros seen; cbn [firsts]; [constructor|].
  destruct (existsb _ seen); cbn [app]; [apply IH|]. constructor; [|apply IH].
  apply Forall_forall. intros x X. apply firsts_in in X. destruct X as [_ X]. cbn [existsb] in X.
  apply orb_false_iff in X. apply X.
Qed.

(** Merging events of one location gives one day for each date on which there is an event,
    in the order in which the dates first come up, each with all the events of its date, in
    order. *)
Theorem C74_merge : forall rule loc evs, go_rule rule -> narrow loc ->
  fold_left (merge_in rule loc) evs [] = map (whole_day evs) (firsts [] evs).
Proof.
  intros rule loc evs R N. induction evs as [|e evs IH] using rev_ind; [reflexivity|].
  rewrite fold_left_app. cbn [fold_left]. rewrite IH, firsts_snoc. cbn [app]. unfold merge_in.
  rewrite (find_in_map rule loc (whole_day evs) _ _ R N).
  2:{ intros x X. apply whole_day_date. apply firsts_in in X. apply X. }
  pose proof (firsts_covers evs [] (ev_date e)) as C. cbn [existsb app] in C. rewrite orb_false_r in C.
  rewrite <- C, first_on_some. destruct (first_on (ev_date e) (firsts [] evs)) as [k|] eqn:K.
  - rewrite app_nil_r.
    apply (update_first (whole_day evs) (whole_day (evs ++ [e])) (add_to_day e) (ev_date e)); [| |apply firsts_distinct|exact K].
    + intros x _ E. rewrite whole_day_snoc, same_dateb_sym, E. reflexivity.
    + intros x _ E. rewrite whole_day_snoc, same_dateb_sym, E. reflexivity.
  - rewrite map_app. cbn [map]. f_equal.
    + apply map_ext_in. intros x X. rewrite whole_day_snoc.
      rewrite first_on_some, K in C. symmetry in C.
      assert (same_dateb (ev_date e) (ev_date x) = false) as ->; [|reflexivity].
      rewrite same_dateb_sym. destruct (same_dateb (ev_date x) (ev_date e)) eqn:E; [|reflexivity].
      rewrite <- C. symmetry. apply existsb_exists. exists x. apply firsts_in in X. split; [apply X|exact E].
    + rewrite whole_day_snoc. assert (same_dateb (ev_date e) (ev_date e) = true) as -> by (apply same_dateb_iff; repeat split).
      rewrite whole_day_none; [reflexivity|]. rewrite <- C, first_on_some, K. reflexivity.
Qed.

(** ** The eighth day *)

Lemma rule_near rule loc w c zb za : go_rule rule -> proper loc -> one_change loc w c zb za ->
  rule loc w = w - z_off (loc (w - z_off (loc w))).
Proof.
  intros R P (B & C).
  assert (Hw : loc w = if w <? c then zb else za) by (apply C; lia).
  assert (Ho : Z.abs (z_off (loc w)) <= 100000) by (apply B).
  set (o := z_off (loc w)) in *.
  assert (Hu : loc (w - o) = if w - o <? c then zb else za) by (apply C; lia).
  assert (Hin : before_zone (loc w) w = false /\ after_zone (loc w) w = false) by (apply P; reflexivity).
  pose proof (P w (w - o)) as Pu.
  destruct R as [-> | ->]; unfold date_sec, date_sec_old; fold o; cbv zeta.
  - destruct (o =? 0) eqn:E0.
    + apply Z.eqb_eq in E0. rewrite E0, Z.sub_0_r. fold o. lia.
    + destruct (before_zone (loc w) (w - o) || after_zone (loc w) (w - o)) eqn:E; [reflexivity|].
      apply orb_false_iff in E. apply Pu in E. rewrite E. reflexivity.
  - destruct (o =? 0) eqn:E0.
    + apply Z.eqb_eq in E0. rewrite E0, Z.sub_0_r. fold o. lia.
    + destruct (before_zone (loc w) (w - o)) eqn:E1.
      * unfold before_zone in E1, Hin. destruct (z_start (loc w)) as [a|] eqn:S; [|discriminate].
        assert (loc (a - 1) = if a - 1 <? c then zb else za) as Ha by (apply C; lia).
        assert (loc (a - 1) <> loc w) as Na.
        { intros Q. apply P in Q. destruct Q as [Q _]. unfold before_zone in Q. rewrite S in Q. lia. }
        assert (loc (w - o) <> loc w) as Nu.
        { intros Q. apply P in Q. destruct Q as [Q _]. unfold before_zone in Q. rewrite S in Q. lia. }
        assert (loc (a - 1) = loc (w - o)) as ->; [|reflexivity].
        destruct (a - 1 <? c), (w - o <? c), (w <? c); congruence.
      * destruct (after_zone (loc w) (w - o)) eqn:E2.
        -- unfold after_zone in E2, Hin. destruct (z_end (loc w)) as [b|] eqn:S; [|discriminate].
           assert (loc b = if b <? c then zb else za) as Hb by (apply C; lia).
           assert (loc b <> loc w) as Nb.
           { intros Q. apply P in Q. destruct Q as [_ Q]. unfold after_zone in Q. rewrite S in Q. lia. }
           assert (loc (w - o) <> loc w) as Nu.
           { intros Q. apply P in Q. destruct Q as [_ Q]. unfold after_zone in Q. rewrite S in Q. lia. }
           assert (loc b = loc (w - o)) as ->; [|reflexivity].
           destruct (b <? c), (w - o <? c), (w <? c); congruence.
        -- assert (loc (w - o) = loc w) as -> by (apply Pu; auto). reflexivity.
Qed.

(** The instant found shows [w] if any does; otherwise it is off by the change of the clocks. *)
Lemma rule_shows rule loc w c zb za : go_rule rule -> proper loc -> one_change loc w c zb za ->
  let r := rule loc w in
  ((exists s, s + z_off (loc s) = w) -> r + z_off (loc r) = w) /\
  (r + z_off (loc r) <> w -> Z.abs (r + z_off (loc r) - w) = Z.abs (z_off za - z_off zb)).
Proof.
  intros R P O r. unfold r. rewrite (rule_near rule loc w c zb za R P O). destruct O as (B & C).
  assert (F : forall s, w - 100000 <= s <= w + 100000 ->
    s < c /\ z_off (loc s) = z_off zb \/ c <= s /\ z_off (loc s) = z_off za).
  { intros s S. rewrite (C s S). destruct (s <? c) eqn:E; [left|right]; split; auto; lia. }
  pose proof (B w) as Bw. pose proof (F w ltac:(lia)) as Hw.
  pose proof (B (w - z_off (loc w))) as Bu. pose proof (F (w - z_off (loc w)) ltac:(lia)) as Hu.
  pose proof (F (w - z_off (loc (w - z_off (loc w)))) ltac:(lia)) as Hv.
  split; [intros (s & S); pose proof (B s) as Bs; pose proof (F s ltac:(lia)) as Hs; clear - S Hs Hw Hu Hv; lia | clear - Hw Hu Hv; lia].
Qed.

Lemma time_in_local loc n f : 0 <= f < second_ns -> local_ns (time_in loc (n * second_ns + f)) = (n + z_off (loc n)) * second_ns + f.
Proof.
  intros F. unfold local_ns, time_in. cbn [t_ns t_off].
  replace ((n * second_ns + f) / second_ns) with n; [lia|]. unfold second_ns in *.
  symmetry. rewrite Z.div_add_l by lia. rewrite (Z.div_small f) by lia. lia.
Qed.
Lemma time_in_in loc ns : in_location loc (time_in loc ns).
Proof. reflexivity. Qed.

Lemma add_date_shows rule loc t n c zb za : go_rule rule -> proper loc ->
  let want := shown t + n * day_ns in
  one_change loc (want / second_ns) c zb za ->
  let r := add_date_in rule loc t 0 0 n in
  in_location loc r /\
  ((exists x, in_location loc x /\ shown x = want) -> shown r = want) /\
  (shown r <> want -> Z.abs (shown r - want) = Z.abs (z_off za - z_off zb) * second_ns).
Proof.
  intros R P want O r. split; [apply time_in_in|].
  assert (W : day_number (time_year t + 0) (time_month t + 0) (time_mday t + n) * 86400 + clock_ns t / second_ns = want / second_ns
              /\ clock_ns t mod second_ns = want mod second_ns).
  { rewrite !Z.add_0_r, day_number_add. unfold time_year, time_month, time_mday. rewrite day_number_civil.
    unfold want, shown. replace (local_day t * day_ns + clock_ns t + n * day_ns) with (((local_day t + n) * 86400) * second_ns + clock_ns t)
      by (unfold day_ns, second_ns; lia).
    rewrite Z.div_add_l by discriminate. split; [reflexivity|]. rewrite Z.add_comm, Z.mod_add by discriminate. reflexivity. }
  destruct W as [W F].
  assert (RE : r = time_in loc (rule loc (want / second_ns) * second_ns + want mod second_ns)).
  { unfold r, add_date_in, date_in. cbv zeta. rewrite W, F. reflexivity. }
  assert (FB : 0 <= want mod second_ns < second_ns) by (apply Z.mod_pos_bound; reflexivity).
  assert (SW : want = (want / second_ns) * second_ns + want mod second_ns) by (pose proof (Z.div_mod want second_ns ltac:(discriminate)); lia).
  rewrite shown_local, RE, time_in_local by exact FB.
  pose proof (rule_shows rule loc (want / second_ns) c zb za R P O) as [S1 S2]. cbv zeta in S1, S2.
  split.
  - intros (x & X & SX). rewrite shown_local in SX.
    rewrite S1; [lia|]. exists (t_ns x / second_ns).
    rewrite X in SX. unfold local_ns in SX. cbn [time_in t_ns t_off] in SX.
    rewrite <- SX. rewrite Z.div_add by discriminate. reflexivity.
  - intros NE.
    assert (rule loc (want / second_ns) + z_off (loc (rule loc (want / second_ns))) <> want / second_ns) as N2.
    { intros Q. apply NE. rewrite Q. lia. }
    specialize (S2 N2). set (k := rule loc (want / second_ns) + z_off (loc (rule loc (want / second_ns)))) in *.
    rewrite <- S2. rewrite SW at 2. rewrite <- (Z.abs_mul (k - want / second_ns) second_ns) || idtac.
    replace (k * second_ns + want mod second_ns - (want / second_ns * second_ns + want mod second_ns)) with ((k - want / second_ns) * second_ns) by lia.
    rewrite Z.abs_mul. reflexivity.
Qed.

(** The phase of the first uposatha of a day and of the half moon after it. *)
Definition followed_by (phase : string) : option string :=
  if String.eqb phase "new" then Some "waxing"%string else if String.eqb phase "full" then Some "waning"%string else None.
Definition next_phase (d : CalDay) : option string :=
  match cd_Uposatha d with [] => None | u :: _ => followed_by (u_Phase u) end.
Definition has_next (d : CalDay) : bool := match next_phase d with Some _ => true | None => false end.

(** [h] is on the eighth day after [d] and at the same time of day, if the clocks show that
    time at all on that day; otherwise it is off by as much as the clocks are changed. *)
Definition eighth_day (loc : location) (t h : time) (c : Z) (zb za : zone) : Prop :=
  in_location loc h /\
  ((exists x, in_location loc x /\ local_day x = local_day t + 8 /\ clock_ns x = clock_ns t) ->
     local_day h = local_day t + 8 /\ clock_ns h = clock_ns t) /\
  (local_day h <> local_day t + 8 \/ clock_ns h <> clock_ns t ->
     Z.abs (shown h - (shown t + 8 * day_ns)) = Z.abs (z_off za - z_off zb) * second_ns).

Lemma shown_eq a b n : shown a = shown b + n * day_ns <-> local_day a = local_day b + n /\ clock_ns a = clock_ns b.
Proof.
  unfold shown. pose proof (clock_ns_range a). pose proof (clock_ns_range b). unfold day_ns in *. nia.
Qed.

Lemma half_eq rule loc d : half_moon_day_in rule loc d =
  match next_phase d with
  | Some p => let t := add_date_in rule loc (cd_Date d) 0 0 8 in Some (mkCalDay t [] [mkHalfMoon t p] [] [] [])
  | None => None
  end.
Proof.
  unfold half_moon_day_in, next_phase, followed_by, get_uposatha. destruct (cd_Uposatha d) as [|u us]; [reflexivity|]. cbn [get_single].
  destruct (String.eqb (u_Phase u) "new"); [reflexivity|]. destruct (String.eqb (u_Phase u) "full"); reflexivity.
Qed.

(** AddHalfMoonDays adds one day for each new or full moon, with the half moon of the other
    kind, eight days after by the calendar. *)
Theorem C74_half_moons : forall rule loc l, go_rule rule -> proper loc ->
  exists hs, add_half_moon_days_in rule loc l = l ++ hs /\
    Forall2 (fun d h =>
      (exists p, next_phase d = Some p /\ h = mkCalDay (cd_Date h) [] [mkHalfMoon (cd_Date h) p] [] [] []) /\
      forall c zb za, one_change loc ((shown (cd_Date d) + 8 * day_ns) / second_ns) c zb za ->
        eighth_day loc (cd_Date d) (cd_Date h) c zb za) (filter has_next l) hs.
Proof.
  intros rule loc l R P. exists (filter_map (half_moon_day_in rule loc) l). split; [reflexivity|].
  induction l as [|d l IH]; [constructor|]. cbn [filter filter_map].
  assert (E : forall c zb za, one_change loc ((shown (cd_Date d) + 8 * day_ns) / second_ns) c zb za ->
    eighth_day loc (cd_Date d) (add_date_in rule loc (cd_Date d) 0 0 8) c zb za).
  { intros c zb za O. destruct (add_date_shows rule loc (cd_Date d) 8 c zb za R P O) as (I & S1 & S2).
    split; [exact I|]. split.
    - intros (x & X & Y). rewrite <- shown_eq in Y. rewrite <- shown_eq. apply S1. exists x. auto.
    - intros N. apply S2. rewrite shown_eq. intros (A & B). destruct N; contradiction. }
  rewrite half_eq. unfold has_next at 1. destruct (next_phase d) as [p|] eqn:NP; [|exact IH].
  constructor; [|exact IH]. split; [|exact E]. exists p. split; [exact NP|reflexivity].
Qed.

(** ** An event's last day *)

(** The day after the last of an all-day event is the next date exactly if the clocks are not
    changed in between by more than what is left of the day. *)
Theorem C74_last_day : forall loc e, in_location loc (ev_date e) ->
  let change := (t_off (ical_end_in loc e) - t_off (ev_date e)) * second_ns in
  (local_day (ical_end_in loc e) = local_day (ical_start e) + 1 <-> 0 <= clock_ns (ev_date e) + change < day_ns) /\
  (change = 0 -> clock_ns (ical_end_in loc e) = clock_ns (ical_start e)).
Proof.
  intros loc e I change. unfold ical_start.
  pose proof (local_ns_split (ical_end_in loc e)) as A. pose proof (local_ns_split (ev_date e)) as B.
  pose proof (clock_ns_range (ical_end_in loc e)) as RA. pose proof (clock_ns_range (ev_date e)) as RB.
  assert (local_ns (ical_end_in loc e) = local_ns (ev_date e) + day_ns + change) as L.
  { unfold local_ns, change. unfold ical_end_in, add_in. cbn [time_in t_ns]. unfold day_ns, hour_ns, second_ns. lia. }
  clearbody change. unfold day_ns in *. split; [split|]; intros; nia.
Qed.

(** ** Zones with one offset *)

Definition fixed (off : Z) : location := fun _ => mkZone off None None.

(** In a zone without changes this is the model of the other theorems. *)
Theorem C74_fixed : forall rule off, go_rule rule ->
  narrow (fixed off) /\ proper (fixed off) /\
  (forall l date, t_off date = off -> Forall (fun d => t_off (cd_Date d) = off) l ->
     find_cal_day_in rule (fixed off) l date = find_cal_day l date) /\
  (forall l e, t_off (ev_date e) = off -> Forall (fun d => t_off (cd_Date d) = off) l ->
     merge_in rule (fixed off) l e = merge_into_cal_days l e) /\
  (forall l, Forall (fun d => t_off (cd_Date d) = off) l ->
     add_half_moon_days_in rule (fixed off) l = add_half_moon_days l).
Proof.
  intros rule off R.
  assert (RW : forall w, rule (fixed off) w = w - off).
  { intros w. destruct (rule_offset rule (fixed off) w R) as [u U]. exact U. }
  assert (D : forall y m d clock, date_in rule (fixed off) y m d clock = time_date y m d clock off).
  { intros y m d clock. unfold date_in, time_date, time_in. cbv zeta. rewrite RW. apply time_eq; cbn [t_ns t_off]; [|reflexivity].
    pose proof (Z.div_mod clock second_ns ltac:(discriminate)). unfold day_ns, second_ns in *. lia. }
  assert (F : forall l date, t_off date = off -> Forall (fun d => t_off (cd_Date d) = off) l ->
     find_cal_day_in rule (fixed off) l date = find_cal_day l date).
  { intros l date T. induction 1 as [|d l Hd _ IH]; [reflexivity|]. cbn [find_cal_day_in find_cal_day]. rewrite IH.
    unfold day_start_in, day_start. rewrite !D, T, Hd. reflexivity. }
  split; [intros s u; cbn; lia|]. split; [intros s u; cbn; tauto|]. split; [exact F|]. split.
  - intros l e T L. unfold merge_in, merge_into_cal_days. rewrite F by assumption. reflexivity.
  - intros l L. unfold add_half_moon_days_in, add_half_moon_days. f_equal.
    induction L as [|d l Hd _ IH]; [reflexivity|]. cbn [filter_map]. rewrite IH.
    unfold half_moon_day_in, half_moon_day, add_date_in, time_add_date. rewrite D, Hd. reflexivity.
Qed.

(** ** Examples *)

(** A location with one change of the clocks, at [c]. *)
Definition changing (c before after : Z) : location :=
  fun s => if s <? c then mkZone before None (Some c) else mkZone after (Some c) None.
Lemma changing_proper c b a : proper (changing c b a).
Proof.
  intros s u. unfold changing. destruct (s <? c) eqn:S, (u <? c) eqn:U; unfold before_zone, after_zone; cbn [z_start z_end];
    split; intros H; try reflexivity; try discriminate; try (destruct H; lia); split; try reflexivity; lia.
Qed.
Lemma changing_one c b a w : Z.abs b <= 100000 -> Z.abs a <= 100000 ->
  one_change (changing c b a) w c (mkZone b None (Some c)) (mkZone a (Some c) None).
Proof. intros B A. split; intros s; unfold changing; destruct (s <? c); cbn [z_off]; auto. Qed.

Definition sec_of (y m d h : Z) : Z := day_number y m d * 86400 + h * 3600.

(** Sao Paulo, where at midnight before 18 October 2015 the clocks went from 0:00 to 1:00;
    London, where on 30 October 2016 they went from 2:00 back to 1:00. *)
Definition sao_paulo : location := changing (sec_of 2015 10 18 3) (-3 * 3600) (-2 * 3600).
Definition london : location := changing (sec_of 2016 10 30 1) 3600 0.
Definition local (loc : location) (y m d h : Z) : time := date_in date_sec loc y m d (h * hour_ns).
Definition reading (t : time) : Z * Z * Z * Z := (time_year t, time_month t, time_mday t, clock_ns t / hour_ns).

Definition moon_at (t : time) (phase : string) : CalDay := mkCalDay t [mkUposatha t 0 0 phase "" 1 8 15 30 1 1 2500 false "" ""] [] [] [] [].
Definition note (t : time) (s : string) : CalendarEvent := EvEvent (mkEvent t 0 s s).

(** Events of 29 and 30 October 2016 in London, before and after the change, are put together
    by date. *)
Example C74_merge_example :
  let ev := [note (local london 2016 10 30 0) "a"; note (local london 2016 10 29 20) "b";
             note (local london 2016 10 30 23) "c"; note (local london 2016 10 29 0) "d"] in
  map (fun d => (reading (cd_Date d), map e_Summary (cd_Events d))) (fold_left (merge_in date_sec london) ev [])
  = [((2016, 10, 30, 23), ["a"; "c"]%string); ((2016, 10, 29, 0), ["b"; "d"]%string)].
Proof. vm_compute. reflexivity. Qed.
(** At 0:00 and 23:00 on 30 October there are 24 hours between, and they are the same day. *)
Example C74_long_day : t_ns (local london 2016 10 30 23) - t_ns (local london 2016 10 30 0) = 24 * hour_ns.
Proof. vm_compute. reflexivity. Qed.

(** The eighth day is counted by the calendar: 22 October 18:00 is followed by 30 October 18:00,
    after 8 days and an hour. *)
Example C74_half_example :
  map (fun d => (reading (cd_Date d), map h_Phase (cd_Half d)))
    (add_half_moon_days_in date_sec_old london [moon_at (local london 2016 10 22 18) "new"])
  = [((2016, 10, 22, 18), []); ((2016, 10, 30, 18), ["waxing"%string])]
  /\ t_ns (local london 2016 10 30 18) - t_ns (local london 2016 10 22 18) = 8 * day_ns + hour_ns.
Proof. vm_compute. repeat split. Qed.

(** Where midnight does not exist the half moon comes out on the day before: seven days after
    the new moon. *)
Theorem C74_eighth_day_refuted : forall rule, go_rule rule ->
  exists t h, in_location sao_paulo t /\ reading t = (2015, 10, 10, 0) /\
    add_half_moon_days_in rule sao_paulo [moon_at t "new"] = [moon_at t "new"; h] /\
    reading (cd_Date h) = (2015, 10, 17, 23) /\ cd_Half h = [mkHalfMoon (cd_Date h) "waxing"].
Proof.
  intros rule R. exists (local sao_paulo 2015 10 10 0).
  destruct R as [-> | ->]; eexists; (split; [reflexivity|]); (split; [vm_compute; reflexivity|]); (split; [reflexivity|]); vm_compute; split; reflexivity.
Qed.

(** On a day of 25 hours an all-day event at midnight ends on the day it starts. *)
Theorem C74_end_refuted : exists e, in_location london (ev_date e) /\
  reading (ical_start e) = (2016, 10, 30, 0) /\ reading (ical_end_in london e) = (2016, 10, 30, 23).
Proof. exists (note (local london 2016 10 30 0) "kathina"). vm_compute. repeat split. Qed.

(** The hypotheses hold of these zones. *)
Lemma changing_narrow c b a : Z.abs (b - a) < 86400 -> narrow (changing c b a).
Proof. intros H s u. unfold changing. destruct (s <? c), (u <? c); cbn [z_off]; lia. Qed.
Example C74_hypotheses : narrow london /\ proper london /\ narrow sao_paulo /\ proper sao_paulo /\
  (forall w, exists c zb za, one_change london w c zb za) /\ (forall w, exists c zb za, one_change sao_paulo w c zb za).
Proof.
  split; [apply changing_narrow; reflexivity|]. split; [apply changing_proper|].
  split; [apply changing_narrow; reflexivity|]. split; [apply changing_proper|].
  split; intros w; do 3 eexists; apply changing_one; discriminate.
Qed.

(** A zone that moved across the date line in the afternoon, skipping 24 hours, would have two
    dates that findCalDay takes for one: the hypothesis [narrow] is needed. *)
Definition crossing : location := changing (sec_of 2000 1 2 6) (-12 * 3600) (12 * 3600).
Theorem C74_date_line_refuted : exists a b, in_location crossing a /\ in_location crossing b /\
  reading a = (2000, 1, 1, 10) /\ reading b = (2000, 1, 2, 20) /\ proper crossing /\
  find_cal_day_in date_sec crossing [moon_at a "new"] b = Some O.
Proof.
  exists (local crossing 2000 1 1 10), (local crossing 2000 1 2 20).
  split; [reflexivity|]. split; [reflexivity|]. do 2 (split; [vm_compute; reflexivity|]). split; [apply changing_proper|]. vm_compute. reflexivity.
Qed.
