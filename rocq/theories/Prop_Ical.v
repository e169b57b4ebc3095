(** C61: the text of the ical command. *)
From Coq Require Import ZArith NArith Lia Bool ZifyBool List String Ascii Permutation Sorted.
From Verif Require Import GoTime SuriyaYear Helpers UposathaMoon CalDay AstroMoon AstroFS Text Cli Output IcalText Spec SpecCal SpecText SpecIcal.
From Verif Require Import P_Time P_Text P_Date P_Kattika P_Chain P_Gen P_Gen2 P_CalDays P_CalDays2 P_Json P_Ical GoldenData GoldenIcal Golden Prop_Cli Prop_Json Prop_Output.
Import ListNotations.
Open Scope Z_scope.

(** ** The summaries need no escapes and are short *)
Definition fine (s : string) : Prop := every plain s /\ (String.length s <= 60)%nat.
Definition fineb (s : string) : bool := eachb plainb s && Nat.leb (String.length s) 60.
Lemma fineb_fine s : fineb s = true -> fine s.
Proof. unfold fineb. rewrite andb_true_iff. intros [H L]. split; [exact (eachb_every _ _ _ plainb_char H)|apply Nat.leb_le; exact L]. Qed.
Definition good_moon (u : UposathaMoon) : Prop :=
  (u_Phase u = "new" /\ 1 <= u_S_Number u <= 10 \/ u_Phase u = "full" /\ 1 <= u_S_Number u <= 11)%string /\
  (u_U_Days u = 14 \/ u_U_Days u = 15) /\ (u_S_Total u = 8 \/ u_S_Total u = 10).
Lemma next_good cfg u : good_moon u -> good_moon (next_uposatha cfg u).
Proof.
  intros (P & D & T). unfold next_uposatha. destruct (String.eqb_spec (u_Phase u) "new") as [E|E].
  - unfold good_moon. cbn [u_Phase u_S_Number u_U_Days u_S_Total]. destruct P as [[_ P]|[P _]]; [|rewrite P in E; discriminate E]. split; [right; split; [reflexivity|lia]|]. auto.
  - destruct P as [[P _]|[_ P]]; [contradiction|].
    assert (X : forall m, (if m =? 29 then 14 else 15) = 14 \/ (if m =? 29 then 14 else 15) = 15) by (intros m; destruct (m =? 29); auto).
    assert (Y : forall c : bool, (if c then 10 else 8) = 8 \/ (if c then 10 else 8) = 10) by (intros []; auto).
    destruct (u_S_Number u <? u_S_Total u) eqn:L; [|destruct (u_LunarMonth u =? 12)]; unfold good_moon; cbn [u_Phase u_S_Number u_U_Days u_S_Total]; (split; [left; split; [reflexivity|lia]|split; [apply X|apply Y]]).
Qed.
Lemma moons_good cfg n : forall u, good_moon u -> Forall good_moon (moons cfg n u).
Proof. induction n as [|n IH]; intros u H; cbn [moons]; constructor; [|apply IH]; apply next_good; exact H. Qed.
Lemma all_summaries : forallb (fun p => forallb (fun d => forallb (fun s => forallb (fun n => forallb (fun t =>
  fineb (title p ++ " Moon - " ++ fmt_d d ++ " day " ++ s ++ " " ++ fmt_d n ++ "/" ++ fmt_d t)%string) [8; 10]) (up 11 1)) ["Hemanta"; "Gimha"; "Vassāna"; ""]%string) [14; 15]) ["new"; "full"]%string = true.
Proof. vm_compute. reflexivity. Qed.
Lemma uposatha_fine u : good_moon u -> fine (uposatha_string u).
Proof.
  intros (P & D & T). apply fineb_fine. unfold uposatha_string. replace (String.eqb (u_Phase u) "") with false by (destruct P as [[-> _]|[-> _]]; reflexivity).
  pose proof all_summaries as A. rewrite forallb_forall in A. specialize (A (u_Phase u) ltac:(destruct P as [[-> _]|[-> _]]; cbn; auto)).
  rewrite forallb_forall in A. specialize (A (u_U_Days u) ltac:(destruct D as [-> | ->]; cbn; auto)). rewrite forallb_forall in A.
  specialize (A (season_name (u_LunarSeason u)) ltac:(unfold season_name; repeat match goal with |- context [if ?b then _ else _] => destruct b end; cbn; auto)). rewrite forallb_forall in A.
  specialize (A (u_S_Number u) ltac:(apply up_in; lia)). rewrite forallb_forall in A. exact (A (u_S_Total u) ltac:(destruct T as [-> | ->]; cbn; auto)).
Qed.
Lemma uposatha_events_fine y u : good_moon u -> Forall (fun e => fine (ev_string e)) (uposatha_events y u).
Proof.
  intros G. unfold uposatha_events, major_events. cbn [set_status u_Date u_Event u_Calendar h_Date u_Phase].
  assert (H : fine (moon_string (half_phase (u_Phase u)))) by (destruct G as ([[-> _]|[-> _]] & _); apply fineb_fine; reflexivity).
  assert (U : fine (uposatha_string (set_status u 2))) by exact (uposatha_fine u G).
  repeat (apply Forall_app; split); repeat match goal with |- context [if ?b then _ else _] => destruct b end;
    repeat (apply Forall_app; split); repeat (apply Forall_cons || apply Forall_nil); cbn [ev_string h_Phase e_Summary]; try assumption; apply fineb_fine; reflexivity.
Qed.
Lemma generated_fine cfg from to : Forall (fun e => fine (ev_string e)) (generated cfg from to).
Proof.
  apply Forall_forall. intros e He. apply filter_In in He. destruct He as [He _]. apply in_flat_map in He. destruct He as (y & _ & He). revert He. unfold events_of_year.
  destruct (generate_spec cfg y) as (p & E & _). rewrite E. intros He. apply in_flat_map in He. destruct He as (u & Hu & He).
  assert (G : Forall good_moon (moons cfg p (kattika_seed (midnight (kday cfg y))))) by (apply moons_good; repeat split; cbn; auto; right; split; [reflexivity|lia]).
  rewrite Forall_forall in G. pose proof (uposatha_events_fine y u (G u Hu)) as F. rewrite Forall_forall in F. exact (F e He).
Qed.

(** ** Each stream has one reading *)
Theorem C61_unambiguous : forall s n evs n' evs', calendar_means s n evs -> calendar_means s n' evs' -> n = n' /\ evs = evs'.
Proof. exact calendar_inj. Qed.

(** What the program draws for an event: a UID that is a plain text which fits into a line, and a time of writing. *)
Definition usable_id (id : string * time) : Prop :=
  fst id <> ""%string /\ every (fun c => value_char c /\ ~ In c [","; ";"; "\"]%char) (fst id) /\ (String.length (fst id) <= 71)%nat /\ 0 <= time_year (time_utc (snd id)) <= 9999.
Definition event_of (id : string * time) (v : VEvent) : event :=
  mkEvt (fst id) (t_ns (snd id) / second_ns) (local_day (v_start v)) (local_day (v_end v)) (v_summary v).
Fixpoint events_of (ids : nat -> string * time) (n : nat) (l : list VEvent) : list event :=
  match l with [] => [] | v :: l' => event_of (ids n) v :: events_of ids (S n) l' end.
Definition writable (v : VEvent) : Prop :=
  fine (v_summary v) /\ 0 <= time_year (v_start v) <= 9999 /\ 0 <= time_year (v_end v) <= 9999 /\ local_day (v_start v) < local_day (v_end v).
Lemma digit_plain z : 0 <= z < 10 -> plainb (digit z) = true.
Proof. intros H. assert (C : z = 0 \/ z = 1 \/ z = 2 \/ z = 3 \/ z = 4 \/ z = 5 \/ z = 6 \/ z = 7 \/ z = 8 \/ z = 9) by lia. repeat (destruct C as [->|C]; [reflexivity|]). subst z. reflexivity. Qed.
Lemma two_plain z : 0 <= z < 100 -> eachb plainb (two z) = true.
Proof.
  intros H. unfold two, eachb. cbn [list_ascii_of_string forallb]. rewrite !digit_plain; [reflexivity|apply Z.mod_pos_bound; lia|split; [apply Z.div_pos; lia|apply Z.div_lt_upper_bound; lia]].
Qed.
Lemma every_value s : eachb plainb s = true -> every value_char s.
Proof. apply eachb_every. intros c H. apply plainb_char in H. exact (proj1 H). Qed.
Lemma eachb_app f a b : eachb f (a ++ b) = eachb f a && eachb f b.
Proof. unfold eachb. induction a as [|x a IH]; [reflexivity|]. cbn [append list_ascii_of_string forallb]. rewrite IH, andb_assoc. reflexivity. Qed.
Lemma date_value t : 0 <= time_year t <= 9999 -> eachb plainb (compact_date t) = true.
Proof.
  intros Y. unfold compact_date, four. pose proof (month_of_day_range (local_day t)). pose proof (mday_range (local_day t)). fold (time_month t) in *. fold (time_mday t) in *.
  rewrite !eachb_app, !two_plain; [reflexivity|lia|lia|apply Z.mod_pos_bound; lia|split; [apply Z.div_pos; lia|apply Z.div_lt_upper_bound; lia]].
Qed.
Lemma time_value t : 0 <= time_year (time_utc t) <= 9999 -> eachb plainb (compact_time t) = true.
Proof.
  intros Y. unfold compact_time. cbv zeta. set (s := clock_ns (time_utc t) / second_ns). pose proof (clock_range (time_utc t)) as R. unfold day_ns in R.
  assert (Rs : 0 <= s < 86400) by (unfold s, second_ns; split; [apply Z.div_pos; lia|apply Z.div_lt_upper_bound; lia]).
  assert (0 <= s / 3600 < 24) by (split; [apply Z.div_pos; lia|apply Z.div_lt_upper_bound; lia]).
  assert (0 <= s / 60 mod 60 < 60) by (apply Z.mod_pos_bound; lia). assert (0 <= s mod 60 < 60) by (apply Z.mod_pos_bound; lia).
  rewrite !eachb_app, date_value, !two_plain by lia. reflexivity.
Qed.
Lemma vevent_good id v : usable_id id -> writable v -> Forall good_line (enclosed "VEVENT" (vevent_lines id v)) /\ Forall plain_property (vevent_lines id v) /\ event_means (vevent_lines id v) (event_of id v).
Proof.
  intros (N & U & L & Y) ((S & Ls) & Ys & Ye & O).
  assert (Lt : String.length (compact_time (snd id)) = 16%nat) by reflexivity. assert (Ld : forall t, String.length (compact_date t) = 8%nat) by reflexivity.
  split; [|split].
  - unfold enclosed, vevent_lines. cbn [app]. repeat (apply Forall_cons || apply Forall_nil).
    + apply simple_line; [reflexivity|apply every_value; reflexivity|cbn; lia].
    + apply simple_line; [reflexivity|apply every_value, time_value; exact Y|rewrite Lt; cbn; lia].
    + apply simple_line; [reflexivity|refine (every_impl _ _ _ _ U); tauto|cbn; lia].
    + apply simple_line; [reflexivity|refine (every_impl _ _ _ _ S); intros c [H _]; exact H|cbn; lia].
    + apply date_line; [reflexivity|apply every_value, date_value; exact Ys|rewrite Ld; cbn; lia].
    + apply date_line; [reflexivity|apply every_value, date_value; exact Ye|rewrite Ld; cbn; lia].
    + apply simple_line; [reflexivity|apply every_value; reflexivity|cbn; lia].
  - unfold vevent_lines. repeat (apply Forall_cons || apply Forall_nil); cbn; intros H; repeat (destruct H as [H|H]; [discriminate H|]); exact H.
  - assert (O1 : forall l1 n a x l2, Forall (fun p => p_name p <> n) (l1 ++ l2) -> once n (l1 ++ mkProperty n a x :: l2) a x) by (intros l1 n a x l2 F; exists l1, l2; split; [reflexivity|exact F]).
    assert (Fr : forall n l, forallb (fun p => negb (String.eqb (p_name p) n)) l = true -> Forall (fun p => p_name p <> n) l).
    { intros n l H. rewrite forallb_forall in H. apply Forall_forall. intros p Hp. specialize (H p Hp). apply negb_true_iff, String.eqb_neq in H. exact H. }
    set (ps := vevent_lines id v). unfold event_means, event_of. cbn [i_uid i_stamp i_first i_end i_text].
    split; [exists (fst id); split; [apply (O1 [_]); apply Fr; reflexivity|apply plain_text; exact U]|]. split; [exact N|].
    split; [exists (compact_time (snd id)); split; [apply (O1 []); apply Fr; reflexivity|apply compact_time_means; exact Y]|].
    split; [exists (compact_date (v_start v)); split; [apply (O1 [_; _; _]); apply Fr; reflexivity|apply compact_date_means; exact Ys]|].
    split; [exists (compact_date (v_end v)); split; [apply (O1 [_; _; _; _]); apply Fr; reflexivity|apply compact_date_means; exact Ye]|]. split; [exact O|].
    exists (v_summary v). split; [apply (O1 [_; _]); apply Fr; reflexivity|apply plain_text; exact S].
Qed.
(** The first [n] events are given different UIDs. *)
Definition distinct_uids (ids : nat -> string * time) (n : nat) : Prop := forall i j, (i < n)%nat -> (j < n)%nat -> fst (ids i) = fst (ids j) -> i = j.
Lemma uids_from ids l : forall n, distinct_uids ids (n + List.length l) -> NoDup (map i_uid (events_of ids n l)).
Proof.
  assert (G : forall l n k, (k < n)%nat -> distinct_uids ids (n + List.length l) -> ~ In (fst (ids k)) (map i_uid (events_of ids n l))).
  { clear l. induction l as [|v l IH]; intros n k K I; [exact (fun H => H)|]. cbn [events_of map In event_of i_uid List.length] in *. intros [E|E]; [apply I in E; lia|]. refine (IH (S n) k ltac:(lia) _ E). replace (S n + List.length l)%nat with (n + S (List.length l))%nat by lia. exact I. }
  induction l as [|v l IH]; intros n I; cbn [events_of map]; constructor; cbn [List.length] in I; replace (n + S (List.length l))%nat with (S n + List.length l)%nat in I by lia; [apply G; [lia|exact I]|apply IH; exact I].
Qed.
Lemma calendar_text ids l : (forall i, (i < List.length l)%nat -> usable_id (ids i)) -> distinct_uids ids (List.length l) -> Forall writable l -> l <> [] ->
  calendar_means (ical_text ids l) "Uposatha Moondays (Mahānikāya)" (events_of ids 0 l).
Proof.
  intros U I W N. exists header_lines, (vevents_lines ids 0 l).
  assert (G : forall n, (forall i, (i < n + List.length l)%nat -> usable_id (ids i)) -> Forall good_line (flat_map (enclosed "VEVENT") (vevents_lines ids n l)) /\ Forall (Forall plain_property) (vevents_lines ids n l) /\ Forall2 event_means (vevents_lines ids n l) (events_of ids n l)).
  { clear N U I. induction W as [|v l H W IH]; intros n U; [repeat split; constructor|]. cbn [vevents_lines flat_map events_of List.length] in *. destruct (vevent_good (ids n) v (U n ltac:(lia)) H) as (A & B & C). destruct (IH (S n)) as (A' & B' & C'); [intros i Hi; apply U; lia|].
    split; [apply Forall_app; split; assumption|]. split; constructor; assumption. }
  destruct (G 0%nat U) as (A & B & C). clear G.
  assert (O1 : forall l1 n a x l2, header_lines = (l1 ++ mkProperty n a x :: l2) -> forallb (fun p => negb (String.eqb (p_name p) n)) (l1 ++ l2) = true -> once n header_lines a x).
  { intros l1 n a x l2 E F. exists l1, l2. split; [exact E|]. rewrite forallb_forall in F. apply Forall_forall. intros p Hp. specialize (F p Hp). apply negb_true_iff, String.eqb_neq in F. exact F. }
  split; [|split; [|split; [|split; [|split; [|split; [|split]]]]]].
  - split; [|split; [|split; [exact B|destruct l; [contradiction|discriminate]]]].
    + rewrite text_lines. apply good_lines. unfold enclosed at 1. constructor; [apply simple_line; [reflexivity|apply every_value; reflexivity|cbn; lia]|].
      rewrite !Forall_app. split; [split; [exact header_good|exact A]|]. constructor; [apply simple_line; [reflexivity|apply every_value; reflexivity|cbn; lia]|constructor].
    + unfold header_lines. repeat (apply Forall_cons || apply Forall_nil); cbn; intros H; repeat (destruct H as [H|H]; [discriminate H|]); exact H.
  - apply (O1 [] _ _ _ _ eq_refl). reflexivity.
  - do 2 eexists. split; [apply (O1 [_] _ _ _ _ eq_refl); reflexivity|]. apply plain_text, (eachb_every plainb); [exact plainb_char|reflexivity].
  - apply (O1 [_; _; _; _; _; _; _; _; _; _] _ _ _ _ eq_refl). reflexivity.
  - eexists. apply (O1 [_; _; _; _; _; _; _; _; _; _; _] _ _ _ _ eq_refl). reflexivity.
  - eexists. split; [apply (O1 [_; _; _] _ _ _ _ eq_refl); reflexivity|]. apply plain_text, (eachb_every plainb); [exact plainb_char|reflexivity].
  - exact C.
  - apply uids_from. exact I.
Qed.

(** ** The text of a range of dates *)
Lemma generated_in_range cfg from to e : t_off from = 0 -> t_off to = 0 -> In e (generated cfg from to) -> exists d, ev_date e = midnight d /\ time_year from <= year_of_day d <= time_year to.
Proof.
  intros Hf Ht He. pose proof (generated_midnight cfg from to) as M. rewrite Forall_forall in M. destruct (M e He) as [d E]. exists d. split; [exact E|].
  apply filter_In in He. destruct He as [_ He]. rewrite E in He. unfold midnight in He. cbn [t_ns] in He.
  rewrite !year_utc by assumption. split; apply year_of_day_mono; unfold utc_day; change (24 * hour_ns) with day_ns; [apply Z.div_le_upper_bound|apply Z.div_le_lower_bound]; unfold day_ns in *; lia.
Qed.
Lemma next_day_year d : d <> day_number 9999 12 31 -> year_of_day d <= 9999 -> year_of_day d <= year_of_day (d + 1) <= 9999.
Proof.
  intros N Y. split; [apply year_of_day_mono; lia|]. rewrite day_number_dec31 in N. apply year_of_day_le. apply year_of_day_le in Y. lia.
Qed.
Theorem C61_calendar : forall ids cfg fs from to l, t_off from = 0 -> t_off to = 0 -> 0 <= time_year from -> time_year to <= 9999 ->
  get_cal_days cfg fs from to = Some (Ok l) ->
  (forall i, (i < List.length (generated cfg from to))%nat -> usable_id (ids i)) -> distinct_uids ids (List.length (generated cfg from to)) ->
  generated cfg from to <> [] -> (forall e, In e (generated cfg from to) -> utc_day (ev_date e) <> day_number 9999 12 31) ->
  exists evs, calendar_means (ical_text ids (ical_events l)) "Uposatha Moondays (Mahānikāya)" evs /\
    Permutation (map (fun i => (i_first i, i_end i, i_text i)) evs)
      (map (fun e => (utc_day (ev_date e), utc_day (ev_date e) + 1, ev_string e)) (generated cfg from to)) /\
    StronglySorted (fun a b => i_first a <= i_first b) evs /\
    map (fun i => (i_uid i, i_stamp i)) evs = map (fun n => (fst (ids n), t_ns (snd (ids n)) / second_ns)) (seq 0 (List.length evs)).
Proof.
  intros ids cfg fs from to l Hf Ht Y1 Y2 H U I N L. pose proof (C44_exact cfg fs from to l Hf Ht H) as P. destruct (C44_order cfg fs from to l Hf Ht H) as [S M].
  assert (W : Forall writable (ical_events l)).
  { apply Forall_forall. intros v Hv. apply (Permutation_in _ P) in Hv. apply in_map_iff in Hv. destruct Hv as (e & <- & He).
    destruct (generated_in_range cfg from to e Hf Ht He) as (d & E & R). pose proof (generated_fine cfg from to) as F. rewrite Forall_forall in F.
    unfold writable, ical_event. cbn [v_start v_end v_summary]. rewrite E. change (24 * hour_ns) with (1 * day_ns). rewrite midnight_add, !time_year_midnight, !local_day_midnight.
    specialize (L e He). rewrite E, utc_day_midnight in L. pose proof (next_day_year d L ltac:(lia)). split; [exact (F e He)|]. lia. }
  assert (Len : List.length (generated cfg from to) = List.length (ical_events l)) by (rewrite (Permutation_length P), map_length; reflexivity). rewrite Len in U, I.
  exists (events_of ids 0 (ical_events l)). split; [apply calendar_text; try assumption; intros E; apply N; rewrite E in P; apply Permutation_nil in P; destruct (generated cfg from to); [reflexivity|discriminate P]|].
  assert (T : forall n vs, map (fun i => (i_first i, i_end i, i_text i)) (events_of ids n vs) = map (fun v => (local_day (v_start v), local_day (v_end v), v_summary v)) vs).
  { intros n vs. revert n. induction vs as [|v vs IH]; intros n; [reflexivity|]. cbn [events_of map]. rewrite IH. reflexivity. }
  split; [|split].
  - rewrite T. apply (Permutation_map (fun v => (local_day (v_start v), local_day (v_end v), v_summary v))) in P. rewrite map_map in P. eapply Permutation_trans; [exact P|].
    apply Permutation_refl'. apply map_ext_in. intros e He. destruct (generated_in_range cfg from to e Hf Ht He) as (d & E & _). unfold ical_event. cbn [v_start v_end v_summary]. rewrite E.
    change (24 * hour_ns) with (1 * day_ns). rewrite midnight_add, !local_day_midnight, utc_day_midnight. reflexivity.
  - clear - S M. revert S M. generalize 0%nat. induction (ical_events l) as [|v vs IH]; intros n S M; cbn [events_of]; constructor.
    + apply IH; [inversion S; assumption|intros w Hw; apply M; right; exact Hw].
    + inversion S as [|? ? _ F]; subst. rewrite Forall_forall in F. apply Forall_forall. intros i Hi.
      assert (E : exists w m, In w vs /\ i = event_of (ids m) w).
      { clear - Hi. revert Hi. generalize (Datatypes.S n). induction vs as [|x vs IH]; intros k Hi; cbn [events_of] in Hi; [destruct Hi|]. destruct Hi as [<-|Hi]; [exists x, k; cbn; auto|]. destruct (IH _ Hi) as (w & m & Hw & ->). exists w, m. cbn; auto. }
      destruct E as (w & m & Hw & ->). unfold event_of. cbn [i_first]. destruct (M v (or_introl eq_refl)) as (d & E1 & _). destruct (M w (or_intror Hw)) as (d' & E2 & _). specialize (F w Hw). rewrite E1, E2 in F |- *.
      rewrite !local_day_midnight. unfold time_after, midnight in F. cbn [t_ns] in F. unfold day_ns in F. lia.
  - clear P S M W U I Len. generalize 0%nat. induction (ical_events l) as [|v vs IH]; intros n; [reflexivity|]. cbn [events_of map List.length seq]. rewrite IH. reflexivity.
Qed.

(** ** No event of the default configuration is on the last day that can be written *)
Lemma event_year y u e : is_midnight u -> In e (uposatha_events y u) -> exists d, ev_date e = midnight d /\ (year_of_day d = y \/ year_of_day (d - 1) = y).
Proof.
  intros [x Hx]. unfold uposatha_events, major_events. cbn [set_status u_Date u_Event u_Calendar h_Date u_Phase]. rewrite !time_add_date_days, Hx, !midnight_add, !time_year_midnight.
  rewrite !in_app_iff. intros H.
  assert (A : forall d, year_of_day d = y -> exists d0, midnight d = midnight d0 /\ (year_of_day d0 = y \/ year_of_day (d0 - 1) = y)) by (intros d H0; exists d; auto).
  assert (B : year_of_day x = y -> exists d0, midnight (x + 1) = midnight d0 /\ (year_of_day d0 = y \/ year_of_day (d0 - 1) = y)) by (intros H0; exists (x + 1); replace (x + 1 - 1) with x by lia; auto).
  destruct H as [H|[H|H]].
  - destruct (Z.eqb_spec (year_of_day x) y) as [E|E]; [|destruct H]. destruct H as [<-|[]]. cbn [ev_date set_status u_Date]. rewrite Hx. exact (A x E).
  - destruct (Z.eqb_spec (year_of_day (x + 8)) y) as [E|E]; [|destruct H]. destruct H as [<-|[]]. exact (A _ E).
  - destruct (Z.eqb_spec (year_of_day x) y) as [E|E]; [|destruct H]. rewrite !in_app_iff in H.
    destruct H as [H|[H|[H|H]]]; (destruct (String.eqb (u_Event u) _); [|destruct H]); cbn [In] in H; repeat (destruct H as [<-|H]; [cbn [ev_date e_Date]; (exact (A x E) || exact (B E))|]); destruct H.
Qed.
Lemma year_9999 : forallb (fun e => negb (Z.eqb (utc_day (ev_date e)) (day_number 9999 12 31))) (events_of_year cfg_default 9999) = true.
Proof. vm_compute. reflexivity. Qed.
Theorem C61_last_day : forall from to e, In e (generated cfg_default from to) -> utc_day (ev_date e) <> day_number 9999 12 31.
Proof.
  intros from to e He E. apply filter_In in He. destruct He as [He _]. apply in_flat_map in He. destruct He as (y & _ & He).
  assert (Y : y = 9999).
  { revert He. unfold events_of_year. destruct (generate_spec cfg_default y) as (p & G & _). rewrite G. intros He. apply in_flat_map in He. destruct He as (u & Hu & He).
    pose proof (moons_midnight cfg_default p _ (seed_midnight (kday cfg_default y))) as M. rewrite Forall_forall in M.
    destruct (event_year y u e (M u Hu) He) as (d & D & C). rewrite D, utc_day_midnight in E. subst d. revert C. clear. generalize y. intros z C. destruct C as [C|C]; rewrite <- C; reflexivity. }
  subst y. pose proof year_9999 as A. rewrite forallb_forall in A. specialize (A e He). rewrite E, Z.eqb_refl in A. discriminate A.
Qed.

(** ** The command *)
Lemma no_calendar ids name evs : ~ calendar_means (ical_text ids []) name evs.
Proof.
  intros (ps & els & (L & P & V & N) & _). rewrite text_lines in L. cbn [vevents_lines flat_map] in L.
  assert (G : content_lines (enclosed "VCALENDAR" header_lines) (lines_text (enclosed "VCALENDAR" header_lines))).
  { apply good_lines. unfold enclosed. constructor; [apply simple_line; [reflexivity|apply every_value; reflexivity|cbn; lia]|]. apply Forall_app. split; [exact header_good|].
    constructor; [apply simple_line; [reflexivity|apply every_value; reflexivity|cbn; lia]|constructor]. }
  rewrite app_nil_r in L. pose proof (lines_inj _ _ _ L G) as E. destruct els as [|e els]; [contradiction|]. unfold enclosed at 1 2 in E. cbn [flat_map] in E. injection E as E.
  assert (I : In (mkProperty "BEGIN" [] "VEVENT") (header_lines ++ [mkProperty "END" [] "VCALENDAR"])) by (unfold header_lines; cbn [app]; rewrite <- E; apply in_or_app; left; apply in_or_app; right; left; reflexivity).
  unfold header_lines in I. cbn [app In] in I. repeat (destruct I as [I|I]; [discriminate I|]). exact I.
Qed.
Lemma init_years sur now1 now2 from to f t : 0 <= now1 <= 9999 -> 0 <= now2 <= 9999 -> init_dates sur now1 now2 from to = inl (f, t) ->
  t_off f = 0 /\ t_off t = 0 /\ 0 <= time_year f /\ time_year t <= 9999.
Proof.
  intros H1 H2. unfold init_dates. destruct (flag_date from (time_date now1 1 1 0 0)) as [f'|] eqn:Ef; [|discriminate]. destruct (flag_date to (time_date now2 12 31 0 0)) as [t'|] eqn:Et; [|discriminate].
  intros E. injection E as -> ->.
  assert (C : cli_init now1 from "" = Some (f, time_date now1 12 31 0 0)) by (unfold cli_init; rewrite Ef; reflexivity). destruct (flag_years now1 from "" _ _ H1 C) as (A & _ & B & _).
  assert (C' : cli_init now2 "" to = Some (time_date now2 1 1 0 0, t)) by (unfold cli_init; rewrite Et; reflexivity). destruct (flag_years now2 "" to _ _ H2 C') as (_ & A' & _ & B'). auto.
Qed.
(** Whatever a successful run of the program writes is a calendar that says exactly the events, in the order of
    the days, unless there is no event; then it is no calendar at all. *)
Theorem C61_command : forall ids sur fs now1 now2 from to output w w',
  0 <= now1 <= 9999 -> 0 <= now2 <= 9999 -> w_stdout w = ""%string ->
  ical_run (ical_text ids) sur cfg_default fs now1 now2 from to output w = Some (0, w') ->
  exists f t text, init_dates sur now1 now2 from to = inl (f, t) /\
    (if String.eqb output "" then w_stdout w' = text else w_files w' output = Some text) /\
    (generated cfg_default f t = [] -> forall name evs, ~ calendar_means text name evs) /\
    (generated cfg_default f t <> [] -> (forall i, (i < List.length (generated cfg_default f t))%nat -> usable_id (ids i)) -> distinct_uids ids (List.length (generated cfg_default f t)) -> exists evs, calendar_means text "Uposatha Moondays (Mahānikāya)" evs /\
       Permutation (map (fun i => (i_first i, i_end i, i_text i)) evs)
         (map (fun e => (utc_day (ev_date e), utc_day (ev_date e) + 1, ev_string e)) (generated cfg_default f t)) /\
       StronglySorted (fun a b => i_first a <= i_first b) evs).
Proof.
  intros ids sur fs now1 now2 from to output w w' H1 H2 W R. apply C60_ical in R. destruct R as [_ R]. destruct (R eq_refl) as (f & t & l & D & G & O). clear R.
  exists f, t, (ical_text ids (ical_events l)). split; [exact D|]. split; [destruct (String.eqb output ""); [rewrite W in O; apply O|apply O]|].
  destruct (init_years sur now1 now2 from to f t H1 H2 D) as (Of & Ot & Yf & Yt). split.
  - intros N name evs. pose proof (C44_exact cfg_default fs f t l Of Ot G) as P. rewrite N in P. apply Permutation_sym, Permutation_nil in P. rewrite P. apply no_calendar.
  - intros N U I. destruct (C61_calendar ids cfg_default fs f t l Of Ot Yf Yt G U I N (C61_last_day f t)) as (evs & M & P & S & _). exists evs. auto.
Qed.
(** A success is therefore no promise of a valid stream: two days between a new moon and its half moon. *)
Theorem C61_empty_refuted : exists sur w w', forall ids, ical_run (ical_text ids) sur cfg_default embedded_fs 2016 2016 "2016-07-05" "2016-07-06" "" w = Some (0, w') /\
  forall name evs, ~ calendar_means (w_stdout w') name evs.
Proof.
  exists (mkSurroundings (fun _ => true) 0 (fun s => s)), (mkWorld (fun _ => None) ""), (mkWorld (fun _ => None) (ical_text (fun _ => (""%string, midnight 0)) [])). intros ids.
  split; [vm_compute; reflexivity|]. intros name evs. apply no_calendar.
Qed.

(** The recorded text, byte for byte. *)
Definition with_cr (s : string) : string := concat "" (map (fun c => if Ascii.eqb c "010" then CRLF else String c "") (list_ascii_of_string s)).
Definition recorded_id (n : nat) : string * time :=
  match nth_error golden_ids n with
  | Some (u, (d, s)) => (u, time_add (match parse_date d with Some t => t | None => midnight 0 end) (s * second_ns))
  | None => (""%string, midnight 0)
  end.
Example C61_example : ical_run (ical_text recorded_id) (mkSurroundings (fun _ => true) 0 (fun s => s)) cfg_default embedded_fs 2017 2017 golden_from golden_to "" (mkWorld (fun _ => None) "") =
  Some (0, mkWorld (fun _ => None) (with_cr golden_ical_text)).
Proof. vm_compute. reflexivity. Qed.
(** The recorded UIDs and times are as C61_calendar requires. *)
Example C61_ids_example : (forall i, (i < 12)%nat -> usable_id (recorded_id i)) /\ distinct_uids recorded_id 12 /\
  List.length (generated cfg_default (midnight (day_number 2015 5 28)) (midnight (day_number 2015 8 6))) = 12%nat.
Proof.
  split; [|split; [|vm_compute; reflexivity]].
  - intros i Hi. split; [|split; [|split]].
    + do 12 (destruct i as [|i]; [discriminate|]). lia.
    + apply (eachb_every plainb); [exact plainb_char|]. do 12 (destruct i as [|i]; [reflexivity|]). lia.
    + do 12 (destruct i as [|i]; [vm_compute; lia|]). lia.
    + do 12 (destruct i as [|i]; [vm_compute; split; discriminate|]). lia.
  - intros i j Hi Hj E. do 12 (destruct i as [|i]; [do 12 (destruct j as [|j]; [reflexivity || discriminate E|]); lia|]). lia.
Qed.
