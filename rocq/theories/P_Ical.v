(** iCalendar streams: each says one thing; the lines written by the ical command. *)
From Coq Require Import ZArith NArith Lia Bool ZifyBool List String Ascii.
From Verif Require Import GoTime Text SpecText P_Time P_Text P_Date P_Json Cli IcalText SpecIcal.
Import ListNotations.
Local Open Scope string_scope.

(** ** A stream has one reading *)
Lemma every_app P a b : every P (a ++ b) <-> every P a /\ every P b.
Proof.
  unfold every. induction a as [|x a IH]; cbn [append list_ascii_of_string]; [split; [intros H; split; [constructor|exact H]|tauto]|].
  rewrite !Forall_cons_iff, IH. tauto.
Qed.
Lemma every_impl (P Q : ascii -> Prop) s : (forall c, P c -> Q c) -> every P s -> every Q s.
Proof. intros H. apply Forall_impl. exact H. Qed.
Definition head_not (P : ascii -> Prop) (s : string) : Prop := match s with "" => True | String c _ => ~ P c end.
Lemma span_inj P a : forall b c d, every P a -> every P b -> head_not P c -> head_not P d -> a ++ c = b ++ d -> a = b /\ c = d.
Proof.
  induction a as [|x a IH]; intros [|y b] c d A B C D E; cbn [append] in E.
  - auto.
  - subst c. inversion B; contradiction.
  - subst d. inversion A; contradiction.
  - injection E as -> E. inversion A; inversion B; subst. destruct (IH b c d) as [-> ->]; auto.
Qed.
Lemma name_char_not c d : ~ In d (list_ascii_of_string "ABCDEFGHIJKLMNOPQRSTUVWXYZ0123456789-") -> name_char c -> c <> d.
Proof. intros N H ->. exact (N H). Qed.
Ltac not_in := let H := fresh in intros H; unfold name_char in H; cbn in H; repeat (destruct H as [H|H]; [discriminate H|]); exact H.
Lemma params_head l v : head_not safe_char (params_text l ++ ":" ++ v).
Proof. destruct l as [|[n x] l]; cbn; intros [_ N]; apply N; cbn; tauto. Qed.
Definition good_params (l : list (string * string)) : Prop := Forall (fun q => is_name (fst q) /\ every safe_char (snd q)) l.
Lemma params_inj l : forall l' v v', good_params l -> good_params l' -> params_text l ++ ":" ++ v = params_text l' ++ ":" ++ v' -> l = l' /\ v = v'.
Proof.
  induction l as [|[n x] l IH]; intros [|[n' x'] l'] v v' G G' E; cbn [params_text] in E; rewrite ?app_assoc' in E; cbn [append] in E.
  - injection E as E. auto.
  - discriminate E.
  - discriminate E.
  - injection E as E. inversion G as [|? ? [[_ N] S] Gl]; inversion G' as [|? ? [[_ N'] S'] Gl']; subst. cbn [fst snd] in *. rewrite ?app_assoc' in E.
    apply (span_inj name_char n n') in E; [|exact N|exact N'|not_in|not_in]. destruct E as [-> E1]. cbn [append] in E1. injection E1 as E1. rewrite ?app_assoc' in E1.
    destruct (span_inj safe_char x x' _ _ S S' (params_head l v) (params_head l' v') E1) as [-> E2]. destruct (IH l' v v' Gl Gl' E2) as [-> ->]. auto.
Qed.
Lemma line_inj p p' s : content_line p s -> content_line p' s -> p = p'.
Proof.
  destruct p as [n l v], p' as [n' l' v']. unfold content_line. cbn [p_name p_params p_value]. intros ([_ N] & G & _ & E & _) ([_ N'] & G' & _ & E' & _). rewrite E in E'.
  assert (H : forall l v, head_not name_char (params_text l ++ ":" ++ v)) by (intros [|[a b] m] w; not_in).
  destruct (span_inj name_char n n' _ _ N N' (H l v) (H l' v') E') as [-> E2]. destruct (params_inj l l' v v' G G' E2) as [-> ->]. reflexivity.
Qed.
Definition not_cr (c : ascii) : Prop := c <> "013"%char.
Lemma value_not_cr c : value_char c -> not_cr c.
Proof. intros H ->. destruct H as [H|[H _]]; [discriminate H|]. apply H. reflexivity. Qed.
Lemma name_not_cr c : name_char c -> not_cr c.
Proof. apply name_char_not. not_in. Qed.
Lemma line_no_cr p s : content_line p s -> every not_cr s.
Proof.
  intros ([_ N] & G & V & -> & _). rewrite !every_app. split; [exact (every_impl _ _ _ name_not_cr N)|]. split.
  - induction G as [|[n x] l [[_ Gn] Gx] _ IH]; [constructor|]. cbn [params_text fst snd] in *. rewrite !every_app. split; [repeat constructor; discriminate|]. split; [exact (every_impl _ _ _ name_not_cr Gn)|].
    split; [repeat constructor; discriminate|]. split; [|exact IH]. refine (every_impl _ _ _ _ Gx). intros c [Hc _]. exact (value_not_cr c Hc).
  - split; [repeat constructor; discriminate|exact (every_impl _ _ _ value_not_cr V)].
Qed.
Lemma lines_inj ps : forall ps' s, content_lines ps s -> content_lines ps' s -> ps = ps'.
Proof.
  induction ps as [|p ps IH]; intros ps' s H H'; inversion H as [|? a ? r L R]; inversion H' as [|? b ps2 r' L' R']; subst.
  - reflexivity.
  - match goal with E : _ ++ CRLF ++ _ = "" |- _ => destruct b; discriminate E end.
  - match goal with E : "" = _ ++ CRLF ++ _ |- _ => destruct a; discriminate E end.
  - match goal with E : b ++ CRLF ++ r' = a ++ CRLF ++ r |- _ => apply (span_inj not_cr b a) in E;
      [destruct E as [-> E2]|exact (line_no_cr _ _ L')|exact (line_no_cr _ _ L)|intros H0; apply H0; reflexivity|intros H0; apply H0; reflexivity] end.
    apply (app_cancel CRLF) in E2. subst r'. f_equal; [exact (line_inj _ _ _ L L')|exact (IH _ _ R R')].
Qed.
Definition head_delimits (l : list property) : Prop := match l with [] => True | p :: _ => ~ plain_property p end.
Lemma lspan_inj a : forall b c d, Forall plain_property a -> Forall plain_property b -> head_delimits c -> head_delimits d -> (a ++ c = b ++ d)%list -> a = b /\ c = d.
Proof.
  induction a as [|x a IH]; intros [|y b] c d A B C D E; cbn [List.app] in E.
  - auto.
  - subst c. inversion B; contradiction.
  - subst d. inversion A; contradiction.
  - injection E as -> E. inversion A; inversion B; subst. destruct (IH b c d) as [-> ->]; auto.
Qed.
Lemma begin_delimits n l : head_delimits (mkProperty "BEGIN" [] n :: l).
Proof. cbn. intros H. apply H. cbn. auto. Qed.
Lemma end_delimits n l : head_delimits (mkProperty "END" [] n :: l).
Proof. cbn. intros H. apply H. cbn. auto. Qed.
Lemma events_inj evs : forall evs' l l' n, Forall (Forall plain_property) evs -> Forall (Forall plain_property) evs' ->
  (flat_map (enclosed "VEVENT") evs ++ mkProperty "END" [] n :: l = flat_map (enclosed "VEVENT") evs' ++ mkProperty "END" [] n :: l')%list -> evs = evs'.
Proof.
  induction evs as [|e evs IH]; intros [|e' evs'] l l' n A B E; cbn [flat_map enclosed List.app] in E; rewrite <- ?app_assoc in E; cbn [List.app] in E; try discriminate E; [reflexivity|].
  injection E as E. inversion A; inversion B; subst. rewrite <- ?app_assoc in E. cbn [List.app] in E.
  apply (lspan_inj e e') in E; [|assumption|assumption|apply end_delimits|apply end_delimits]. destruct E as [-> E2]. injection E2 as E2. f_equal. eapply IH; eassumption.
Qed.
Lemma stream_inj ps els ps' els' s : stream ps els s -> stream ps' els' s -> ps = ps' /\ els = els'.
Proof.
  intros (L & P & V & _) (L' & P' & V' & _). pose proof (lines_inj _ _ _ L L') as E. unfold enclosed in E at 1 3. injection E as E. rewrite <- !app_assoc in E.
  assert (H : forall e, head_delimits (flat_map (enclosed "VEVENT") e ++ [mkProperty "END" [] "VCALENDAR"])%list) by (intros [|e es]; [apply end_delimits|apply begin_delimits]).
  destruct (lspan_inj _ _ _ _ P P' (H els) (H els') E) as [-> E2]. split; [reflexivity|]. exact (events_inj _ _ _ _ _ V V' E2).
Qed.
Lemma once_inj n ps a v a' v' : once n ps a v -> once n ps a' v' -> v = v'.
Proof.
  intros (l1 & l2 & -> & F) (k1 & k2 & E & F'). apply Forall_app in F, F'. destruct F as [F1 F2], F' as [F1' F2']. revert k1 E F1'.
  induction l1 as [|x l1 IH]; intros [|y k1] E F1'; cbn [List.app] in E.
  - congruence.
  - exfalso. injection E as E _. subst y. inversion F1'; subst. cbn in *. congruence.
  - exfalso. injection E as E _. subst x. inversion F1; subst. cbn in *. congruence.
  - injection E as _ E. inversion F1; inversion F1'; subst. eapply IH; eassumption.
Qed.
Lemma text_inj r s : text_means r s -> forall s', text_means r s' -> s = s'.
Proof.
  induction 1 as [|c r s V N _ IH|e c r s I _ IH]; intros s' H'; inversion H' as [|c' r' t V' N' T|e' c' r' t I' T]; subst.
  - reflexivity.
  - rewrite (IH _ T). reflexivity.
  - exfalso. apply N. cbn. tauto.
  - exfalso. apply N'. cbn. tauto.
  - rewrite (IH _ T). f_equal. cbn [In] in I, I'.
    repeat (destruct I as [I|I]; [injection I as <- <-; repeat (destruct I' as [I'|I']; [first [discriminate I'|injection I' as <-; reflexivity]|]); elim I'|]). elim I.
Qed.
Lemma padded4_inj a b : (0 <= a <= 9999)%Z -> (0 <= b <= 9999)%Z -> padded 4 a = padded 4 b -> a = b.
Proof. intros A B. rewrite <- !four_padded by assumption. apply four_inj; lia. Qed.
Lemma padded2_inj a b : (0 <= a <= 99)%Z -> (0 <= b <= 99)%Z -> padded 2 a = padded 2 b -> a = b.
Proof. intros A B. rewrite <- !two_padded by assumption. apply two_inj; lia. Qed.
Lemma padded4_length a : (0 <= a <= 9999)%Z -> String.length (padded 4 a) = 4%nat.
Proof. intros A. rewrite <- four_padded by assumption. reflexivity. Qed.
Lemma padded2_length a : (0 <= a <= 99)%Z -> String.length (padded 2 a) = 2%nat.
Proof. intros A. rewrite <- two_padded by assumption. reflexivity. Qed.
Lemma civil_range y m d : civil_date y m d -> (1 <= m <= 12 /\ 1 <= d <= 31)%Z.
Proof. intros (Hm & Hd & l & _ & Hl). pose proof (month_length_31 l m Hm). lia. Qed.
Lemma date_length s d : date_means s d -> String.length s = 8%nat.
Proof.
  intros (y & m & x & Y & C & -> & _). apply civil_range in C. rewrite !string_length_app, padded4_length, !padded2_length by lia. reflexivity.
Qed.
Lemma date_inj s d d' : date_means s d -> date_means s d' -> d = d'.
Proof.
  intros (y & m & x & Y & C & -> & ->) (y' & m' & x' & Y' & C' & E & ->). apply civil_range in C, C'.
  apply app_inj_length in E; [|rewrite !padded4_length by lia; reflexivity]. destruct E as [E1 E]. apply app_inj_length in E; [|rewrite !padded2_length by lia; reflexivity]. destruct E as [E2 E3].
  apply padded4_inj in E1; [|lia..]. apply padded2_inj in E2; [|lia..]. apply padded2_inj in E3; [|lia..]. subst. reflexivity.
Qed.
Lemma utc_inj s t t' : utc_means s t -> utc_means s t' -> t = t'.
Proof.
  intros (a & d & h & m & c & A & Hh & Hm & Hc & -> & ->) (a' & d' & h' & m' & c' & A' & Hh' & Hm' & Hc' & E & ->).
  apply app_inj_length in E; [|rewrite (date_length a d A), (date_length a' d' A'); reflexivity]. destruct E as [-> E]. rewrite (date_inj a' d d' A A').
  apply (app_cancel "T") in E. apply app_inj_length in E; [|rewrite !padded2_length by lia; reflexivity]. destruct E as [E1 E].
  apply app_inj_length in E; [|rewrite !padded2_length by lia; reflexivity]. destruct E as [E2 E]. apply app_inj_length in E; [|rewrite !padded2_length by lia; reflexivity]. destruct E as [E3 _].
  apply padded2_inj in E1; [|lia..]. apply padded2_inj in E2; [|lia..]. apply padded2_inj in E3; [|lia..]. subst. reflexivity.
Qed.
Lemma event_inj ps e e' : event_means ps e -> event_means ps e' -> e = e'.
Proof.
  intros ((u & U & Tu) & _ & (t & T & Tt) & (f & F & Tf) & (n & N & Tn) & _ & (x & X & Tx)) ((u' & U' & Tu') & _ & (t' & T' & Tt') & (f' & F' & Tf') & (n' & N' & Tn') & _ & (x' & X' & Tx')).
  rewrite (once_inj _ _ _ _ _ _ U' U) in Tu'. rewrite (once_inj _ _ _ _ _ _ T' T) in Tt'. rewrite (once_inj _ _ _ _ _ _ F' F) in Tf'. rewrite (once_inj _ _ _ _ _ _ N' N) in Tn'. rewrite (once_inj _ _ _ _ _ _ X' X) in Tx'.
  destruct e, e'. cbn in *.
  f_equal; [exact (text_inj _ _ Tu _ Tu')|exact (utc_inj _ _ _ Tt Tt')|exact (date_inj _ _ _ Tf Tf')|exact (date_inj _ _ _ Tn Tn')|exact (text_inj _ _ Tx _ Tx')].
Qed.
Lemma calendar_inj s n evs n' evs' : calendar_means s n evs -> calendar_means s n' evs' -> n = n' /\ evs = evs'.
Proof.
  intros (ps & els & S & _ & _ & _ & _ & (v & N & T) & F & _) (ps' & els' & S' & _ & _ & _ & _ & (v' & N' & T') & F' & _). destruct (stream_inj _ _ _ _ _ S S') as [<- <-].
  split; [rewrite (once_inj _ _ _ _ _ _ N' N) in T'; exact (text_inj _ _ T _ T')|]. clear - F F'. revert evs' F'.
  induction F as [|e x els evs H _ IH]; intros evs' F'; inversion F' as [|? y ? ys H' F2]; subst; [reflexivity|]. rewrite (event_inj _ _ _ H H'), (IH _ F2). reflexivity.
Qed.

(** ** The lines written *)
Definition line_text (p : property) : string := p_name p ++ params_text (p_params p) ++ ":" ++ p_value p.
Fixpoint lines_text (ps : list property) : string := match ps with [] => "" | p :: ps' => line_text p ++ CRLF ++ lines_text ps' end.
Lemma lines_text_app a b : lines_text (a ++ b) = lines_text a ++ lines_text b.
Proof. induction a as [|x a IH]; [reflexivity|]. cbn [List.app lines_text]. rewrite IH, !app_assoc'. reflexivity. Qed.
Definition good_line (p : property) : Prop := content_line p (line_text p).
Lemma good_lines ps : Forall good_line ps -> content_lines ps (lines_text ps).
Proof. induction 1 as [|p ps H _ IH]; [constructor|]. cbn [lines_text]. constructor; assumption. Qed.
Definition eachb (f : ascii -> bool) (s : string) : bool := forallb f (list_ascii_of_string s).
Lemma eachb_every f (P : ascii -> Prop) s : (forall c, f c = true -> P c) -> eachb f s = true -> every P s.
Proof. intros H E. unfold eachb in E. rewrite forallb_forall in E. apply Forall_forall. auto. Qed.
Definition nameb (c : ascii) : bool := existsb (Ascii.eqb c) (list_ascii_of_string "ABCDEFGHIJKLMNOPQRSTUVWXYZ0123456789-").
Lemma nameb_char c : nameb c = true -> name_char c.
Proof. unfold nameb. rewrite existsb_exists. intros (d & I & E). apply Ascii.eqb_eq in E. subst d. exact I. Qed.
Definition valueb (c : ascii) : bool := ((32 <=? N_of_ascii c) && negb (N_of_ascii c =? 127))%N.
Lemma valueb_char c : valueb c = true -> value_char c.
Proof. unfold valueb, value_char. intros H. right. lia. Qed.
Definition plainb (c : ascii) : bool := valueb c && negb (existsb (Ascii.eqb c) [","; ";"; "\"]%char).
Definition plain (c : ascii) : Prop := value_char c /\ ~ In c [","; ";"; "\"]%char.
Lemma plainb_char c : plainb c = true -> plain c.
Proof.
  unfold plainb, plain. rewrite andb_true_iff, negb_true_iff. intros [V N]. split; [apply valueb_char; exact V|]. intros I.
  assert (T : existsb (Ascii.eqb c) [","; ";"; "\"]%char = true) by (apply existsb_exists; exists c; split; [exact I|apply Ascii.eqb_refl]). congruence.
Qed.
Definition safeb (c : ascii) : bool := valueb c && negb (existsb (Ascii.eqb c) ["034"; ";"; ":"; ","]%char).
Lemma safeb_char c : safeb c = true -> safe_char c.
Proof.
  unfold safeb, safe_char. rewrite andb_true_iff, negb_true_iff. intros [V N]. split; [apply valueb_char; exact V|]. intros I.
  assert (T : existsb (Ascii.eqb c) ["034"; ";"; ":"; ","]%char = true) by (apply existsb_exists; exists c; split; [exact I|apply Ascii.eqb_refl]). congruence.
Qed.
Lemma plain_text s : every plain s -> text_means s s.
Proof. unfold every. induction s as [|c s IH]; cbn [list_ascii_of_string]; intros H; [constructor|]. inversion H as [|? ? [V N] H']; subst. constructor; auto. Qed.
(** A line without parameters, or with VALUE=DATE *)
Definition good_name (n : string) : bool := negb (String.eqb n "") && eachb nameb n.
Lemma good_name_spec n : good_name n = true -> is_name n.
Proof. unfold good_name. rewrite andb_true_iff, negb_true_iff. intros [N E]. split; [apply String.eqb_neq; exact N|exact (eachb_every _ _ _ nameb_char E)]. Qed.
Lemma simple_line n v : good_name n = true -> every value_char v -> (String.length n + String.length v <= 74)%nat -> good_line (mkProperty n [] v).
Proof.
  intros N V L. unfold good_line, content_line, line_text. cbn [p_name p_params p_value params_text append]. split; [exact (good_name_spec n N)|]. split; [constructor|]. split; [exact V|]. split; [reflexivity|].
  rewrite string_length_app. cbn [String.length]. lia.
Qed.
Lemma date_line n v : good_name n = true -> every value_char v -> (String.length n + String.length v <= 60)%nat -> good_line (mkProperty n [("VALUE", "DATE")] v).
Proof.
  intros N V L. unfold good_line, content_line, line_text. cbn [p_name p_params p_value params_text]. split; [exact (good_name_spec n N)|]. split.
  - constructor; [|constructor]. cbn [fst snd]. split; [apply good_name_spec; reflexivity|]. apply (eachb_every safeb); [exact safeb_char|reflexivity].
  - split; [exact V|]. split; [reflexivity|]. rewrite !string_length_app. cbn [String.length append]. lia.
Qed.
Lemma ical_line_text n v : ical_line n v = lines_text [mkProperty n [] v].
Proof. unfold ical_line. cbn [lines_text line_text p_name p_params p_value params_text append]. unfold line_text. cbn [p_name p_params p_value params_text append]. rewrite !app_assoc'. cbn [append]. rewrite P_Text.app_nil. reflexivity. Qed.

Definition header_lines : list property :=
  [mkProperty "VERSION" [] "2.0"; mkProperty "PRODID" [] "Uposatha Moondays Mahānikāya EN"; mkProperty "URL" [] "http://splendidmoons.github.io/ical/mahanikaya.ical"; mkProperty "NAME" [] calendar_name;
   mkProperty "X-WR-CALNAME" [] calendar_name; mkProperty "DESCRIPTION" [] calendar_name; mkProperty "X-WR-CALDESC" [] calendar_name; mkProperty "REFRESH-INTERVAL" [("VALUE", "DURATION")] "PT12H";
   mkProperty "X-PUBLISHED-TTL" [] "PT12H"; mkProperty "COLOR" [] "244:196:48"; mkProperty "CALSCALE" [] "GREGORIAN"; mkProperty "METHOD" [] "PUBLISH"].
Lemma header_text : ical_header = lines_text header_lines.
Proof. vm_compute. reflexivity. Qed.
Lemma header_good : Forall good_line header_lines.
Proof.
  assert (S : forall n v, good_name n && eachb valueb v && Nat.leb (String.length n + String.length v) 74 = true -> good_line (mkProperty n [] v)).
  { intros n v H. rewrite !andb_true_iff in H. destruct H as [[H1 H2] H3]. apply simple_line; [exact H1|exact (eachb_every _ _ _ valueb_char H2)|apply Nat.leb_le; exact H3]. }
  unfold header_lines. repeat (apply Forall_cons || apply Forall_nil); try (apply S; vm_compute; reflexivity).
  unfold good_line, content_line. cbn [p_name p_params p_value]. split; [apply good_name_spec; reflexivity|]. split.
  - constructor; [|constructor]. cbn [fst snd]. split; [apply good_name_spec; reflexivity|]. apply (eachb_every safeb); [exact safeb_char|reflexivity].
  - split; [apply (eachb_every valueb); [exact valueb_char|reflexivity]|]. split; [reflexivity|vm_compute; repeat constructor].
Qed.
Definition vevent_lines (id : string * time) (v : VEvent) : list property :=
  [mkProperty "DTSTAMP" [] (compact_time (snd id)); mkProperty "UID" [] (fst id); mkProperty "SUMMARY" [] (v_summary v);
   mkProperty "DTSTART" [("VALUE", "DATE")] (compact_date (v_start v)); mkProperty "DTEND" [("VALUE", "DATE")] (compact_date (v_end v))].
Lemma vevent_text id v : ical_vevent id v = lines_text (enclosed "VEVENT" (vevent_lines id v)).
Proof.
  unfold ical_vevent, enclosed, vevent_lines. cbn [List.app lines_text]. unfold line_text, ical_line. cbn [p_name p_params p_value params_text]. rewrite !app_assoc'. cbn [append]. rewrite ?app_assoc', ?P_Text.app_nil. reflexivity.
Qed.
Fixpoint vevents_lines (ids : nat -> string * time) (n : nat) (l : list VEvent) : list (list property) :=
  match l with [] => [] | v :: l' => vevent_lines (ids n) v :: vevents_lines ids (S n) l' end.
Lemma vevents_text ids l : forall n, ical_vevents ids n l = lines_text (flat_map (enclosed "VEVENT") (vevents_lines ids n l)).
Proof. induction l as [|v l IH]; intros n; [reflexivity|]. cbn [ical_vevents vevents_lines flat_map]. rewrite lines_text_app, vevent_text, IH. reflexivity. Qed.
Lemma text_lines ids l : ical_text ids l = lines_text (enclosed "VCALENDAR" (header_lines ++ flat_map (enclosed "VEVENT") (vevents_lines ids 0 l))).
Proof.
  unfold ical_text, enclosed. cbn [lines_text]. rewrite <- app_assoc, !lines_text_app, vevents_text, header_text, !ical_line_text. cbn [lines_text]. rewrite ?app_assoc'. cbn [append]. reflexivity.
Qed.

(** Dates *)
Local Open Scope Z_scope.
Lemma compact_date_means t : 0 <= time_year t <= 9999 -> date_means (compact_date t) (local_day t).
Proof.
  intros Y. exists (time_year t), (time_month t), (time_mday t).
  assert (Cd : civil_date (time_year t) (time_month t) (time_mday t)).
  { apply civil_iff. unfold time_year, time_month, time_mday, days_in. pose proof (mday_of_day_spec (local_day t)) as [H1 H2]. pose proof (month_of_day_range (local_day t)) as Hm. lia. }
  split; [exact Y|]. split; [exact Cd|]. apply civil_range in Cd. split; [unfold compact_date; rewrite four_padded, !two_padded by lia; reflexivity|]. unfold time_year, time_month, time_mday. rewrite day_number_civil. reflexivity.
Qed.
Lemma compact_time_means t : 0 <= time_year (time_utc t) <= 9999 -> utc_means (compact_time t) (t_ns t / second_ns).
Proof.
  intros Y. unfold compact_time. cbv zeta. set (u := time_utc t) in *. set (s := clock_ns u / second_ns).
  pose proof (clock_range u) as R. unfold day_ns in R.
  assert (Rs : 0 <= s < 86400) by (unfold s, second_ns; split; [apply Z.div_pos; lia|apply Z.div_lt_upper_bound; lia]).
  assert (Rh : 0 <= s / 3600 < 24) by (split; [apply Z.div_pos; lia|apply Z.div_lt_upper_bound; lia]).
  assert (Rmi : 0 <= s / 60 mod 60 < 60) by (apply Z.mod_pos_bound; lia). assert (Rse : 0 <= s mod 60 < 60) by (apply Z.mod_pos_bound; lia).
  exists (compact_date u), (local_day u), (s / 3600), (s / 60 mod 60), (s mod 60).
  split; [apply compact_date_means; exact Y|]. split; [exact Rh|]. split; [exact Rmi|]. split; [exact Rse|]. split; [rewrite !two_padded by lia; reflexivity|].
  unfold s, clock_ns, local_day, local_ns, u, time_utc, day_ns, second_ns. cbn [t_ns t_off]. rewrite Z.add_0_r. set (n := t_ns t).
  set (d := n / 86400000000000). set (q := n mod 86400000000000). pose proof (Z.div_mod n 86400000000000). pose proof (Z.mod_pos_bound n 86400000000000).
  set (w := q / 1000000000). pose proof (Z.div_mod q 1000000000). pose proof (Z.mod_pos_bound q 1000000000).
  pose proof (Z.div_mod w 60). pose proof (Z.div_mod (w / 60) 60). assert (w / 3600 = w / 60 / 60) by (rewrite Z.div_div by lia; reflexivity).
  symmetry. assert (E : (((d * 24 + w / 3600) * 60 + w / 60 mod 60) * 60 + w mod 60) = d * 86400 + w) by lia. rewrite E. apply (Z.div_unique_pos _ _ _ (q mod 1000000000)); [lia|]. lia.
Qed.
