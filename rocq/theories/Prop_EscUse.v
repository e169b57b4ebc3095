(** C54: using the embedded files. *)
From Coq Require Import ZArith Lia Bool List String Ascii.
From Verif Require Import Text Esc EscUse P_Esc Prop_Esc.
Import ListNotations.
Local Open Scope string_scope.

(** The name an operation looks up, if any. *)
Definition looked_up (o : op) : option string :=
  match o with
  | FSByte n | FSMustByte n | FSString n | FSMustString n | Open n => Some n
  | DirOpen d n => Some (d ++ n)
  | _ => None
  end.
(** The spelling by which file [k] was first looked up. *)
Fixpoint first_spelling (k : string) (os : list op) : option string :=
  match os with
  | [] => None
  | o :: os' => match looked_up o with
                | Some n => if String.eqb (clean n) k then Some n else first_spelling k os'
                | None => first_spelling k os'
                end
  end.
(** The bytes of file [k], originally [b], after the writes made since it was first looked up. *)
Fixpoint written (k b : string) (loaded : bool) (os : list op) : string :=
  match os with
  | [] => b
  | Write k' i c :: os' => written k (if loaded && String.eqb k' k then poke b i c else b) loaded os'
  | o :: os' => written k b (loaded || match looked_up o with Some n => String.eqb (clean n) k | None => false end) os'
  end.
Definition is_write (o : op) : bool := match o with Write _ _ _ => true | _ => false end.
Lemma written_unchanged k b os : forall l, forallb (fun o => negb (is_write o)) os = true -> written k b l os = b.
Proof.
  induction os as [|o os IH]; intros l H; cbn [written forallb] in *; [reflexivity|]. apply andb_prop in H. destruct H as [H1 H2].
  destruct o; try (apply IH; exact H2). discriminate H1.
Qed.

Section use.
Variable table : string -> option asset.
(** The files as they must be after a history. *)
Definition file_ok (os : list op) (k : string) (f : file) : Prop :=
  match table k with
  | None => f_data f = ""
  | Some a => match first_spelling k os with
              | None => f = fresh_file
              | Some n => f_once f = Finished /\ f_name f = base n /\
                          forall b, content a b -> f_data f = written k b false os
              end
  end.
Lemma first_spelling_app k os o : first_spelling k (os ++ [o]) =
  match first_spelling k os with
  | Some n => Some n
  | None => match looked_up o with Some n => if String.eqb (clean n) k then Some n else None | None => None end
  end.
Proof.
  induction os as [|o' os IH]; cbn [first_spelling app]; [reflexivity|]. destruct (looked_up o') as [n|]; [|exact IH]. destruct (clean n =? k); [reflexivity|exact IH].
Qed.
Definition loads (k : string) (os : list op) : bool := match first_spelling k os with Some _ => true | None => false end.
Lemma written_app k b os o : forall l, written k b l (os ++ [o]) =
  match o with
  | Write k' i c => if (l || loads k os) && String.eqb k' k then poke (written k b l os) i c else written k b l os
  | _ => written k b l os
  end.
Proof.
  unfold loads. revert b. induction os as [|o' os IH]; intros b l; cbn [written app first_spelling].
  - rewrite orb_false_r. destruct o; cbn [written]; reflexivity.
  - assert (E : forall n, l || match (if clean n =? k then Some n else first_spelling k os) with Some _ => true | None => false end =
                     (l || (clean n =? k)) || match first_spelling k os with Some _ => true | None => false end).
    { intros n. destruct (clean n =? k), l; cbn; try reflexivity; destruct (first_spelling k os); reflexivity. }
    destruct o'; rewrite IH; cbn [looked_up]; try rewrite E; try rewrite orb_false_r; try reflexivity.
Qed.
Lemma first_loaded k os : loads k os = false -> first_spelling k os = None.
Proof. unfold loads. destruct (first_spelling k os); [discriminate|reflexivity]. Qed.

Lemma not_loaded_written k b os : first_spelling k os = None -> written k b false os = b.
Proof.
  induction os as [|o os IH]; cbn [first_spelling written]; [reflexivity|]. destruct o; cbn [looked_up]; intros H; try (apply IH; exact H).
  all: destruct (clean _ =? k); [discriminate|apply IH; exact H].
Qed.
Lemma prepare_ok os fs n : (forall k, file_ok os k (fs k)) -> forall o, looked_up o = Some n ->
  let '(fs', e) := prepare table fs n in
  (forall k, file_ok (os ++ [o]) k (fs' k)) /\
  match table (clean n) with
  | None => e = Some ENotExist
  | Some a => forall b, content a b -> e = None /\ f_data (fs' (clean n)) = written (clean n) b false os
  end.
Proof.
  intros H o Ho.
  assert (Wo : forall k b, written k b false (os ++ [o]) = written k b false os) by (intros k b; rewrite written_app; destruct o; try reflexivity; discriminate).
  assert (Other : forall k, k <> clean n -> file_ok (os ++ [o]) k (fs k)).
  { intros k N. specialize (H k). unfold file_ok in *. destruct (table k); [|exact H]. rewrite first_spelling_app, Ho.
    destruct (first_spelling k os); [destruct H as (H1 & H2 & H3); split; [exact H1|]; split; [exact H2|]; intros b Hb; rewrite Wo; auto|].
    destruct (clean n =? k) eqn:E; [apply String.eqb_eq in E; congruence|exact H]. }
  unfold prepare. destruct (table (clean n)) as [a|] eqn:T.
  - pose proof (H (clean n)) as Hn. unfold file_ok in Hn. rewrite T in Hn. destruct (first_spelling (clean n) os) as [m|] eqn:Fs.
    + destruct Hn as (H1 & H2 & H3). rewrite H1. split.
      * intros k. destruct (string_dec k (clean n)) as [->|N]; [|auto]. unfold file_ok. rewrite T, first_spelling_app, Fs. split; [exact H1|]. split; [exact H2|].
        intros b Hb. rewrite Wo. auto.
      * intros b Hb. split; [reflexivity|auto].
    + rewrite Hn. cbn [f_once fresh_file f_data f_decoded].
      assert (New : forall f, f_once f = Finished -> f_name f = base n -> (forall b, content a b -> f_data f = b) ->
        (forall k, file_ok (os ++ [o]) k (put fs (clean n) f k))).
      { intros f F1 F2 F3 k. destruct (string_dec k (clean n)) as [->|N]; [|rewrite put_other by exact N; auto]. rewrite put_same.
        unfold file_ok. rewrite T, first_spelling_app, Fs, Ho, String.eqb_refl. split; [exact F1|]. split; [exact F2|].
        intros b Hb. rewrite Wo. rewrite (F3 b Hb). symmetry. apply not_loaded_written. exact Fs. }
      destruct (as_size a =? 0)%Z eqn:Z; [|destruct (as_decoding a) as [|b0 e0] eqn:D].
      * split; [apply New; try reflexivity|]; intros b [[Z0 ->]|[Z0 _]]; cbn; auto; try lia. split; [reflexivity|]. rewrite put_same. cbn. symmetry. apply not_loaded_written. exact Fs.
      * split; [apply New; try reflexivity|]; intros b [[Z0 _]|[_ D']]; try lia; congruence.
      * split; [apply New; try reflexivity|]; intros b [[Z0 _]|[_ D']]; try lia; cbn; try congruence. rewrite put_same. cbn.
        rewrite D in D'. injection D' as -> ->. split; [reflexivity|]. symmetry. apply not_loaded_written. exact Fs.
  - split; [|reflexivity]. intros k. destruct (string_dec k (clean n)) as [->|N]; [|auto]. specialize (H (clean n)). unfold file_ok in *. rewrite T in *. exact H.
Qed.
Definition handle_ok (os : list op) (h : handle) : Prop := exists a n, table (h_key h) = Some a /\ first_spelling (h_key h) os = Some n.
Definition ok (os : list op) (u : use) : Prop := (forall k, file_ok os k (u_files u k)) /\ Forall (handle_ok os) (u_open u).
Lemma handle_more os o h : handle_ok os h -> handle_ok (os ++ [o]) h.
Proof. intros (a & n & H1 & H2). exists a, n. split; [exact H1|]. rewrite first_spelling_app, H2. reflexivity. Qed.
Lemma plain_op os o fs : looked_up o = None -> is_write o = false -> (forall k, file_ok os k (fs k)) -> forall k, file_ok (os ++ [o]) k (fs k).
Proof.
  intros L W H k. specialize (H k). unfold file_ok in *. destruct (table k); [|exact H]. rewrite first_spelling_app, L.
  destruct (first_spelling k os); [|exact H]. destruct H as (H1 & H2 & H3). split; [exact H1|]. split; [exact H2|].
  intros b Hb. rewrite written_app. destruct o; try discriminate; auto.
Qed.
Lemma set_nth_all {A} (P : A -> Prop) l : forall i x, Forall P l -> P x -> Forall P (set_nth l i x).
Proof. induction l as [|y l IH]; intros [|i] x H Hx; cbn; try constructor; inversion H; subst; auto. Qed.
Lemma seek_key fs x off w : h_key (fst (seek fs x off w)) = h_key x.
Proof. unfold seek. cbv zeta. repeat match goal with |- context [if ?b then _ else _] => destruct b end; reflexivity. Qed.
Lemma exec_ok os u o : ok os u -> ok (os ++ [o]) (fst (exec table u o)).
Proof.
  intros [F O]. assert (O' : Forall (handle_ok (os ++ [o])) (u_open u)) by (eapply Forall_impl; [|exact O]; intros h; apply handle_more).
  assert (P : forall n, looked_up o = Some n -> match prepare table (u_files u) n with
     (fs, e) => (forall k, file_ok (os ++ [o]) k (fs k)) /\ (e = None -> handle_ok (os ++ [o]) (mkHandle (clean n) 0)) end).
  { intros n L. pose proof (prepare_ok os (u_files u) n F o L) as P. destruct (prepare table (u_files u) n) as [fs e] eqn:E. destruct P as [P1 P2]. split; [exact P1|].
    intros ->. destruct (table (clean n)) as [a|] eqn:T; [|discriminate]. unfold handle_ok. cbn [h_key]. rewrite T, first_spelling_app, L.
    exists a. destruct (first_spelling (clean n) os) as [m|]; [exists m; auto|]. exists n. rewrite String.eqb_refl. auto. }
  destruct o as [n|n|n|n|n|d n|h n|h off w|h|h c|h|k i c]; cbn [exec looked_up] in *; unfold fs_byte, fs_open.
  1-6: specialize (P _ eq_refl); destruct (prepare table (u_files u) _) as [fs [e|]]; destruct P as [P1 P2]; split; cbn [fst u_files u_open]; auto.
  1-2: apply Forall_app; split; [exact O'|]; constructor; [apply P2; reflexivity|constructor].
  - pose proof (plain_op os (Read h n) (u_files u) eq_refl eq_refl F) as F'. destruct (nth_error (u_open u) h) as [x|] eqn:E; [|split; assumption].
    assert (Hx : handle_ok (os ++ [Read h n]) x) by (eapply Forall_forall; [exact O'|eapply nth_error_In; exact E]).
    unfold read. destruct (_ <=? _)%Z; cbn [fst]; (split; [exact F'|]); apply set_nth_all; auto.
  - pose proof (plain_op os (Seek h off w) (u_files u) eq_refl eq_refl F) as F'. destruct (nth_error (u_open u) h) as [x|] eqn:E; [|split; assumption].
    assert (Hx : handle_ok (os ++ [Seek h off w]) x) by (eapply Forall_forall; [exact O'|eapply nth_error_In; exact E]).
    pose proof (seek_key (u_files u) x off w) as K. destruct (seek (u_files u) x off w) as [x' r]. split; [exact F'|]. apply set_nth_all; [exact O'|].
    destruct Hx as (a & m & Hx). exists a, m. cbn [fst] in K. rewrite K. exact Hx.
  - split; [exact (plain_op os (Close h) (u_files u) eq_refl eq_refl F)|exact O'].
  - split; [exact (plain_op os (Readdir h c) (u_files u) eq_refl eq_refl F)|exact O'].
  - pose proof (plain_op os (Stat h) (u_files u) eq_refl eq_refl F) as F'. destruct (nth_error (u_open u) h) as [x|]; [|split; assumption].
    destruct (table (h_key x)); split; assumption.
  - split; [|exact O']. cbn [fst u_files]. intros k'. pose proof (F k') as Fk. unfold file_ok in *.
    destruct (string_dec k' k) as [->|N].
    + rewrite put_same. destruct (table k) as [a|]; [|cbn [set_data f_data]; rewrite Fk; reflexivity].
      rewrite first_spelling_app. cbn [looked_up]. destruct (first_spelling k os) as [n|] eqn:E; [|rewrite Fk; reflexivity].
      destruct Fk as (F1 & F2 & F3). split; [exact F1|]. split; [exact F2|]. intros b Hb. rewrite written_app. unfold loads. rewrite E, String.eqb_refl. cbn.
      rewrite (F3 b Hb). reflexivity.
    + rewrite put_other by exact N. destruct (table k') as [a|]; [|exact Fk]. rewrite first_spelling_app. cbn [looked_up].
      destruct (first_spelling k' os) as [n|] eqn:E; [|exact Fk]. destruct Fk as (F1 & F2 & F3). split; [exact F1|]. split; [exact F2|].
      intros b Hb. rewrite written_app. destruct (k =? k') eqn:Q; [apply String.eqb_eq in Q; congruence|]. rewrite andb_false_r. auto.
Qed.
Lemma start_ok : ok [] start.
Proof. split; [|constructor]. intros k. unfold file_ok. cbn. destruct (table k); reflexivity. Qed.
Lemma after_ok os : forall pre u, ok pre u -> ok (pre ++ os) (after table u os).
Proof.
  induction os as [|o os IH]; intros pre u H; cbn [after]; [rewrite app_nil_r; exact H|].
  replace (pre ++ o :: os)%list with ((pre ++ [o]) ++ os)%list by (rewrite <- app_assoc; reflexivity). apply IH. apply exec_ok. exact H.
Qed.
Lemma history_ok os : ok os (after table start os).
Proof. exact (after_ok os [] start start_ok). Qed.
End use.

(** After any history of calls, reads and writes: the four accessors agree, and give the content
    as changed by the writes of all callers since the file was first looked up. *)
Theorem C54_reads table os n a b : table (clean n) = Some a -> content a b ->
  let result o := snd (exec table (after table start os) o) in
  let now := written (clean n) b false os in
  result (FSByte n) = RBytes now /\ result (FSMustByte n) = RBytes now /\
  result (FSString n) = RString now None /\ result (FSMustString n) = RString now None.
Proof.
  intros T C result now. destruct (history_ok table os) as [F _].
  pose proof (prepare_ok table os _ n F (FSByte n) eq_refl) as P. unfold result, exec, fs_byte.
  destruct (prepare table (u_files (after table start os)) n) as [fs e]. destruct P as [_ P]. rewrite T in P. destruct (P b C) as [-> E]. cbn [snd]. rewrite E. auto.
Qed.
(** If nobody writes, that is the content of the file itself. *)
Theorem C54_constant table os n a b : table (clean n) = Some a -> content a b -> forallb (fun o => negb (is_write o)) os = true ->
  snd (exec table (after table start os) (FSByte n)) = RBytes b.
Proof. intros T C W. rewrite (proj1 (C54_reads table os n a b T C)), written_unchanged by exact W. reflexivity. Qed.
(** A name that is not a file: an error, a panic or the empty string with an error. *)
Theorem C54_absent table os n : table (clean n) = None ->
  let result o := snd (exec table (after table start os) o) in
  result (FSByte n) = RError ENotExist /\ result (FSMustByte n) = RPanic ENotExist /\
  result (FSString n) = RString "" (Some ENotExist) /\ result (FSMustString n) = RPanic ENotExist /\ result (Open n) = RError ENotExist.
Proof. intros T result. unfold result, exec, fs_byte, fs_open, prepare. rewrite T. auto. Qed.

(** ** Open files *)
(** What was read through handle [h] in a history with the given results. *)
Fixpoint received (h : nat) (os : list op) (rs : list result) : string :=
  match os, rs with
  | Read h' _ :: os', RRead b :: rs' => if Nat.eqb h' h then b ++ received h os' rs' else received h os' rs'
  | _ :: os', _ :: rs' => received h os' rs'
  | _, _ => ""
  end.
Definition seeks (h : nat) (o : op) : bool := match o with Seek h' _ _ => Nat.eqb h' h | _ => false end.
Lemma drop_drop s : forall m n, drop n (drop m s) = drop (m + n) s.
Proof. induction s as [|c s IH]; intros [|m] n; cbn [drop Nat.add]; try reflexivity; [destruct n; reflexivity|apply IH]. Qed.
Lemma take_drop s : forall n, take n s ++ drop n s = s.
Proof. induction s as [|c s IH]; intros [|n]; cbn; try reflexivity. rewrite IH. reflexivity. Qed.
Lemma drop_take s : forall n, drop (String.length (take n s)) s = drop n s.
Proof. induction s as [|c s IH]; intros [|n]; cbn; try reflexivity. apply IH. Qed.
Lemma drop_all s : forall n, (String.length s <= n)%nat -> drop n s = "".
Proof. induction s as [|c s IH]; intros [|n] H; cbn in *; try reflexivity; try lia. apply IH. lia. Qed.
Lemma drop_length s : forall n, String.length (drop n s) = (String.length s - n)%nat.
Proof. induction s as [|c s IH]; intros [|n]; cbn; try reflexivity. apply IH. Qed.
Lemma app_assoc_s a b c : (a ++ b) ++ c = a ++ b ++ c.
Proof. induction a as [|x a IH]; cbn; [reflexivity|]. rewrite IH. reflexivity. Qed.
Lemma nth_app {A} (l l' : list A) i x : nth_error l i = Some x -> nth_error (l ++ l') i = Some x.
Proof. intros H. rewrite nth_error_app1; [exact H|]. apply nth_error_Some. congruence. Qed.
(** What one operation other than a write does to a handle. *)
Lemma handle_step table u o h k p : is_write o = false -> seeks h o = false -> nth_error (u_open u) h = Some (mkHandle k p) ->
  nth_error (u_open (fst (exec table u o))) h =
  Some (match o with
        | Read h' n => if Nat.eqb h' h then fst (read (u_files u) (mkHandle k p) n) else mkHandle k p
        | _ => mkHandle k p
        end).
Proof.
  intros W S H. destruct o as [n|n|n|n|n|d n|h' n|h' off w|h'|h' c|h'|k' i c]; cbn [exec] in *; unfold fs_byte, fs_open; try discriminate.
  1-6: destruct (prepare table (u_files u) _) as [fs [e|]]; cbn [fst u_open]; try apply nth_app; exact H.
  - destruct (Nat.eqb h' h) eqn:E.
    + apply Nat.eqb_eq in E. subst. rewrite H. destruct (read (u_files u) (mkHandle k p) n) as [x' r]. cbn [fst u_open]. rewrite (nth_set _ h h _ _ H), Nat.eqb_refl. reflexivity.
    + destruct (nth_error (u_open u) h') as [x|] eqn:X; [|exact H]. destruct (read (u_files u) x n) as [x' r]. cbn [fst u_open].
      rewrite (nth_set _ h' h _ _ X). rewrite E. exact H.
  - cbn [seeks] in S. destruct (nth_error (u_open u) h') as [x|] eqn:X; [|exact H]. destruct (seek (u_files u) x off w) as [x' r]. cbn [fst u_open]. rewrite (nth_set _ h' h _ _ X). rewrite S. exact H.
  - exact H.
  - exact H.
  - destruct (nth_error (u_open u) h') as [x|]; [|exact H]. destruct (table (h_key x)); exact H.
Qed.
Lemma data_now table os u k p a b h : ok table os u -> forallb (fun o => negb (is_write o)) os = true ->
  nth_error (u_open u) h = Some (mkHandle k p) -> table k = Some a -> content a b -> f_data (u_files u k) = b.
Proof.
  intros [F O] W H T C. assert (Hx : handle_ok table os (mkHandle k p)) by (eapply Forall_forall; [exact O|eapply nth_error_In; exact H]).
  destruct Hx as (a' & n & T' & Fs). cbn [h_key] in *. specialize (F k). unfold file_ok in F. rewrite T, Fs in F. destruct F as (_ & _ & F).
  rewrite (F b C). apply written_unchanged. exact W.
Qed.
Lemma readers table a b k h : table k = Some a -> content a b -> forall later os u p,
  ok table os u -> forallb (fun o => negb (is_write o)) os = true -> forallb (fun o => negb (is_write o || seeks h o)) later = true ->
  nth_error (u_open u) h = Some (mkHandle k p) -> (0 <= p)%Z ->
  exists q, drop (Z.to_nat p) b = received h later (history table u later) ++ drop (Z.to_nat q) b /\ (0 <= q)%Z /\
    nth_error (u_open (after table u later)) h = Some (mkHandle k q) /\ f_data (u_files (after table u later) k) = b.
Proof.
  intros T C. induction later as [|o later IH]; intros os u p OK W L H Hp0; cbn [history after received].
  - exists p. split; [reflexivity|]. split; [exact Hp0|]. split; [exact H|]. eapply data_now; eassumption.
  - cbn [forallb] in L. apply andb_prop in L. destruct L as [Lo L]. rewrite negb_orb in Lo. apply andb_prop in Lo. destruct Lo as [Wo So].
    apply negb_true_iff in Wo, So. pose proof (data_now table os u k p a b h OK W H T C) as D.
    pose proof (exec_ok table os u o OK) as OK'. pose proof (handle_step table u o h k p Wo So H) as H'.
    assert (W' : forallb (fun o => negb (is_write o)) (os ++ [o]) = true) by (rewrite forallb_app, W; cbn; rewrite Wo; reflexivity).
    destruct (exec table u o) as [u' r] eqn:E. cbn [fst] in *.
    assert (Plain : forall p', nth_error (u_open u') h = Some (mkHandle k p') -> (0 <= p')%Z -> exists q, drop (Z.to_nat p') b = received h later (history table u' later) ++ drop (Z.to_nat q) b /\ (0 <= q)%Z /\
        nth_error (u_open (after table u' later)) h = Some (mkHandle k q) /\ f_data (u_files (after table u' later) k) = b) by (intros p' Hp; exact (IH _ u' p' OK' W' L Hp)).
    destruct o as [n|n|n|n|n|d n|h' n|h' off w|h'|h' c|h'|k' i c]; try (exact (Plain p H' Hp0)).
    destruct (Nat.eqb h' h) eqn:Eh.
    + apply Nat.eqb_eq in Eh. subst h'. unfold exec in E. rewrite H in E. unfold read in E, H'. cbn [h_key h_pos] in E, H'. rewrite D in E, H'.
      destruct (_ <=? p)%Z eqn:Z; injection E as Eu Er; cbn [fst] in H'; subst r.
      * exact (Plain p H' Hp0).
      * destruct (Plain _ H' ltac:(lia)) as (q & Q1 & Q2). exists q. split; [|exact Q2]. rewrite Z2Nat.inj_add, Nat2Z.id in Q1 by lia. rewrite app_assoc_s, <- Q1, <- drop_drop, drop_take. symmetry. apply take_drop.
    + destruct r; exact (Plain p H' Hp0).
Qed.
(** Every handle reads the file from its start to its end, in order, whatever else is done by
    other handles and whatever is closed; then it is at the end. *)
Theorem C54_readers table before n a b later h : table (clean n) = Some a -> content a b ->
  let opened := exec table (after table start before) (Open n) in
  snd opened = RHandle h ->
  forallb (fun o => negb (is_write o)) before = true -> forallb (fun o => negb (is_write o || seeks h o)) later = true ->
  exists rest, b = received h later (history table (fst opened) later) ++ rest /\
    forall m, snd (exec table (after table (fst opened) later) (Read h (S m))) = (if rest =? "" then REof else RRead (take (S m) rest)).
Proof.
  intros T C opened R W L. pose proof (history_ok table before) as OK. pose proof (exec_ok table before _ (Open n) OK) as OK'. fold opened in OK'.
  assert (H : nth_error (u_open (fst opened)) h = Some (mkHandle (clean n) 0)).
  { unfold opened, exec, fs_open in R |- *. destruct (prepare table _ n) as [fs [e|]]; [discriminate|]. cbn [fst snd u_open] in *. injection R as <-.
    rewrite nth_error_app2 by lia. rewrite Nat.sub_diag. reflexivity. }
  assert (W' : forallb (fun o => negb (is_write o)) (before ++ [Open n]) = true) by (rewrite forallb_app, W; reflexivity).
  destruct (readers table a b (clean n) h T C later _ (fst opened) 0%Z OK' W' L H ltac:(lia)) as (q & Q1 & Q0 & Q2 & Q3).
  exists (drop (Z.to_nat q) b). split; [exact Q1|]. intros m. unfold exec. rewrite Q2. unfold read. cbn [h_key h_pos]. rewrite Q3.
  destruct (Z.leb_spec (Z.of_nat (String.length b)) q) as [G|G].
  - rewrite drop_all by lia. reflexivity.
  - destruct (String.eqb_spec (drop (Z.to_nat q) b) "") as [E|E]; [|reflexivity]. apply (f_equal String.length) in E. rewrite drop_length in E. cbn in E. lia.
Qed.

Lemma after_app table os1 : forall os2 u, after table u (os1 ++ os2) = after table (after table u os1) os2.
Proof. induction os1 as [|o os1 IH]; intros os2 u; cbn [after app]; [reflexivity|apply IH]. Qed.
(** A handle stays a handle of the file it was opened for. *)
Lemma opened_handle table os n h later : snd (exec table (after table start os) (Open n)) = RHandle h ->
  exists q, nth_error (u_open (after table start (os ++ Open n :: later))) h = Some (mkHandle (clean n) q).
Proof.
  intros R. rewrite after_app. cbn [after].
  assert (H0 : exists q, nth_error (u_open (fst (exec table (after table start os) (Open n)))) h = Some (mkHandle (clean n) q)).
  { exists 0%Z. unfold exec, fs_open in R |- *. destruct (prepare table _ n) as [fs [e|]]; [discriminate|]. cbn [fst snd u_open] in *. injection R as <-.
    rewrite nth_error_app2 by lia. rewrite Nat.sub_diag. reflexivity. }
  revert H0. generalize (fst (exec table (after table start os) (Open n))). clear. induction later as [|o later IH]; intros u (q & H); cbn [after]; [eauto|]. apply IH.
  destruct (is_write o) eqn:W; [destruct o; try discriminate; cbn [exec fst u_open]; eauto|].
  destruct (seeks h o) eqn:S; [|exists (match o with Read h' m => if Nat.eqb h' h then h_pos (fst (read (u_files u) (mkHandle (clean n) q) m)) else q | _ => q end)].
  - destruct o; try discriminate. cbn [seeks] in S. apply Nat.eqb_eq in S. subst. cbn [exec]. rewrite H. pose proof (seek_key (u_files u) (mkHandle (clean n) q) offset whence) as K. destruct (seek _ _ _ _) as [[k' p'] r]. cbn [fst h_key] in K. subst k'. cbn [fst u_open h_key]. rewrite (nth_set _ h h _ _ H), Nat.eqb_refl. eauto.
  - rewrite (handle_step table u o h _ q W S H). destruct o; try reflexivity. destruct (Nat.eqb h0 h); [|reflexivity]. unfold read. destruct (_ <=? _)%Z; reflexivity.
Qed.
(** The name reported for an open file is the base of the first spelling used by anyone; size, time and
    kind are those embedded, the mode is 0. *)
Theorem C54_name table os n a h : table (clean n) = Some a -> snd (exec table (after table start os) (Open n)) = RHandle h ->
  forall later, exists m, first_spelling (clean n) (os ++ Open n :: later) = Some m /\
    snd (exec table (after table start (os ++ Open n :: later)) (Stat h)) = RStat (base m) (as_size a) 0 (as_modtime a) (as_dir a).
Proof.
  intros T R later. pose proof (history_ok table (os ++ Open n :: later)) as [F O]. destruct (opened_handle table os n h later R) as (q & H).
  assert (Hx : handle_ok table (os ++ Open n :: later) (mkHandle (clean n) q)) by (eapply Forall_forall; [exact O|eapply nth_error_In; exact H]).
  destruct Hx as (a' & m & T' & Fs). cbn [h_key] in *. exists m. split; [exact Fs|]. cbn [exec]. rewrite H. cbn [h_key]. rewrite T. cbn [snd].
  specialize (F (clean n)). unfold file_ok in F. rewrite T, Fs in F. destruct F as (_ & -> & _). reflexivity.
Qed.

(** ** The calls of C45, one at a time *)
Lemma lone table fs fs' p p' : next table fs p = Some (fs', p') -> step table (mkState fs [p]) (mkState fs' [p']).
Proof. intros H. exact (step_call table fs [p] 0 p fs' p' eq_refl H). Qed.
(** A call of FSByte that runs alone ends, and does what [prepare] and [fs_byte] say here. *)
Theorem C54_sequential table fs n : f_once (fs (clean n)) <> Busy ->
  exists steps fs' r, run table steps (mkState fs [Calling n]) (mkState fs' [Returned n r]) /\
    (forall k, fs' k = fst (prepare table fs n) k) /\
    r = match snd (fs_byte table (mkUse fs []) n) with inl b => Data b | inr ENotExist => NotExist | inr ECorrupt => Corrupt end.
Proof.
  intros B. unfold fs_byte, prepare. cbn [u_files u_open]. destruct (table (clean n)) as [a|] eqn:T.
  - destruct (f_once (fs (clean n))) eqn:On; [|congruence|].
    + set (k0 := clean n) in *. set (f := fs k0) in *.
      set (fs1 := put fs k0 (mkFile Busy (f_data f) (f_name f) (f_decoded f))).
      set (fs2 := put fs1 k0 (mkFile Busy (f_data f) (base n) (f_decoded f))).
      assert (E1 : next table fs (Waiting n) = Some (fs1, Naming n)) by (cbn [next]; fold k0 f; rewrite On; reflexivity).
      assert (F1 : fs1 k0 = mkFile Busy (f_data f) (f_name f) (f_decoded f)) by apply put_same.
      assert (F2 : fs2 k0 = mkFile Busy (f_data f) (base n) (f_decoded f)) by apply put_same.
      assert (E2 : next table fs1 (Naming n) = Some (fs2, if (as_size a =? 0)%Z then Leaving n false else Decoding n))
        by (cbn [next]; fold k0; rewrite F1, T; reflexivity).
      assert (R2 : run table 3 (mkState fs [Calling n]) (mkState fs2 [if (as_size a =? 0)%Z then Leaving n false else Decoding n])).
      { eapply run_step; [eapply run_step; [eapply run_step; [apply run_refl|]|]|]; apply lone; [cbn [next]; fold k0; rewrite T; reflexivity|exact E1|exact E2]. }
      assert (Tail : forall fs3 e m, run table m (mkState fs [Calling n]) (mkState fs3 [Leaving n e]) -> forall d x c, fs3 k0 = mkFile x d (base n) c ->
        (forall g k, put fs3 k0 g k = put fs k0 g k) ->
        exists steps fs' r, run table steps (mkState fs [Calling n]) (mkState fs' [Returned n r]) /\
          (forall k, fs' k = put fs k0 (mkFile Finished d (base n) c) k) /\ r = if e then Corrupt else Data d).
      { intros fs3 e m R d x c F3 P3. set (fs4 := put fs3 k0 (mkFile Finished d (base n) c)).
        assert (E3 : next table fs3 (Leaving n e) = Some (fs4, Checking n e)) by (cbn [next]; fold k0; rewrite F3; reflexivity).
        destruct e.
        - exists (S (S m)), fs4, Corrupt. split; [|split; [intros k; apply P3|reflexivity]].
          eapply run_step; [eapply run_step; [exact R|]|]; apply lone; [exact E3|reflexivity].
        - exists (S (S (S m))), fs4, (Data d). split; [|split; [intros k; apply P3|reflexivity]].
          eapply run_step; [eapply run_step; [eapply run_step; [exact R|]|]|]; apply lone; [exact E3|reflexivity|].
          cbn [next]. fold k0. unfold fs4. rewrite put_same. reflexivity. }
      assert (P2 : forall g k, put fs2 k0 g k = put fs k0 g k) by (intros g k; unfold fs2, fs1, put; destruct (k =? k0); reflexivity).
      destruct (as_size a =? 0)%Z eqn:Z.
      * destruct (Tail fs2 false 3%nat R2 _ _ _ F2 P2) as (m & fs' & r & H1 & H2 & H3). exists m, fs', r. cbn [fst snd]. rewrite put_same. cbn [f_data]. auto.
      * destruct (as_decoding a) as [|b e] eqn:D.
        -- set (fs3 := put fs2 k0 (mkFile Busy (f_data f) (base n) (S (f_decoded f)))).
           assert (R3 : run table 4 (mkState fs [Calling n]) (mkState fs3 [Leaving n true])).
           { eapply run_step; [exact R2|]. apply lone. cbn [next]. fold k0. rewrite F2, T, D. reflexivity. }
           destruct (Tail fs3 true 4%nat R3 (f_data f) Busy (S (f_decoded f)) (put_same _ _ _)) as (m & fs' & r & H1 & H2 & H3).
           { intros g k. unfold fs3. transitivity (put fs2 k0 g k); [unfold put; destruct (k =? k0); reflexivity|apply P2]. }
           exists m, fs', r. cbn [fst snd]. auto.
        -- set (fs3 := put fs2 k0 (mkFile Busy b (base n) (S (f_decoded f)))).
           assert (R3 : run table 4 (mkState fs [Calling n]) (mkState fs3 [Leaving n e])).
           { eapply run_step; [exact R2|]. apply lone. cbn [next]. fold k0. rewrite F2, T, D. reflexivity. }
           destruct (Tail fs3 e 4%nat R3 b Busy (S (f_decoded f)) (put_same _ _ _)) as (m & fs' & r & H1 & H2 & H3).
           { intros g k. unfold fs3. transitivity (put fs2 k0 g k); [unfold put; destruct (k =? k0); reflexivity|apply P2]. }
           exists m, fs', r. destruct e; cbn [fst snd]; [auto|]. rewrite put_same. cbn [f_data]. auto.
    + exists 4%nat, fs, (Data (f_data (fs (clean n)))). split; [|split; reflexivity].
      assert (E1 : next table fs (Calling n) = Some (fs, Waiting n)) by (cbn [next]; rewrite T; reflexivity).
      assert (E2 : next table fs (Waiting n) = Some (fs, Checking n false)) by (cbn [next]; rewrite On; reflexivity).
      eapply run_step; [eapply run_step; [eapply run_step; [eapply run_step; [apply run_refl|]|]|]|]; apply lone; [exact E1|exact E2|reflexivity|reflexivity].
  - exists 1%nat, fs, NotExist. split; [|split; reflexivity]. eapply run_step; [apply run_refl|]. apply lone. cbn [next]. rewrite T. reflexivity.
Qed.

(** ** Witnesses *)
(** The slice returned is not a copy: one caller's write changes what all others read. *)
Theorem C54_shared_refuted : exists table os n a b, table (clean n) = Some a /\ content a b /\
  snd (exec table (after table start os) (FSString n)) <> RString b None.
Proof.
  exists example_table, [FSByte "/good"; Write "/good" 0 "J"%char], "/good", (mkAsset 5 (ReadBytes "hello" false) false 1439039563 "good"), "hello".
  split; [reflexivity|]. split; [right; split; [discriminate|reflexivity]|]. vm_compute. discriminate.
Qed.
Example C54_reads_example :
  history example_table start [FSByte "/good"; Write "/good" 0 "J"%char; FSString "/x/../good"; FSMustByte "/empty"; Write "/broken" 1 "a"%char; FSString "/broken"; FSMustString "/none"] =
  [RBytes "hello"; RDone; RString "Jello" None; RBytes ""; RDone; RString "" (Some ECorrupt); RPanic ENotExist].
Proof. vm_compute. reflexivity. Qed.
Example C54_readers_example :
  history example_table start [Open "/good"; Read 0 2; Open "/good"; Read 1 4; Read 0 2; Close 1; Read 1 4; Read 0 9; Read 0 1; Seek 0 3 0; Read 0 9] =
  [RHandle 0; RRead "he"; RHandle 1; RRead "hell"; RRead "ll"; RDone; RRead "o"; RRead "o"; REof; RPosition 3; RRead "lo"].
Proof. vm_compute. reflexivity. Qed.
(** A file opened under its own name may report the name ["."] or [".."]. *)
Theorem C54_own_name_refuted : exists table os n h s, clean n = n /\ base n = "good" /\
  snd (exec table (after table start os) (Open n)) = RHandle h /\
  snd (exec table (after table start (os ++ [Open n])) (Stat h)) = RStat ".." s 0 1439039563 false.
Proof. exists example_table, [FSByte "/good/x/.."], "/good", 0%nat, 5%Z. vm_compute. auto. Qed.
(** [Dir] only puts its prefix in front: the slash between must be given, and the prefix does not confine. *)
Theorem C54_dir_refuted : exists table,
  snd (exec table start (DirOpen "/data/astro" "astro-2016.json")) = RError ENotExist /\
  snd (exec table start (DirOpen "/data/astro" "/astro-2016.json")) = RHandle 0 /\
  snd (exec table start (DirOpen "/data/other" "/../astro/astro-2016.json")) = RHandle 0.
Proof.
  exists (fun k => if has_key k then Some (mkAsset 1 (ReadBytes "{" false) false 0 "") else None). vm_compute. auto.
Qed.
