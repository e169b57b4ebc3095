(** C62: an opened embedded file is a seekable reader. *)
From Coq Require Import ZArith Lia Bool List String Ascii.
From Verif Require Import GoInt GoTime Text P_Text Esc EscData EscMeta EscUse P_Esc Prop_Esc Prop_EscUse Assets Prop_Assets.
Import ListNotations.
Local Open Scope string_scope.
Open Scope Z_scope.

Definition len (s : string) : Z := Z.of_nat (String.length s).
(** One operation, seen from handle [h] at position [p] of a file that now holds [data]: the result [r]
    and the position [p'] afterwards. *)
Definition moves (data : string) (h : nat) (o : op) (p : Z) (r : result) (p' : Z) : Prop :=
  match o with
  | Read h' n =>
      if Nat.eqb h' h then
        (len data <= p /\ r = REof /\ p' = p) \/
        (p < len data /\ exists front out back, data = front ++ out ++ back /\ len front = p /\
           (String.length out = n \/ (String.length out < n)%nat /\ back = "") /\ r = RRead out /\ p' = p + len out)
      else p' = p
  | Seek h' offset whence =>
      if Nat.eqb h' h then
        exists target, In (whence, target) [(0, offset); (1, p + offset); (2, len data + offset)] /\
          ((0 <= target < 2 ^ 63 /\ r = RPosition target /\ p' = target) \/ (~ 0 <= target < 2 ^ 63 /\ r = RNegative /\ p' = p)) \/
        ~ In whence [0; 1; 2] /\ r = RWhence /\ p' = p
      else p' = p
  | _ => p' = p
  end.
(** A history [os] has been; operations with their results follow, the file having held [b] when it was embedded. *)
Inductive behaves (k b : string) (h : nat) : list op -> Z -> list (op * result) -> Prop :=
| behaves_nil os p : behaves k b h os p []
| behaves_cons os p o r p' rest : moves (written k b false os) h o p r p' -> behaves k b h (os ++ [o]) p' rest ->
    behaves k b h os p ((o, r) :: rest).

(** ** Proofs *)
Lemma poke_length s : forall i c, String.length (poke s i c) = String.length s.
Proof. induction s as [|d s IH]; intros [|i] c; cbn; try reflexivity. rewrite IH. reflexivity. Qed.
Lemma written_length k os : forall b l, String.length (written k b l os) = String.length b.
Proof.
  induction os as [|o os IH]; intros b l; cbn [written]; [reflexivity|]. destruct o; rewrite IH; try reflexivity.
  destruct (l && _); [apply poke_length|reflexivity].
Qed.
Lemma take_length s : forall n, String.length (take n s) = Nat.min n (String.length s).
Proof. induction s as [|c s IH]; intros [|n]; cbn; try reflexivity. rewrite IH. reflexivity. Qed.
Lemma wrapped z : - 2 ^ 63 <= z < 2 ^ 64 -> (0 <= z < 2 ^ 63 /\ wrap64 z = z) \/ (~ 0 <= z < 2 ^ 63 /\ wrap64 z < 0).
Proof.
  intros H. destruct (Z_lt_dec z (2 ^ 63)) as [L|L].
  - rewrite wrap64_id by (unfold in_int64, two63; lia). lia.
  - right. split; [lia|]. unfold wrap64, two63, two64. replace ((z + 9223372036854775808) mod 18446744073709551616) with (z + 9223372036854775808 - 18446744073709551616); [lia|].
    apply Z.mod_unique with 1; lia.
Qed.
Definition in_range (o : op) : Prop := match o with Seek _ offset _ => - 2 ^ 63 <= offset < 2 ^ 63 | _ => True end.

Lemma one table u o h k p data : nth_error (u_open u) h = Some (mkHandle k p) -> f_data (u_files u k) = data -> 0 <= p < 2 ^ 63 -> len data < 2 ^ 63 -> in_range o ->
  exists p', moves data h o p (snd (exec table u o)) p' /\ 0 <= p' < 2 ^ 63 /\ nth_error (u_open (fst (exec table u o))) h = Some (mkHandle k p').
Proof.
  intros H D P L R. destruct (seeks h o) eqn:S.
  - destruct o as [| | | | | | |h' off w| | | |]; try discriminate. cbn [seeks] in S. cbn [moves]. rewrite S. apply Nat.eqb_eq in S. subst h'. cbn [exec in_range] in *. rewrite H.
    assert (T : forall target z, (w = 0 /\ target = off /\ z = off) \/ (w = 1 /\ target = p + off /\ z = iadd p off) \/ (w = 2 /\ target = len data + off /\ z = iadd (len data) off) ->
      seek (u_files u) (mkHandle k p) off w = (if z <? 0 then (mkHandle k p, RNegative) else (mkHandle k z, RPosition z)) ->
      exists p', (exists target, In (w, target) [(0, off); (1, p + off); (2, len data + off)] /\
          ((0 <= target < 2 ^ 63 /\ snd (seek (u_files u) (mkHandle k p) off w) = RPosition target /\ p' = target) \/ (~ 0 <= target < 2 ^ 63 /\ snd (seek (u_files u) (mkHandle k p) off w) = RNegative /\ p' = p)) \/
        ~ In w [0; 1; 2] /\ snd (seek (u_files u) (mkHandle k p) off w) = RWhence /\ p' = p) /\ 0 <= p' < 2 ^ 63 /\
        fst (seek (u_files u) (mkHandle k p) off w) = mkHandle k p').
    { intros target z C E. rewrite E. assert (W : (0 <= target < 2 ^ 63 /\ z = target) \/ (~ 0 <= target < 2 ^ 63 /\ z < 0)).
      { unfold len in *. destruct C as [(_ & -> & ->)|[(_ & -> & ->)|(_ & -> & ->)]]; [lia| |]; unfold iadd; apply wrapped; lia. }
      assert (I : In (w, target) [(0, off); (1, p + off); (2, len data + off)]) by (destruct C as [(-> & -> & _)|[(-> & -> & _)|(-> & -> & _)]]; cbn; auto).
      destruct W as [[W ->]|[W Z0]].
      - exists target. replace (target <? 0) with false by (symmetry; apply Z.ltb_ge; lia). split; [|split; [lia|reflexivity]]. exists target. left. split; [exact I|]. left. auto.
      - exists p. replace (z <? 0) with true by (symmetry; apply Z.ltb_lt; lia). split; [|split; [lia|reflexivity]]. exists target. left. split; [exact I|]. right. auto. }
    assert (G : exists p', (exists target, In (w, target) [(0, off); (1, p + off); (2, len data + off)] /\
          ((0 <= target < 2 ^ 63 /\ snd (seek (u_files u) (mkHandle k p) off w) = RPosition target /\ p' = target) \/ (~ 0 <= target < 2 ^ 63 /\ snd (seek (u_files u) (mkHandle k p) off w) = RNegative /\ p' = p)) \/
        ~ In w [0; 1; 2] /\ snd (seek (u_files u) (mkHandle k p) off w) = RWhence /\ p' = p) /\ 0 <= p' < 2 ^ 63 /\
        fst (seek (u_files u) (mkHandle k p) off w) = mkHandle k p').
    { unfold seek in *. cbn [h_key h_pos] in *. cbv zeta in *. rewrite D in *. fold (len data) in *.
      destruct (Z.eqb_spec w 0) as [->|W0]; [apply (T off off); [auto|reflexivity]|].
      destruct (Z.eqb_spec w 1) as [->|W1]; [apply (T (p + off) (iadd p off)); [auto|reflexivity]|].
      destruct (Z.eqb_spec w 2) as [->|W2]; [apply (T (len data + off) (iadd (len data) off)); [auto|reflexivity]|].
      exists p. split; [|split; [exact P|reflexivity]]. exists 0. right. cbn. split; [intros [?|[?|[?|[]]]]; congruence|auto]. }
    destruct G as (p' & G1 & G2 & G3). exists p'. destruct (seek (u_files u) (mkHandle k p) off w) as [x' r]. cbn [fst snd u_open] in *. subst x'. split; [exact G1|]. split; [exact G2|].
    rewrite (nth_set _ h h _ _ H), Nat.eqb_refl. reflexivity.
  - destruct (is_write o) eqn:W.
    + destruct o; try discriminate. exists p. cbn. auto.
    + pose proof (handle_step table u o h k p W S H) as E. destruct o as [n|n|n|n|n|d n|h' n|h' off w|h'|h' c|h'|k' i c]; try (exists p; split; [cbn [moves]; reflexivity|split; [exact P|exact E]]).
      * cbn [moves]. destruct (Nat.eqb h' h) eqn:Eh; [|exists p; split; [reflexivity|split; [exact P|exact E]]]. apply Nat.eqb_eq in Eh. subst h'. cbn [exec] in *. rewrite H in *.
        unfold read in *. cbn [h_key h_pos] in *. rewrite D in *. fold (len data) in *. destruct (Z.leb_spec (len data) p) as [G|G]; cbn [fst snd] in *.
        -- exists p. split; [left; auto|split; [exact P|exact E]].
        -- set (front := take (Z.to_nat p) data) in *. set (rest := drop (Z.to_nat p) data) in *. unfold len in *.
           assert (Lr : String.length rest = (String.length data - Z.to_nat p)%nat) by apply drop_length.
           pose proof (take_length rest n) as Lt. eexists. split; [right; split; [exact G|]|split; [|exact E]].
           ++ exists front, (take n rest), (drop n rest). unfold len. rewrite take_drop. split; [symmetry; apply take_drop|]. split; [unfold front; rewrite take_length; lia|]. split; [|auto].
              destruct (le_lt_dec n (String.length rest)); [left; lia|right]. split; [lia|]. apply drop_all. lia.
           ++ lia.
      * exists p. cbn [moves]. cbn [seeks] in S. rewrite S. auto.
Qed.
Lemma follows table k a b h : table k = Some a -> content a b -> len b < 2 ^ 63 -> forall later os u p, ok table os u -> nth_error (u_open u) h = Some (mkHandle k p) -> 0 <= p < 2 ^ 63 ->
  Forall in_range later -> behaves k b h os p (combine later (history table u later)).
Proof.
  intros T C L. induction later as [|o later IH]; intros os u p OK H P R; cbn [history]; [constructor|]. inversion R as [|? ? R1 R2]; subst.
  assert (D : f_data (u_files u k) = written k b false os).
  { destruct OK as [F O]. assert (Hx : handle_ok table os (mkHandle k p)) by (eapply Forall_forall; [exact O|eapply nth_error_In; exact H]).
    destruct Hx as (a' & n & T' & Fs). cbn [h_key] in *. specialize (F k). unfold file_ok in F. rewrite T, Fs in F. apply F, C. }
  assert (Ln : len (written k b false os) < 2 ^ 63) by (unfold len in *; rewrite written_length; exact L).
  destruct (one table u o h k p _ H D P Ln R1) as (p' & M & P' & H'). pose proof (exec_ok table os u o OK) as OK'.
  destruct (exec table u o) as [u' r]. cbn [fst snd combine] in *. econstructor; [exact M|]. apply IH; assumption.
Qed.

(** ** C62 *)
(** Whatever was done before and whatever is done afterwards - writes, other handles, other files, closing
    it - an opened file reads and seeks like one sequence of bytes, the file as it then is, from position 0. *)
Theorem C62_reader table before n a b h later : table (clean n) = Some a -> content a b -> len b < 2 ^ 63 ->
  let opened := exec table (after table start before) (Open n) in
  snd opened = RHandle h -> Forall in_range later ->
  behaves (clean n) b h (before ++ [Open n]) 0 (combine later (history table (fst opened) later)).
Proof.
  intros T C L opened R F. eapply follows; [exact T|exact C|exact L| | |lia|exact F].
  - apply exec_ok, history_ok.
  - unfold opened, exec, fs_open in R |- *. destruct (prepare table _ n) as [fs [e|]]; [discriminate|]. cbn [fst snd u_open] in *. injection R as <-.
    rewrite nth_error_app2 by lia. rewrite Nat.sub_diag. reflexivity.
Qed.
(** The moves are determined: no other result or position is allowed. *)
Theorem C62_determined data h o p r r' p1 p2 : moves data h o p r p1 -> moves data h o p r' p2 ->
  p1 = p2 /\ (match o with Read h' _ | Seek h' _ _ => Nat.eqb h' h | _ => false end = true -> r = r').
Proof.
  intros M1 M2. destruct o as [n|n|n|n|n|d n|h' n|h' off w|h'|h' c|h'|k' i c]; cbn [moves] in *; try (split; [congruence|discriminate]).
  - destruct (Nat.eqb h' h); [|split; [congruence|discriminate]].
    destruct M1 as [(A1 & -> & ->)|(A1 & f1 & o1 & b1 & E1 & L1 & N1 & -> & ->)], M2 as [(A2 & -> & ->)|(A2 & f2 & o2 & b2 & E2 & L2 & N2 & -> & ->)]; try lia; [auto|].
    rewrite E1 in E2. unfold len in *. destruct (app_inj_length f1 f2 _ _ ltac:(lia) E2) as [-> E3].
    assert (Q : String.length o1 = String.length o2).
    { apply (f_equal String.length) in E3. rewrite !string_length_app in E3.
      destruct N1 as [N1|[N1 ->]], N2 as [N2|[N2 ->]]; cbn in *; lia. }
    destruct (app_inj_length o1 o2 _ _ Q E3) as [-> _]. auto.
  - destruct (Nat.eqb h' h); [|split; [congruence|discriminate]]. cbn [In] in *.
    destruct M1 as (t1 & M1), M2 as (t2 & M2).
    assert (V : forall t, In (w, t) [(0, off); (1, p + off); (2, len data + off)] -> (w = 0 /\ t = off) \/ (w = 1 /\ t = p + off) \/ (w = 2 /\ t = len data + off))
      by (cbn; intros t [E|[E|[E|[]]]]; injection E; auto).
    destruct M1 as [[I1 M1]|(N1 & -> & ->)], M2 as [[I2 M2]|(N2 & -> & ->)]; try apply V in I1; try apply V in I2; try (exfalso; lia); [|auto].
    assert (t1 = t2) as -> by lia. destruct M1 as [(? & -> & ->)|(? & -> & ->)], M2 as [(? & -> & ->)|(? & -> & ->)]; try contradiction; auto.
Qed.

(** ** The embedded files *)
(** Seeking to the end tells the size that Stat reports, for every embedded file and directory. *)
Lemma keys_known k : has_key k = true -> In k ["/"; "/data"; "/data/astro"] \/ exists y, 1900 <= y <= 2040 /\ k = file_name y.
Proof.
  unfold has_key. rewrite existsb_exists. intros (e & I & E). apply String.eqb_eq in E. subst k.
  assert (A : forallb (fun e => existsb (String.eqb (fst e)) ["/"; "/data"; "/data/astro"] || existsb (fun i => String.eqb (fst e) (file_name (1900 + Z.of_nat i))) (seq 0 141)) esc_entries = true)
    by (vm_compute; reflexivity).
  pose proof (proj1 (forallb_forall _ _) A e I) as B. apply orb_prop in B. destruct B as [B|B]; apply existsb_exists in B; destruct B as (x & X & Q); apply String.eqb_eq in Q; rewrite Q; [left; exact X|].
  right. apply in_seq in X. exists (1900 + Z.of_nat x). split; [lia|reflexivity].
Qed.
Lemma sized k a : esc_data k = Some a -> exists b, content a b /\ as_size a = len b.
Proof.
  intros H. destruct (has_key k) eqn:K; [|unfold esc_data in H; rewrite K in H; discriminate]. destruct (keys_known k K) as [D|(y & Y & ->)].
  - destruct (C56_directories k D) as (a' & A & Ct). replace (clean k) with k in A by (cbn [In] in D; destruct D as [<-|[<-|[<-|[]]]]; vm_compute; reflexivity).
    assert (a' = a) by congruence. subst a'. exists "". split; [exact Ct|]. cbn [In] in D.
    assert (Z0 : option_map as_size (esc_data k) = Some 0) by (destruct D as [<-|[<-|[<-|[]]]]; vm_compute; reflexivity). rewrite H in Z0. injection Z0 as Z0. exact Z0.
  - destruct (C56_content y Y) as (a' & b & p & A & Ct & Z0 & _). rewrite clean_file_name in A. assert (a' = a) by congruence. subst a'. exists b. auto.
Qed.
Lemma sizes k a : esc_data k = Some a -> as_size a < 2 ^ 63.
Proof.
  unfold esc_data. destruct (has_key k); [|discriminate]. intros H. injection H as <-. cbn [as_size]. unfold assoc.
  destruct (find (fun e => k =? fst e)%string esc_entries) as [e|] eqn:F; [|reflexivity]. apply find_some in F. destruct F as [I _].
  assert (A : forallb (fun e => fst (snd e) <? 2 ^ 63) esc_entries = true) by (vm_compute; reflexivity).
  pose proof (proj1 (forallb_forall _ _) A e I) as B. apply Z.ltb_lt in B. exact B.
Qed.
Theorem C62_size before n h later : snd (exec esc_data (after esc_data start before) (Open n)) = RHandle h ->
  let u := after esc_data start (before ++ Open n :: later) in
  exists name size modtime dir, snd (exec esc_data u (Stat h)) = RStat name size 0 modtime dir /\ snd (exec esc_data u (Seek h 0 2)) = RPosition size.
Proof.
  intros R u. destruct (esc_data (clean n)) as [a|] eqn:T; [|rewrite (proj2 (proj2 (proj2 (proj2 (C54_absent esc_data before n T))))) in R; discriminate].
  destruct (C54_name esc_data before n a h T R later) as (m & _ & St). fold u in St. exists (base m), (as_size a), (as_modtime a), (as_dir a). split; [exact St|].
  destruct (sized _ a T) as (b & C & Z0). pose proof (sizes _ a T) as Z1. destruct (opened_handle esc_data before n h later R) as (q & H). fold u in H.
  assert (D : f_data (u_files u (clean n)) = written (clean n) b false (before ++ Open n :: later)).
  { destruct (history_ok esc_data (before ++ Open n :: later)) as [F O]. fold u in F, O. assert (Hx : handle_ok esc_data (before ++ Open n :: later) (mkHandle (clean n) q)) by (eapply Forall_forall; [exact O|eapply nth_error_In; exact H]).
    destruct Hx as (a' & m' & T' & Fs). cbn [h_key] in *. specialize (F (clean n)). unfold Prop_EscUse.file_ok in F. rewrite T, Fs in F. apply F, C. }
  cbn [exec]. rewrite H. unfold seek. cbn [h_key h_pos Z.eqb Pos.eqb]. rewrite D, written_length. unfold len in Z0. rewrite <- Z0. unfold iadd. rewrite Z.add_0_r, wrap64_id by (unfold in_int64, two63; lia).
  replace (as_size a <? 0) with false by (symmetry; apply Z.ltb_ge; lia). reflexivity.
Qed.

(** Of the files of the table, the three directories say that they are such and have the time 0 (1970); the files of
    the years say that they are not, and were written on 8 August 2015, in the order of the years. *)
Definition written_on (day : time) (t : Z) : Prop := exists ns, t_ns day <= ns < t_ns day + 24 * hour_ns /\ ns = (t + days_before_year 1970 * 86400) * second_ns.
Lemma kind_of_key k a : esc_data k = Some a ->
  as_dir a = snd (assoc (0, false) k esc_entries) /\ as_modtime a = fst (assoc (0, ""%string) k esc_meta).
Proof. unfold esc_data. destruct (has_key k); [|discriminate]. intros H. injection H as <-. split; reflexivity. Qed.
Fixpoint rising (l : list Z) : bool := match l with x :: (y :: _) as l' => (x <=? y) && rising l' | _ => true end.
Lemma rising_nth l : rising l = true -> forall i j, (i <= j)%nat -> (j < List.length l)%nat -> nth i l 0 <= nth j l 0.
Proof.
  induction l as [|x l IH]; intros H i j Hi Hj; [cbn in Hj; lia|].
  assert (R : rising l = true) by (destruct l; [reflexivity|apply andb_prop in H; apply H]).
  destruct i as [|i], j as [|j]; cbn [nth]; [lia| |lia|apply IH; [exact R|lia|cbn in Hj; lia]].
  destruct l as [|y l]; [cbn in Hj; lia|]. apply andb_prop in H. destruct H as [H _]. apply Z.leb_le in H.
  pose proof (IH R 0%nat j ltac:(lia) ltac:(cbn in Hj |- *; lia)) as G. change (nth 0 (y :: l) 0) with y in G. lia.
Qed.
Definition year_times : list Z := map (fun i => fst (assoc (0, ""%string) (file_name (1900 + Z.of_nat i)) esc_meta)) (seq 0 141).
Lemma times_day : forallb (fun t => (1438992000 <=? t) && (t <? 1439078400)) year_times = true.
Proof. vm_compute. reflexivity. Qed.
Lemma times_rising : rising year_times = true.
Proof. vm_compute. reflexivity. Qed.
Lemma times_kind : forallb (fun i => negb (snd (assoc (0, false) (file_name (1900 + Z.of_nat i)) esc_entries))) (seq 0 141) = true.
Proof. vm_compute. reflexivity. Qed.
Lemma year_time y a : 1900 <= y <= 2040 -> esc_data (file_name y) = Some a ->
  as_dir a = false /\ as_modtime a = nth (Z.to_nat (y - 1900)) year_times 0.
Proof.
  intros Y H. destruct (kind_of_key _ _ H) as [-> ->]. pose proof times_kind as C.
  assert (E : y = 1900 + Z.of_nat (Z.to_nat (y - 1900))) by lia. split.
  - rewrite forallb_forall in C. specialize (C (Z.to_nat (y - 1900)) ltac:(apply in_seq; lia)). rewrite <- E in C. apply negb_true_iff, C.
  - unfold year_times. set (g := fun i : nat => _). rewrite (nth_indep _ 0 (g 0%nat)) by (rewrite map_length, seq_length; lia).
    rewrite map_nth, seq_nth by lia. unfold g. cbn [Nat.add]. rewrite <- E. reflexivity.
Qed.
Theorem C62_stat before n h later : snd (exec esc_data (after esc_data start before) (Open n)) = RHandle h ->
  exists name size modtime dir, snd (exec esc_data (after esc_data start (before ++ Open n :: later)) (Stat h)) = RStat name size 0 modtime dir /\
    ((In (clean n) ["/"; "/data"; "/data/astro"] /\ dir = true /\ modtime = 0) \/
     (exists y, 1900 <= y <= 2040 /\ clean n = file_name y /\ dir = false /\ written_on (time_date 2015 8 8 0 0) modtime)).
Proof.
  intros R. destruct (esc_data (clean n)) as [a|] eqn:T; [|rewrite (proj2 (proj2 (proj2 (proj2 (C54_absent esc_data before n T))))) in R; discriminate].
  destruct (C54_name esc_data before n a h T R later) as (m & _ & St). exists (base m), (as_size a), (as_modtime a), (as_dir a). split; [exact St|].
  assert (K : has_key (clean n) = true) by (unfold esc_data in T; destruct (has_key (clean n)); [reflexivity|discriminate]).
  destruct (keys_known _ K) as [D|(y & Y & E)].
  - left. split; [exact D|]. destruct (kind_of_key _ _ T) as [-> ->]. cbn [In] in D. destruct D as [<-|[<-|[<-|[]]]]; vm_compute; split; reflexivity.
  - right. exists y. split; [exact Y|]. split; [exact E|]. rewrite E in T. destruct (year_time y a Y T) as [-> Et]. split; [reflexivity|].
    pose proof times_day as C. rewrite forallb_forall in C.
    assert (I : In (as_modtime a) year_times) by (rewrite Et; apply nth_In; unfold year_times; rewrite map_length, seq_length; lia).
    specialize (C _ I). apply andb_prop in C. destruct C as [C1 C2]. apply Z.leb_le in C1. apply Z.ltb_lt in C2.
    eexists. split; [|reflexivity]. change (t_ns (time_date 2015 8 8 0 0)) with 63574588800000000000. unfold second_ns, hour_ns.
    change (days_before_year 1970) with 719162. lia.
Qed.
Theorem C62_order y y' a a' : 1900 <= y <= y' -> y' <= 2040 -> esc_data (file_name y) = Some a -> esc_data (file_name y') = Some a' ->
  as_modtime a <= as_modtime a'.
Proof.
  intros Y Y' A A'. destruct (year_time y a ltac:(lia) A) as [_ ->]. destruct (year_time y' a' ltac:(lia) A') as [_ ->].
  apply rising_nth; [exact times_rising|lia|].
  unfold year_times. rewrite map_length, seq_length. lia.
Qed.
Example C62_stat_example : map (fun k => (snd (assoc (0, false) k esc_entries), fst (assoc (0, ""%string) k esc_meta))) ["/data"; "/data/astro/astro-1900.json"; "/data/astro/astro-2040.json"] =
  [(true, 0); (false, 1439039563); (false, 1439040285)].
Proof. vm_compute. reflexivity. Qed.

(** ** Witnesses *)
Example C62_example :
  history example_table start [Open "/good"; Seek 0 7 1; Seek 0 (-3) 1; Read 0 9; Read 0 0; Seek 0 (-2) 2; Read 0 1; Write "/good" 4 "O"%char; Read 0 1;
    Seek 0 (-6) 2; Seek 0 (-1) 1; Seek 0 (2 ^ 63 - 1) 0; Read 0 1; Seek 0 1 1; Seek 0 0 3; Seek 0 (-(2 ^ 63)) 1; Read 0 1; Close 0; Seek 0 0 0; Read 0 9] =
  [RHandle 0; RPosition 7; RPosition 4; RRead "o"; REof; RPosition 3; RRead "l"; RDone; RRead "O";
    RNegative; RPosition 4; RPosition (2 ^ 63 - 1); REof; RNegative; RWhence; RNegative; REof; RDone; RPosition 0; RRead "hellO"].
Proof. vm_compute. reflexivity. Qed.
(** The position may be beyond the end, where reading says so; a wrong Read that moved it to the end would be seen. *)
Example C62_beyond_example : history example_table start [Open "/good"; Seek 0 9 0; Read 0 4; Seek 0 (-5) 1; Read 0 1] = [RHandle 0; RPosition 9; REof; RPosition 4; RRead "o"].
Proof. vm_compute. reflexivity. Qed.
(** A directory opens as an empty file which lists nothing, although files below it can be opened. *)
Theorem C62_listing_refuted : exists h h', snd (exec esc_data start (Open "/data/astro")) = RHandle h /\
  (exists size modtime, snd (exec esc_data (after esc_data start [Open "/data/astro"]) (Stat h)) = RStat "astro" size 0 modtime true) /\
  (forall count, snd (exec esc_data (after esc_data start [Open "/data/astro"]) (Readdir h count)) = RNames []) /\
  snd (exec esc_data (after esc_data start [Open "/data/astro"]) (Open "/data/astro/astro-2016.json")) = RHandle h'.
Proof.
  exists 0%nat, 1%nat. split; [vm_compute; reflexivity|]. split; [exists 0, 0; vm_compute; reflexivity|]. split; [intros count; vm_compute; reflexivity|].
  vm_compute. reflexivity.
Qed.
