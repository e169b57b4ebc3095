(** C63: the embedded files taken from the disk. *)
From Coq Require Import ZArith Lia Bool List String Ascii.
From Verif Require Import GoInt Text P_Text Esc EscData EscMeta EscUse EscLocal P_Esc Prop_Esc Prop_EscUse Assets Prop_Assets Prop_EscOpen.
Import ListNotations.
Local Open Scope string_scope.
Open Scope Z_scope.

Definition local_name (y : Z) : string := "data/astro/astro-" ++ fmt_d y ++ ".json".
Definition directories : list string := ["/"; "/data"; "/data/astro"].
Lemma local_paths : forallb (fun e => if existsb (String.eqb (fst e)) directories then String.eqb (snd (snd e)) (fst e) else String.eqb (fst e) ("/" ++ snd (snd e))) esc_meta = true.
Proof. vm_compute. reflexivity. Qed.
Lemma meta_keys : map fst esc_meta = map fst esc_entries.
Proof. vm_compute. reflexivity. Qed.
Lemma local_of k a : esc_data k = Some a -> (In k directories /\ as_local a = k) \/ exists y, 1900 <= y <= 2040 /\ k = file_name y /\ as_local a = local_name y.
Proof.
  intros H. destruct (has_key k) eqn:K; [|unfold esc_data in H; rewrite K in H; discriminate].
  assert (M : exists m, In (k, m) esc_meta /\ as_local a = snd m).
  { unfold esc_data in H. rewrite K in H. injection H as <-. cbn [as_local]. unfold assoc.
    assert (I : In k (map fst esc_meta)).
    { rewrite meta_keys. unfold has_key in K. rewrite existsb_exists in K. destruct K as (e & I & E). apply String.eqb_eq in E. subst k. apply in_map, I. }
    destruct (find (fun e => (k =? fst e)%string) esc_meta) as [[k' m]|] eqn:F.
    - apply find_some in F. destruct F as [F E]. cbn [fst] in E. apply String.eqb_eq in E. subst k'. eauto.
    - exfalso. apply in_map_iff in I. destruct I as (e & <- & I). pose proof (find_none _ _ F e I) as N. cbn beta in N. rewrite String.eqb_refl in N. discriminate. }
  destruct M as (m & I & ->). pose proof (proj1 (forallb_forall _ _) local_paths _ I) as P. cbn [fst snd] in P.
  destruct (keys_known k K) as [D|(y & Y & ->)].
  - left. split; [exact D|]. replace (existsb (String.eqb k) directories) with true in P; [apply String.eqb_eq, P|].
    symmetry. apply existsb_exists. exists k. split; [exact D|apply String.eqb_refl].
  - right. exists y. split; [exact Y|]. split; [reflexivity|]. replace (existsb (String.eqb (file_name y)) directories) with false in P.
    + rewrite file_name_eq in P. apply String.eqb_eq in P. change ("/data/astro/astro-" ++ fmt_d y ++ ".json") with ("/" ++ local_name y) in P. injection P as P. symmetry. exact P.
    + rewrite file_name_eq. reflexivity.
Qed.

(** Whatever names are given, and whatever is on the disk, only the 144 paths of the table are opened. *)
Theorem C63_confined disk o p : In p (d_asked (exec_local esc_data disk o)) ->
  In p directories \/ exists y, 1900 <= y <= 2040 /\ p = local_name y.
Proof.
  assert (A : forall n, In p (asked esc_data n) -> In p directories \/ exists y, 1900 <= y <= 2040 /\ p = local_name y).
  { intros n. unfold asked. destruct (esc_data (clean n)) as [a|] eqn:T; [|intros []]. intros [<-|[]].
    destruct (local_of _ a T) as [[D ->]|(y & Y & _ & ->)]; [left; exact D|right; eauto]. }
  destruct o; cbn [exec_local]; repeat match goal with |- context [local_byte ?t ?d ?n] => destruct (local_byte t d n) as [[? ?] ?] end; cbn [d_asked]; apply A.
Qed.

(** If the files of the years are on the disk as they were embedded, then reading with [useLocal] is
    the same as without, for every name that does not mean one of the directories. *)
Inductive same : result -> local_result -> Prop :=
| same_bytes b : same (RBytes b) (LBytes b None)
| same_text b : same (RString b None) (LText b None)
| same_error : same (RError ENotExist) (LBytes "" (Some LNotExist))
| same_text_error : same (RString "" (Some ENotExist)) (LText "" (Some LNotExist))
| same_panic : same (RPanic ENotExist) (LPanic LNotExist).
Theorem C63_mirror disk os n : (forall y, 1900 <= y <= 2040 -> exists a b, esc_data (file_name y) = Some a /\ content a b /\ disk (local_name y) = Readable b) ->
  forallb (fun o => negb (is_write o)) os = true -> ~ In (clean n) directories ->
  let embedded o := snd (exec esc_data (after esc_data start os) o) in
  let local o := d_result (exec_local esc_data disk o) in
  same (embedded (FSByte n)) (local (LByte n)) /\ same (embedded (FSMustByte n)) (local (LMustByte n)) /\
  same (embedded (FSString n)) (local (LString n)) /\ same (embedded (FSMustString n)) (local (LMustString n)).
Proof.
  intros M W D embedded local. destruct (esc_data (clean n)) as [a|] eqn:T.
  - destruct (local_of _ a T) as [[I _]|(y & Y & E & L)]; [contradiction|]. destruct (M y Y) as (a' & b & A & C & R). assert (a' = a) by congruence. subst a'.
    destruct (C54_reads esc_data os n a b T C) as (E1 & E2 & E3 & E4). rewrite written_unchanged in E1, E2, E3, E4 by exact W. unfold embedded. rewrite E1, E2, E3, E4.
    unfold local, exec_local, local_byte, local_open. rewrite T, L, R. cbn. repeat split; constructor.
  - destruct (C54_absent esc_data os n T) as (E1 & E2 & E3 & E4 & _). unfold embedded. rewrite E1, E2, E3, E4.
    unfold local, exec_local, local_byte, local_open. rewrite T. cbn. repeat split; constructor.
Qed.
(** Such a disk is possible. *)
Lemma mirror_possible : exists disk, forall y, 1900 <= y <= 2040 -> exists a b, esc_data (file_name y) = Some a /\ content a b /\ disk (local_name y) = Readable b.
Proof.
  exists (fun p => match esc_data ("/" ++ p) with Some a => match as_decoding a with ReadBytes b _ => Readable b | NoHeader => Unopenable "" end | None => Unopenable "" end).
  intros y Y. destruct (C56_content y Y) as (a & b & q & A & C & S & U & _). rewrite clean_file_name in A. exists a, b. split; [exact A|]. split; [exact C|].
  change ("/" ++ local_name y) with ("/data/astro/astro-" ++ fmt_d y ++ ".json"). rewrite <- file_name_eq, A. destruct C as [[Z0 ->]|[Z0 ->]]; [|reflexivity].
  cbn in U. discriminate U.
Qed.
(** Opening succeeds for the same names then, and opens the file of that year. *)
Theorem C63_opens disk o n : (forall y, 1900 <= y <= 2040 -> exists b, disk (local_name y) = Readable b) -> ~ In (clean n) directories ->
  o = LOpen n \/ (exists dir name, o = LDirOpen dir name /\ n = (dir ++ name)%string) ->
  forall p, d_result (exec_local esc_data disk o) = LFile p <-> exists y, 1900 <= y <= 2040 /\ clean n = file_name y /\ p = local_name y.
Proof.
  intros M D O p.
  assert (E0 : d_result (exec_local esc_data disk o) = match local_open esc_data disk n with inl (p, _) => LFile p | inr e => LNoFile e end)
    by (destruct O as [->|(dir & name & -> & ->)]; reflexivity).
  rewrite E0. unfold local_open. destruct (esc_data (clean n)) as [a|] eqn:T.
  - destruct (local_of _ a T) as [[I _]|(y & Y & E & L)]; [contradiction|]. rewrite L. destruct (M y Y) as (b & ->). split.
    + intros H. injection H as <-. eauto.
    + intros (y' & Y' & E' & ->). rewrite E' in E. rewrite !file_name_eq in E. unfold local_name. injection E as E. rewrite E. reflexivity.
  - split; [discriminate|]. intros (y & Y & E & _). pose proof (proj2 (has_key_file y) Y) as K. rewrite clean_file_name, <- E in K. unfold esc_data in T. rewrite K in T. discriminate.
Qed.
(** ** Witnesses *)
(** The path opened does not always lie in the working directory: those of directories are absolute. *)
Theorem C63_relative_refuted : exists disk n p, In p (d_asked (exec_local esc_data disk (LOpen n))) /\ get 0 p = Some "/"%char /\ p = "/data".
Proof. exists (fun _ => Unopenable "no such file"), "/x/../data/.", "/data". split; [vm_compute; auto|]. split; reflexivity. Qed.
(** With and without [useLocal], directories are read differently: nothing, or an error. *)
Theorem C63_directory_refuted disk n e : In (clean n) directories -> disk (clean n) = Failing "" e ->
  snd (exec esc_data start (FSByte n)) = RBytes "" /\ d_result (exec_local esc_data disk (LByte n)) = LBytes "" (Some (LDisk e)) /\
  d_result (exec_local esc_data disk (LMustByte n)) = LPanic (LDisk e).
Proof.
  intros D E. destruct (C56_directories (clean n) D) as (a & A & C).
  assert (Cl : clean (clean n) = clean n) by (unfold directories in D; cbn [In] in D; destruct D as [<-|[<-|[<-|[]]]]; vm_compute; reflexivity). rewrite Cl in A.
  split; [exact (C54_constant esc_data [] n a "" A C eq_refl)|].
  assert (L : as_local a = clean n).
  { destruct (local_of _ a A) as [[_ L]|(y & _ & F & _)]; [exact L|]. exfalso. rewrite F, file_name_eq in D. unfold directories in D. cbn in D.
    destruct D as [D|[D|[D|[]]]]; discriminate D. }
  unfold exec_local, local_byte, local_open. rewrite A, L, E. cbn. auto.
Qed.
(** The text may come with an error, and then is only the beginning of the file. *)
Theorem C63_partial_refuted : exists disk n, d_result (exec_local esc_data disk (LString n)) = LText "{""suc" (Some (LDisk "input/output error")).
Proof. exists (fun _ => Failing "{""suc" "input/output error"), "/data/astro/astro-2016.json". vm_compute. reflexivity. Qed.
(** No file that FSByte opens is closed by it. *)
Theorem C63_closed_refuted disk y k : 1900 <= y <= 2040 -> (exists b, disk (local_name y) = Readable b) ->
  list_sum (map (fun o => d_unclosed (exec_local esc_data disk o)) (repeat (LByte (file_name y)) k)) = k.
Proof.
  intros Y (b & E). assert (U : d_unclosed (exec_local esc_data disk (LByte (file_name y))) = 1%nat).
  { destruct (C56_content y Y) as (a & _ & _ & A & _). unfold exec_local, local_byte, local_open. rewrite A.
    rewrite clean_file_name in A. destruct (local_of _ a A) as [[D _]|(y' & Y' & F & ->)].
    - exfalso. rewrite file_name_eq in D. unfold directories in D. cbn in D. destruct D as [D|[D|[D|[]]]]; discriminate D.
    - rewrite !file_name_eq in F. assert (local_name y' = local_name y) as -> by (unfold local_name; injection F as F; rewrite F; reflexivity). rewrite E. reflexivity. }
  induction k as [|k IH]; [reflexivity|]. cbn [repeat map list_sum fold_right] in *. rewrite U. cbn [Nat.add]. f_equal. exact IH.
Qed.
(** Exactly the reading calls leave a file open, one each, whenever there is one they could open. *)
Theorem C63_unclosed disk o :
  let reading := match o with LOpen _ | LDirOpen _ _ => False | _ => True end in
  let opened := exists p, In p (d_asked (exec_local esc_data disk o)) /\ forall e, disk p <> Unopenable e in
  (reading /\ opened /\ d_unclosed (exec_local esc_data disk o) = 1%nat) \/
  (~ (reading /\ opened) /\ d_unclosed (exec_local esc_data disk o) = 0%nat).
Proof.
  intros reading.
  assert (B : forall n, let opened := exists p, In p (asked esc_data n) /\ forall e, disk p <> Unopenable e in
    (opened /\ snd (local_byte esc_data disk n) = 1%nat) \/ (~ opened /\ snd (local_byte esc_data disk n) = 0%nat)).
  { intros n opened. unfold opened, local_byte, local_open, asked. destruct (esc_data (clean n)) as [a|].
    - destruct (disk (as_local a)) as [e|b|b e'] eqn:E; cbn [snd].
      2,3: left; split; [exists (as_local a); split; [left; reflexivity|intros x F; rewrite E in F; discriminate F]|reflexivity].
      right. split; [|reflexivity]. intros (p & [<-|[]] & N). exact (N e E).
    - right. split; [intros (p & [] & _)|reflexivity]. }
  unfold reading. destruct o as [n|n|n|n|n|d n]; cbn [exec_local];
    try (right; cbn [d_unclosed]; split; [intros [[] _]|reflexivity]);
    specialize (B n); destruct (local_byte esc_data disk n) as [[b e] k]; cbn [snd d_asked d_unclosed] in *; tauto.
Qed.
Example C63_example :
  let disk p := if (p =? "data/astro/astro-1970.json")%string then Readable "{}" else Unopenable "no such file" in
  map (fun o => d_result (exec_local esc_data disk o)) [LByte "/data/x/../astro/astro-1970.json"; LMustString "/data/astro//astro-1970.json"; LString "/data/astro/astro-1971.json";
    LByte "data/astro/astro-1970.json"; LMustByte "/etc/passwd"; LOpen "/data/astro/astro-1970.json"; LDirOpen "/data/astro" "/../../data/astro/astro-1970.json"] =
  [LBytes "{}" None; LText "{}" None; LText "" (Some (LDisk "no such file"));
    LBytes "" (Some LNotExist); LPanic LNotExist; LFile "data/astro/astro-1970.json"; LFile "data/astro/astro-1970.json"].
Proof. vm_compute. reflexivity. Qed.
