(** C52, continued: the file the program in utils/ leaves behind. *)
From Coq Require Import ZArith Lia List Bool String Ascii.
From Verif Require Import GoTime SuriyaYear Text YearsCsv YearsData Output YearsMain.
Local Open Scope string_scope.

Lemma any_table e : years_csv (mkConfig false e) 1970 2041 = Some recorded_csv.
Proof. vm_compute. reflexivity. Qed.
(** Whatever the exceptions: with room for it the file becomes utils/years.csv, and nothing else changes.  Without, a beginning of it
    is left and something is printed, but the exit status is 0 all the same. *)
Theorem C52_main : forall message sur cfg w,
  exists status w', years_main message sur cfg w = Some (status, w') /\
  (openable sur "years.csv" = false -> status = 2%Z /\ w' = w) /\
  (openable sur "years.csv" = true -> status = 0%Z /\
    (forall name, name <> "years.csv" -> w_files w' name = w_files w name) /\
    ((String.length recorded_csv <= room sur)%nat -> w_files w' "years.csv" = Some recorded_csv /\ w_stdout w' = w_stdout w) /\
    ((room sur < String.length recorded_csv)%nat -> w_stdout w' <> w_stdout w /\
       exists s rest, w_files w' "years.csv" = Some s /\ s ++ rest = recorded_csv /\ String.length s = room sur)).
Proof.
  intros message sur cfg w. unfold years_main. rewrite any_table. destruct (openable sur "years.csv").
  2: { do 2 eexists. split; [reflexivity|]. split; [auto|discriminate]. }
  generalize recorded_csv. intros text.
  assert (F : forall n t, (n <= String.length t)%nat -> exists rest, first_bytes n t ++ rest = t /\ String.length (first_bytes n t) = n).
  { induction n as [|n IH]; intros t L; [exists t; destruct t; auto|]. destruct t as [|c t]; [cbn in L; lia|].
    cbn [String.length] in L. destruct (IH t ltac:(lia)) as (r & E & N). exists r. cbn [first_bytes append String.length]. rewrite E, N. auto. }
  assert (O : forall name s, name <> "years.csv" -> w_files (set_file "years.csv" s w) name = w_files w name).
  { intros name s N. cbn [set_file w_files]. apply String.eqb_neq in N. rewrite N. reflexivity. }
  destruct (Nat.leb_spec (String.length text) (room sur)) as [L|L]; do 2 eexists; (split; [reflexivity|]); (split; [discriminate|]); intros _;
    (split; [reflexivity|]).
  - split; [intros; apply O; assumption|]. split; [auto|lia].
  - split; [intros; cbn [print w_files]; apply O; assumption|]. split; [lia|]. intros _. split.
    + cbn [print w_stdout set_file]. intros E. apply (f_equal String.length) in E.
      assert (A : forall a b, String.length (a ++ b) = (String.length a + String.length b)%nat)
        by (induction a as [|c a IH]; intros b; cbn [append String.length]; [reflexivity|rewrite IH; reflexivity]).
      rewrite !A in E. cbn [String.length] in E. lia.
    + destruct (F (room sur) text ltac:(lia)) as (r & E & N). exists (first_bytes (room sur) text), r. auto.
Qed.
(** A disk with ten bytes left, and the exceptions in use before. *)
Example C52_main_example :
  let sur := mkSurroundings (fun _ => true) 10 (fun _ => "") in
  match years_main "disk full" sur cfg_exceptions (mkWorld (fun _ => None) "") with
  | Some (status, w) => (status, w_files w "years.csv", w_files w "years", w_stdout w)
  | None => (9%Z, None, None, "")
  end = (0%Z, Some "CE year;BE", None, "10 disk full" ++ newline).
Proof. vm_compute. reflexivity. Qed.
