(** C45, C46: reading the embedded files. *)
From Coq Require Import ZArith Lia Bool List String Ascii.
From Verif Require Import Text SpecText Esc P_Text P_Esc.
Import ListNotations.
Open Scope Z_scope.
Local Open Scope string_scope.

(** ** C45: concurrent calls of FSByte, from a fresh program, in any interleaving *)

(** The content of a file that decodes without error. *)
Definition content (a : asset) (b : string) : Prop :=
  (as_size a = 0 /\ b = "") \/ (as_size a <> 0 /\ as_decoding a = ReadBytes b false).
(** What is left in [f.data] of a file whose decoding fails. *)
Definition leftover (a : asset) (b : string) : Prop :=
  as_size a <> 0 /\ ((as_decoding a = NoHeader /\ b = "") \/ as_decoding a = ReadBytes b true).

(** Every completed call of a well-formed file returns its content and no error, and every
    completed call of an unknown name returns ErrNotExist; the calls are the ones made. *)
Theorem C45_results table names n st : run table n (initial names) st ->
  forall i name r, nth_error (st_calls st) i = Some (Returned name r) ->
  nth_error names i = Some name /\
  match table (clean name) with
  | None => r = NotExist
  | Some a => forall b, content a b -> r = Data b
  end.
Proof.
  intros R i name r H. destruct (good_run table names n st R) as (Hn & Hl & _). split.
  - rewrite <- Hn, nth_error_map, H. reflexivity.
  - pose proof (Hl i _ H) as L. unfold local_ok in L. cbn [name_of] in L. destruct (table (clean name)) as [a|].
    + intros b C. assert (final_data a = b /\ final_err a = false) as [D E].
      { unfold final_data, final_err. destruct C as [[-> ->]|[Z D]]; [auto|]. apply Z.eqb_neq in Z. rewrite Z, D. auto. }
      destruct r as [b'| |]; [destruct L as [_ ->]; rewrite D; reflexivity|contradiction|]. destruct L as [_ X]. congruence.
    + destruct r; [contradiction|reflexivity|contradiction].
Qed.

(** The content of a file is decoded at most once. *)
Theorem C45_decoded_once table names n st k : run table n (initial names) st -> (f_decoded (st_files st k) <= 1)%nat.
Proof.
  intros R. destruct (table k) as [a|] eqn:T.
  - destruct (good_run table names n st R) as (_ & _ & Hk). destruct (Hk k a T) as (_ & _ & K). unfold decodings in K.
    destruct (f_once (st_files st k)); [lia|lia|]. destruct (as_size a =? 0)%Z; lia.
  - rewrite (good_absent table names n st k R T). cbn. lia.
Qed.

(** The calls neither deadlock nor run forever: every run is finite, and when no call can move
    every call has returned. *)
Theorem C45_completes table names n st : run table n (initial names) st ->
  (n <= 7 * List.length names)%nat /\
  ((forall st', ~ step table st st') -> forall i name, nth_error names i = Some name -> exists r, nth_error (st_calls st) i = Some (Returned name r)).
Proof.
  intros R. split; [pose proof (run_bound table names n st R); lia|]. intros S i name H.
  pose proof (good_run table names n st R) as G. pose proof G as (Hn & _ & _). rewrite <- Hn, nth_error_map in H.
  destruct (nth_error (st_calls st) i) as [p|] eqn:E; [|discriminate]. cbn [option_map] in H. injection H as H.
  destruct (stuck_returned table names st G S i p E) as (m & r & ->). cbn [name_of] in H. subst. eauto.
Qed.

(** When the decoding fails exactly one caller gets the error: all the others get what had been
    read, with a nil error. *)
Theorem C45_one_error table names n st k a b : run table n (initial names) st -> (forall st', ~ step table st st') ->
  table k = Some a -> leftover a b -> (exists name, In name names /\ clean name = k) ->
  exists i name, nth_error (st_calls st) i = Some (Returned name Corrupt) /\ clean name = k /\
    forall j name' r, j <> i -> nth_error (st_calls st) j = Some (Returned name' r) -> clean name' = k -> r = Data b.
Proof.
  intros R S T L (name & I & Cn). pose proof (good_run table names n st R) as G. pose proof G as (Hn & Hl & Hk).
  assert (F : final_data a = b /\ final_err a = true).
  { unfold final_data, final_err. destruct L as [Z D]. apply Z.eqb_neq in Z. rewrite Z. destruct D as [[-> ->]| ->]; auto. }
  destruct F as [Fd Fe].
  destruct (In_nth_error _ _ I) as [i Hi]. destruct (C45_completes table names n st R) as [_ C]. destruct (C S i name Hi) as [r Hr].
  assert (O : f_once (st_files st k) = Finished).
  { pose proof (Hl i _ Hr) as X. unfold local_ok in X. cbn [name_of] in X. rewrite Cn, T in X. destruct r; [apply X|contradiction|apply X]. }
  destruct (Hk k a T) as (_ & K & _). rewrite O, Fe in K.
  destruct (count_ex (erring k) (st_calls st) ltac:(lia)) as (j & p & Hj & Fp).
  destruct (stuck_returned table names st G S j p Hj) as (m & r' & ->). cbn [erring] in Fp. destruct r' as [b'| |]; try discriminate. apply String.eqb_eq in Fp.
  exists j, m. repeat split; [exact Hj|exact Fp|]. intros j' name' r' N Hj' Cn'. pose proof (Hl j' _ Hj') as X. unfold local_ok in X. cbn [name_of] in X. rewrite Cn', T in X.
  destruct r' as [b'| |]; [destruct X as [_ ->]; rewrite Fd; reflexivity|contradiction|]. exfalso.
  assert (C2 : forall (f : pc -> bool) l i j p q, i <> j -> nth_error l i = Some p -> nth_error l j = Some q -> f p = true -> f q = true -> (2 <= count f l)%nat).
  { clear. intros f l. induction l as [|x l IH]; intros [|i] [|j] p q N Hp Hq Fp Fq; cbn [nth_error] in *; try discriminate; try congruence; cbn [count].
    - injection Hp as ->. rewrite Fp. pose proof (count_pos f l j q Hq Fq). lia.
    - injection Hq as ->. rewrite Fq. pose proof (count_pos f l i p Hp Fp). lia.
    - pose proof (IH i j p q ltac:(congruence) Hp Hq Fp Fq). lia. }
  assert (E1 : erring k (Returned m Corrupt) = true) by (cbn [erring]; apply String.eqb_eq; exact Fp).
  assert (E2 : erring k (Returned name' Corrupt) = true) by (cbn [erring]; apply String.eqb_eq; exact Cn').
  pose proof (C2 (erring k) (st_calls st) j' j _ _ N Hj' Hj E2 E1). lia.
Qed.

(** Examples: a table with a good, an empty and a broken file; a scheduler playing a list of choices. *)
Definition example_table (k : string) : option asset :=
  if String.eqb k "/good" then Some (mkAsset 5 (ReadBytes "hello" false) false 1439039563 "good")
  else if String.eqb k "/empty" then Some (mkAsset 0 NoHeader true 0 "/empty")
  else if String.eqb k "/broken" then Some (mkAsset 5 (ReadBytes "he" true) false 0 "broken")
  else None.
Fixpoint play (table : string -> option asset) (schedule : list nat) (st : state) : option state :=
  match schedule with
  | [] => Some st
  | i :: s =>
      match nth_error (st_calls st) i with
      | None => None
      | Some p => match next table (st_files st) p with
                  | None => None
                  | Some (fs, p') => play table s (mkState fs (set_nth (st_calls st) i p'))
                  end
      end
  end.
Lemma play_run table schedule st st' : play table schedule st = Some st' ->
  forall n s0, run table n s0 st -> run table (List.length schedule + n) s0 st'.
Proof.
  revert st. induction schedule as [|i s IH]; cbn [play List.length]; intros st H n s0 R; [injection H as <-; exact R|].
  destruct (nth_error (st_calls st) i) as [p|] eqn:E; [|discriminate]. destruct (next table (st_files st) p) as [[fs p']|] eqn:X; [|discriminate].
  replace (S (List.length s) + n)%nat with (List.length s + S n)%nat by lia. apply (IH _ H). apply (run_step _ _ _ st); [exact R|].
  destruct st as [fs0 l]. econstructor; eassumption.
Qed.
(** Two callers of the good file (one by a longer name), one of the empty file, one of no file. *)
Example C45_results_example :
  option_map st_calls (play example_table [0; 1; 2; 3; 1; 2; 2; 1; 1; 2; 1; 0; 0; 2; 0; 2; 1; 1]%nat
    (initial ["/good"; "/x/../good"; "/empty"; "/none"])) =
  Some [Returned "/good" (Data "hello"); Returned "/x/../good" (Data "hello"); Returned "/empty" (Data ""); Returned "/none" NotExist].
Proof. vm_compute. reflexivity. Qed.
(** While the second caller decodes, the first one cannot move. *)
Example C45_completes_example :
  play example_table [0; 1; 1; 1; 0]%nat (initial ["/good"; "/good"]) = None /\
  play example_table [0; 1; 1; 1; 1]%nat (initial ["/good"; "/good"]) <> None.
Proof. split; [vm_compute; reflexivity|vm_compute; discriminate]. Qed.
Example C45_decoded_once_example :
  option_map (fun st => (f_decoded (st_files st "/good"), f_decoded (st_files st "/empty")))
    (play example_table [0; 1; 2; 1; 1; 1; 1; 0; 2; 2; 2]%nat (initial ["/good"; "/good"; "/empty"])) = Some (1, 0)%nat.
Proof. vm_compute. reflexivity. Qed.
Example C45_one_error_example :
  option_map st_calls (play example_table [0; 1; 2; 1; 1; 1; 1; 0; 1; 0; 0; 2; 2; 2]%nat
    (initial ["/broken"; "/broken"; "/broken"])) =
  Some [Returned "/broken" (Data "he"); Returned "/broken" Corrupt; Returned "/broken" (Data "he")].
Proof. vm_compute. reflexivity. Qed.

(** So it is not true that a broken file is reported as such to everyone who reads it. *)
Theorem C45_error_every_caller_refuted :
  exists table names n st i name a b, run table n (initial names) st /\
    table (clean name) = Some a /\ leftover a b /\
    nth_error (st_calls st) i = Some (Returned name (Data b)) /\ b <> "".
Proof.
  destruct (play example_table [0; 1; 1; 1; 1; 1; 0; 0; 0]%nat (initial ["/broken"; "/broken"])) as [st|] eqn:P; [|vm_compute in P; discriminate].
  exists example_table, ["/broken"; "/broken"], 9%nat, st, 0%nat, "/broken", (mkAsset 5 (ReadBytes "he" true) false 0 "broken"), "he".
  repeat split; [|discriminate|right; reflexivity| |discriminate].
  - apply (play_run _ _ _ _ P 0%nat). constructor.
  - vm_compute in P. injection P as <-. reflexivity.
Qed.

(** ** C46: the file of a year *)
Theorem C46_injective y z : clean (file_name y) = clean (file_name z) -> y = z.
Proof. rewrite !clean_file_name. apply file_name_inj. Qed.
Theorem C46_name y : clean (file_name y) = "/data/astro/astro-" ++ numeral y ++ ".json".
Proof. rewrite clean_file_name. apply file_name_eq. Qed.
Theorem C46_present y : has_key (clean (file_name y)) = true <-> (1900 <= y <= 2040)%Z.
Proof. apply has_key_file. Qed.
Example C46_example :
  file_name 2016 = "/data/astro/astro-2016.json" /\ file_name (-44) = "/data/astro/astro--44.json" /\
  has_key (clean (file_name 2040)) = true /\ has_key (clean (file_name 2041)) = false /\ has_key "data/astro/astro-2016.json" = false.
Proof. vm_compute. auto. Qed.
(** Cleaning again does not change the looked up key. *)
Theorem C46_clean_idempotent s : clean (clean s) = clean s.
Proof. apply clean_idem. Qed.
Example C46_clean_idempotent_example :
  clean "/data//astro/./x/../astro-2016.json/" = "/data/astro/astro-2016.json" /\ clean "../a/../.." = "../.." /\ clean "" = "." /\ clean "/../a" = "/a".
Proof. vm_compute. auto. Qed.
