(** Model of the embedded file system of data.go (generated by the esc tool).
    [path.Clean], [path.Base] and [filepath.Join] (on Unix) are given by components, which is
    their documented behaviour; decoding base64 and gzip is an abstract outcome of each file.
    Not modelled: [useLocal] = true (the variable is false and never set, astro_moon.go:17), [Readdir]
    and the other [os.FileInfo] accessors, which return fields. *)
From Coq Require Import ZArith List Bool String Ascii.
From Verif Require Import Text EscData.
Import ListNotations.
Open Scope Z_scope.
Local Open Scope string_scope.

(** ** Paths *)
Definition slash : ascii := "/"%char.
(** The parts of a path between slashes. *)
Fixpoint parts (s : string) : list string :=
  match s with
  | "" => [""]
  | String c s' =>
      if Ascii.eqb c slash then "" :: parts s'
      else match parts s' with p :: ps => String c p :: ps | [] => [String c ""] end
  end.
(** [out] is the cleaned path so far, last component first. *)
Definition push (rooted : bool) (out : list string) (p : string) : list string :=
  if String.eqb p "" || String.eqb p "." then out
  else if String.eqb p ".." then
    match out with
    | [] => if rooted then [] else [".."]
    | q :: out' => if String.eqb q ".." then ".." :: out else out'
    end
  else p :: out.
Definition is_rooted (s : string) : bool := match s with String c _ => Ascii.eqb c slash | "" => false end.
(** [path.Clean] *)
Definition clean (s : string) : string :=
  let r := is_rooted s in
  let t := String.concat "/" (rev (fold_left (push r) (parts s) [])) in
  if r then String slash t else if String.eqb t "" then "." else t.
(** [path.Base] *)
Fixpoint last_part (ps : list string) (p : string) : string :=
  match ps with [] => p | q :: ps' => last_part ps' (if String.eqb q "" then p else q) end.
Definition base (s : string) : string :=
  if String.eqb s "" then "." else
  match last_part (parts s) "" with "" => "/" | p => p end.
(** [filepath.Join] of two non-empty parts *)
Definition join (a b : string) : string := clean (a ++ "/" ++ b).

(** astro_moon.go:14, 52-53 *)
Definition file_name (year : Z) : string := "/" ++ join "./data/astro" ("astro-" ++ fmt_d year ++ ".json").
(** The keys of [_escData]: is there a file for the year? (data.go:49, 187 onwards) *)
Definition has_key (k : string) : bool := existsb (fun e => String.eqb k (fst e)) esc_entries.

(** ** Concurrent calls *)
(** The outcome of decoding [compressed] (data.go:59-65): [gzip.NewReader] fails, or
    [ioutil.ReadAll] gives the bytes read so far and whether it failed. *)
Inductive decoding := NoHeader | ReadBytes (bytes : string) (failed : bool).
(** The constant part of an [_escFile] (data.go:29-33); [as_local] is a path on disk. *)
Record asset := mkAsset { as_size : Z; as_decoding : decoding; as_dir : bool; as_modtime : Z; as_local : string }.
(** The mutable part of an [_escFile] (data.go:35-37); [f_decoded] is a ghost counter of the
    times the content was decoded. *)
Inductive once := NotDone | Busy | Finished.
Record file := mkFile { f_once : once; f_data : string; f_name : string; f_decoded : nat }.
Definition fresh_file : file := mkFile NotDone "" "" 0.
(** What a call of [FSByte] returns: the data, [os.ErrNotExist] or a decoding error. *)
Inductive reply := Data (bytes : string) | NotExist | Corrupt.
(** Where a call is: data.go:48-71, 152-165.  [err] is the local variable of [prepare]. *)
Inductive pc :=
| Calling (name : string)
| Waiting (name : string)
| Naming (name : string)
| Decoding (name : string)
| Leaving (name : string) (err : bool)
| Checking (name : string) (err : bool)
| Reading (name : string)
| Returned (name : string) (r : reply).
Definition files := string -> file.
Definition put (fs : files) (k : string) (f : file) : files := fun k' => if String.eqb k' k then f else fs k'.

(** One atomic step of a call; [None] when it has returned or waits for [once].  A second
    caller of [once.Do] waits until the first one's function has returned. *)
Definition next (table : string -> option asset) (fs : files) (p : pc) : option (files * pc) :=
  match p with
  | Calling n => match table (clean n) with None => Some (fs, Returned n NotExist) | Some _ => Some (fs, Waiting n) end
  | Waiting n =>
      let f := fs (clean n) in
      match f_once f with
      | NotDone => Some (put fs (clean n) (mkFile Busy (f_data f) (f_name f) (f_decoded f)), Naming n)
      | Busy => None
      | Finished => Some (fs, Checking n false)
      end
  | Naming n =>
      let f := fs (clean n) in
      let fs' := put fs (clean n) (mkFile (f_once f) (f_data f) (base n) (f_decoded f)) in
      match table (clean n) with
      | None => None
      | Some a => Some (fs', if as_size a =? 0 then Leaving n false else Decoding n)
      end
  | Decoding n =>
      let f := fs (clean n) in
      match table (clean n) with
      | None => None
      | Some a =>
          match as_decoding a with
          | NoHeader => Some (put fs (clean n) (mkFile (f_once f) (f_data f) (f_name f) (S (f_decoded f))), Leaving n true)
          | ReadBytes b e => Some (put fs (clean n) (mkFile (f_once f) b (f_name f) (S (f_decoded f))), Leaving n e)
          end
      end
  | Leaving n e =>
      let f := fs (clean n) in
      Some (put fs (clean n) (mkFile Finished (f_data f) (f_name f) (f_decoded f)), Checking n e)
  | Checking n e => Some (fs, if e then Returned n Corrupt else Reading n)
  | Reading n => Some (fs, Returned n (Data (f_data (fs (clean n)))))
  | Returned _ _ => None
  end%Z.

(** Any number of calls, interleaved in any order. *)
Record state := mkState { st_files : files; st_calls : list pc }.
Fixpoint set_nth {A} (l : list A) (i : nat) (x : A) : list A :=
  match l, i with
  | [], _ => []
  | _ :: l', O => x :: l'
  | y :: l', S i' => y :: set_nth l' i' x
  end.
Inductive step (table : string -> option asset) : state -> state -> Prop :=
| step_call fs l i p fs' p' : nth_error l i = Some p -> next table fs p = Some (fs', p') ->
    step table (mkState fs l) (mkState fs' (set_nth l i p')).
Definition initial (names : list string) : state := mkState (fun _ => fresh_file) (map Calling names).
Inductive run (table : string -> option asset) : nat -> state -> state -> Prop :=
| run_refl s : run table 0 s s
| run_step n s t u : run table n s t -> step table t u -> run table (S n) s u.
