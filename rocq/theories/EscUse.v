(** Model of using the embedded file system of data.go by one goroutine: all the exported
    functions with [useLocal] = false, and what the callers do with their results.
    The slice [f.data] is shared by everyone who is given it (data.go:65, 91, 164), so a caller
    may write to it.  [Sys] returns the file itself and is not modelled. *)
From Coq Require Import ZArith List Bool String Ascii.
From Verif Require Import GoInt Esc.
Import ListNotations.
Local Open Scope string_scope.

(** data.go:48-71, when no other call is running: the files afterwards, and the error if any. *)
Inductive error := ENotExist | ECorrupt.
Definition prepare (table : string -> option asset) (fs : files) (n : string) : files * option error :=
  match table (clean n) with
  | None => (fs, Some ENotExist)
  | Some a =>
      let f := fs (clean n) in
      match f_once f with
      | NotDone =>
          if (as_size a =? 0)%Z then (put fs (clean n) (mkFile Finished (f_data f) (base n) (f_decoded f)), None)
          else match as_decoding a with
               | NoHeader => (put fs (clean n) (mkFile Finished (f_data f) (base n) (S (f_decoded f))), Some ECorrupt)
               | ReadBytes b e => (put fs (clean n) (mkFile Finished b (base n) (S (f_decoded f))), if e then Some ECorrupt else None)
               end
      | _ => (fs, None)
      end
  end.

(** An open file (data.go:85-94): the shared bytes and a position of its own. *)
Record handle := mkHandle { h_key : string; h_pos : Z }.
Record use := mkUse { u_files : files; u_open : list handle }.
Definition start : use := mkUse (fun _ => fresh_file) [].

Inductive op :=
| FSByte (name : string)       (* data.go:152-165 *)
| FSMustByte (name : string)   (* data.go:168-174 *)
| FSString (name : string)     (* data.go:177-180 *)
| FSMustString (name : string) (* data.go:183-185 *)
| Open (name : string)         (* FS(false).Open, data.go:73-79, 134-139 *)
| DirOpen (dir name : string)  (* Dir(false, dir).Open, data.go:81-83, 143-148 *)
| Read (h n : nat)             (* Read into a buffer of n bytes: bytes.Reader *)
| Seek (h : nat) (offset whence : Z) (* bytes.Reader *)
| Close (h : nat)              (* data.go:96-98 *)
| Readdir (h : nat) (count : Z) (* data.go:100-102 *)
| Stat (h : nat)               (* data.go:104-126: Name, Size, Mode, ModTime in seconds since 1970, IsDir *)
| Write (k : string) (i : nat) (c : ascii). (* a caller assigns to byte i of the data of file k it was given *)
Inductive result :=
| RBytes (b : string) | RError (e : error) | RPanic (e : error)
| RString (s : string) (e : option error)
| RHandle (h : nat) | RRead (b : string) | REof | RPosition (p : Z) | RWhence | RNegative | RNames (names : list string)
| RStat (name : string) (size mode modtime : Z) (dir : bool) | RDone | RInvalid.

(** [string(b)[0:n]], [[n:]] and assignment to one byte *)
Fixpoint take (n : nat) (s : string) : string :=
  match n, s with S n', String c s' => String c (take n' s') | _, _ => "" end.
Fixpoint drop (n : nat) (s : string) : string :=
  match n, s with S n', String _ s' => drop n' s' | _, _ => s end.
Fixpoint poke (s : string) (i : nat) (c : ascii) : string :=
  match s, i with
  | "", _ => ""
  | String _ s', O => String c s'
  | String d s', S i' => String d (poke s' i' c)
  end.
Definition set_data (f : file) (b : string) : file := mkFile (f_once f) b (f_name f) (f_decoded f).

Definition fs_byte table (u : use) n : use * (string + error) :=
  match prepare table (u_files u) n with
  | (fs, None) => (mkUse fs (u_open u), inl (f_data (fs (clean n))))
  | (fs, Some e) => (mkUse fs (u_open u), inr e)
  end.
Definition fs_open table (u : use) n : use * result :=
  match prepare table (u_files u) n with
  | (fs, None) => (mkUse fs (u_open u ++ [mkHandle (clean n) 0]), RHandle (List.length (u_open u)))
  | (fs, Some e) => (mkUse fs (u_open u), RError e)
  end.
(** [bytes.Reader.Read]: nothing is left (also for an empty buffer), or copy as much as fits. *)
Definition read (fs : files) (h : handle) (n : nat) : handle * result :=
  let data := f_data (fs (h_key h)) in
  if (Z.of_nat (String.length data) <=? h_pos h)%Z then (h, REof)
  else let b := take n (drop (Z.to_nat (h_pos h)) data) in (mkHandle (h_key h) (h_pos h + Z.of_nat (String.length b))%Z, RRead b).
(** [bytes.Reader.Seek]; the addition is that of int64.  0, 1 and 2 are [io.SeekStart], [SeekCurrent] and [SeekEnd]. *)
Definition seek (fs : files) (h : handle) (offset whence : Z) : handle * result :=
  let to p := if (p <? 0)%Z then (h, RNegative) else (mkHandle (h_key h) p, RPosition p) in
  if (whence =? 0)%Z then to offset
  else if (whence =? 1)%Z then to (iadd (h_pos h) offset)
  else if (whence =? 2)%Z then to (iadd (Z.of_nat (String.length (f_data (fs (h_key h))))) offset)
  else (h, RWhence).

Definition exec (table : string -> option asset) (u : use) (o : op) : use * result :=
  match o with
  | FSByte n => let '(u', r) := fs_byte table u n in (u', match r with inl b => RBytes b | inr e => RError e end)
  | FSMustByte n => let '(u', r) := fs_byte table u n in (u', match r with inl b => RBytes b | inr e => RPanic e end)
  | FSString n => let '(u', r) := fs_byte table u n in (u', match r with inl b => RString b None | inr e => RString "" (Some e) end)
  | FSMustString n => let '(u', r) := fs_byte table u n in (u', match r with inl b => RString b None | inr e => RPanic e end)
  | Open n => fs_open table u n
  | DirOpen d n => fs_open table u (d ++ n)
  | Read h n =>
      match nth_error (u_open u) h with
      | None => (u, RInvalid)
      | Some x => let '(x', r) := read (u_files u) x n in (mkUse (u_files u) (set_nth (u_open u) h x'), r)
      end
  | Seek h offset whence =>
      match nth_error (u_open u) h with
      | None => (u, RInvalid)
      | Some x => let '(x', r) := seek (u_files u) x offset whence in (mkUse (u_files u) (set_nth (u_open u) h x'), r)
      end
  | Close h => (u, RDone)
  | Readdir h count => (u, match nth_error (u_open u) h with None => RInvalid | Some _ => RNames [] end)
  | Stat h =>
      match nth_error (u_open u) h with
      | None => (u, RInvalid)
      | Some x => match table (h_key x) with
                  | None => (u, RInvalid)
                  | Some a => (u, RStat (f_name (u_files u (h_key x))) (as_size a) 0 (as_modtime a) (as_dir a))
                  end
      end
  | Write k i c =>
      let f := u_files u k in
      (mkUse (put (u_files u) k (set_data f (poke (f_data f) i c))) (u_open u), RDone)
  end.
(** A history of operations, with the result of each. *)
Fixpoint history (table : string -> option asset) (u : use) (os : list op) : list result :=
  match os with
  | [] => []
  | o :: os' => let '(u', r) := exec table u o in r :: history table u' os'
  end.
Fixpoint after (table : string -> option asset) (u : use) (os : list op) : use :=
  match os with [] => u | o :: os' => after table (fst (exec table u o)) os' end.
