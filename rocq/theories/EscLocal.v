(** Model of the exported functions of data.go with [useLocal] = true, which read the disk.
    The disk is a parameter and does not change during a call.  What is done with the [*os.File]
    returned by Open is the operating system's and not modelled. *)
From Coq Require Import ZArith List Bool String Ascii.
From Verif Require Import Esc.
Import ListNotations.
Local Open Scope string_scope.

(** What os.Open and ioutil.ReadAll make of a path: an error, the bytes, or some bytes and then an error
    (a directory can be opened, but reading it is an error). *)
Inductive on_disk := Unopenable (e : string) | Readable (b : string) | Failing (b e : string).
Inductive local_error := LNotExist | LDisk (e : string). (* os.ErrNotExist of the table, or the error of the disk *)

Inductive local_op :=
| LByte (name : string)       (* FSByte(true, name), data.go:152-159 *)
| LMustByte (name : string)   (* data.go:168-174 *)
| LString (name : string)     (* data.go:177-180 *)
| LMustString (name : string) (* data.go:183-185 *)
| LOpen (name : string)       (* FS(true).Open, data.go:40-46, 134-137 *)
| LDirOpen (dir name : string). (* Dir(true, dir).Open, data.go:81-83, 143-146 *)
Inductive local_result :=
| LBytes (b : string) (e : option local_error) (* FSByte returns bytes and an error *)
| LText (b : string) (e : option local_error)
| LPanic (e : local_error)
| LFile (path : string) | LNoFile (e : local_error).
(** The result, the paths given to os.Open, and how many opened files were neither closed nor returned. *)
Record done := mkDone { d_result : local_result; d_asked : list string; d_unclosed : nat }.

(** data.go:40-46 *)
Definition local_open (table : string -> option asset) (disk : string -> on_disk) (n : string) : (string * on_disk) + local_error :=
  match table (clean n) with
  | None => inr LNotExist
  | Some a => match disk (as_local a) with
              | Unopenable e => inr (LDisk e)
              | f => inl (as_local a, f)
              end
  end.
Definition asked (table : string -> option asset) (n : string) : list string :=
  match table (clean n) with Some a => [as_local a] | None => [] end.
(** data.go:152-159: the bytes and the error of FSByte, and the number of files left open. *)
Definition local_byte (table : string -> option asset) (disk : string -> on_disk) (n : string) : string * option local_error * nat :=
  match local_open table disk n with
  | inr e => ("", Some e, 0%nat)
  | inl (_, Failing b e) => (b, Some (LDisk e), 1%nat)
  | inl (_, Readable b) => (b, None, 1%nat)
  | inl (_, Unopenable e) => ("", Some (LDisk e), 0%nat)
  end.
Definition exec_local (table : string -> option asset) (disk : string -> on_disk) (o : local_op) : done :=
  match o with
  | LByte n => let '(b, e, k) := local_byte table disk n in mkDone (LBytes b e) (asked table n) k
  | LString n => let '(b, e, k) := local_byte table disk n in mkDone (LText b e) (asked table n) k
  | LMustByte n => let '(b, e, k) := local_byte table disk n in
      mkDone (match e with Some x => LPanic x | None => LBytes b None end) (asked table n) k
  | LMustString n => let '(b, e, k) := local_byte table disk n in
      mkDone (match e with Some x => LPanic x | None => LText b None end) (asked table n) k
  | LOpen n => mkDone (match local_open table disk n with inl (p, _) => LFile p | inr e => LNoFile e end) (asked table n) 0
  | LDirOpen d n => mkDone (match local_open table disk (d ++ n) with inl (p, _) => LFile p | inr e => LNoFile e end) (asked table (d ++ n)) 0
  end.
