(** The map [_escData] itself (data.go:187-3524) and what GetAstroMoons makes of the file of a
    year: [FSByte], base64, gzip and JSON, from the texts in data.go. *)
From Coq Require Import ZArith List Bool String.
From Verif Require Import Esc EscData EscMeta EscBytes EscUse Gzip AstroMoon JsonRead.
Import ListNotations.
Local Open Scope string_scope.

Definition assoc {A} (d : A) (k : string) (l : list (string * A)) : A :=
  match find (fun e => String.eqb k (fst e)) l with Some e => snd e | None => d end.
(** data.go:187-3524 *)
Definition esc_data (k : string) : option asset :=
  if has_key k then Some (let e := assoc (0%Z, false) k esc_entries in let m := assoc (0%Z, "") k esc_meta in
    mkAsset (fst e) (decode (assoc "" k compressed)) (snd e) (fst m) (snd m)) else None.
(** astro_moon.go:52-68, with the state of the embedded files before. *)
Definition fetch_year (u : use) (y : Z) : fetch :=
  match snd (fs_byte esc_data u (file_name y)) with
  | inl b => fetched b
  | inr _ => Missing
  end.
