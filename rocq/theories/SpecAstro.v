(** Vocabulary for the theorems on the astronomical moons (C30-C33). *)
From Coq Require Import ZArith List Bool String.
From Verif Require Import GoTime CalDay AstroMoon AstroData AstroFS.
Import ListNotations.
Open Scope Z_scope.

Fixpoint take_while {A} (f : A -> bool) (l : list A) : list A :=
  match l with [] => [] | x :: l' => if f x then x :: take_while f l' else [] end.

Definition is_missing (f : fetch) : bool := match f with Missing => true | _ => false end.
(** The records of a file that was read, says "success" and has no error code. *)
Definition usable (f : fetch) : list AerisMoon :=
  match f with Decoded true ""%string r => r | _ => [] end.
(** The moon a record stands for: code 0..3 is new, waxing, full, waning; the date in UTC. *)
Definition moon_of (m : AerisMoon) : AstroMoon :=
  mkAstroMoon (nth (Z.to_nat (ae_Code m)) ["new"; "waxing"; "full"; "waning"]%string ""%string)
    (mkTime (t_ns (ae_DateTimeISO m)) 0).
Definition in_period (from to : time) (m : AerisMoon) : bool :=
  (t_ns from <=? t_ns (ae_DateTimeISO m)) && (t_ns (ae_DateTimeISO m) <=? t_ns to).

(** The embedded files as data: all records of all usable files, in order of the files. *)
Definition file_records (f : file) : list record :=
  match f with (true, ""%string, recs) => recs | _ => [] end.
Definition embedded_moons : list AerisMoon :=
  flat_map (fun p => map moon_of_record (file_records (snd p))) astro_files.

(** Fields of a record. *)
Definition rec_code (r : record) : Z := let '(c, _, _, _) := r in c.
Definition rec_iso (r : record) : Z := let '(_, i, _, _) := r in i.
Definition rec_offset (r : record) : Z := let '(_, _, o, _) := r in o.
Definition rec_unix (r : record) : Z := let '(_, _, _, u) := r in u.
(** 1970-01-01T00:00:00Z in seconds since 0001-01-01. *)
Definition unix_epoch : Z := days_before_year 1970 * 86400.
(** The civil day and year in UTC of a record. *)
Definition rec_day (r : record) : Z := rec_iso r / 86400.
Definition rec_year (r : record) : Z := year_of_day (rec_day r).
