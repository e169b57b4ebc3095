(** The file oracle given by the embedded assets: what FSByte (data.go) and
    json.Unmarshal yield for the file of each year.  base64, gzip and JSON decoding
    were done by tools/gen_astro.py; C56_content and C59_assets prove that the embedded texts
    decode to these. *)
From Coq Require Import ZArith List Bool String.
From Verif Require Import GoTime AstroMoon AstroData.
Import ListNotations.
Open Scope Z_scope.

Definition moon_of_record (r : record) : AerisMoon :=
  let '(code, iso, off, _) := r in mkAerisMoon code (mkTime (iso * second_ns) off).

Fixpoint lookup_file (l : list (Z * file)) (y : Z) : fetch :=
  match l with
  | [] => Missing
  | (y', (success, err, recs)) :: rest =>
      if y =? y' then Decoded success err (map moon_of_record recs) else lookup_file rest y
  end.

Definition embedded_fs (y : Z) : fetch := lookup_file astro_files y.
