(** Go's base64.NewDecoder(base64.StdEncoding, r), which data.go:60 applies to the embedded
    texts.  Package encoding/base64 is not in /repo; this is its documented behaviour: carriage
    returns and newlines are skipped, groups of four characters give three bytes, the last group
    may be padded with [=], anything else stops the decoder with an error. *)
From Coq Require Import NArith List Bool String Ascii.
Import ListNotations.
Local Open Scope string_scope.

(** The value of a character: six bits, lowest first. *)
Definition six := (bool * bool * bool * bool * bool * bool)%type.
Definition six_of (n : N) : six :=
  match ascii_of_N n with Ascii a b c d e f _ _ => (a, b, c, d, e, f) end.
Definition sextet (c : ascii) : option six :=
  let n := N_of_ascii c in
  if (65 <=? n)%N && (n <=? 90)%N then Some (six_of (n - 65))
  else if (97 <=? n)%N && (n <=? 122)%N then Some (six_of (n - 71))
  else if (48 <=? n)%N && (n <=? 57)%N then Some (six_of (n + 4))
  else if (n =? 43)%N then Some (six_of 62)
  else if (n =? 47)%N then Some (six_of 63)
  else None.
Definition pad : ascii := "="%char.
Definition byte1 (a b : six) : ascii :=
  let '(a0, a1, a2, a3, a4, a5) := a in let '(_, _, _, _, b4, b5) := b in Ascii b4 b5 a0 a1 a2 a3 a4 a5.
Definition byte2 (b c : six) : ascii :=
  let '(b0, b1, b2, b3, _, _) := b in let '(_, _, c2, c3, c4, c5) := c in Ascii c2 c3 c4 c5 b0 b1 b2 b3.
Definition byte3 (c d : six) : ascii :=
  let '(c0, c1, _, _, _, _) := c in let '(d0, d1, d2, d3, d4, d5) := d in Ascii d0 d1 d2 d3 d4 d5 c0 c1.

Definition is_newline (c : ascii) : bool := (Ascii.eqb c "010" || Ascii.eqb c "013")%char.
Fixpoint skip_newlines (s : string) : string :=
  match s with "" => "" | String c s' => if is_newline c then skip_newlines s' else String c (skip_newlines s') end.
(** The bytes decoded, and whether the text was well-formed. *)
Fixpoint groups (s : string) : list ascii * bool :=
  match s with
  | "" => ([], true)
  | String p (String q (String r (String t s'))) =>
      match sextet p, sextet q with
      | Some a, Some b =>
          match sextet r with
          | Some c =>
              match sextet t with
              | Some d => let '(l, ok) := groups s' in (byte1 a b :: byte2 b c :: byte3 c d :: l, ok)
              | None => if Ascii.eqb t pad && String.eqb s' "" then ([byte1 a b; byte2 b c], true) else ([], false)
              end
          | None => if Ascii.eqb r pad && Ascii.eqb t pad && String.eqb s' "" then ([byte1 a b], true) else ([], false)
          end
      | _, _ => ([], false)
      end
  | _ => ([], false)
  end.
Definition base64_decode (s : string) : list ascii * bool := groups (skip_newlines s).
