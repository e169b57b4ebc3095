(** Go's compress/gzip (RFC 1952) as data.go:61-65 uses it: [gzip.NewReader] and [ioutil.ReadAll].
    The package is not in /repo; written from the format and the checks the package makes.
    Not modelled: that the name and the comment are kept, and the operating system and time. *)
From Coq Require Import ZArith NArith List Bool String Ascii.
From Verif Require Import Base64 Deflate Esc.
Import ListNotations.
Local Open Scope N_scope.

(** ** crc32.ChecksumIEEE *)
Definition poly : N := 3988292384. (* 0xEDB88320 *)
(** One bit of data into the register. *)
Definition crc_bit (c : N) (b : bool) : N :=
  if xorb b (N.odd c) then N.lxor (N.div2 c) poly else N.div2 c.
(** The table of the 256 bytes; the package uses one too. *)
Inductive crc_tree := Entry (e : N) | Branch (zero one : crc_tree).
Fixpoint crc_build (n : nat) (e : N) : crc_tree :=
  match n with O => Entry e | S n' => Branch (crc_build n' (crc_bit e false)) (crc_build n' (crc_bit e true)) end.
Fixpoint crc_lookup (t : crc_tree) (bs : list bool) (c : N) : N :=
  match t, bs with
  | Entry e, _ => N.lxor c e
  | Branch l r, b :: bs' => crc_lookup (if xorb b (N.odd c) then r else l) bs' (N.div2 c)
  | Branch _ _, [] => c
  end.
Definition crc_table : crc_tree := Eval vm_compute in crc_build 8 0.
Definition crc_byte (c : N) (a : ascii) : N := crc_lookup crc_table (bits_of a) c.
Definition mask32 : N := 4294967295.
Definition crc32 (l : list ascii) : N := N.lxor (fold_left crc_byte l mask32) mask32.

(** ** The header *)
Definition byte (n : N) : ascii := ascii_of_N n.
Definition le32 (a b c d : ascii) : N := n_of_bytes a b + 65536 * n_of_bytes c d.
Definition flag (f : ascii) (i : N) : bool := N.testbit (N_of_ascii f) i.
(** A name or comment, ended by a zero byte among the first [n]. *)
Fixpoint zero_ended (n : nat) (l : list ascii) : option (list ascii) :=
  match n, l with
  | S n', c :: l' => if Ascii.eqb c "000" then Some l' else zero_ended n' l'
  | _, _ => None
  end.
Definition extra (l : list ascii) : option (list ascii) :=
  match l with
  | a :: b :: l' => let n := N.to_nat (n_of_bytes a b) in if Nat.ltb (List.length l') n then None else Some (skipn n l')
  | _ => None
  end.
Definition opt {A} (b : bool) (f : A -> option A) (x : A) : option A := if b then f x else Some x.
(** The sum of the header itself, of which the low 16 bits follow it; [all] starts with the header. *)
Definition header_sum (all l : list ascii) : option (list ascii) :=
  match l with
  | a :: b :: l' =>
      if n_of_bytes a b =? N.land (crc32 (firstn (List.length all - List.length l) all)) 65535 then Some l' else None
  | _ => None
  end.
(** The bytes after the header, or [None] if it is cut short or no gzip header. *)
Definition header (l : list ascii) : option (list ascii) :=
  match l with
  | i1 :: i2 :: m :: f :: _ :: _ :: _ :: _ :: _ :: _ :: l1 =>
      if negb ((N_of_ascii i1 =? 31) && (N_of_ascii i2 =? 139) && (N_of_ascii m =? 8)) then None
      else match opt (flag f 2) extra l1 with
           | None => None
           | Some l2 => match opt (flag f 3) (zero_ended 512) l2 with
                        | None => None
                        | Some l3 => match opt (flag f 4) (zero_ended 512) l3 with
                                     | None => None
                                     | Some l4 => opt (flag f 1) (header_sum l) l4
                                     end
                        end
           end
  | _ => None
  end.

(** ** The content: the blocks, then their sum and their length, then perhaps another header and so on.
    [ok] is whether the source ends rather than fails at its end. *)
Definition mod32 (n : N) : N := N.land n mask32.
Fixpoint members (fuel : nat) (ok : bool) (l : list ascii) : list ascii * bool :=
  match fuel with
  | O => ([], true)
  | S f =>
      let '(out, rest) := inflate l in
      match rest with
      | Some (a :: b :: c :: d :: e :: g :: h :: i :: l1) =>
          if (le32 a b c d =? crc32 out) && (le32 e g h i =? mod32 (N.of_nat (List.length out))) then
            match l1 with
            | [] => (out, negb ok)
            | _ => match header l1 with
                   | None => (out, true)
                   | Some l2 => let '(out2, failed) := members f ok l2 in (out ++ out2, failed)%list
                   end
            end
          else (out, true)
      | _ => (out, true)
      end
  end.
(** data.go:60-65: every member takes at least 18 bytes, so the fuel suffices. *)
Definition decode (compressed : string) : decoding :=
  let '(l, ok) := base64_decode compressed in
  match header l with
  | None => NoHeader
  | Some l1 => let '(out, failed) := members (S (List.length l)) ok l1 in ReadBytes (string_of_list_ascii out) failed
  end.
