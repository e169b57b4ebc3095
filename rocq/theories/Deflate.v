(** Go's compress/flate (RFC 1951): decompression.  The package is not in /repo; data.go:61-65 uses
    it through compress/gzip.  Written from the format and the checks compress/flate makes. *)
From Coq Require Import NArith List Bool Ascii.
Import ListNotations.
Local Open Scope N_scope.

(** ** Reading bits: within a byte, the lowest first *)
Record stream := mkStream { s_bits : list bool; s_bytes : list ascii }.
Definition bits_of (c : ascii) : list bool :=
  match c with Ascii a b c d e f g h => [a; b; c; d; e; f; g; h] end.
Definition next_bit (s : stream) : option (bool * stream) :=
  match s_bits s with
  | b :: l => Some (b, mkStream l (s_bytes s))
  | [] => match s_bytes s with
          | Ascii a b c d e f g h :: l => Some (a, mkStream [b; c; d; e; f; g; h] l)
          | [] => None
          end
  end.
(** A number of [n] bits, lowest bit first. *)
Fixpoint number (n : nat) (s : stream) : option (N * stream) :=
  match n with
  | O => Some (0, s)
  | S n' => match next_bit s with
            | None => None
            | Some (b, s1) => match number n' s1 with
                              | None => None
                              | Some (v, s2) => Some ((if b then N.succ_double v else N.double v), s2)
                              end
            end
  end.

(** ** Huffman codes *)
Inductive tree := Empty | Leaf (symbol : N) | Node (zero one : tree).
Fixpoint symbol (t : tree) (s : stream) : option (N * stream) :=
  match t with
  | Empty => None
  | Leaf v => Some (v, s)
  | Node l r => match next_bit s with None => None | Some (b, s') => symbol (if b then r else l) s' end
  end.
(** The canonical code of a list of code lengths: code words of one length are consecutive in the
    order of the symbols, and those of the next length continue after them. *)
Fixpoint numbered (i : N) (ls : list N) : list (N * N) :=
  match ls with [] => [] | l :: ls' => (i, l) :: numbered (N.succ i) ls' end.
Definition of_length (k : N) (ls : list (N * N)) : list N := map fst (filter (fun p => snd p =? k) ls).
(** The subtrees at depth [k], from left to right, given how many nodes there are at this depth:
    the symbols of length [k] take the first ones, the others branch; [depth] levels are left. *)
Fixpoint pairs (ts : list tree) : list tree :=
  match ts with
  | a :: b :: ts' => Node a b :: pairs ts'
  | _ => []
  end.
Fixpoint subtrees (depth : nat) (k : N) (ls : list (N * N)) (nodes : nat) : list tree :=
  let here := of_length k ls in
  let free := (nodes - length here)%nat in
  firstn nodes (map Leaf here) ++
  match depth with
  | O => repeat Empty free
  | S d => match free with
           | O => []
           | _ => pairs (subtrees d (k + 1) ls (2 * free))
           end
  end.
(** Sum of 2^(15 - length): a complete code has 2^15. *)
Definition weight (ls : list N) : N := fold_right (fun l a => if l =? 0 then a else 2 ^ (15 - l) + a) 0 ls.
(** A code must be complete, or empty, or have a single word of one bit (flate's [init]). *)
Definition code (ls : list N) : option tree :=
  let max := fold_right N.max 0 ls in
  if max =? 0 then Some Empty
  else if (weight ls =? 2 ^ 15) || ((weight ls =? 2 ^ 14) && (max =? 1)) then
    match pairs (subtrees (N.to_nat max - 1) 1 (numbered 0 ls) 2) with t :: _ => Some t | [] => None end
  else None.

(** ** Blocks *)
(** The output so far, last byte first. *)
Definition output := list ascii.
(** The output without its last [n] bytes. *)
Fixpoint back_pos (n : positive) (out : output) : output :=
  match n with
  | xH => tl out
  | xO n' => back_pos n' (back_pos n' out)
  | xI n' => back_pos n' (back_pos n' (tl out))
  end.
Definition back (n : N) (out : output) : output := match n with 0 => out | Npos p => back_pos p out end.
(** [l] bytes from [d] bytes back; the copy may overlap what it produces. *)
Fixpoint copy (fuel : nat) (l d : N) (out : output) : output :=
  match fuel with
  | O => out
  | S f => if l <=? d then firstn (N.to_nat l) (back (d - l) out) ++ out
           else copy f (l - d) d (firstn (N.to_nat d) out ++ out)
  end.

(** Length and distance symbols: base value and number of extra bits. *)
Definition length_base (v : N) : option (N * nat) :=
  if v <? 257 then None
  else if v <? 265 then Some (v - 254, 0%nat)
  else if v <? 269 then Some (2 * (v - 265) + 11, 1%nat)
  else if v <? 273 then Some (4 * (v - 269) + 19, 2%nat)
  else if v <? 277 then Some (8 * (v - 273) + 35, 3%nat)
  else if v <? 281 then Some (16 * (v - 277) + 67, 4%nat)
  else if v <? 285 then Some (32 * (v - 281) + 131, 5%nat)
  else if v <? 286 then Some (258, 0%nat)
  else None.
Definition distance_base (v : N) : option (N * nat) :=
  if v <? 4 then Some (v + 1, 0%nat)
  else if v <? 30 then
    let nb := N.div2 (v - 2) in Some (2 ^ (nb + 1) + 1 + (if N.odd v then 2 ^ nb else 0), N.to_nat nb)
  else None.

(** What became of a block: the output, and the stream after it unless it was malformed.
    [written] is the number of bytes of output, against which distances are checked. *)
Inductive outcome := Failed (out : output) | Done (written : N) (out : output) (s : stream).
Fixpoint symbols (fuel : nat) (lit dist : tree) (written : N) (out : output) (s : stream) : outcome :=
  match fuel with
  | O => Failed out
  | S f =>
      match symbol lit s with
      | None => Failed out
      | Some (v, s1) =>
          if v <? 256 then symbols f lit dist (written + 1) (ascii_of_N v :: out) s1
          else if v =? 256 then Done written out s1
          else match length_base v with
               | None => Failed out
               | Some (lb, ln) =>
                   match number ln s1 with
                   | None => Failed out
                   | Some (lx, s2) =>
                       match symbol dist s2 with
                       | None => Failed out
                       | Some (w, s3) =>
                           match distance_base w with
                           | None => Failed out
                           | Some (db, dn) =>
                               match number dn s3 with
                               | None => Failed out
                               | Some (dx, s4) =>
                                   let l := lb + lx in let d := db + dx in
                                   if (written <? d) || (32768 <? d) then Failed out
                                   else symbols f lit dist (written + l) (copy (N.to_nat l) l d out) s4
                               end
                           end
                       end
                   end
               end
      end
  end.

(** The fixed codes *)
Definition fixed_lengths : list N := repeat 8 144 ++ repeat 9 112 ++ repeat 7 24 ++ repeat 8 8.
Definition fixed_distances : list N := repeat 5 32.

(** The code lengths of a dynamic block: [n] lengths, last first, written with the code [t]. *)
Fixpoint code_lengths (fuel : nat) (t : tree) (n : nat) (acc : list N) (s : stream) : option (list N * stream) :=
  match fuel with
  | O => None
  | S f =>
      if Nat.leb n (length acc) then Some (acc, s)
      else match symbol t s with
           | None => None
           | Some (v, s1) =>
               if v <? 16 then code_lengths f t n (v :: acc) s1
               else
                 let again (value : N) (bits base : nat) :=
                   match number bits s1 with
                   | None => None
                   | Some (x, s2) =>
                       let r := (base + N.to_nat x)%nat in
                       if Nat.ltb n (length acc + r) then None
                       else code_lengths f t n (repeat value r ++ acc) s2
                   end in
                 if v =? 16 then match acc with [] => None | p :: _ => again p 2%nat 3%nat end
                 else if v =? 17 then again 0 3%nat 3%nat
                 else if v =? 18 then again 0 7%nat 11%nat
                 else None
           end
  end.
Definition code_order : list nat := [16; 17; 18; 0; 8; 7; 9; 6; 10; 5; 11; 4; 12; 3; 13; 2; 14; 1; 15]%nat.
Fixpoint numbers (k bits : nat) (s : stream) : option (list N * stream) :=
  match k with
  | O => Some ([], s)
  | S k' => match number bits s with
            | None => None
            | Some (x, s1) => match numbers k' bits s1 with None => None | Some (l, s2) => Some (x :: l, s2) end
            end
  end.
(** Put the lengths read for [code_order] in the order of the symbols. *)
Definition unscramble (ls : list N) : list N :=
  map (fun i => match find (fun p => Nat.eqb (fst p) i) (combine code_order ls) with Some p => snd p | None => 0 end) (seq 0 19).
Definition dynamic_codes (s : stream) : option (tree * tree * stream) :=
  match number 5 s with
  | None => None
  | Some (hlit, s1) =>
      match number 5 s1 with
      | None => None
      | Some (hdist, s2) =>
          match number 4 s2 with
          | None => None
          | Some (hclen, s3) =>
              let nlit := (N.to_nat hlit + 257)%nat in let ndist := (N.to_nat hdist + 1)%nat in
              if Nat.ltb 286 nlit || Nat.ltb 30 ndist then None
              else match numbers (N.to_nat hclen + 4) 3 s3 with
                   | None => None
                   | Some (cl, s4) =>
                       match code (unscramble cl) with
                       | None => None
                       | Some t =>
                           match code_lengths (S (nlit + ndist)) t (nlit + ndist) [] s4 with
                           | None => None
                           | Some (racc, s5) =>
                               let ls := rev racc in
                               match code (firstn nlit ls), code (skipn nlit ls) with
                               | Some lit, Some dist => Some (lit, dist, s5)
                               | _, _ => None
                               end
                           end
                       end
                   end
          end
      end
  end.
(** A stored block: to the next byte, the length and its complement, then the bytes.  As many
    bytes as there are come out even if the block is cut short. *)
Definition n_of_bytes (a b : ascii) : N := N_of_ascii a + 256 * N_of_ascii b.
Definition stored (written : N) (out : output) (s : stream) : outcome :=
  match s_bytes s with
  | a :: b :: c :: d :: l =>
      let n := n_of_bytes a b in
      if negb (n_of_bytes c d =? 65535 - n) then Failed out
      else let data := firstn (N.to_nat n) l in
           if Nat.ltb (length data) (N.to_nat n) then Failed (rev_append data out)
           else Done (written + n) (rev_append data out) (mkStream [] (skipn (N.to_nat n) l))
  | _ => Failed out
  end.
Definition block (fuel : nat) (kind : N) (written : N) (out : output) (s : stream) : outcome :=
  match kind with
  | 0 => stored written out s
  | 1 => match code fixed_lengths, code fixed_distances with
         | Some lit, Some dist => symbols fuel lit dist written out s
         | _, _ => Failed out
         end
  | 2 => match dynamic_codes s with
         | None => Failed out
         | Some (lit, dist, s') => symbols fuel lit dist written out s'
         end
  | _ => Failed out
  end.
Fixpoint blocks (fuel : nat) (bits : nat) (written : N) (out : output) (s : stream) : outcome :=
  match fuel with
  | O => Failed out
  | S f =>
      match number 1 s with
      | None => Failed out
      | Some (final, s1) =>
          match number 2 s1 with
          | None => Failed out
          | Some (kind, s2) =>
              match block bits kind written out s2 with
              | Failed out' => Failed out'
              | Done w out' s3 => if final =? 1 then Done w out' s3 else blocks f bits w out' s3
              end
          end
      end
  end.
(** Decompress the bytes [l]: the output (in order), and the bytes after the last block, or [None] if it is
    malformed or cut short.  Every block and every symbol takes a bit, so the fuel suffices (P_Deflate.v). *)
Definition inflate (l : list ascii) : list ascii * option (list ascii) :=
  let n := S (8 * length l) in
  match blocks n n 0 [] (mkStream [] l) with
  | Failed out => (rev_append out [], None)
  | Done _ out s => (rev_append out [], Some (s_bytes s))
  end.
