(** The formats of the embedded files as relations between texts and contents: base64 (RFC 4648), DEFLATE
    (RFC 1951), CRC-32 and gzip (RFC 1952).  Nothing here computes a decoding and nothing refers to the model. *)
From Coq Require Import Arith NArith List Bool String Ascii.
Import ListNotations.
Local Open Scope N_scope.

(** ** Bits.  Bytes are written lowest bit first (RFC 1951, 3.1.1). *)
Definition byte_bits (c : ascii) : list bool := map (N.testbit (N_of_ascii c)) [0; 1; 2; 3; 4; 5; 6; 7].
Definition bits (l : list ascii) : list bool := flat_map byte_bits l.
(** The number whose lowest bit is written first. *)
Fixpoint low_first (bs : list bool) : N := match bs with [] => 0 | b :: bs' => N.b2n b + 2 * low_first bs' end.
(** The number whose highest bit is written first. *)
Definition high_first (bs : list bool) : N := low_first (rev bs).
Definition number_field (n : nat) (v : N) (w : list bool) : Prop := List.length w = n /\ low_first w = v.

(** ** Prefix codes (3.2.2).  A code is the list of the lengths of its words, 0 for a symbol without a word. *)
Definition total {A} (f : A -> N) (l : list A) : N := fold_right (fun x a => f x + a) 0 l.
(** The first word of length [n] comes after the words shorter than [n], extended. *)
Definition first_word (ls : list N) (n : N) : N := total (fun l => if (0 <? l) && (l <? n) then 2 ^ (n - l) else 0) ls.
(** Words of one length are in the order of their symbols. *)
Definition code_word (ls : list N) (symbol : N) (w : list bool) : Prop :=
  exists n, nth_error ls (N.to_nat symbol) = Some n /\ 0 < n /\ N.of_nat (List.length w) = n /\
    high_first w = first_word ls n + N.of_nat (count_occ N.eq_dec (firstn (N.to_nat symbol) ls) n).
(** All words taken, or no words, or one word of one bit. *)
Definition usable (ls : list N) : Prop :=
  total (fun l => if l =? 0 then 0 else 2 ^ (15 - l)) ls = 2 ^ 15 \/
  (forall l, In l ls -> l = 0) \/
  (exists a b, ls = a ++ 1 :: b /\ forall l, In l (a ++ b)%list -> l = 0)%list.

(** ** Literals and copies (3.2.5) *)
Inductive token := Literal (c : ascii) | Copy (len distance : N).
(** Number of extra bits and least value, for the length symbols 257, 258, ... and the distance symbols 0, 1, ... *)
Definition length_table : list (N * N) :=
  [(0, 3); (0, 4); (0, 5); (0, 6); (0, 7); (0, 8); (0, 9); (0, 10); (1, 11); (1, 13); (1, 15); (1, 17); (2, 19); (2, 23); (2, 27); (2, 31);
   (3, 35); (3, 43); (3, 51); (3, 59); (4, 67); (4, 83); (4, 99); (4, 115); (5, 131); (5, 163); (5, 195); (5, 227); (0, 258)].
Definition distance_table : list (N * N) :=
  [(0, 1); (0, 2); (0, 3); (0, 4); (1, 5); (1, 7); (2, 9); (2, 13); (3, 17); (3, 25); (4, 33); (4, 49); (5, 65); (5, 97); (6, 129); (6, 193);
   (7, 257); (7, 385); (8, 513); (8, 769); (9, 1025); (9, 1537); (10, 2049); (10, 3073); (11, 4097); (11, 6145); (12, 8193); (12, 12289);
   (13, 16385); (13, 24577)].
(** A value of a table, written as the word of its symbol and the extra bits. *)
Definition table_text (table : list (N * N)) (from : N) (code : list N) (v : N) (w : list bool) : Prop :=
  exists i extra least w1 w2 x, nth_error table i = Some (extra, least) /\ code_word code (from + N.of_nat i) w1 /\
    number_field (N.to_nat extra) x w2 /\ v = least + x /\ w = (w1 ++ w2)%list.
Definition token_text (lit dist : list N) (t : token) (w : list bool) : Prop :=
  match t with
  | Literal c => code_word lit (N_of_ascii c) w
  | Copy l d => exists w1 w2, table_text length_table 257 lit l w1 /\ table_text distance_table 0 dist d w2 /\ w = (w1 ++ w2)%list
  end.
(** What a token adds to the output: each byte of a copy is the one [d] before it, copied ones included. *)
Definition adds (t : token) (out out' : list ascii) : Prop :=
  match t with
  | Literal c => out' = (out ++ [c])%list
  | Copy l d => 1 <= d <= 32768 /\ d <= N.of_nat (List.length out) /\
      exists m, out' = (out ++ m)%list /\ List.length m = N.to_nat l /\
        forall i, (i < List.length m)%nat -> nth_error out' (List.length out + i) = nth_error out' (List.length out + i - N.to_nat d)
  end.
(** [tokens_text lit dist out b out' r]: the bits [b] continue the output [out] to [out'] up to the end of a block,
    and leave the bits [r]. *)
Inductive tokens_text (lit dist : list N) : list ascii -> list bool -> list ascii -> list bool -> Prop :=
| end_of_block out w r : code_word lit 256 w -> tokens_text lit dist out (w ++ r) out r
| one_token t w out out' out'' b r : token_text lit dist t w -> adds t out out' -> tokens_text lit dist out' b out'' r ->
    tokens_text lit dist out (w ++ b) out'' r.

(** ** Blocks *)
Definition fixed_literals : list N := (repeat 8 144 ++ repeat 9 112 ++ repeat 7 24 ++ repeat 8 8)%list.
Definition fixed_distance_code : list N := repeat 5 32.
(** Code lengths, themselves in a code [cl] (3.2.7): [lengths_text cl ls b ls' r] as above. *)
Inductive lengths_text (cl : list N) : list N -> list bool -> list N -> list bool -> Prop :=
| lengths_end ls r : lengths_text cl ls r ls r
| lengths_one v w ls b ls' r : v < 16 -> code_word cl v w -> lengths_text cl (ls ++ [v]) b ls' r -> lengths_text cl ls (w ++ b) ls' r
| lengths_previous v w1 x w2 ls b ls' r : code_word cl 16 w1 -> number_field 2 x w2 ->
    lengths_text cl (ls ++ [v] ++ repeat v (3 + N.to_nat x)) b ls' r -> lengths_text cl (ls ++ [v]) (w1 ++ w2 ++ b) ls' r
| lengths_zeros v bits least w1 x w2 ls b ls' r : In (v, bits, least) [(17, 3%nat, 3%nat); (18, 7%nat, 11%nat)] -> code_word cl v w1 -> number_field bits x w2 ->
    lengths_text cl (ls ++ repeat 0 (least + N.to_nat x)) b ls' r -> lengths_text cl ls (w1 ++ w2 ++ b) ls' r.
(** The order in which the lengths of [cl] are written; those not written are 0. *)
Definition written_order : list nat := [16; 17; 18; 0; 8; 7; 9; 6; 10; 5; 11; 4; 12; 3; 13; 2; 14; 1; 15]%nat.
Inductive codes_text (lit dist : list N) : list bool -> list bool -> Prop :=
| codes hlit hdist hclen w1 w2 w3 ws vs cl b r :
    number_field 5 hlit w1 -> number_field 5 hdist w2 -> number_field 4 hclen w3 -> hlit <= 29 -> hdist <= 29 ->
    Forall2 (number_field 3) vs ws -> N.of_nat (List.length vs) = hclen + 4 ->
    List.length cl = 19%nat -> (forall i, (i < 19)%nat -> nth (nth i written_order 0%nat) cl 0 = nth i vs 0) -> usable cl ->
    lengths_text cl [] b (lit ++ dist) r ->
    N.of_nat (List.length lit) = hlit + 257 -> N.of_nat (List.length dist) = hdist + 1 -> usable lit -> usable dist ->
    codes_text lit dist (w1 ++ w2 ++ w3 ++ List.concat ws ++ b) r.
Inductive block_text : list ascii -> list bool -> list ascii -> list bool -> Prop :=
| stored_block out padding n w1 w2 data r :
    (List.length padding < 8)%nat -> (List.length r mod 8 = 0)%nat -> N.of_nat (List.length data) = n ->
    number_field 16 n w1 -> number_field 16 (65535 - n) w2 ->
    block_text out ([false; false] ++ padding ++ w1 ++ w2 ++ bits data ++ r) (out ++ data) r
| fixed_block out b out' r : tokens_text fixed_literals fixed_distance_code out b out' r ->
    block_text out ([true; false] ++ b) out' r
| dynamic_block lit dist out b b' out' r : codes_text lit dist b b' -> tokens_text lit dist out b' out' r ->
    block_text out ([false; true] ++ b) out' r.
Inductive blocks_text : list ascii -> list bool -> list ascii -> list bool -> Prop :=
| last_block out b out' r : block_text out b out' r -> blocks_text out (true :: b) out' r
| more_blocks out b out' b' out'' r : block_text out b out' b' -> blocks_text out' b' out'' r -> blocks_text out (false :: b) out'' r.
(** The bytes [l] are a compressed form of [out]: its blocks, ending in the last byte. *)
Definition deflated (l out : list ascii) : Prop := exists padding, (List.length padding < 8)%nat /\ blocks_text [] (bits l) out padding.

(** ** CRC-32 (ITU-T V.42): polynomials over the field of two elements, as the numbers with these coefficients *)
Definition generator : N := 4374732215. (* 0x104C11DB7: x^32 + x^26 + x^23 + ... + x + 1 *)
Fixpoint carryless_pos (p : positive) (g : N) : N :=
  match p with
  | xH => g
  | xO p' => 2 * carryless_pos p' g
  | xI p' => N.lxor (2 * carryless_pos p' g) g
  end.
Definition product (q g : N) : N := match q with 0 => 0 | Npos p => carryless_pos p g end.
(** The message, as the polynomial whose highest coefficient is the first bit, has its first 32 coefficients inverted
    and is multiplied by x^32; the sum is the remainder, its highest coefficient in the lowest bit, inverted. *)
Definition checksum (l : list ascii) (sum : N) : Prop :=
  exists q w, List.length w = 32%nat /\ sum = low_first (map negb w) /\
    N.lxor (high_first (bits l) * 2 ^ 32) ((2 ^ 32 - 1) * 2 ^ N.of_nat (List.length (bits l))) = N.lxor (product q generator) (high_first w).

(** ** gzip *)
Definition little_endian (n : nat) (v : N) (l : list ascii) : Prop := List.length l = n /\ low_first (bits l) = v.
Definition present (b : bool) (P : list ascii -> Prop) (l : list ascii) : Prop := if b then P l else l = [].
Definition extra_text (l : list ascii) : Prop := exists n a b, little_endian 2 n a /\ N.of_nat (List.length b) = n /\ l = (a ++ b)%list.
(** A name or a comment; the package accepts up to 511 bytes. *)
Definition name_text (l : list ascii) : Prop := exists a, (List.length a <= 511)%nat /\ ~ In zero a /\ l = (a ++ [zero])%list.
Definition header_text (h : list ascii) : Prop :=
  exists f six extra name comment sum, List.length six = 6%nat /\
    let front := ([ascii_of_N 31; ascii_of_N 139; ascii_of_N 8; f] ++ six ++ extra ++ name ++ comment)%list in
    h = (front ++ sum)%list /\
    present (N.testbit (N_of_ascii f) 2) extra_text extra /\
    present (N.testbit (N_of_ascii f) 3) name_text name /\
    present (N.testbit (N_of_ascii f) 4) name_text comment /\
    present (N.testbit (N_of_ascii f) 1) (fun l => exists s, checksum front s /\ little_endian 2 (s mod 2 ^ 16) l) sum.
Inductive gzip_text : list ascii -> list ascii -> Prop :=
| one_more h d out s c n rest out' : header_text h -> deflated d out -> checksum out s -> little_endian 4 s c ->
    little_endian 4 (N.of_nat (List.length out) mod 2 ^ 32) n -> (rest = [] /\ out' = [] \/ gzip_text rest out') ->
    gzip_text (h ++ d ++ c ++ n ++ rest) (out ++ out').

(** ** base64: the position of a character in the alphabet is a number of six bits; after removing line ends the
    bits of the bytes, highest first, are those of the characters.  The package ignores the bits left over. *)
Definition base64_alphabet : string := "ABCDEFGHIJKLMNOPQRSTUVWXYZabcdefghijklmnopqrstuvwxyz0123456789+/".
Definition character (c : ascii) (w : list bool) : Prop :=
  exists i, String.get i base64_alphabet = Some c /\ List.length w = 6%nat /\ high_first w = N.of_nat i.
Definition high_bits (l : list ascii) : list bool := flat_map (fun c => rev (byte_bits c)) l.
Definition line_end (c : ascii) : Prop := c = "010"%char \/ c = "013"%char.
Inductive without_line_ends : list ascii -> list ascii -> Prop :=
| no_more : without_line_ends [] []
| skipped c l m : line_end c -> without_line_ends l m -> without_line_ends (c :: l) m
| kept c l m : ~ line_end c -> without_line_ends l m -> without_line_ends (c :: l) (c :: m).
Definition base64_text (text : string) (l : list ascii) : Prop :=
  exists chars ws padding rest, without_line_ends (list_ascii_of_string text) (chars ++ padding) /\
    Forall2 character chars ws /\ List.concat ws = (high_bits l ++ rest)%list /\
    (List.length rest < 6)%nat /\ (forall c, In c padding -> c = "="%char) /\
    (List.length padding < 4)%nat /\ (List.length (chars ++ padding) mod 4 = 0)%nat.
