(** C57: what is packed comes out again, and what is damaged is noticed. *)
From Coq Require Import ZArith NArith List Bool String Ascii Lia.
From Verif Require Import Base64 Deflate Esc EscBytes Gzip P_Gzip Assets P_Assets.
Import ListNotations.
Local Open Scope N_scope.

(** Any content, in any division into blocks and lines: [pack] writes RFC 1952 with stored blocks,
    [encode] RFC 4648. *)
Definition lf : string := String "010" "".
Definition crlf : string := String "013" lf.
Theorem C57_round_trip chunks lines nl : chunks <> [] -> (forall c, In c chunks -> N.of_nat (List.length c) < 65536) ->
  In nl [lf; crlf] -> String.concat "" lines = encode (pack chunks) ->
  decode (String.concat nl lines) = ReadBytes (string_of_list_ascii (List.concat chunks)) false.
Proof.
  intros N B L E. assert (K : skip_newlines nl = ""%string) by (cbn [In] in L; destruct L as [<-|[<-|[]]]; reflexivity).
  pose proof (base64_round (pack chunks) nl lines K E) as R. destruct (pack_one chunks N B) as [H I].
  rewrite (decode_one _ _ _ _ _ _ R H I eq_refl eq_refl). rewrite !(proj2 (le4 _)), mod32_mod, (small_mod _ (small_crc _)), !N.eqb_refl. reflexivity.
Qed.
Example C57_round_trip_example :
  let t := encode (pack [list_ascii_of_string "splendid "; list_ascii_of_string "moons"]) in
  t = "H4sIAAAAAAAA/wAJAPb/c3BsZW5kaWQgAQUA+v9tb29ucw4E1PsOAAAA"%string /\
  decode (String "010" (t ++ lf))%string = ReadBytes "splendid moons" false.
Proof. vm_compute. auto. Qed.

(** A file cut short anywhere is noticed, however its text is written and whatever follows the cut that is
    not base64: there is no header, or the read fails. *)
Theorem C57_truncated p x out t : one_member (p ++ x) out -> x <> [] -> fst (base64_decode t) = p ->
  decode t = NoHeader \/ exists b, decode t = ReadBytes b true.
Proof. apply decode_truncated. Qed.
Theorem C57_assets_truncated y n t : (1900 <= y <= 2040)%Z ->
  let l := fst (base64_decode (assoc ""%string (file_name y) compressed)) in
  (n < List.length l)%nat -> fst (base64_decode t) = firstn n l -> decode t = NoHeader \/ exists b, decode t = ReadBytes b true.
Proof.
  intros Y l L T. destruct (asset_ok y Y) as (l' & out & B & O & _). cbv zeta in B. unfold l in *. rewrite B in *. cbn [fst] in *.
  rewrite <- (firstn_skipn n l') in O. apply (C57_truncated _ _ out t O); [|exact T]. intros E. apply (f_equal (@List.length ascii)) in E. rewrite skipn_length in E. cbn [List.length] in E. lia.
Qed.

(** Two contents that differ only within 32 consecutive bits (so in any one byte, or up to four in a row) never
    share a checksum. *)
Theorem C57_checksum p v w q l m : bits l = (p ++ v ++ q)%list -> bits m = (p ++ w ++ q)%list ->
  List.length v = List.length w -> (List.length v <= 32)%nat -> v <> w -> crc32 l <> crc32 m.
Proof.
  intros Bl Bm L M N E. unfold crc32 in E. rewrite !crc_bits, Bl, Bm in E. apply (f_equal (fun x => N.lxor x mask32)) in E.
  rewrite !N.lxor_assoc, N.lxor_nilpotent, !N.lxor_0_r in E. revert E. apply crc_burst; [exact L|exact M|exact N|]. apply small_lt. reflexivity.
Qed.
(** So if damage changes the decompressed content that little and leaves the checksum at the end alone, the
    read fails. *)
Theorem C57_damage t t' l l' out out' c s s' p v w q b :
  base64_decode t = (l, true) -> base64_decode t' = (l', true) ->
  (exists l1, header l = Some l1 /\ inflate l1 = (out, Some (c ++ s)%list)) ->
  (exists l1', header l' = Some l1' /\ inflate l1' = (out', Some (c ++ s')%list)) ->
  List.length c = 4%nat -> List.length s = 4%nat -> List.length s' = 4%nat ->
  bits out = (p ++ v ++ q)%list -> bits out' = (p ++ w ++ q)%list -> List.length v = List.length w -> (List.length v <= 32)%nat -> v <> w ->
  decode t = ReadBytes b false -> exists b', decode t' = ReadBytes b' true.
Proof.
  intros B B' (l1 & H & I) (l1' & H' & I') C S S' Bl Bm L M N D.
  rewrite (decode_one t l l1 out c s B H I C S) in D. injection D as _ D. rewrite negb_false_iff, andb_true_iff, !N.eqb_eq in D. destruct D as [D _].
  rewrite (decode_one t' l' l1' out' c s' B' H' I' C S'). exists (string_of_list_ascii out'). f_equal.
  rewrite D, negb_true_iff, andb_false_iff. left. apply N.eqb_neq. apply (C57_checksum p v w q); assumption.
Qed.
(** The check value of the standard, and one flipped bit in the example above. *)
Example C57_checksum_example : crc32 (list_ascii_of_string "123456789") = 3421780262 /\
  decode "H4sIAAAAAAAA/wAJAPb/c3BsZW5kaWQgAQUA+v9tb29ucw4E1PsOAAAA" = ReadBytes "splendid moons" false /\
  decode "H4sIAAAAAAAA/wAJAPb/c3BsZW5kaWQgAQUA+v9tb21ucw4E1PsOAAAA" = ReadBytes "splendid momns" true /\
  decode "H4sIAAAAAAAA/wAJAPb/c3BsZW5kaWQgAQUA+v9tb29ucw4E1PsOAAA=" = ReadBytes "splendid moons" true /\
  decode "H4sIAAAAAAAA/wAJAPb/c3BsZW5k" = ReadBytes "splend" true /\
  decode "H4sIAAAA" = NoHeader /\ decode "" = NoHeader.
Proof. vm_compute. repeat split. Qed.
(** Not all damage is noticed: the time and the operating system in the header may be anything. *)
Theorem C57_header_refuted : exists t t', base64_decode t <> base64_decode t' /\ decode t = decode t' /\ decode t = ReadBytes "splendid moons" false.
Proof.
  exists "H4sIAAAAAAAA/wAJAPb/c3BsZW5kaWQgAQUA+v9tb29ucw4E1PsOAAAA"%string, "H4sIAABBQkMDAwAJAPb/c3BsZW5kaWQgAQUA+v9tb29ucw4E1PsOAAAA"%string.
  vm_compute. split; [discriminate|auto].
Qed.
