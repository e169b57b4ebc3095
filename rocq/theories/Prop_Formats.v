(** C59: the decoders are those of the standards. *)
From Coq Require Import ZArith NArith List Bool String Ascii Lia.
From Verif Require Import Base64 Deflate Esc EscBytes Gzip P_Gzip JsonRead AstroMoon Assets AstroFS P_Assets SpecJson Prop_JsonRead SpecFlate P_Deflate P_Formats.
Import ListNotations.
Local Open Scope N_scope.

(** Each decoder accepts exactly the texts of its format (SpecFlate.v) and gives the content they have by it. *)
Theorem C59_base64 t l : base64_decode t = (l, true) <-> base64_text t l.
Proof. apply base64_spec. Qed.
Theorem C59_deflate l out rest : inflate l = (out, Some rest) <-> exists d, l = (d ++ rest)%list /\ deflated d out.
Proof. apply inflate_spec. Qed.
Theorem C59_checksum l v : v = crc32 l <-> checksum l v.
Proof. symmetry. apply checksum_spec. Qed.
Theorem C59_header l rest : header l = Some rest <-> exists h, header_text h /\ l = (h ++ rest)%list.
Proof. apply header_spec. Qed.
Theorem C59_decode t out : decode t = ReadBytes (string_of_list_ascii out) false <-> exists l, base64_text t l /\ gzip_text l out.
Proof. apply decode_spec. Qed.
(** Any other text is noticed. *)
Theorem C59_other t : (~ exists l out, base64_text t l /\ gzip_text l out) <-> decode t = NoHeader \/ exists b, decode t = ReadBytes b true.
Proof.
  split.
  - intros N. destruct (decode t) as [|b [|]] eqn:D; [left; reflexivity|right; exists b; reflexivity|]. elim N.
    rewrite <- (string_of_list_ascii_of_string b) in D. apply decode_spec in D. destruct D as (l & H). exists l, (list_ascii_of_string b). exact H.
  - intros H (l & out & B & G). assert (D : decode t = ReadBytes (string_of_list_ascii out) false) by (apply decode_spec; exists l; auto). rewrite D in H. destruct H as [H|[b H]]; discriminate H.
Qed.
(** A compressed text has one content, and no other compressed text starts with it. *)
Theorem C59_prefix d out d' out' x : deflated d out -> deflated d' out' -> d' = (d ++ x)%list -> x = [] /\ out = out'.
Proof.
  intros D D' ->. assert (I : inflate (d ++ x) = (out, Some x)) by (apply inflate_spec; exists d; auto).
  assert (I' : inflate (d ++ x) = (out', Some [])) by (apply inflate_spec; exists (d ++ x)%list; rewrite app_nil_r; auto). rewrite I in I'. injection I' as -> ->. auto.
Qed.
(** So is a code: no word is the beginning of another. *)
Theorem C59_prefix_code ls v w v' w' x : (forall l, In l ls -> l <= 15) -> usable ls -> code_word ls v w -> code_word ls v' w' -> w' = (w ++ x)%list -> x = [] /\ v = v'.
Proof.
  intros B U W W' E. apply (code_usable ls B) in U. destruct U as [t C]. apply (code_spec ls t B C) in W, W'. subst w'. clear - W W'. revert w W W'.
  induction t as [|y|l IHl r IHr]; intros w W W'; destruct w as [|b w]; cbn [path List.app] in *; try contradiction.
  - destruct x; [|destruct W']. split; [reflexivity|congruence].
  - destruct b; [exact (IHr w W W')|exact (IHl w W W')].
Qed.
(** What reading a year's file through base64, gzip and JSON must give is what the other claims assume. *)
Theorem C59_assets y : (1900 <= y <= 2040)%Z -> exists l out v p,
  base64_text (assoc ""%string (file_name y) compressed) l /\ gzip_text l out /\ json_text v (string_of_list_ascii out) /\ response_value string_means v p /\
  embedded_fs y = Decoded (p_Success p) (fst (p_Error p)) (map aeris_moon (p_Response p)).
Proof.
  intros Y. destruct (asset_ok y Y) as (l & out & B & _ & D & K). apply decode_spec in D. destruct D as (l' & B' & G).
  unfold content_ok in K. set (b := string_of_list_ascii out) in *. rewrite !andb_true_iff in K. destruct K as [_ K].
  destruct (unmarshal b) as [p|] eqn:U; [|discriminate]. destruct (embedded_fs y) as [| |s e m]; try discriminate. rewrite !andb_true_iff in K. destruct K as [[[K1 K2] K3] _].
  apply C58_decoded in U. destruct U as (v & J & _ & V). exists l', out, v, p. split; [exact B'|]. split; [exact G|]. split; [exact J|]. split; [exact V|].
  apply eqb_prop in K1. apply String.eqb_eq in K2. apply moons_eqb_eq in K3. congruence.
Qed.
(** A fixed block with an overlapping copy, a dynamic block, two members, and what is refused: a distance before
    the start, a block of the fourth kind, an over-full code and an incomplete one. *)
Definition inflated (l : list N) : option (string * nat) :=
  match inflate (map ascii_of_N l) with (out, Some r) => Some (string_of_list_ascii out, List.length r) | (_, None) => None end.
Example C59_example :
  decode "H4sIAAAAAAAA/8vNz8/LRcMAHGmDfxQAAAA=" = ReadBytes "moonmoonmoonmoonmoon" false /\
  decode "H4sIAAAAAAAA/wXBAQEAAAjDoKzs9s8gaBuMDG60iSYH5UQyQsax66JGrjrtQmdpaETXCmUaglaJmG6Rxali29W0YEoM6gHJ+xPvyAAAAA==" = ReadBytes
    "abcccaaaacaabacaaaadcaabccabaabcabadaaaabbadabaababacaabaaabacaadaacdbdbaabbcaabadbbbdabcdbaaabdacbabcaaabcaabaabdbcbbaaabbacabcaaabaaaabcbbbabaabaacabdcbaabacbaadabbbbaacccdbbcabcbaaaacabbabaacaaaabb" false /\
  inflated [203; 205; 207; 207; 203; 69; 195; 0; 9] = Some ("moonmoonmoonmoonmoon", 1%nat)%string /\
  inflated [3; 2; 0] = None /\ inflated [7; 0] = None /\ inflated ([5; 0; 146] ++ repeat 0 60) = None /\ inflated ([5; 0; 0; 9] ++ repeat 0 60) = None.
Proof. vm_compute. repeat split. Qed.
