(** Decoding every text of data.go, once. *)
From Coq Require Import ZArith List Bool String Ascii Lia.
From Verif Require Import GoTime Text SpecText Esc EscData EscBytes EscUse P_Esc Prop_Esc Prop_EscUse Base64 Deflate Gzip P_Gzip AstroMoon JsonRead Assets AstroFS P_Astro.
Import ListNotations.
Local Open Scope string_scope.
Open Scope Z_scope.

(** ** Comparing outcomes *)
Definition moon_eqb (a b : AerisMoon) : bool :=
  (ae_Code a =? ae_Code b) && (t_ns (ae_DateTimeISO a) =? t_ns (ae_DateTimeISO b)) && (t_off (ae_DateTimeISO a) =? t_off (ae_DateTimeISO b)).
Fixpoint moons_eqb (l m : list AerisMoon) : bool :=
  match l, m with
  | [], [] => true
  | a :: l', b :: m' => moon_eqb a b && moons_eqb l' m'
  | _, _ => false
  end.
Lemma moons_eqb_eq l : forall m, moons_eqb l m = true -> l = m.
Proof.
  induction l as [|[c [n o]] l IH]; intros [|[c' [n' o']] m]; cbn [moons_eqb]; try discriminate; [reflexivity|].
  rewrite andb_true_iff. unfold moon_eqb. cbn [ae_Code ae_DateTimeISO t_ns t_off]. rewrite !andb_true_iff, !Z.eqb_eq. intros [[[-> ->] ->] H].
  f_equal. apply IH, H.
Qed.
(** The name the service gives to a phase. *)
Definition phase_name (code : Z) : string :=
  match code with 0 => "new moon" | 1 => "first quarter" | 2 => "full moon" | 3 => "last quarter" | _ => "?" end.
(** Seconds from 0001-01-01 to 1970-01-01. *)
Definition unix_epoch : Z := 62135596800.
Definition record_ok (y : Z) (r : AerisRecord) : bool :=
  (t_ns (r_DateTimeISO r) =? (r_Timestamp r + unix_epoch) * second_ns) && existsb (Z.eqb (t_off (r_DateTimeISO r))) [0; 3600; 7200] &&
  (time_year (time_utc (r_DateTimeISO r)) =? y) && String.eqb (r_Name r) (phase_name (r_Code r)).
Definition content_ok (y size : Z) (b : string) : bool :=
  (Z.of_nat (String.length b) =? size) && (0 <? size) &&
  match unmarshal b, embedded_fs y with
  | Some p, Decoded s e l =>
      Bool.eqb (p_Success p) s && String.eqb (fst (p_Error p)) e && moons_eqb (map aeris_moon (p_Response p)) l && forallb (record_ok y) (p_Response p)
  | _, _ => false
  end.
Definition file_ok (y : Z) : bool :=
  let k := file_name y in
  match base64_decode (assoc "" k compressed) with
  | (l, true) =>
      match header l with
      | Some l1 =>
          match inflate l1 with
          | (out, Some [a; b; c; d; e; f; g; h]) =>
              N.eqb (le32 a b c d) (crc32 out) && N.eqb (le32 e f g h) (mod32 (N.of_nat (List.length out))) &&
              content_ok y (fst (assoc (0, false) k esc_entries)) (string_of_list_ascii out)
          | _ => false
          end
      | None => false
      end
  | _ => false
  end.
Definition years : list Z := map (fun i => 1900 + Z.of_nat i) (seq 0 141).
Lemma years_in y : 1900 <= y <= 2040 -> In y years.
Proof. intros H. apply in_map_iff. exists (Z.to_nat (y - 1900)). split; [lia|]. apply in_seq. lia. Qed.
Lemma all_ok : forallb file_ok years = true.
Proof. vm_compute. reflexivity. Qed.


Lemma asset_ok y : 1900 <= y <= 2040 -> exists l out, let t := assoc "" (file_name y) compressed in
  base64_decode t = (l, true) /\ one_member l out /\ decode t = ReadBytes (string_of_list_ascii out) false /\
  content_ok y (fst (assoc (0, false) (file_name y) esc_entries)) (string_of_list_ascii out) = true.
Proof.
  intros H. pose proof (proj1 (forallb_forall _ _) all_ok y (years_in y H)) as F. unfold file_ok in F.
  generalize dependent (assoc "" (file_name y) compressed). intros t F. destruct (base64_decode t) as [l [|]] eqn:B; [|discriminate].
  destruct (header l) as [l1|] eqn:Hd; [|discriminate]. destruct (inflate l1) as [out [r|]] eqn:I; [|discriminate].
  destruct r as [|a [|b [|c [|d [|e [|f [|g [|h [|]]]]]]]]]; try discriminate. rewrite !andb_true_iff in F. destruct F as [[C S] K].
  exists l, out. split; [exact B|]. split; [exists l1, [a; b; c; d], [e; f; g; h]; auto|]. split; [|exact K].
  rewrite (decode_one t l l1 out [a; b; c; d] [e; f; g; h] B Hd I eq_refl eq_refl). cbn [num32]. rewrite C, S. reflexivity.
Qed.
