(** C56: the texts in data.go, decoded, are the files the other claims are about. *)
From Coq Require Import ZArith List Bool String Ascii Lia.
From Verif Require Import GoTime Text SpecText Esc EscData EscBytes EscUse P_Esc Prop_Esc Prop_EscUse Gzip AstroMoon JsonRead Assets AstroFS P_Astro P_Assets.
Import ListNotations.
Local Open Scope string_scope.
Open Scope Z_scope.

(** What the file of a year holds: the text [b] of the declared size, which reads as the response
    [p]; this is the one of [embedded_fs], and in every record the time stamp, the date (in British time)
    and the name of the phase agree with each other and with the year. *)
Definition agrees (y : Z) (r : AerisRecord) : Prop :=
  (exists hours, 0 <= hours <= 2 /\ r_DateTimeISO r = mkTime ((r_Timestamp r + unix_epoch) * second_ns) (hours * 3600)) /\
  time_year (time_utc (r_DateTimeISO r)) = y /\ r_Name r = phase_name (r_Code r).
Theorem C56_content y : 1900 <= y <= 2040 -> exists a b p, esc_data (clean (file_name y)) = Some a /\ content a b /\
  as_size a = Z.of_nat (String.length b) /\ unmarshal b = Some p /\ fetched b = embedded_fs y /\ Forall (agrees y) (p_Response p).
Proof.
  intros H. destruct (asset_ok y H) as (l0 & out & _ & _ & D & F). unfold content_ok in F.
  pose proof (proj2 (has_key_file y) H) as K. rewrite clean_file_name in K. unfold esc_data. rewrite clean_file_name, K, D.
  generalize dependent (fst (assoc (0, false) (file_name y) esc_entries)). intros size F. generalize dependent (string_of_list_ascii out). intros b D F.
  rewrite !andb_true_iff, Z.eqb_eq, Z.ltb_lt in F. destruct F as [[L P] F].
  unfold fetched. destruct (unmarshal b) as [p|] eqn:U; [|discriminate]. destruct (embedded_fs y) as [| |s e l]; try discriminate. rewrite !andb_true_iff in F.
  destruct F as [[[Fs Fe] Fl] Fr]. apply eqb_prop in Fs. apply String.eqb_eq in Fe. apply moons_eqb_eq in Fl.
  eexists (mkAsset size (ReadBytes b false) _ _ _), b, p. repeat split; try congruence.
  - right. cbn [as_size as_decoding]. split; [lia|reflexivity].
  - cbn [as_size]. congruence.
  - rewrite U. congruence.
  - apply Forall_forall. intros r I. pose proof (proj1 (forallb_forall _ _) Fr r I) as A. unfold record_ok in A. rewrite !andb_true_iff, !Z.eqb_eq, String.eqb_eq in A.
    destruct A as [[[A1 A2] A3] A4]. unfold agrees. destruct (r_DateTimeISO r) as [n o]. cbn [t_ns t_off] in *. subst n. split; [|auto].
    cbn [existsb] in A2. rewrite !orb_true_iff, !Z.eqb_eq in A2. destruct A2 as [->|[->|[->|]]]; [exists 0|exists 1|exists 2|discriminate]; split; try lia; reflexivity.
Qed.
Lemma absent y : ~ 1900 <= y <= 2040 -> esc_data (clean (file_name y)) = None /\ embedded_fs y = Missing.
Proof.
  intros N. split.
  - unfold esc_data. destruct (has_key (clean (file_name y))) eqn:K; [apply has_key_file in K; lia|reflexivity].
  - pose proof (embedded_missing y) as M. destruct (embedded_fs y); [reflexivity| |]; cbn in M;
    symmetry in M; rewrite negb_false_iff, andb_true_iff, !Z.leb_le in M; lia.
Qed.

(** In every state the embedded files can be in, short of someone overwriting their bytes, reading and
    decoding the file of any year gives what the other claims assume. *)
Theorem C56_every_year os y : forallb (fun o => negb (is_write o)) os = true ->
  fetch_year (after esc_data start os) y = embedded_fs y.
Proof.
  intros W. unfold fetch_year. destruct (Z_le_dec 1900 y) as [L|L]; [destruct (Z_le_dec y 2040) as [U|U]|].
  1: { destruct (C56_content y (conj L U)) as (a & b & p & T & C & _ & _ & F & _).
       pose proof (C54_constant esc_data os (file_name y) a b T C W) as E. unfold exec in E.
       destruct (fs_byte esc_data (after esc_data start os) (file_name y)) as [u [b'|e]]; cbn [snd] in *; [|discriminate]. injection E as ->. exact F. }
  all: destruct (absent y ltac:(lia)) as [N ->].
  all: pose proof (proj1 (C54_absent esc_data os (file_name y) N)) as E; unfold exec in E.
  all: destruct (fs_byte esc_data (after esc_data start os) (file_name y)) as [u [b'|e]]; cbn [snd] in *; [discriminate|reflexivity].
Qed.
(** The same for any number of concurrent calls, however they are interleaved. *)
Theorem C56_concurrent names n st i y r : run esc_data n (initial names) st ->
  nth_error (st_calls st) i = Some (Returned (file_name y) r) ->
  match r with Data b => fetched b = embedded_fs y | NotExist => embedded_fs y = Missing | Corrupt => False end.
Proof.
  intros R H. destruct (C45_results esc_data names n st R i _ r H) as [_ C].
  destruct (Z_le_dec 1900 y) as [L|L]; [destruct (Z_le_dec y 2040) as [U|U]|].
  1: { destruct (C56_content y (conj L U)) as (a & b & p & T & Ct & _ & _ & F & _). rewrite T in C. rewrite (C b Ct). exact F. }
  all: destruct (absent y ltac:(lia)) as [N E]; rewrite N in C; subst r; exact E.
Qed.
(** Directories are empty files: their names can be read, giving nothing. *)
Theorem C56_directories : forall k, In k ["/"; "/data"; "/data/astro"] -> exists a, esc_data (clean k) = Some a /\ content a "".
Proof.
  intros k H. exists (mkAsset 0 NoHeader true 0 k). split; [|left; split; reflexivity].
  cbn [In] in H. destruct H as [<-|[<-|[<-|[]]]]; vm_compute; reflexivity.
Qed.
Example C56_example :
  fetch_year start 1970 = Decoded true "warn_no_data" [] /\
  match fetch_year start 2016 with Decoded true "" (m :: _) => ae_Code m = 3 /\ t_ns (ae_DateTimeISO m) = (day_number 2016 1 2 * 86400 + 5 * 3600 + 31 * 60 + 40) * second_ns | _ => False end.
Proof. change start with (after esc_data start []). rewrite !C56_every_year by reflexivity. vm_compute. auto. Qed.
