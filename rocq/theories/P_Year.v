(** Year records: ranges, exact relations, the step from one year to the next.
    Lemmas for C01-C05, C10 and the basis of C07-C12. *)
From Coq Require Import ZArith Lia Bool ZifyBool.
From Verif Require Import GoTime SuriyaYear.
Open Scope Z_scope.
Ltac Zify.zify_post_hook ::= Z.div_mod_to_equations.

Ltac unfold_consts :=
  unfold EraDays, EraYears, EraHorakhun, EraUccabala, EraAvoman, EraMasaken, MonthLength,
    CycleSolar, CycleDaily, KammacubalaDaily, CSdiff, BEdiff in *.

(** Short names for the fields of [su_init y], used in proofs only. *)
Definition Hor (y : Z) := sy_Horakhun (su_init y).
Definition K (y : Z) := sy_Kammacubala (su_init y).
Definition Av (y : Z) := sy_Avoman (su_init y).
Definition T (y : Z) := sy_Tithi (su_init y).
Definition M (y : Z) := sy_Masaken (su_init y).
Definition lp (y : Z) : Z := if is_suriya_leap (su_init y) then 1 else 0.

Lemma sy_Year_init y : sy_Year (su_init y) = y.
Proof. reflexivity. Qed.

Lemma HK_spec y : 638 <= y ->
  800 * Hor y - K y = 292207 * (y - 638) + 373 /\ 1 <= K y <= 800 /\ 1 <= Hor y.
Proof.
  intros Hy. unfold Hor, K, su_init; cbn [sy_Horakhun sy_Kammacubala]. unfold_consts.
  rewrite Z.quot_div_nonneg, Z.rem_mod_nonneg by lia. lia.
Qed.

Lemma NA_spec y : 638 <= y ->
  692 * (30 * M y + T y) + Av y = 703 * Hor y + 650 /\ 0 <= T y < 30 /\ 0 <= Av y < 692 /\ 0 <= M y.
Proof.
  intros Hy. destruct (HK_spec y Hy) as (_ & _ & HH).
  unfold M, T, Av. unfold Hor in *. unfold su_init in *; cbn [sy_Horakhun sy_Kammacubala sy_Masaken sy_Tithi sy_Avoman] in *.
  set (h := Z.quot _ _ + 1) in *. clearbody h. unfold_consts.
  rewrite (Z.rem_mod_nonneg (h * 11 + 650)) by lia.
  rewrite Z.quot_div_nonneg, (Z.rem_mod_nonneg ((h * 11 + 650) / 692 + h)) by lia. lia.
Qed.

Lemma U_spec y : 638 <= y -> sy_Uccabala (su_init y) = (Hor y + 2611) mod 3232.
Proof.
  intros Hy. destruct (HK_spec y Hy) as (_ & _ & HH).
  unfold Hor in *. unfold su_init in *; cbn [sy_Horakhun sy_Uccabala] in *.
  set (h := Z.quot _ _ + 1) in *. clearbody h. unfold_consts.
  rewrite Z.rem_mod_nonneg by lia. reflexivity.
Qed.

Lemma lp_spec y : lp y = 1 /\ K y <= 207 \/ lp y = 0 /\ 207 < K y.
Proof. unfold lp, is_suriya_leap, K. destruct (Z.leb_spec (sy_Kammacubala (su_init y)) 207); lia. Qed.

Lemma leap_lp y : is_suriya_leap (su_init y) = (lp y =? 1).
Proof. unfold lp. destruct (is_suriya_leap _); reflexivity. Qed.

Lemma H_step y : 638 <= y -> Hor (y + 1) = Hor y + 365 + lp y /\ K (y + 1) = K y - 207 + 800 * lp y.
Proof.
  intros Hy. pose proof (HK_spec y Hy). pose proof (HK_spec (y + 1) ltac:(lia)).
  pose proof (lp_spec y). lia.
Qed.

(** tithis gained over days in the year starting at Horakhun of [y]: 5 or 6 *)
Lemma NA_step y : 638 <= y ->
  exists g, 5 <= g <= 6 /\
   30 * M (y + 1) + T (y + 1) = 30 * M y + T y + 365 + lp y + g /\
   Av (y + 1) = Av y + 11 * (365 + lp y) - 692 * g.
Proof.
  intros Hy. destruct (H_step y Hy) as [Hs _].
  pose proof (NA_spec y Hy). pose proof (NA_spec (y + 1) ltac:(lia)).
  pose proof (lp_spec y).
  exists (30 * M (y + 1) + T (y + 1) - (30 * M y + T y + 365 + lp y)). lia.
Qed.

(** ** Boolean year types as arithmetic *)
Lemma wam_spec y : 638 <= y ->
  would_be_adhikamasa (su_init y) = true <-> (24 <= T y \/ T y <= 5).
Proof.
  intros Hy. pose proof (NA_spec y Hy) as (_ & HT & _). unfold would_be_adhikamasa. fold (T y). lia.
Qed.

Lemma am_spec y : 638 <= y ->
  is_adhikamasa (su_init y) = true <-> (24 <= T y \/ T y <= 5) /\ 5 < T (y + 1) < 24.
Proof.
  intros Hy. unfold is_adhikamasa. rewrite sy_Year_init.
  pose proof (wam_spec y Hy). pose proof (wam_spec (y + 1) ltac:(lia)).
  destruct (would_be_adhikamasa (su_init y)), (would_be_adhikamasa (su_init (y + 1)));
    cbn [negb andb]; lia.
Qed.

Lemma wav_spec y :
  would_be_adhikavara (su_init y) = true <-> (lp y = 1 /\ Av y <= 126 \/ lp y = 0 /\ Av y < 137).
Proof.
  unfold would_be_adhikavara. rewrite leap_lp. fold (Av y). pose proof (lp_spec y).
  destruct (Z.eqb_spec (lp y) 1); lia.
Qed.

Lemma T_step y : 638 <= y -> exists d c, 10 <= d <= 12 /\ 0 <= c <= 1 /\ T (y + 1) = T y + d - 30 * c
  /\ M (y + 1) = M y + 12 + c.
Proof.
  intros Hy. destruct (NA_step y Hy) as (g & Hg & HN & _).
  pose proof (NA_spec y Hy). pose proof (NA_spec (y + 1) ltac:(lia)).
  pose proof (lp_spec y).
  exists (5 + lp y + g), (M (y + 1) - M y - 12). lia.
Qed.

Definition am (y : Z) : bool := is_adhikamasa (su_init y).
Definition wv (y : Z) : bool := would_be_adhikavara (su_init y).
Definition ca (y : Z) : bool := has_carried_adhikavara (su_init y).
Definition av (y : Z) : bool := is_adhikavara_pure (su_init y).
Definition b2z (b : bool) : Z := if b then 1 else 0.

Lemma b2z_01 b : 0 <= b2z b <= 1.
Proof. destruct b; cbn; lia. Qed.

Lemma ca_eq y : ca y = am (y - 1) && wv (y - 1).
Proof. reflexivity. Qed.
Lemma av_eq y : av y = negb (am y) && (ca y || wv y).
Proof. unfold av, is_adhikavara_pure. fold (am y) (ca y) (wv y). destruct (am y), (ca y); reflexivity. Qed.

Lemma amT y : 638 <= y -> am y = true <-> (24 <= T y \/ T y <= 5) /\ 5 < T (y + 1) < 24.
Proof. exact (am_spec y). Qed.

(** The month count of the year, shifted so that it jumps exactly at adhikamasa years. *)
Lemma M_am_step y : 638 <= y ->
  M (y + 1) - b2z (T (y + 1) <=? 5) = M y - b2z (T y <=? 5) + 12 + b2z (am y).
Proof.
  intros Hy. destruct (T_step y Hy) as (d & c & Hd & Hc & HT & HM).
  pose proof (NA_spec y Hy). pose proof (NA_spec (y + 1) ltac:(lia)).
  pose proof (am_spec y Hy) as Ham. fold (am y) in Ham.
  destruct (am y), (Z.leb_spec (T y) 5), (Z.leb_spec (T (y + 1)) 5); unfold b2z; lia.
Qed.

(** A year whose Tithi is 5 or less is adhikamasa. *)
Lemma T_small_am y : 638 <= y -> T y <= 5 -> am y = true.
Proof.
  intros Hy H5. rewrite (amT y Hy).
  destruct (T_step y Hy) as (d & c & Hd & Hc & HT & HM).
  pose proof (NA_spec y Hy). pose proof (NA_spec (y + 1) ltac:(lia)). lia.
Qed.

Lemma am_not_adjacent y : 638 <= y -> am y = true -> am (y + 1) = false.
Proof.
  intros Hy Ha. rewrite (amT y Hy) in Ha.
  destruct (am (y + 1)) eqn:E; [|reflexivity].
  rewrite (amT (y + 1) ltac:(lia)) in E. lia.
Qed.

(** gain: [true] iff only five tithis are gained over the days of the year *)
Definition gain5 (y : Z) : bool := (Av y + 11 * (365 + lp y)) / 692 =? 5.

Lemma NA_gain y : 638 <= y ->
  30 * M (y + 1) + T (y + 1) = 30 * M y + T y + 365 + lp y + 6 - b2z (gain5 y) /\
  Av (y + 1) = Av y + 11 * (365 + lp y) - 692 * (6 - b2z (gain5 y)).
Proof.
  intros Hy. destruct (NA_step y Hy) as (g & Hg & HN & HA).
  pose proof (NA_spec (y + 1) ltac:(lia)) as (_ & _ & HA' & _).
  unfold gain5, b2z.
  destruct (Z.eqb_spec ((Av y + 11 * (365 + lp y)) / 692) 5); lia.
Qed.

(** years in which the [<=] of suriya_year.go:123 differs from [<] *)
Definition edge (y : Z) : bool := (lp y =? 1) && (Av y =? 126).

Lemma wv_gain y : 638 <= y -> wv y = gain5 y || edge y /\ gain5 y && edge y = false.
Proof.
  intros Hy. pose proof (wav_spec y) as Hw. fold (wv y) in Hw.
  unfold gain5, edge. pose proof (lp_spec y) as Hl. pose proof (NA_spec y Hy) as (_ & _ & HA & _).
  destruct (wv y), (Z.eqb_spec ((Av y + 11 * (365 + lp y)) / 692) 5), (Z.eqb_spec (lp y) 1),
    (Z.eqb_spec (Av y) 126); cbn [andb orb]; split; try reflexivity; lia.
Qed.

(** After an edge year the next year is again a would-be year; after any other
    would-be year it is not. *)
Lemma wv_adjacent y : 638 <= y -> wv y && wv (y + 1) = edge y.
Proof.
  intros Hy. destruct (NA_gain y Hy) as [_ HA].
  destruct (wv_gain y Hy) as [Hw Hx].
  pose proof (NA_spec y Hy) as (_ & _ & HA0 & _).
  pose proof (NA_spec (y + 1) ltac:(lia)) as (_ & _ & HA1 & _).
  pose proof (lp_spec y) as Hl. pose proof (lp_spec (y + 1)) as Hl'.
  pose proof (wav_spec (y + 1)) as Hw'. fold (wv (y + 1)) in Hw'.
  rewrite Hw in *.
  assert (He : edge y = true <-> lp y = 1 /\ Av y = 126) by (unfold edge; lia).
  destruct (gain5 y), (edge y), (wv (y + 1)); cbn [andb orb b2z] in *; try reflexivity; try discriminate; lia.
Qed.
