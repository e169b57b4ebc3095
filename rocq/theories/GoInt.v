(** Go's machine integers ([int] and [int64] are 64-bit two's complement on
    every 64-bit platform).  Used by the machine-level transcriptions; the
    calendar logic itself is modelled over unbounded [Z] and tied to these by
    the theorems of P_Machine.v. *)
From Coq Require Import ZArith Lia.
Open Scope Z_scope.

(** Go spec, "Integer overflow": the result is taken modulo 2^64 and
    reinterpreted as signed. *)
Definition two64 : Z := 18446744073709551616.
Definition two63 : Z := 9223372036854775808.
Definition wrap64 (z : Z) : Z := (z + two63) mod two64 - two63.

Definition iadd (a b : Z) : Z := wrap64 (a + b).
Definition isub (a b : Z) : Z := wrap64 (a - b).
Definition imul (a b : Z) : Z := wrap64 (a * b).
(** Go spec, "Integer division": truncation towards zero ([Z.quot]/[Z.rem]);
    the one overflowing quotient (min / -1) wraps. *)
Definition idiv (a b : Z) : Z := wrap64 (Z.quot a b).
Definition imod (a b : Z) : Z := wrap64 (Z.rem a b).

Definition in_int64 (z : Z) : Prop := - two63 <= z < two63.

Lemma wrap64_id z : in_int64 z -> wrap64 z = z.
Proof.
  unfold in_int64, wrap64, two63, two64. intros H.
  rewrite Z.mod_small; lia.
Qed.

Lemma wrap64_range z : in_int64 (wrap64 z).
Proof.
  unfold in_int64, wrap64, two63, two64.
  pose proof (Z.mod_pos_bound (z + 9223372036854775808) 18446744073709551616 eq_refl). lia.
Qed.
