(** Vocabulary used to state the properties, independent of the model. *)
From Coq Require Import ZArith List Bool.
Import ListNotations.
Open Scope Z_scope.

(** Number of years in [from, from+n) satisfying [p]. *)
Fixpoint count_years (p : Z -> bool) (from : Z) (n : nat) : Z :=
  match n with
  | O => 0
  | S n' => (if p from then 1 else 0) + count_years p (from + 1) n'
  end.

(** [x] is the latest year before [y] satisfying [p]. *)
Definition latest_before (p : Z -> bool) (y x : Z) : Prop :=
  x < y /\ p x = true /\ forall z, x < z < y -> p z = false.

(** [y2] is the next year after [y1] satisfying [p]. *)
Definition next_after (p : Z -> bool) (y1 y2 : Z) : Prop :=
  y1 < y2 /\ p y2 = true /\ forall z, y1 < z < y2 -> p z = false.

Definition one_if (b : bool) : Z := if b then 1 else 0.

(** Lunar days (tithis) elapsed at day count [h] of the era: 703 tithis in 692 days,
    with 650/692 of a tithi elapsed on day 0; and the age of the moon (0..29). *)
Definition tithis_elapsed (h : Z) : Z := (703 * h + 650) / 692.
Definition moon_age (h : Z) : Z := tithis_elapsed h mod 30.
