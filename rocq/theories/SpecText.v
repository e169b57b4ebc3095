(** Vocabulary for the theorems about text: civil dates and how they are written. *)
From Coq Require Import ZArith List Bool String Ascii DecimalString.
Import ListNotations.
Open Scope Z_scope.

(** Decimal numerals, and numerals padded with zeros to a width. *)
Definition numeral (z : Z) : string := NilZero.string_of_int (Z.to_int z).
Fixpoint zeros (n : nat) : string := match n with O => "" | S n' => ("0" ++ zeros n') end%string.
Definition padded (width : nat) (z : Z) : string := (zeros (width - String.length (numeral z)) ++ numeral z)%string.

(** The Gregorian calendar. *)
Definition leap_year (y : Z) : Prop := (y mod 4 = 0 /\ y mod 100 <> 0) \/ y mod 400 = 0.
Definition month_length (leap : bool) (m : Z) : Z :=
  nth (Z.to_nat (m - 1)) [31; if leap then 29 else 28; 31; 30; 31; 30; 31; 31; 30; 31; 30; 31] 0.
Definition civil_date (y m d : Z) : Prop :=
  1 <= m <= 12 /\ 1 <= d /\ exists leap : bool, (leap = true <-> leap_year y) /\ d <= month_length leap m.
(** YYYY-MM-DD *)
Definition iso_date (y m d : Z) : string := (padded 4 y ++ "-" ++ padded 2 m ++ "-" ++ padded 2 d)%string.
