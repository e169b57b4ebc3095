(** Model of utils/years-csv.go: the table of years written by the program in /repo/utils.
    The program names the field BE_Year of SuriyaYear "BE_year" (lines 42, 169), which the Go compiler
    rejects; the model takes the field that exists.  Not modelled: writing the file (179-197);
    the unused function yearsCsvSimple (18-51) is in YearText.v. *)
From Coq Require Import ZArith List Bool String Ascii.
From Verif Require Import GoTime SuriyaYear Helpers Text YearsData.
Import ListNotations.
Open Scope Z_scope.
Local Open Scope string_scope.

(** [t.Format("2006-01-02")] for every year: Go pads the digits of the year to four, after its sign. *)
Fixpoint zeros (n : nat) : string := match n with O => "" | S n' => String "0" (zeros n') end.
Definition long_year (y : Z) : string :=
  let s := fmt_d (Z.abs y) in (if (y <? 0)%Z then "-" else "") ++ zeros (4 - String.length s) ++ s.
Definition format_any (t : time) : string :=
  long_year (time_year t) ++ "-" ++ two (time_month t) ++ "-" ++ two (time_mday t).

(** utils/years-csv.go:63-111: the map [testYears] and its lookup. *)
Fixpoint lookup_year (l : list (Z * (string * string * string))) (y : Z) : option (string * string * string) :=
  match l with
  | [] => None
  | (y', v) :: l' => if (y =? y')%Z then Some v else lookup_year l' y
  end.

(** utils/years-csv.go:119-127; [strconv.Itoa] is %d. *)
Definition csv_dM (su : SuriyaYear) : option string :=
  if is_adhikamasa su then option_map fmt_d (delta_adhikamasa su) else Some "".
Definition csv_dV (cfg : config) (su : SuriyaYear) : option string :=
  if is_adhikavara cfg su then option_map fmt_d (delta_adhikavara cfg su)
  else if would_be_adhikavara su then Some "x" else Some "".

Definition newline : string := String (ascii_of_nat 10) "".
(** utils/years-csv.go:113 *)
Definition csv_header : string :=
  "CE year;BE year;K;A;T;nM;dM;nV;dV;Asalha by Calc.;Asalha in Calendar;test;source;comments" ++ newline.
(** utils/years-csv.go:115-173, the body of the loop.  [None] would be non-termination of one of
    the methods called. *)
Definition csv_row (cfg : config) (year : Z) : option string :=
  let su := su_init year in
  match csv_dM su, csv_dV cfg su, asalha_puja cfg su with
  | Some dM, Some dV, Some asalha =>
      let asalhaStr := format_any asalha in
      let '(testRes, (date, source, comments)) :=
        match lookup_year published year with
        | Some (date, source, comments) =>
            ((if String.eqb asalhaStr date then "OK" else "FAIL"), (date, source, comments))
        | None => ("", ("", "", ""))
        end in
      Some (fmt_d (sy_Year su) ++ ";" ++ fmt_d (sy_BE_Year su) ++ ";" ++ fmt_d (sy_Kammacubala su) ++ ";"
            ++ fmt_d (sy_Avoman su) ++ ";" ++ fmt_d (sy_Tithi su) ++ ";" ++ fmt_d (adhikamasa_cycle_pos su) ++ ";"
            ++ dM ++ ";" ++ fmt_d (adhikavara_cycle_pos su) ++ ";" ++ dV ++ ";" ++ asalhaStr ++ ";" ++ date ++ ";"
            ++ testRes ++ ";" ++ source ++ ";" ++ comments ++ newline)
  | _, _, _ => None
  end.
(** utils/years-csv.go:115-176; [n] counts the years still to do. *)
Fixpoint csv_rows (cfg : config) (n : nat) (year : Z) (csvString : string) : option string :=
  match n with
  | O => Some csvString
  | S n' => match csv_row cfg year with None => None | Some row => csv_rows cfg n' (year + 1) (csvString ++ row) end
  end.
Definition years_csv (cfg : config) (firstYear lastYear : Z) : option string :=
  csv_rows cfg (Z.to_nat (lastYear - firstYear + 1)) firstYear csv_header.
