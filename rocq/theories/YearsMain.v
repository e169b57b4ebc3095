(** Model of [main] of utils/years-csv.go, with the surroundings of Output.v. *)
From Coq Require Import ZArith List Bool String Ascii.
From Verif Require Import GoTime SuriyaYear Text YearsCsv Output.
Local Open Scope string_scope.

(** utils/years-csv.go:181-197.  [os.Create] empties an existing file.  Without the file the program panics
    (exit status 2; [Close] of the nil file, deferred before the check, only returns an error).  A failed write is
    printed with the number of bytes written; [message] is the text of its error.  The exit status is then 0.
    [cfg] is the configuration before [UseExceptions] is cleared. *)
Definition years_main (message : string) (sur : surroundings) (cfg : config) (w : world) : option (Z * world) :=
  if openable sur "years.csv" then
    match years_csv (mkConfig false (AdhikavaraExceptions cfg)) 1970 2041 with
    | None => None
    | Some text =>
        if Nat.leb (String.length text) (room sur) then Some (0%Z, set_file "years.csv" text w)
        else Some (0%Z, print (fmt_d (Z.of_nat (room sur)) ++ " " ++ message ++ newline)
                          (set_file "years.csv" (first_bytes (room sur) text) w))
    end
  else Some (2%Z, w).
