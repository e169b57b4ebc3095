(** Model of the remaining texts: SuriyaYear.String and SuriyaValuesString (suriya_year.go:53-56,
    92-105), DegreeToRalString (helpers.go:25-28) and yearsCsvSimple (utils/years-csv.go:18-51, never
    called; "BE_year" is read as the field BE_Year as in YearsCsv.v). *)
From Coq Require Import ZArith List Bool String Ascii.
From Verif Require Import GoFloat SuriyaYear Machine Text YearsCsv.
Import ListNotations.
Open Scope Z_scope.
Local Open Scope string_scope.

(** [fmt.Sprintf] with the verbs %d and %s without flags, for arguments of type int and string:
    mismatched, missing and surplus arguments are written into the text (documentation of package fmt). *)
Inductive arg := AInt (z : Z) | AStr (s : string).
Definition verb_text (verb : ascii) (a : arg) : string :=
  match a, Ascii.eqb verb "d" with
  | AInt z, true => fmt_d z
  | AStr s, false => s
  | AInt z, false => "%!s(int=" ++ fmt_d z ++ ")"
  | AStr s, true => "%!d(string=" ++ s ++ ")"
  end.
Definition extra_text (a : arg) : string :=
  match a with AInt z => "int=" ++ fmt_d z | AStr s => "string=" ++ s end.
Definition extras (args : list arg) : string :=
  match args with [] => "" | _ => "%!(EXTRA " ++ String.concat ", " (map extra_text args) ++ ")" end.
Fixpoint sprintf (format : string) (args : list arg) : string :=
  match format with
  | "" => extras args
  | String c rest =>
      if Ascii.eqb c "%" then
        match rest with
        | "" => "%!(NOVERB)" ++ extras args
        | String v rest' =>
            match args with
            | [] => "%!" ++ String v "(MISSING)" ++ sprintf rest' []
            | a :: args' => verb_text v a ++ sprintf rest' args'
            end
        end
      else String c (sprintf rest args)
  end.

(** suriya_year.go:53-56 *)
Definition su_string (su : SuriyaYear) : string := fmt_d (sy_Year su).
(** suriya_year.go:92-105 *)
Definition values_format : string :=
  "CE: %d" ++ newline ++ "BE: %d" ++ newline ++ "CS: %d" ++ newline ++ "Horakhun: %d" ++ newline ++ "Kammacubala: %d" ++ newline ++
  "Uccabala: %d" ++ newline ++ "Avoman: %d" ++ newline ++ "Masaken: %d" ++ newline ++ "Tithi: %d" ++ newline.
Definition suriya_values_string (su : SuriyaYear) : string :=
  sprintf values_format (map AInt [sy_Year su; sy_BE_Year su; sy_CS_Year su; sy_Horakhun su; sy_Kammacubala su;
    sy_Uccabala su; sy_Avoman su; sy_Masaken su; sy_Tithi su]).
(** helpers.go:25-28 *)
Definition degree_to_ral_string (d : float64) : string :=
  let '(u, v, t) := degree_to_ral d in sprintf "%d:%d°%d'" [AInt u; AInt v; AInt t].

(** utils/years-csv.go:25-51: seven verbs, nine arguments. *)
Definition simple_header : string := "CE year,BE year,nM,dM,nV,dV,K,A,T" ++ newline.
Definition simple_row (cfg : config) (year : Z) : option string :=
  let su := su_init year in
  match (if is_adhikamasa su then option_map fmt_d (delta_adhikamasa su) else Some ""),
        (if is_adhikavara cfg su then option_map fmt_d (delta_adhikavara cfg su) else Some "") with
  | Some dM, Some dV =>
      Some (sprintf ("%d,%d,%d,%s,%d,%s,%s" ++ newline)
        [AInt (sy_Year su); AInt (sy_BE_Year su); AInt (adhikamasa_cycle_pos su); AStr dM; AInt (adhikavara_cycle_pos su);
         AStr dV; AInt (sy_Kammacubala su); AInt (sy_Avoman su); AInt (sy_Tithi su)])
  | _, _ => None
  end.
Fixpoint simple_rows (cfg : config) (n : nat) (year : Z) (csvString : string) : option string :=
  match n with
  | O => Some csvString
  | S n' => match simple_row cfg year with None => None | Some row => simple_rows cfg n' (year + 1) (csvString ++ row) end
  end.
Definition years_csv_simple (cfg : config) (firstYear lastYear : Z) : option string :=
  simple_rows cfg (Z.to_nat (lastYear - firstYear + 1)) firstYear simple_header.
