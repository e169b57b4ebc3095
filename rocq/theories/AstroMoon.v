(** Model of astro_moon.go and aeris_moon.go, and of GetCalDays (cal_day.go:160-179)
    which uses them.

    The file system (data.go) and the JSON decoder are an oracle giving, for each
    year, what reading and decoding that year's file yields; the oracle for the
    embedded data is in AstroData.v. *)
From Coq Require Import ZArith List Bool String.
From Verif Require Import GoTime SuriyaYear Helpers UposathaMoon CalDay.
Import ListNotations.
Open Scope Z_scope.

(** aeris_moon.go:9-14, the fields the code reads: Code and DateTimeISO. *)
Record AerisMoon := mkAerisMoon { ae_Code : Z; ae_DateTimeISO : time }.

(** Outcome of [FSByte] and [json.Unmarshal] for one year (astro_moon.go:57-68). *)
Inductive fetch :=
| Missing                      (* FSByte returns an error *)
| BadJson                      (* Unmarshal fails: panic *)
| Decoded (success : bool) (error_code : string) (response : list AerisMoon).

(** A Go computation that may panic. *)
Inductive result (A : Type) := Ok (a : A) | Panic.
Arguments Ok {A} a. Arguments Panic {A}.

(** aeris_moon.go:7 and the index expression astro_moon.go:90. *)
Definition phase_code (code : Z) : option string :=
  if code =? 0 then Some "new"%string else if code =? 1 then Some "waxing"%string
  else if code =? 2 then Some "full"%string else if code =? 3 then Some "waning"%string
  else None.

(** astro_moon.go:84-102 *)
Fixpoint astro_of_response (from to : time) (l : list AerisMoon) : result (list AstroMoon) :=
  match l with
  | [] => Ok []
  | m :: rest =>
      let date := time_utc (ae_DateTimeISO m) in
      if time_before date from || time_after date to then astro_of_response from to rest
      else
        match phase_code (ae_Code m) with
        | None => Panic
        | Some phase =>
            match astro_of_response from to rest with
            | Ok ms => Ok (mkAstroMoon phase date :: ms)
            | Panic => Panic
            end
        end
  end.

(** astro_moon.go:48-105; [n] counts the years still to do. *)
Fixpoint astro_years (fs : Z -> fetch) (from to : time) (n : nat) (year : Z)
  : result (list AstroMoon) :=
  match n with
  | O => Ok []
  | S n' =>
      match fs year with
      | Missing => Ok []
      | BadJson => Panic
      | Decoded success error_code response =>
          if negb success then astro_years fs from to n' (year + 1)
          else if negb (String.eqb error_code "") then astro_years fs from to n' (year + 1)
          else
            match astro_of_response from to response with
            | Panic => Panic
            | Ok ms =>
                match astro_years fs from to n' (year + 1) with
                | Ok rest => Ok (ms ++ rest)
                | Panic => Panic
                end
            end
      end
  end.

(** astro_moon.go:45-106 *)
Definition get_astro_moons (fs : Z -> fetch) (from to : time) : result (list AstroMoon) :=
  astro_years fs from to (year_count from to) (time_year from).

(** cal_day.go:160-175, before sorting.  [None] would be non-termination of a
    generator loop and is proved impossible. *)
Definition get_cal_days_unsorted (cfg : config) (fs : Z -> fetch) (from to : time)
  : option (result (list CalDay)) :=
  match get_astro_moons fs from to with
  | Panic => Some Panic
  | Ok moons =>
      let l := fold_left merge_into_cal_days (map EvAstro moons) [] in
      match merge_years cfg from to (year_count from to) (time_year from) l with
      | None => None
      | Some l => Some (Ok l)
      end
  end.

(** cal_day.go:160-179 *)
Definition get_cal_days (cfg : config) (fs : Z -> fetch) (from to : time)
  : option (result (list CalDay)) :=
  match get_cal_days_unsorted cfg fs from to with
  | Some (Ok l) => Some (Ok (sort_days l))
  | r => r
  end.
