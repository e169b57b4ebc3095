(** Validation of the model (tests, not proofs of properties): the model reproduces
    outputs recorded in the repository. *)
From Coq Require Import ZArith List Bool String Ascii.
From Verif Require Import GoTime SuriyaYear Helpers UposathaMoon CalDay AstroMoon AstroData AstroFS Text Cli GoldenData.
Import ListNotations.
Open Scope Z_scope.

(** The recorded JSON was made when GetAstroMoons kept only new and full moons (the
    commented-out filter at astro_moon.go:97-99), so the quarter moons are dropped from
    the oracle here. *)
Definition syzygy_fs (y : Z) : fetch :=
  match embedded_fs y with
  | Decoded s e l => Decoded s e (filter (fun m => (ae_Code m =? 0) || (ae_Code m =? 2)) l)
  | r => r
  end.

(** The caldays command prints the recorded bytes. *)
Example golden_caldays : caldays_command cfg_default syzygy_fs 2017 golden_from golden_to =
  Some (Printed (golden_json ++ String (ascii_of_nat 10) "")%string).
Proof. vm_compute. reflexivity. Qed.
(** The ical command has the recorded events. *)
Example golden_ical_events :
  match cli_init 2017 golden_from golden_to with
  | Some (f, t) => match get_cal_days cfg_default embedded_fs f t with
                   | Some (Ok l) => map (fun v => (format_date (v_start v), format_date (v_end v), v_summary v)) (ical_events l) = golden_ical
                   | _ => False
                   end
  | None => False
  end.
Proof. vm_compute. reflexivity. Qed.
