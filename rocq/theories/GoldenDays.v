(** The model reproduces the years and positions recorded in the project's tests
    (suriya_test.go:131-187 TestCalculateSuriyaValues, 189-270 TestSuriyaDayInit, 366-434 TestRaek, 436-525 TestDay). *)
From Coq Require Import ZArith List Bool String.
From Flocq Require Import IEEE754.BinarySingleNaN.
From Verif Require Import GoInt GoFloat GoTime SuriyaYear SuriyaDay Machine GoSin Text YearText.
Import ListNotations.
Open Scope Z_scope.
Local Open Scope string_scope.

(** The float64 literal [n / 10000]. *)
Definition lit4 (n : Z) : float64 := fdiv (f_of_int n) (f_of_int 10000).
Definition day := suriya_day go_sin.
Definition same (x y : float64) : Prop := B2SF x = B2SF y.

Example golden_years : map su_init [1963; 1496] =
  [mkSuriyaYear 1963 2506 1325 483969 552 1780 61 16388 23; mkSuriyaYear 1496 2039 858 313393 421 2500 429 10612 15].
Proof. vm_compute. reflexivity. Qed.
Example golden_positions :
  map (fun p => (B2SF (sd_TrueSun p), B2SF (sd_TrueMoon p))) [day 1963 103; day 2015 133; day 2015 118] =
  map (fun q => (B2SF (lit4 (fst q)), B2SF (lit4 (snd q)))) [(794832, 2476955); (1045499, 2754053); (892166, 865874)].
Proof. vm_compute. reflexivity. Qed.
Example golden_ral :
  map (fun p => degree_to_ral_string (sd_Raek p)) [day 1963 103; day 1962 103] = ["0:19°34'"; "0:20°39'"] /\
  map (fun p => (degree_to_ral_string (sd_TrueSun p), degree_to_ral_string (sd_TrueMoon p)))
    [day 1963 103; day 1288 41; day 1288 103; day 638 1; day 1565 298] =
  [("2:19°28'", "8:7°41'"); ("0:19°58'", "5:11°27'"); ("2:19°9'", "8:19°1'"); ("0:2°38'", "0:20°30'"); ("8:25°29'", "9:20°50'")] /\
  degree_to_ral_string (sd_TrueMoon (day 2015 118)) = "2:26°35'".
Proof. vm_compute. auto. Qed.
Example golden_day_ints : map (fun p => sd_ints_of (day (fst p) (snd p))) [(1963, 103); (2015, 133); (2015, 118)] =
  [mkSuriyaDayInts 1963 2506 1325 103 484049 64552 1860 249 16391 14; mkSuriyaDayInts 2015 2558 1377 133 503067 84188 1486 463 17035 14;
   mkSuriyaDayInts 2015 2558 1377 118 503052 72188 1471 298 17034 29] /\
  map (fun p => let s := sd_ints (fst p) (snd p) in
    (sd_Horakhun s, sd_Tithi s, option_map (fun t => (time_year t, time_month t, time_mday t)) (horakhun_to_date (sd_Horakhun s)))) [(638, 1); (1565, 298)] =
  [(1, 1, Some (638, 3, 25)); (338865, 2, Some (1566, 1, 3))].
Proof. vm_compute. auto. Qed.
