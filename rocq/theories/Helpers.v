(** Model of helpers.go:71-173 (Kattika stepping and the name tables) and of
    SuriyaYear.AsalhaPuja (suriya_year.go:191-206). *)
From Coq Require Import ZArith List Bool String.
From Verif Require Import GoTime SuriyaYear.
Open Scope Z_scope.

(** helpers.go:80, [time.Parse("2006-01-02", "2015-11-25")]: UTC midnight. *)
Definition kattika_epoch : time := time_date 2015 11 25 0 0.

(** helpers.go:91-106, the body of the stepping loop: the number of days stepped. *)
Definition kattika_step_days (cfg : config) (direction y : Z) : Z :=
  let su_year := if direction =? 1 then su_init (y + 1) else su_init y in
  let n := 6 * 29 + 6 * 30 in
  if is_adhikamasa su_year then n + 30
  else if is_adhikavara cfg su_year then n + 1
  else n.

(** helpers.go:91-106, the loop.  [fuel] only makes the recursion structural;
    [None] (out of fuel) is proved impossible in P_Kattika.v.
    [time.Duration(n*direction) * time.Hour * 24] is at most 384 days, far from
    int64 overflow. *)
Fixpoint kattika_loop (cfg : config) (fuel : nat) (direction target y : Z) (date : time)
  : option time :=
  if y =? target then Some date
  else
    match fuel with
    | O => None
    | S fuel' =>
        let n := kattika_step_days cfg direction y in
        kattika_loop cfg fuel' direction target (y + direction)
          (time_add date (n * direction * hour_ns * 24))
    end.

(** helpers.go:75-109 *)
Definition previous_kattika (cfg : config) (solar_year : Z) : option time :=
  let y0 := time_year kattika_epoch in
  let direction :=
    if y0 <? solar_year - 1 then 1 else if solar_year - 1 <? y0 then -1 else 0 in
  kattika_loop cfg (Z.to_nat (Z.abs (solar_year - 1 - y0))) direction
    (solar_year - 1) y0 kattika_epoch.

(** suriya_year.go:192-206 *)
Definition asalha_puja (cfg : config) (su : SuriyaYear) : option time :=
  let days := 4 * (29 + 30) in
  let days :=
    if is_adhikamasa su then days + 30
    else if is_adhikavara cfg su then days + 1
    else days in
  match previous_kattika cfg (sy_Year su) with
  | Some k => Some (time_add k (days * hour_ns * 24))
  | None => None
  end.

(** A Go map read: the zero value 0 for an absent key. *)
Fixpoint map_get (l : list (string * Z)) (k : string) : Z :=
  match l with
  | nil => 0
  | (k', v) :: l' => if String.eqb k k' then v else map_get l' k
  end.

Local Open Scope string_scope.

(** helpers.go:111-130 *)
Definition monthToInt : list (string * Z) :=
  (("null", 0) :: ("magasira", 1) :: ("phussa", 2) :: ("magha", 3) :: ("phagguna", 4)
   :: ("citta", 5) :: ("vesakha", 6) :: ("jettha", 7) :: ("asalha", 8)
   :: ("2nd asalha", 13) :: ("savana", 9) :: ("bhaddapada", 10) :: ("assayuja", 11)
   :: ("kattika", 12) :: nil)%Z.
Definition month_to_int (m : string) : Z := map_get monthToInt m.

(** helpers.go:132-141 *)
Definition seasonToInt : list (string * Z) :=
  (("null", 0) :: ("hemanta", 1) :: ("gimhana", 2) :: ("vassana", 3) :: nil)%Z.
Definition season_to_int (s : string) : Z := map_get seasonToInt s.

(** helpers.go:143-152 *)
Definition season_name (n : Z) : string :=
  if (n =? 1)%Z then "Hemanta" else if (n =? 2)%Z then "Gimha"
  else if (n =? 3)%Z then "Vassāna" else "".

(** helpers.go:154-163 *)
Definition calendarToInt : list (string * Z) :=
  (("mahanikaya", 0) :: ("dhammayut", 1) :: ("srilanka", 2) :: ("myanmar", 3) :: nil)%Z.
Definition calendar_to_int (s : string) : Z := map_get calendarToInt s.

(** helpers.go:165-173 *)
Definition statusToInt : list (string * Z) :=
  (("draft", 0) :: ("predicted", 1) :: ("confirmed", 2) :: nil)%Z.
Definition status_to_int (s : string) : Z := map_get statusToInt s.
