(** Model of utils/get-astromoons.sh, the shell script that fetched the year files
    data/astro/astro-YYYY.json from a web service.

    Modelled: the check of the arguments, the loop over the years with its pauses, the
    requests with their addresses and times, the files written and the text on the terminal.
    Simplifications: the arguments are whole numbers in the usual notation (no leading zero;
    to bash a leading zero means octal in line 44) or missing; the credentials are not
    operators of [test] such as "!" or "("; `date` tells the time that passes, which is not
    set back; `sleep 1` takes a second or longer; a request is at one point of time. *)
From Coq Require Import ZArith List Bool String Ascii.
From Verif Require Import GoTime Text.
Import ListNotations.
Open Scope Z_scope.
Local Open Scope string_scope.

(** What the script does to the outside: text on the terminal, and curl for a year, with the
    address asked, the file its output goes to and the time. *)
Inductive action :=
| Print (text : string)
| Request (year : Z) (url file : string) (when : Z).

(** The time in nanoseconds, and how many steps were made; [delays n] is the time the n-th
    step takes.  Reading the clock and a request are steps. *)
Record now := mkNow { steps : nat; at_ns : Z }.
Definition tick (delays : nat -> Z) (n : now) : now := mkNow (S (steps n)) (at_ns n + delays (steps n)).
(** `date +%s` *)
Definition date_s (n : now) : Z := at_ns n / second_ns.

Definition return_char : string := String (ascii_of_nat 13) "".
Definition line_end : string := String (ascii_of_nat 10) "".

(** utils/get-astromoons.sh:3-4 and 12: the text is not quoted, so its lines are joined. *)
Definition usage : string := "Usage: CLIENT_ID=appid CLIENT_SECRET=secretkey ./get-astromoons.sh FROM_YEAR TO_YEAR" ++ line_end.

(** utils/get-astromoons.sh:17, 21 and 43: the address curl is given *)
Definition address (id secret : string) (year : Z) : string :=
  "http://api.aerisapi.com/sunmoon/moonphases/london,uk?from=" ++ fmt_d year ++ "/01/01&to=" ++ fmt_d year ++ "/12/31&limit=" ++ fmt_d 250
  ++ "&client_id=" ++ id ++ "&client_secret=" ++ secret.
(** utils/get-astromoons.sh:43: the file *)
Definition output_file (year : Z) : string := "astro-" ++ fmt_d year ++ ".json".

(** utils/get-astromoons.sh:32-38: wait until 61 seconds after [last]; None if [fuel]
    readings of the clock are not enough. *)
Fixpoint wait_loop (delays : nat -> Z) (fuel : nat) (year last : Z) (n : now) : option (list action * now) :=
  match fuel with
  | O => None
  | S f =>
    let n := tick delays n in
    let d := date_s n - last in
    if (d <? 61)%Z then
      match wait_loop delays f year last (mkNow (steps n) (at_ns n + second_ns)) with
      | Some (l, n') => Some (Print (return_char ++ fmt_d year ++ " ... wait: " ++ fmt_d (60 - d) ++ " ") :: l, n')
      | None => None
      end
    else Some ([], n)
  end.

(** utils/get-astromoons.sh:30-41: the pause before a request, and the new values of
    lastBatchStart and reqPerMin *)
Definition pause (delays : nat -> Z) (fuel : nat) (year last req : Z) (n : now) : option (list action * Z * Z * now) :=
  if (10 <? req)%Z then
    match wait_loop delays fuel year last n with
    | Some (l, n) => let n := tick delays n in Some (l, date_s n, 0, n)
    | None => None
    end
  else Some ([], last, req, n).

(** utils/get-astromoons.sh:27-48: the loop over the years; None if [fuel] turns are not enough *)
Fixpoint year_loop (delays : nat -> Z) (waits fuel : nat) (id secret : string) (to_year year last req : Z) (n : now) : option (list action) :=
  match fuel with
  | O => None
  | S f =>
    if (year <=? to_year)%Z then
      match pause delays waits year last req n with
      | Some (l, last, req, n) =>
        let n := tick delays n in
        match year_loop delays waits f id secret to_year (year + 1) last (req + 1) n with
        | Some rest => Some (Print (fmt_d year ++ " ... ") :: l ++ Request year (address id secret year) (output_file year) (at_ns n)
                             :: Print ("OK" ++ line_end) :: rest)
        | None => None
        end
      | None => None
      end
    else Some []
  end.

(** utils/get-astromoons.sh:11-48: the whole script, with its exit status.  A missing
    argument is None. *)
Definition script (delays : nat -> Z) (waits fuel : nat) (id secret : string) (from to : option Z) (start : Z) : option (list action * Z) :=
  match from, to with
  | Some from_year, Some to_year =>
    if (id =? "") || (secret =? "") then Some ([Print usage], 1)
    else
      let n := tick delays (mkNow 0 start) in
      option_map (fun l => (l, 0)) (year_loop delays waits fuel id secret to_year from_year (date_s n) 0 n)
  | _, _ => Some ([Print usage], 1)
  end.

(** The directory after the actions: `>` replaces the file by what curl printed, [reply url];
    that is nothing if the request failed. *)
Definition disk := string -> option string.
Definition store (reply : string -> string) (d : disk) (a : action) : disk :=
  match a with
  | Request _ url file _ => fun name => if name =? file then Some (reply url) else d name
  | Print _ => d
  end.
Definition stored (reply : string -> string) (l : list action) (d : disk) : disk := fold_left (store reply) l d.
