(** Model of a run of the program suriya/suriya.go with the flag --output: exit status, standard output and files.
    Standard error (the log) is not modelled, and [os.Exit] skipping the deferred [Close] is not observable.
    Flags are given as the strings the cli package returns, [""] being an absent one. *)
From Coq Require Import ZArith List Bool String Ascii.
From Verif Require Import GoTime SuriyaYear Helpers UposathaMoon CalDay AstroMoon Text Cli.
Import ListNotations.
Local Open Scope string_scope.

(** What the program finds: whether a name can be opened for writing, how many bytes can then be
    written, and the end of the message [time.Parse] gives for a text (it starts with "parsing time "). *)
Record surroundings := mkSurroundings { openable : string -> bool; room : nat; parse_message : string -> string }.
Record world := mkWorld { w_files : string -> option string; w_stdout : string }.
Definition print (s : string) (w : world) : world := mkWorld (w_files w) (w_stdout w ++ s).
Definition set_file (n s : string) (w : world) : world :=
  mkWorld (fun m => if String.eqb m n then Some s else w_files w m) (w_stdout w).
Fixpoint first_bytes (n : nat) (s : string) : string :=
  match n, s with S n', String c s' => String c (first_bytes n' s') | _, _ => "" end.

(** suriya/suriya.go:20-46: the dates, or the message printed before exit status 1.  The clock is read
    once for each absent flag, giving [now1] and [now2]; Cli.v has one year for both. *)
Definition init_dates (sur : surroundings) (now1 now2 : Z) (from to : string) : time * time + string :=
  match flag_date from (time_date now1 1 1 0 0) with
  | None => inr ("parsing time " ++ parse_message sur from)
  | Some f => match flag_date to (time_date now2 12 31 0 0) with
              | None => inr ("parsing time " ++ parse_message sur to)
              | Some t => inl (f, t)
              end
  end.
(** suriya/suriya.go:69-84 and 172-187: exit status and what became of the world.  O_TRUNC empties the
    file before anything is written; a short write leaves what was written. *)
Definition deliver (sur : surroundings) (output text line_end : string) (w : world) : Z * world :=
  if String.eqb output "" then (0%Z, print (text ++ line_end) w)
  else if openable sur output then
    if Nat.leb (String.length text) (room sur) then (0%Z, set_file output text w)
    else (1%Z, set_file output (first_bytes (room sur) text) w)
  else (1%Z, w).
(** suriya/suriya.go:48-87.  A panic gives exit status 2. *)
Definition caldays_run (sur : surroundings) (cfg : config) (fs : Z -> fetch) (now1 now2 : Z) (from to output : string) (w : world) : option (Z * world) :=
  match init_dates sur now1 now2 from to with
  | inr m => Some (1%Z, print m w)
  | inl (f, t) =>
      match get_cal_days cfg fs f t with
      | None => None
      | Some Panic => Some (2%Z, w)
      | Some (Ok l) => match json_of_days l with
                       | None => Some (1%Z, w)
                       | Some j => Some (deliver sur output (print_json j) (String (ascii_of_nat 10) "") w)
                       end
      end
  end.
(** suriya/suriya.go:89-190.  [encode] stands for the ical package. *)
Definition ical_run (encode : list VEvent -> string) (sur : surroundings) (cfg : config) (fs : Z -> fetch) (now1 now2 : Z) (from to output : string) (w : world) : option (Z * world) :=
  match init_dates sur now1 now2 from to with
  | inr m => Some (1%Z, print m w)
  | inl (f, t) =>
      match get_cal_days cfg fs f t with
      | None => None
      | Some Panic => Some (2%Z, w)
      | Some (Ok l) => Some (deliver sur output (encode (ical_events l)) "" w)
      end
  end.
