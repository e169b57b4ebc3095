(** Model of [main] in suriya/suriya.go: the arguments of the program.
    The cli package (a version from 1.17 on, since the actions are of two types) and the flag package below it are not in the sandbox;
    what they do is transcribed from knowledge of them.  Simplifications: the arguments of a command are parsed in the order given, as
    cli does before 1.21 if the first of them is a flag; what happens with arguments left over after the flags, and with the
    flags and commands for help and for the version, is a parameter ([other]), as versions differ there. *)
From Coq Require Import ZArith List Bool String Ascii.
From Verif Require Import GoTime SuriyaYear Helpers UposathaMoon CalDay AstroMoon Text Cli Output.
Import ListNotations.
Local Open Scope string_scope.

(** The flag package, [parseOne]: what an argument is. *)
Inductive word := Plain | Terminator | Malformed | Flag (name : string) (value : option string).
(** The name and, after the first ["="], the value.  The name has a first character that is not ["="]. *)
Fixpoint split_eq (s : string) : string * option string :=
  match s with
  | "" => ("", None)
  | String c s' => if Ascii.eqb c "=" then ("", Some s') else let '(n, v) := split_eq s' in (String c n, v)
  end.
Definition flag_word (s : string) : word :=
  match s with
  | "" => Malformed
  | String c _ => if Ascii.eqb c "-" || Ascii.eqb c "=" then Malformed else let '(n, v) := split_eq s in Flag n v
  end.
Definition word_of (s : string) : word :=
  match s with
  | String "-" (String "-" "") => Terminator
  | String "-" (String "-" s') => flag_word s'
  | String "-" (String c s') => flag_word (String c s')
  | _ => Plain
  end.

(** suriya/suriya.go:197-210: the flags of both commands *)
Definition flag_names : list string := ["from"; "to"; "output"].
Definition is_one_of (l : list string) (s : string) : bool := existsb (String.eqb s) l.
(** The flag package, [Parse], for the flags of a command: the values set, in order; a usage error; or a case left open. *)
Inductive parsed := Settings (l : list (string * string)) | Usage | Other.
Definition and_set (p : string * string) (r : parsed) : parsed := match r with Settings l => Settings (p :: l) | _ => r end.
Fixpoint parse_flags (args : list string) : parsed :=
  match args with
  | [] => Settings []
  | a :: r =>
      match word_of a with
      | Plain => Other
      | Terminator => match r with [] => Settings [] | _ => Other end
      | Malformed => Usage
      | Flag n v =>
          if is_one_of ["help"; "h"] n then Other
          else if is_one_of flag_names n then
            match v with
            | Some v => and_set (n, v) (parse_flags r)
            | None => match r with [] => Usage | v :: r' => and_set (n, v) (parse_flags r') end
            end
          else Usage
      end
  end.
(** [c.String]: the value set last, [""] if there is none *)
Definition string_flag (l : list (string * string)) (n : string) : string :=
  fold_left (fun v p => if String.eqb (fst p) n then snd p else v) l "".

(** suriya/suriya.go:192-233.  [app.Run] returns usage errors after printing a text about them ([usage]); its result is ignored,
    so the exit status is 0.  The default action (lines 227-230) has no flags, as those belong to the commands; it prints its two
    dates as [dump] shows them.  A first argument that is not a command also leads to it. *)
Section Main.
Context (encode : list VEvent -> string) (sur : surroundings) (cfg : config) (fs : Z -> fetch) (now1 now2 : Z)
  (usage : list string -> string) (dump : time * time -> string) (other : list string -> world -> option (Z * world)).
Definition default_run (w : world) : option (Z * world) :=
  match init_dates sur now1 now2 "" "" with
  | inr m => Some (1%Z, print m w)
  | inl dates => Some (0%Z, print (dump dates) w)
  end.
Definition command_run (args : list string) (action : string -> string -> string -> world -> option (Z * world)) (rest : list string) (w : world) : option (Z * world) :=
  match parse_flags rest with
  | Settings l => action (string_flag l "from") (string_flag l "to") (string_flag l "output") w
  | Usage => Some (0%Z, print (usage args) w)
  | Other => other args w
  end.
Definition dispatch (args l : list string) (w : world) : option (Z * world) :=
  match l with
  | [] => default_run w
  | a :: r =>
      if String.eqb a "caldays" then command_run args (caldays_run sur cfg fs now1 now2) r w
      else if String.eqb a "ical" then command_run args (ical_run encode sur cfg fs now1 now2) r w
      else if is_one_of ["help"; "h"] a then other args w
      else default_run w
  end.
Definition main_run (args : list string) (w : world) : option (Z * world) :=
  match args with
  | [] => default_run w
  | a :: r =>
      match word_of a with
      | Plain => dispatch args args w
      | Terminator => dispatch args r w
      | Malformed => Some (0%Z, print (usage args) w)
      | Flag n _ => if is_one_of ["help"; "h"; "version"; "v"] n then other args w else Some (0%Z, print (usage args) w)
      end
  end.
End Main.
