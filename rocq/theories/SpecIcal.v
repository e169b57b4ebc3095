(** iCalendar streams (RFC 5545) and what they say, written as relations.  Left out: folded lines, quoted
    and repeated parameter values, several calendars in a stream, components other than events, lower case names. *)
From Coq Require Import ZArith NArith List Bool String Ascii.
From Verif Require Import GoTime SpecText.
Import ListNotations.
Local Open Scope string_scope.

Definition CRLF : string := String "013" (String "010" "").
Definition every (P : ascii -> Prop) (s : string) : Prop := Forall P (list_ascii_of_string s).

(** Section 3.1: a line is a name, parameters and a value, at most 75 octets. *)
Definition name_char (c : ascii) : Prop := In c (list_ascii_of_string "ABCDEFGHIJKLMNOPQRSTUVWXYZ0123456789-").
Definition value_char (c : ascii) : Prop := c = "009"%char \/ (32 <= N_of_ascii c /\ N_of_ascii c <> 127)%N.
Definition safe_char (c : ascii) : Prop := value_char c /\ ~ In c ["034"; ";"; ":"; ","]%char.
Record property := mkProperty { p_name : string; p_params : list (string * string); p_value : string }.
Fixpoint params_text (l : list (string * string)) : string :=
  match l with [] => "" | (n, v) :: l' => ";" ++ n ++ "=" ++ v ++ params_text l' end.
Definition is_name (n : string) : Prop := n <> "" /\ every name_char n.
Definition content_line (p : property) (s : string) : Prop :=
  is_name (p_name p) /\ Forall (fun q => is_name (fst q) /\ every safe_char (snd q)) (p_params p) /\ every value_char (p_value p) /\
  s = p_name p ++ params_text (p_params p) ++ ":" ++ p_value p /\ (String.length s <= 75)%nat.
Inductive content_lines : list property -> string -> Prop :=
| no_line : content_lines [] ""
| more_lines p s ps r : content_line p s -> content_lines ps r -> content_lines (p :: ps) (s ++ CRLF ++ r).

(** Sections 3.4 and 3.6: a calendar encloses its properties and at least one component. *)
Definition enclosed (name : string) (l : list property) : list property :=
  (mkProperty "BEGIN" [] name :: l ++ [mkProperty "END" [] name])%list.
Definition plain_property (p : property) : Prop := ~ In (p_name p) ["BEGIN"; "END"].
Definition stream (ps : list property) (evs : list (list property)) (s : string) : Prop :=
  content_lines (enclosed "VCALENDAR" (ps ++ flat_map (enclosed "VEVENT") evs)%list) s /\
  Forall plain_property ps /\ Forall (Forall plain_property) evs /\ evs <> [].

(** Section 3.3: dates as day numbers, UTC times in seconds, texts. *)
Definition date_means (s : string) (day : Z) : Prop :=
  exists y m d, (0 <= y <= 9999)%Z /\ civil_date y m d /\ s = padded 4 y ++ padded 2 m ++ padded 2 d /\ day = day_number y m d.
Definition utc_means (s : string) (t : Z) : Prop :=
  exists date day h m c, date_means date day /\ (0 <= h < 24)%Z /\ (0 <= m < 60)%Z /\ (0 <= c < 60)%Z /\
    s = date ++ "T" ++ padded 2 h ++ padded 2 m ++ padded 2 c ++ "Z" /\ t = (((day * 24 + h) * 60 + m) * 60 + c)%Z.
Inductive text_means : string -> string -> Prop :=
| text_nil : text_means "" ""
| text_plain c r s : value_char c -> ~ In c [","; ";"; "\"]%char -> text_means r s -> text_means (String c r) (String c s)
| text_escaped e c r s : In (e, c) [("\", "\"); (";", ";"); (",", ","); ("n", "010"); ("N", "010")]%char -> text_means r s ->
    text_means (String "\" (String e r)) (String c s).

(** Section 3.6.1: an event that lasts days.  A property that must not occur twice has one value. *)
Definition once (name : string) (ps : list property) (params : list (string * string)) (value : string) : Prop :=
  exists l1 l2, ps = (l1 ++ mkProperty name params value :: l2)%list /\ Forall (fun p => p_name p <> name) (l1 ++ l2).
Record event := mkEvt { i_uid : string; i_stamp : Z; i_first : Z; i_end : Z; i_text : string }.
Definition event_means (ps : list property) (e : event) : Prop :=
  (exists v, once "UID" ps [] v /\ text_means v (i_uid e)) /\ i_uid e <> "" /\
  (exists v, once "DTSTAMP" ps [] v /\ utc_means v (i_stamp e)) /\
  (exists v, once "DTSTART" ps [("VALUE", "DATE")] v /\ date_means v (i_first e)) /\
  (exists v, once "DTEND" ps [("VALUE", "DATE")] v /\ date_means v (i_end e)) /\ (i_first e < i_end e)%Z /\
  (exists v, once "SUMMARY" ps [] v /\ text_means v (i_text e)).
(** A calendar with a name and the events it has, in the order of the stream. *)
Definition calendar_means (s : string) (name : string) (evs : list event) : Prop :=
  exists ps els, stream ps els s /\ once "VERSION" ps [] "2.0" /\ (exists v t, once "PRODID" ps [] v /\ text_means v t) /\
    once "CALSCALE" ps [] "GREGORIAN" /\ (exists v, once "METHOD" ps [] v) /\ (exists v, once "NAME" ps [] v /\ text_means v name) /\
    Forall2 event_means els evs /\ NoDup (map i_uid evs).
