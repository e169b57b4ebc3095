(** Model of CalDay (cal_day.go) with Go's slice semantics: a slice is an array address, a
    length and a capacity; copying a struct copies the slice headers and shares the arrays.
    Cells are [CalendarEvent]s; which slice of a CalDay they belong to is their kind.
    Arrays are never freed (the garbage collector is not observable).  How much capacity
    [append] allocates is a parameter, as Go leaves it unspecified. *)
From Coq Require Import ZArith List Bool String Arith.
From Verif Require Import GoTime UposathaMoon CalDay.
Import ListNotations.

Record slice := mkSlice { s_arr : nat; s_len : nat; s_cap : nat }.
Definition nil_slice : slice := mkSlice 0 0 0.
(** The contents of all arrays, and the next unused address. *)
Record heap := mkHeap { h_cell : nat -> nat -> CalendarEvent; h_next : nat }.
Definition read (h : heap) (s : slice) : list CalendarEvent := map (h_cell h (s_arr s)) (seq 0 (s_len s)).
(** [s[i] = x] *)
Definition write (h : heap) (a i : nat) (x : CalendarEvent) : heap :=
  mkHeap (fun a' i' => if (a' =? a)%nat && (i' =? i)%nat then x else h_cell h a' i') (h_next h).
(** [append(s, x)]: in place if the capacity allows it, else into a new array.
    [grow len] is the additional capacity beyond the needed one. *)
Definition append (grow : nat -> nat) (h : heap) (s : slice) (x : CalendarEvent) : heap * slice :=
  if (s_len s <? s_cap s)%nat then
    (write h (s_arr s) (s_len s) x, mkSlice (s_arr s) (S (s_len s)) (s_cap s))
  else
    let a := h_next h in
    (mkHeap (fun a' i' => if (a' =? a)%nat then (if (i' =? s_len s)%nat then x else h_cell h (s_arr s) i') else h_cell h a' i') (S a),
     mkSlice a (S (s_len s)) (S (s_len s) + grow (s_len s))).

(** cal_day.go:13-20: the five slices of a CalDay. *)
Inductive kind := KUposatha | KHalf | KAstro | KMajor | KEvent.
Definition kind_eqb (a b : kind) : bool :=
  match a, b with
  | KUposatha, KUposatha | KHalf, KHalf | KAstro, KAstro | KMajor, KMajor | KEvent, KEvent => true
  | _, _ => false
  end.
Definition kind_of (e : CalendarEvent) : kind :=
  match e with EvUposatha _ => KUposatha | EvHalf _ => KHalf | EvAstro _ => KAstro | EvMajor _ => KMajor | EvEvent _ => KEvent end.
Record hday := mkHDay { hd_date : time; hd_slice : kind -> slice }.
Definition zero_hday : hday := mkHDay zero_time (fun _ => nil_slice).
Definition put_slice (d : hday) (k : kind) (s : slice) : hday :=
  mkHDay (hd_date d) (fun k' => if kind_eqb k' k then s else hd_slice d k').

(** SetUposathaMoon, SetHalfMoon, SetAstroMoon (cal_day.go:37-79) and the appends of
    major_event.go:22, event.go:22. *)
Definition h_put (grow : nat -> nat) (h : heap) (d : hday) (e : CalendarEvent) : heap * hday :=
  let k := kind_of e in let s := hd_slice d k in
  match k with
  | KMajor | KEvent => let '(h', s') := append grow h s e in (h', put_slice d k s')
  | _ => if (s_len s =? 0)%nat then let '(h', s') := append grow h s e in (h', put_slice d k s')
         else (write h (s_arr s) 0 e, d)
  end.
(** [AddToDay] through a pointer. *)
Definition h_add (grow : nat -> nat) (h : heap) (d : hday) (e : CalendarEvent) : heap * hday :=
  h_put grow h (mkHDay (ev_date e) (hd_slice d)) e.

(** cal_day.go:99-108 *)
Fixpoint h_find (l : list hday) (date : time) : option nat :=
  match l with
  | [] => None
  | d :: rest => if time_equal (day_start (hd_date d)) (day_start date) then Some O else option_map S (h_find rest date)
  end.
(** cal_day.go:148-158.  The result of [findCalDay] points into the array of the slice
    [cal_days] itself, so the update is in place; a new day is copied in by append. *)
Definition h_merge (grow : nat -> nat) (st : heap * list hday) (e : CalendarEvent) : heap * list hday :=
  let '(h, l) := st in
  match h_find l (ev_date e) with
  | None => let '(h', d) := h_add grow h zero_hday e in (h', l ++ [d])
  | Some k =>
      match nth_error l k with
      | None => (h, l)
      | Some d => let '(h', d') := h_add grow h d e in (h', update_nth l k (fun _ => d'))
      end
  end.

(** What the program sees when it reads a CalDay. *)
Definition decode (h : heap) (d : hday) : CalDay :=
  let r k := read h (hd_slice d k) in
  mkCalDay (hd_date d)
    (flat_map (fun e => match e with EvUposatha u => [u] | _ => [] end) (r KUposatha))
    (flat_map (fun e => match e with EvHalf u => [u] | _ => [] end) (r KHalf))
    (flat_map (fun e => match e with EvAstro u => [u] | _ => [] end) (r KAstro))
    (flat_map (fun e => match e with EvMajor u => [u] | _ => [] end) (r KMajor))
    (flat_map (fun e => match e with EvEvent u => [u] | _ => [] end) (r KEvent)).
Definition empty_heap : heap := mkHeap (fun _ _ => EvHalf (mkHalfMoon zero_time "")) 0.
