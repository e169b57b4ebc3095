(** Model of AddHalfMoonDays and of the methods of CalDaySlice (cal_day.go) on slices of days
    that share arrays.  A slice is an array, the place of its first element in it, a length and
    a capacity.  The elements are days taken as values (CalDayHeap.v has the sharing of their
    own slices); arrays are never freed; how much capacity [append] allocates beyond the needed
    one is a parameter. *)
From Coq Require Import ZArith List Bool Arith.
From Verif Require Import GoTime CalDay.
Import ListNotations.
Local Open Scope nat_scope.

Record view := mkView { v_arr : nat; v_off : nat; v_len : nat; v_cap : nat }.
(** A nil slice *)
Definition nil_view : view := mkView 0 0 0 0.
(** The contents of all arrays, and the next unused one. *)
Record memory := mkMemory { m_cell : nat -> nat -> CalDay; m_next : nat }.
Definition empty_memory : memory := mkMemory (fun _ _ => zero_calday) 0.
Definition get (m : memory) (v : view) (i : nat) : CalDay := m_cell m (v_arr v) (v_off v + i).
(** The elements of a slice *)
Definition elements (m : memory) (v : view) : list CalDay := map (get m v) (seq 0 (v_len v)).
(** [v[i] = x] *)
Definition set (m : memory) (v : view) (i : nat) (x : CalDay) : memory :=
  mkMemory (fun a j => if (a =? v_arr v) && (j =? v_off v + i) then x else m_cell m a j) (m_next m).
Fixpoint set_all (m : memory) (v : view) (i : nat) (l : list CalDay) : memory :=
  match l with [] => m | x :: rest => set_all (set m v i x) v (S i) rest end.
(** [v[lo:hi]] and [v[lo:hi:max]] *)
Definition sub (v : view) (lo hi : nat) : view := mkView (v_arr v) (v_off v + lo) (hi - lo) (v_cap v - lo).
Definition sub3 (v : view) (lo hi max : nat) : view := mkView (v_arr v) (v_off v + lo) (hi - lo) (max - lo).
(** [append(v, l...)]: in place if the capacity allows it, else into a new array. *)
Definition append_all (grow : nat -> nat) (m : memory) (v : view) (l : list CalDay) : memory * view :=
  match l with
  | [] => (m, v)
  | _ :: _ =>
    let n := v_len v + List.length l in
    if n <=? v_cap v then (set_all m v (v_len v) l, mkView (v_arr v) (v_off v) n (v_cap v))
    else
      let w := mkView (m_next m) 0 n (n + grow n) in
      (set_all (mkMemory (m_cell m) (S (m_next m))) w 0 (elements m v ++ l), w)
  end.
(** cal_day.go:113-140: the loop over the days, appending the half moon days *)
Definition half_loop (grow : nat -> nat) (m : memory) (v : view) : memory * view :=
  fold_left (fun st i => let '(m, half) := st in
    match half_moon_day (get m v i) with Some d => append_all grow m half [d] | None => st end)
    (seq 0 (v_len v)) (m, nil_view).
(** cal_day.go:110-146 *)
Definition add_half_moons (grow : nat -> nat) (m : memory) (v : view) : memory * view :=
  let '(m, half) := half_loop grow m v in append_all grow m v (elements m half).

(** cal_day.go:87-89: [Len]; cal_day.go:91-93: [Swap], on indices of the slice *)
Definition slice_len (v : view) : nat := v_len v.
Definition swap (m : memory) (v : view) (i j : nat) : memory := set (set m v i (get m v j)) v j (get m v i).
(** What a sort does to the memory: swaps of elements, in whatever order. *)
Definition swaps (m : memory) (v : view) (l : list (nat * nat)) : memory := fold_left (fun m p => swap m v (fst p) (snd p)) l m.
