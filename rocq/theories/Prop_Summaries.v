(** Theorems C47 on the summaries of half moons and astronomical moons. *)
From Coq Require Import ZArith Lia Bool ZifyBool List String.
From Verif Require Import GoTime SuriyaYear Helpers UposathaMoon CalDay AstroMoon AstroFS Text Spec SpecCal SpecAstro.
From Verif Require Import P_Time P_Chain P_Gen P_Gen2 P_CalDays2 P_Astro P_Near Prop_Near Prop_Calendar Prop_Astro.
Import ListNotations.
Open Scope Z_scope.

(** The half moon after a new moon is named the waxing moon, the one after a full moon the waning moon. *)
Theorem C47_half_moons : forall cfg y h, In h (halves_of (events_of_year cfg y)) ->
  exists k n u, previous_kattika cfg y = Some k /\ In u (chain cfg (kattika_moon k) 1 n) /\ h_Date h = eighth_day u /\
    (u_Phase u = "new" /\ ev_string (EvHalf h) = "Waxing Moon" \/ u_Phase u = "full" /\ ev_string (EvHalf h) = "Waning Moon")%string.
Proof.
  intros cfg y h Hh. destruct (C25_half_moons cfg y) as (k & n & Ek & E & _). rewrite E in Hh. apply in_map_iff in Hh. destruct Hh as (u & <- & Hu).
  apply filter_In in Hu. destruct Hu as [Hu _]. exists k, n, u. split; [exact Ek|]. split; [exact Hu|]. split; [reflexivity|].
  assert (P : u_Phase u = "new"%string \/ u_Phase u = "full"%string).
  { change kattika_moon with kattika_seed in Hu. rewrite <- (moons_chain cfg n) in Hu. exact (chain_phase cfg _ n _ Hu). }
  unfold half_moon_after, ev_string. cbn [h_Phase]. destruct P as [-> | ->]; [left|right]; split; reflexivity.
Qed.
(** The astronomical moons read from the embedded files are named after the codes 0..3. *)
Theorem C47_astro_moons : forall from to l a, get_astro_moons embedded_fs from to = Ok l -> In a l ->
  exists m, In m embedded_moons /\ t_ns (a_Date a) = t_ns (ae_DateTimeISO m) /\
    nth_error ["New Moon"; "Waxing Moon"; "Full Moon"; "Waning Moon"]%string (Z.to_nat (ae_Code m)) = Some (ev_string (EvAstro a)) /\ 0 <= ae_Code m.
Proof.
  intros from to l a E Ha. unfold get_astro_moons in E. rewrite astro_years_ok in E by (intros z _; apply embedded_good). injection E as <-.
  apply in_flat_map in Ha. destruct Ha as (z & _ & Ha). apply in_map_iff in Ha. destruct Ha as (m & <- & Hm). apply filter_In in Hm. destruct Hm as [Hm _].
  exists m. destruct (usable_in z m Hm) as [C _]. unfold code_ok in C. split; [|split; [reflexivity|]].
  - rewrite embedded_flat. apply in_flat_map. exists z. split; [|exact Hm]. pose proof (embedded_missing z) as M.
    destruct ((1900 <=? z) && (z <=? 2040)) eqn:R; [apply years_in; lia|]. destruct (embedded_fs z); [destruct Hm|discriminate|discriminate].
  - assert (K : ae_Code m = 0 \/ ae_Code m = 1 \/ ae_Code m = 2 \/ ae_Code m = 3) by lia. unfold ev_string. cbn [moon_of a_Phase].
    destruct K as [K|[K|[K|K]]]; rewrite K; split; (reflexivity || discriminate).
Qed.
Example C47_moons_example :
  map (fun h => (utc_day (h_Date h) - utc_day (time_date 2016 1 0 0 0), ev_string (EvHalf h))) (firstn 2 (halves_of (events_of_year cfg_default 2016))) = [(2, "Waning Moon"); (16, "Waxing Moon")]%string /\
  match get_astro_moons embedded_fs (time_date 2016 1 1 0 0) (time_date 2016 1 20 0 0) with
  | Ok l => map (fun a => ev_string (EvAstro a)) l = ["Waning Moon"; "New Moon"; "Waxing Moon"]%string | _ => False end.
Proof. vm_compute. repeat split. Qed.
