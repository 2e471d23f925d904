(* When a workload completes (C37). *)
From Coq Require Import ZArith Reals String List Bool Floats.SpecFloat.
From Verif Require Import Base Arith Util Device Workload SpecWorkload DepTracker Rates Stats Engine SpecEngine SpecRates.
Import ListNotations.
Open Scope Z_scope.

(* in every timestep, every transfer that is live when it begins moves at least [m] bytes, or the rest *)
Definition moves_on (A : arith) ord bord (d : device) congestion cpt (wl : workload (F A)) (m : Z) : Prop :=
  forall s s' i x x', reach A ord bord d congestion cpt wl s -> timestep A d congestion cpt wl s = Ok s' -> is_live A s i ->
    nth_error (sm_sts A s) i = Some x -> nth_error (sm_sts A s') i = Some x' ->
    Z.min (t_bytes (s_tr x)) (s_done x + m) <= s_done x'.
(* [wait t] cycles cover the delay of [t] after the end of its parent *)
Definition waits_at_most (A : arith) (d : device) (ts : list (transfer (F A))) (wait : transfer (F A) -> Z) : Prop :=
  forall t, In t ts -> 0 <= wait t /\ forall p delay, In p ts -> has_group_parent A t -> hop_delay A d t p delay -> delay <= wait t.
(* cycles for one transfer: its timesteps, three more for the alignment with timesteps, what rounding can add to an end cycle, and
   the delay *)
Definition cycles_for {Fl} (cpt m : Z) (wait : transfer Fl -> Z) (t : transfer Fl) : Z := (t_bytes t / m + 3) * cpt + 8192 + wait t.
(* all transfers one after the other, from the largest offset on *)
Definition cycles_for_all {Fl} (cpt m : Z) (wait : transfer Fl -> Z) (ts : list (transfer Fl)) : Z :=
  fold_right Z.max 0 (map t_off ts) + sum (map (cycles_for cpt m wait) ts).

(* without congestion: injection rate and interpolated bandwidth allow [m] bytes in a timestep *)
Definition brisk (d : device) (cpt m : Z) (t : transfer spec_float) : Prop :=
  (IZR m <= real (t_rate t) * IZR cpt)%R /\
  exists b, interpolateBW f32A (tbt f32A d) (max_noc_bandwidth f32A d) (t_psize t) (t_npkts t) = Ok b /\ (IZR m <= real b * IZR cpt)%R.

(* with congestion, for [n] transfers: all of them together demand at most 64 n bytes per cycle of any resource, so a resource with
   capacity [c] leaves each transfer at least the part c / (64 n) of its bandwidth; a quarter of that, which covers all rounding,
   allows [m] bytes in a timestep *)
Definition steady (d : device) (cpt m n : Z) (t : transfer spec_float) : Prop :=
  exists b c, interpolateBW f32A (tbt f32A d) (max_noc_bandwidth f32A d) (t_psize t) (t_npkts t) = Ok b /\
    (c <= real (link_bandwidth f32A d))%R /\ (c <= real (t_rate t))%R /\ (forall ty, c <= real (abs_rate f32A d ty))%R /\
    (c <= IZR (64 * n) <= 4194304 * c)%R /\ (IZR (256 * n * m) <= Rmin (real (t_rate t)) (real b) * c * IZR cpt)%R.
(* under the configured congestion model *)
Definition keeps_moving (d : device) (model : string) (cpt m : Z) (ts : list (transfer spec_float)) : Prop :=
  cpt <= 2 ^ 24 /\ 1 <= m <= 2 ^ 24 /\
  if String.eqb model "none" then Forall (brisk d cpt m) ts
  else Z.of_nat (List.length ts) <= 2 ^ 18 /\ Forall (steady d cpt m (Z.of_nat (List.length ts))) ts.
