(* Specification of the results of runNPE (C55). *)
From Coq Require Import ZArith String List Bool Floats.SpecFloat.
From Verif Require Import Base Arith Util Device SpecDevice Workload SpecWorkload DepTracker Stats Engine SpecEngine SpecApi.
Import ListNotations.
Open Scope Z_scope.

(* a multicast to more than one rectangle *)
Definition several_rectangles {Fl} (t : transfer Fl) : Prop := exists m, t_dst t = Multicast m /\ (2 <= List.length m)%nat.
(* the four kinds of workloads *)
Definition rejected (d : device) (wl : workload spec_float) : Prop := ~ Forall (accepted d) (all_transfers wl).
Definition split_multicast (d : device) (wl : workload spec_float) : Prop :=
  Forall (accepted d) (all_transfers wl) /\ Exists several_rectangles (all_transfers wl).
Definition blackhole_groups (d : device) (wl : workload spec_float) : Prop :=
  Forall (accepted d) (all_transfers wl) /\ Forall (fun t => ~ several_rectangles t) (all_transfers wl) /\
  dv_arch d = Blackhole /\ Exists waits_for_group (all_transfers wl).
Definition plain (d : device) (wl : workload spec_float) : Prop :=
  Forall (accepted d) (all_transfers wl) /\ Forall (fun t => ~ several_rectangles t) (all_transfers wl) /\
  (dv_arch d = Blackhole -> Forall (fun t => ~ waits_for_group t) (all_transfers wl)).

(* a run that passes the cycle limit with work left: the n-th timestep ends after the limit and is not the last *)
Definition runs_too_long (A : arith) ord bord d congestion cpt wl : Prop :=
  exists n s s', begins A ord bord d congestion cpt wl n s /\ timestep A d congestion cpt wl s = Ok s' /\
    (sm_live A s' <> [] \/ sm_queue A s' <> []) /\ MAX_CYCLE_LIMIT < Z.of_nat n * cpt.
