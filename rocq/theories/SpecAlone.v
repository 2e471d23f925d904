(* Specification of transfers that do not disturb each other (C88): two transfers, of one workload or of two, that ask for the same and wait for the same.
   Independent of the engine's helpers: only the fields of the transfers and the dependencies of SpecEngine are used. *)
From Coq Require Import ZArith String List Bool.
From Verif Require Import Base Arith Util Device Workload SpecWorkload DepTracker Rates Stats Engine SpecEngine.
Import ListNotations.
Open Scope Z_scope.

(* the same request: start offset, bytes, packets and injection rate. Source, destination, NoC, groups and names may differ. *)
Definition alike {Fl} (t t' : transfer Fl) : Prop :=
  t_off t' = t_off t /\ t_bytes t' = t_bytes t /\ t_psize t' = t_psize t /\ t_npkts t' = t_npkts t /\ t_rate t' = t_rate t.

Section Twins.
  Context (A : arith) (s s' : sim A).
  Definition waits (r : sim A) (i j : nat) (delay : Z) : Prop := depends A (sm_sts A r) (sm_trk A r) i j delay.
  Definition same_request (i i' : nat) : Prop :=
    exists x x', nth_error (sm_sts A s) i = Some x /\ nth_error (sm_sts A s') i' = Some x' /\ alike (s_tr x) (s_tr x').
  (* transfer [i] of the run that ends in [s] and transfer [i'] of the run that ends in [s'] ask for the same, and either wait for nothing
     or wait equally long for transfers that are again such a pair *)
  Inductive twins : nat -> nat -> Prop :=
  | twins_free i i' : same_request i i' -> (forall j dl, ~ waits s i j dl) -> (forall j dl, ~ waits s' i' j dl) -> twins i i'
  | twins_after i i' j j' dl : same_request i i' -> waits s i j dl -> waits s' i' j' dl -> twins j j' -> twins i i'.
  (* the same cycles *)
  Definition same_times (i i' : nat) : Prop :=
    exists x x', nth_error (sm_sts A s) i = Some x /\ nth_error (sm_sts A s') i' = Some x' /\ s_start x' = s_start x /\ s_end x' = s_end x.
End Twins.

(* a workload of one transfer *)
Definition only {Fl} (wl : workload Fl) (t : transfer Fl) : Prop := all_transfers wl = [t].
