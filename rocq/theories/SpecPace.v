(* Requests at a lower rate or at a later cycle (C95, C96). *)
From Coq Require Import ZArith List Floats.SpecFloat.
From Verif Require Import Base Arith Util Workload SpecWorkload Engine SpecLoad.
Open Scope Z_scope.

(* a request for no fewer bytes at the same cycle, at no higher injection rate; source, destination and NoC may differ *)
Definition no_faster (t t' : transfer spec_float) : Prop :=
  (same_packets t t' \/ one_packet t /\ one_packet t') /\ t_bytes t <= t_bytes t' /\ SFltb (t_rate t) (t_rate t') = false /\ t_off t' = t_off t.
(* every transfer of [wl] has a transfer on the same chip in [wl'] that is no faster *)
Definition slowed (f : nat -> nat) (wl wl' : workload spec_float) : Prop :=
  forall i t, nth_error (all_transfers wl) i = Some t -> exists t', nth_error (all_transfers wl') (f i) = Some t' /\ no_faster t t' /\ c_dev (t_src t') = c_dev (t_src t).
(* the same, asked for at the same cycle or later *)
Definition no_sooner (t t' : transfer spec_float) : Prop :=
  (same_packets t t' \/ one_packet t /\ one_packet t') /\ t_bytes t <= t_bytes t' /\ 0 < t_bytes t' /\ SFltb (t_rate t) (t_rate t') = false /\ t_off t <= t_off t'.
