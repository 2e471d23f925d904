(* Specification of one workload that contains another (C91), possibly with larger transfers (C94). Only the fields of the transfers are used. *)
From Coq Require Import ZArith String List Bool.
From Verif Require Import Base Arith Util Device Workload SpecWorkload.
Import ListNotations.
Open Scope Z_scope.

(* the same transfer under another number, in another phase or group *)
Definition repeats {Fl} (t t' : transfer Fl) : Prop :=
  t_psize t' = t_psize t /\ t_npkts t' = t_npkts t /\ t_src t' = t_src t /\ t_dst t' = t_dst t /\ t_rate t' = t_rate t /\
  t_off t' = t_off t /\ t_noc t' = t_noc t /\ t_event t' = t_event t /\ t_bytes t' = t_bytes t.
(* transfer [i] of [wl] is transfer [f i] of [wl']; the order is kept and there may be others in between *)
Definition contains {Fl} (f : nat -> nat) (wl wl' : workload Fl) : Prop :=
  (forall i j, (i < j)%nat -> (f i < f j)%nat) /\
  forall i t, nth_error (all_transfers wl) i = Some t -> exists t', nth_error (all_transfers wl') (f i) = Some t' /\ repeats t t'.
(* a transfer of no fewer bytes, from the same core to the same cores: the same packets, or one packet as for every transfer of a trace *)
Definition same_packets {Fl} (t t' : transfer Fl) : Prop := t_psize t' = t_psize t /\ t_npkts t' = t_npkts t.
Definition one_packet {Fl} (t : transfer Fl) : Prop := t_npkts t = 1.
Definition enlarges {Fl} (t t' : transfer Fl) : Prop :=
  (same_packets t t' \/ one_packet t /\ one_packet t') /\ t_bytes t <= t_bytes t' /\ t_src t' = t_src t /\ t_dst t' = t_dst t /\ t_rate t' = t_rate t /\
  t_off t' = t_off t /\ t_noc t' = t_noc t /\ t_event t' = t_event t.
(* transfer [i] of [wl] is no larger than transfer [f i] of [wl'] *)
Definition outgrows {Fl} (f : nat -> nat) (wl wl' : workload Fl) : Prop :=
  (forall i j, (i < j)%nat -> (f i < f j)%nat) /\
  forall i t, nth_error (all_transfers wl) i = Some t -> exists t', nth_error (all_transfers wl') (f i) = Some t' /\ enlarges t t'.
(* a request for no fewer bytes at the same cycle and rate; source, destination and NoC may differ *)
Definition no_shorter {Fl} (t t' : transfer Fl) : Prop :=
  (same_packets t t' \/ one_packet t /\ one_packet t') /\ t_bytes t <= t_bytes t' /\ t_rate t' = t_rate t /\ t_off t' = t_off t.
