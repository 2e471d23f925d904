(* C88: without congestion transfers do not disturb each other. *)
From Coq Require Import ZArith String List Bool Lia Floats.SpecFloat.
From Verif Require Import Base Arith Util Device Workload SpecWorkload DepTracker Rates Stats Engine SpecEngine Cases EngineWitness SpecAlone AloneProofs AloneWitness.
Import ListNotations.
Local Open Scope string_scope.
Local Open Scope list_scope.
Open Scope Z_scope.

(* two runs without congestion, of any two workloads and with any orders of buckets and links: transfers that ask for the same and wait for the same start and end at the same cycles *)
Theorem C88_free : forall A d cpt, proper_cpt cpt -> forall ord ord' bord bord' (wl wl' : workload (F A)) s s',
  bucket_order bord -> bucket_order bord' -> proper wl -> proper wl' ->
  succeeds A ord bord d false cpt wl s -> succeeds A ord' bord' d false cpt wl' s' ->
  forall i i', twins A s s' i i' -> same_times A s s' i i'.
Proof. exact no_interference. Qed.
Print Assumptions C88_free.
Example C88_free_case : exists s s', succeeds f32A same_links same_buckets wormhole_b0 false 100 (wl_lane f32A) s /\ succeeds f32A same_links same_buckets wormhole_b0 false 100 wl_crowd s' /\
  twins f32A s s' 2 3 /\ exists x', nth_error (sm_sts f32A s') 3 = Some x' /\ s_start x' = 100 /\ s_end x' = 350.
Proof.
  destruct crowd_twins as (s & s' & H & H' & T & _ & x & Hx & X1 & X2). exists s, s'. split; [exact H|]. split; [exact H'|]. split; [exact T|].
  destruct (C88_free f32A wormhole_b0 100 ltac:(cpt) _ _ _ _ _ _ s s' same_buckets_order same_buckets_order lane_case crowd_case H H' _ _ T) as (y & x' & Hy & Hx' & E1 & E2).
  assert (y = x) by congruence. subst y. exists x'. split; [exact Hx'|]. split; congruence.
Qed.

(* a transfer that waits for nothing takes as long as when it is the only one *)
Theorem C88_alone : forall A d cpt, proper_cpt cpt -> forall ord ord' bord bord' (wl wl' : workload (F A)) s s' i x t,
  bucket_order bord -> bucket_order bord' -> proper wl -> proper wl' ->
  succeeds A ord bord d false cpt wl s -> succeeds A ord' bord' d false cpt wl' s' ->
  nth_error (sm_sts A s) i = Some x -> (forall j dl, ~ waits A s i j dl) -> only wl' t -> ~ has_group_parent A t -> alike (s_tr x) t ->
  same_times A s s' i 0.
Proof. exact as_alone. Qed.
Print Assumptions C88_alone.
Example C88_alone_case : exists s s', succeeds f32A same_links same_buckets wormhole_b0 false 10000 wl_company s /\ succeeds f32A same_links same_buckets wormhole_b0 false 10000 wl_lonely s' /\
  same_times f32A s s' 0 0 /\ exists x', nth_error (sm_sts f32A s') 0 = Some x' /\ s_end x' = 29154.
Proof.
  destruct company_alone as (s & s' & x & t & H & H' & Hx & W & O & G & L & X). exists s, s'. split; [exact H|]. split; [exact H'|].
  pose proof (C88_alone f32A wormhole_b0 10000 ltac:(cpt) _ _ _ _ _ _ s s' 0%nat x t same_buckets_order same_buckets_order company_case lonely_case H H' Hx W O G L) as S. split; [exact S|].
  destruct S as (y & x' & Hy & Hx' & _ & E2). assert (y = x) by congruence. subst y. exists x'. split; [exact Hx'|]. congruence.
Qed.

(* with congestion the same is false *)
Theorem C88_congested_refuted : exists wl wl' s s' x x', proper wl /\ proper wl' /\ validate wormhole_b0 wl = Ok true /\ validate wormhole_b0 wl' = Ok true /\
  succeeds f32A same_links same_buckets wormhole_b0 true 10000 wl s /\ succeeds f32A same_links same_buckets wormhole_b0 true 10000 wl' s' /\
  twins f32A s s' 0 0 /\ s_tr x' = s_tr x /\ nth_error (sm_sts f32A s) 0 = Some x /\ nth_error (sm_sts f32A s') 0 = Some x' /\ s_end x = 29154 /\ s_end x' = 87443.
Proof. exact congested_witness. Qed.
Print Assumptions C88_congested_refuted.
