(* C96: asking for a transfer later does not make it end earlier without congestion. *)
From Coq Require Import ZArith String List Bool Lia Floats.SpecFloat.
From Verif Require Import Base Arith Util Device Workload SpecWorkload DepTracker Rates Stats Engine SpecRates SpecEngine Cases EngineWitness SpecAlone AloneWitness CongestWitness SpecLoad SpecPace PaceWitness DelayProofs DelayWitness.
Import ListNotations.
Local Open Scope list_scope.
Open Scope Z_scope.

(* without congestion: two transfers, of one workload or of two, that wait for nothing; the one that is asked for no sooner, with no fewer bytes and no higher rate, starts and ends no earlier.
   Restricted as C94_free_partial *)
Theorem C96_free_partial : forall ord bord, bucket_order bord -> forall d cpt wl wl', proper wl -> proper wl' -> proper_cpt cpt -> cpt <= 2 ^ 20 ->
  Forall sound_transfer (all_transfers wl) -> Forall sound_transfer (all_transfers wl') ->
  forall s s', succeeds f32A ord bord d false cpt wl s -> succeeds f32A ord bord d false cpt wl' s' -> sm_curr f32A s < 2 ^ 24 -> sm_curr f32A s' < 2 ^ 24 ->
  forall i i' x x', nth_error (sm_sts f32A s) i = Some x -> nth_error (sm_sts f32A s') i' = Some x' ->
  (forall j dl, ~ waits f32A s i j dl) -> (forall j dl, ~ waits f32A s' i' j dl) -> no_sooner (s_tr x) (s_tr x') ->
  s_start x <= s_start x' /\ s_end x <= s_end x'.
Proof. exact delayed_not_earlier. Qed.
Print Assumptions C96_free_partial.
(* 1500 bytes from cycle 0 to 54, 3000 bytes at a lower rate from cycle 900 to 1050 *)
Example C96_free_case : exists s s' x x', succeeds f32A same_links same_buckets wormhole_b0 false 200 wl_brisk s /\ succeeds f32A same_links same_buckets wormhole_b0 false 200 wl_worse s' /\
  nth_error (sm_sts f32A s) 1 = Some x /\ nth_error (sm_sts f32A s') 1 = Some x' /\ s_start x <= s_start x' /\ s_end x = 54 /\ s_end x' = 1050.
Proof.
  destruct worse_runs as (s & s' & x & x' & H & H' & C & C' & Hx & Hx' & E & E' & N & W & W'). exists s, s', x, x'. do 4 (split; [assumption|]).
  destruct (C96_free_partial same_links _ same_buckets_order wormhole_b0 200 wl_brisk wl_worse brisk_case worse_case ltac:(cpt) ltac:(lia) brisk_sound worse_sound s s' H H' C C' 1%nat 1%nat x x' Hx Hx' (W 1%nat) (W' 1%nat) N) as [G _].
  auto.
Qed.

(* with congestion the claim is false: the second of two transfers is asked for at cycle 900 instead of 0, and the run ends at cycle 1205 instead of 1246 *)
Theorem C96_congestion_refuted : exists wl wl' s s' y y' x x', proper wl /\ proper wl' /\ validate wormhole_b0 wl = Ok true /\ validate wormhole_b0 wl' = Ok true /\
  Forall sound_transfer (all_transfers wl) /\ Forall sound_transfer (all_transfers wl') /\
  succeeds f32A same_links same_buckets wormhole_b0 true 200 wl s /\ succeeds f32A same_links same_buckets wormhole_b0 true 200 wl' s' /\
  List.length (sm_sts f32A s) = 2%nat /\ List.length (sm_sts f32A s') = 2%nat /\
  nth_error (sm_sts f32A s) 0 = Some y /\ nth_error (sm_sts f32A s') 0 = Some y' /\ nth_error (sm_sts f32A s) 1 = Some x /\ nth_error (sm_sts f32A s') 1 = Some x' /\
  no_sooner (s_tr y) (s_tr y') /\ no_sooner (s_tr x) (s_tr x') /\ t_off (s_tr x) = 0 /\ t_off (s_tr x') = 900 /\ s_end y = 1246 /\ s_end y' = 1205 /\ s_end x = 100 /\ s_end x' = 975.
Proof. exact deferred_runs. Qed.
Print Assumptions C96_congestion_refuted.
