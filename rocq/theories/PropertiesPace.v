(* C95: lower injection rates do not make a simulation without congestion faster. *)
From Coq Require Import ZArith String List Bool Lia Floats.SpecFloat.
From Verif Require Import Base Arith Util Device Workload SpecWorkload DepTracker Rates Stats Engine SpecRates SpecEngine Cases EngineWitness SpecAlone AloneWitness CongestWitness SpecLoad SpecPace PaceProofs PaceWitness.
Import ListNotations.
Local Open Scope string_scope.
Local Open Scope list_scope.
Open Scope Z_scope.

(* without congestion: two transfers, of one workload or of two, that wait for nothing and are asked for at the same cycle; the one with no fewer bytes and no higher rate ends no earlier.
   Restricted as C94_free_partial *)
Theorem C95_free_partial : forall ord bord, bucket_order bord -> forall d cpt wl wl', proper wl -> proper wl' -> proper_cpt cpt -> cpt <= 2 ^ 20 ->
  Forall sound_transfer (all_transfers wl) -> Forall sound_transfer (all_transfers wl') ->
  forall s s', succeeds f32A ord bord d false cpt wl s -> succeeds f32A ord bord d false cpt wl' s' -> sm_curr f32A s < 2 ^ 24 -> sm_curr f32A s' < 2 ^ 24 ->
  forall i i' x x', nth_error (sm_sts f32A s) i = Some x -> nth_error (sm_sts f32A s') i' = Some x' ->
  (forall j dl, ~ waits f32A s i j dl) -> (forall j dl, ~ waits f32A s' i' j dl) -> no_faster (s_tr x) (s_tr x') ->
  s_start x' = s_start x /\ s_end x <= s_end x'.
Proof. exact slower_not_earlier. Qed.
Print Assumptions C95_free_partial.
(* 1500 bytes: at 28.1 bytes per cycle until cycle 54, at 1 byte per cycle until cycle 1500 *)
Example C95_free_case : exists s s' x x', succeeds f32A same_links same_buckets wormhole_b0 false 200 wl_brisk s /\ succeeds f32A same_links same_buckets wormhole_b0 false 200 wl_idle s' /\
  nth_error (sm_sts f32A s) 1 = Some x /\ nth_error (sm_sts f32A s') 1 = Some x' /\ s_start x' = s_start x /\ s_end x = 54 /\ s_end x' = 1500.
Proof.
  destruct pace_runs as (s & s' & x & x' & H & H' & C & C' & Hx & Hx' & E & E' & N & W & W'). exists s, s', x, x'. do 4 (split; [assumption|]).
  destruct (C95_free_partial same_links _ same_buckets_order wormhole_b0 200 wl_brisk wl_idle brisk_case idle_case ltac:(cpt) ltac:(lia) brisk_sound idle_sound s s' H H' C C' 1%nat 1%nat x x' Hx Hx' (W 1%nat) (W' 1%nat) N) as [G _].
  auto.
Qed.

(* hence, with the same golden cycles, no estimate is less *)
Theorem C95_estimates_partial : forall ord bord, bucket_order bord -> forall d cpt wl wl' f, proper wl -> proper wl' -> proper_cpt cpt -> cpt <= 2 ^ 20 ->
  Forall sound_transfer (all_transfers wl) -> Forall sound_transfer (all_transfers wl') -> slowed f wl wl' ->
  (forall id, getGoldenResultCycles wl' id = getGoldenResultCycles wl id) -> (forall id g, getGoldenResultCycles wl id = Ok g -> 0 <= fst g) ->
  forall stt stt', runSinglePerfSim f32A ord bord d "none" cpt wl = Ok (Stats stt) -> runSinglePerfSim f32A ord bord d "none" cpt wl' = Ok (Stats stt') ->
  (forall w s, w = wl \/ w = wl' -> succeeds f32A ord bord d false cpt w s -> sm_curr f32A s < 2 ^ 24 /\ forall i j dl, ~ waits f32A s i j dl) ->
  forall id ds ds', stats_get f32A stt id = Some ds -> stats_get f32A stt' id = Some ds' -> ds_est f32A ds <= ds_est f32A ds'.
Proof. exact slowed_not_less. Qed.
Print Assumptions C95_estimates_partial.
Example C95_estimates_case : exists stt stt' ds ds', runSinglePerfSim f32A same_links same_buckets wormhole_b0 "none" 200 wl_brisk = Ok (Stats stt) /\
  runSinglePerfSim f32A same_links same_buckets wormhole_b0 "none" 200 wl_idle = Ok (Stats stt') /\ stats_get f32A stt 0 = Some ds /\ stats_get f32A stt' 0 = Some ds' /\
  ds_est f32A ds = 1000 /\ ds_est f32A ds' = 1500 /\ ds_est f32A ds <= ds_est f32A ds'.
Proof.
  destruct (pace_stats _ _ _ _ (proj1 pace_estimates)) as (stt & ds & H & G & E). destruct (pace_stats _ _ _ _ (proj2 pace_estimates)) as (stt' & ds' & H' & G' & E').
  exists stt, stt', ds, ds'. do 6 (split; [assumption|]).
  destruct pace_runs as (s & s' & x & x' & S1 & S1' & C & C' & _ & _ & _ & _ & _ & W & W').
  apply (C95_estimates_partial same_links _ same_buckets_order wormhole_b0 200 wl_brisk wl_idle (fun i => i) brisk_case idle_case ltac:(cpt) ltac:(lia) brisk_sound idle_sound brisk_idle (proj1 pace_golden) (proj2 (proj2 pace_golden)) stt stt' H H') with (id := 0); [|exact G|exact G'].
  intros w q [E1|E1] Q; subst w; unfold succeeds in *.
  - assert (Eq : inl (A := sim f32A) (B := npe_error) q = inl s) by congruence. injection Eq as ->. auto.
  - assert (Eq : inl (A := sim f32A) (B := npe_error) q = inl s') by congruence. injection Eq as ->. auto.
Qed.

(* with congestion the claim is false: a transfer at a lower rate leaves more of the links to another, and the estimate falls from 1246 to 1171 cycles *)
Theorem C95_congestion_refuted : exists wl wl' stt stt' ds ds', proper wl /\ proper wl' /\ validate wormhole_b0 wl = Ok true /\ validate wormhole_b0 wl' = Ok true /\
  Forall sound_transfer (all_transfers wl) /\ Forall sound_transfer (all_transfers wl') /\ slowed (fun i => i) wl wl' /\ (forall id, getGoldenResultCycles wl' id = getGoldenResultCycles wl id) /\
  runSinglePerfSim f32A same_links same_buckets wormhole_b0 "fast" 200 wl = Ok (Stats stt) /\ runSinglePerfSim f32A same_links same_buckets wormhole_b0 "fast" 200 wl' = Ok (Stats stt') /\
  stats_get f32A stt 0 = Some ds /\ stats_get f32A stt' 0 = Some ds' /\ ds_est f32A ds = 1246 /\ ds_est f32A ds' = 1171.
Proof. exact calm_runs. Qed.
Print Assumptions C95_congestion_refuted.
