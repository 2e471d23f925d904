(* C89: congestion does not make transfers end earlier, unless one waits for another. *)
From Coq Require Import ZArith String List Bool Lia Floats.SpecFloat.
From Verif Require Import Base Arith Util Device Workload SpecWorkload DepTracker Rates Stats Engine SpecRates SpecEngine Cases EngineWitness SpecAlone AloneWitness CongestProofs CongestWitness.
Import ListNotations.
Local Open Scope string_scope.
Local Open Scope list_scope.
Open Scope Z_scope.

(* the same workload with and without congestion: a transfer that waits for nothing starts at the same cycle and ends no earlier. Restricted to runs below cycle 2^24, where binary32 holds every cycle number *)
Theorem C89_free_partial : forall ord bord, bucket_order bord -> forall d cpt wl, proper wl -> proper_cpt cpt -> cpt <= 2 ^ 20 -> Forall sound_transfer (all_transfers wl) ->
  forall s s', succeeds f32A ord bord d true cpt wl s -> succeeds f32A ord bord d false cpt wl s' -> sm_curr f32A s < 2 ^ 24 -> sm_curr f32A s' < 2 ^ 24 ->
  forall i x x', nth_error (sm_sts f32A s) i = Some x -> nth_error (sm_sts f32A s') i = Some x' -> (forall j dl, ~ waits f32A s i j dl) ->
  s_start x' = s_start x /\ s_end x' <= s_end x.
Proof. exact not_earlier. Qed.
Print Assumptions C89_free_partial.
Example C89_free_case : exists s s' x x', succeeds f32A same_links same_buckets wormhole_b0 true 100 wl_brief s /\ succeeds f32A same_links same_buckets wormhole_b0 false 100 wl_brief s' /\
  nth_error (sm_sts f32A s) 0 = Some x /\ nth_error (sm_sts f32A s') 0 = Some x' /\ s_start x' = s_start x /\ s_end x = 100 /\ s_end x' = 95.
Proof.
  destruct brief_runs as (s & s' & x & x' & H & H' & C & C' & Hx & Hx' & E & E' & W). exists s, s', x, x'. split; [exact H|]. split; [exact H'|]. split; [exact Hx|]. split; [exact Hx'|].
  destruct (C89_free_partial _ _ same_buckets_order wormhole_b0 100 wl_brief brief_case ltac:(cpt) ltac:(lia) brief_sound s s' H H' C C' 0%nat x x' Hx Hx' (W 0%nat)) as [S _].
  split; [exact S|]. split; assumption.
Qed.

(* hence, when no transfer waits for another, no estimate is less with a congestion model than without *)
Theorem C89_estimates_partial : forall ord bord, bucket_order bord -> forall d cpt wl, proper wl -> proper_cpt cpt -> cpt <= 2 ^ 20 -> Forall sound_transfer (all_transfers wl) ->
  (forall id g, getGoldenResultCycles wl id = Ok g -> 0 <= fst g) ->
  forall model stt stt', model <> "none" -> runSinglePerfSim f32A ord bord d model cpt wl = Ok (Stats stt) -> runSinglePerfSim f32A ord bord d "none" cpt wl = Ok (Stats stt') ->
  (forall s, succeeds f32A ord bord d true cpt wl s -> sm_curr f32A s < 2 ^ 24 /\ forall i j dl, ~ waits f32A s i j dl) ->
  (forall s, succeeds f32A ord bord d false cpt wl s -> sm_curr f32A s < 2 ^ 24) ->
  forall id ds ds', stats_get f32A stt id = Some ds -> stats_get f32A stt' id = Some ds' -> ds_est f32A ds' <= ds_est f32A ds.
Proof. exact not_less. Qed.
Print Assumptions C89_estimates_partial.
Example C89_estimates_case : exists stt stt' ds ds', runSinglePerfSim f32A same_links same_buckets wormhole_b0 "fast" 100 wl_brief = Ok (Stats stt) /\
  runSinglePerfSim f32A same_links same_buckets wormhole_b0 "none" 100 wl_brief = Ok (Stats stt') /\ stats_get f32A stt 0 = Some ds /\ stats_get f32A stt' 0 = Some ds' /\
  ds_est f32A ds = 100 /\ ds_est f32A ds' = 95 /\ ds_est f32A ds' <= ds_est f32A ds.
Proof.
  destruct (brief_stats _ _ (proj1 brief_estimates)) as (stt & ds & H & G & E). destruct (brief_stats _ _ (proj2 brief_estimates)) as (stt' & ds' & H' & G' & E').
  exists stt, stt', ds, ds'. do 6 (split; [assumption|]).
  destruct brief_runs as (s & s' & x & x' & S & S' & C & C' & _ & _ & _ & _ & W).
  apply (C89_estimates_partial _ _ same_buckets_order wormhole_b0 100 wl_brief brief_case ltac:(cpt) ltac:(lia) brief_sound brief_golden "fast" stt stt' ltac:(discriminate) H H') with (id := 0); [..|exact G|exact G'].
  - intros q Q. unfold succeeds in *. assert (Eq : inl (A := sim f32A) (B := npe_error) q = inl s) by congruence. injection Eq as ->. auto.
  - intros q Q. unfold succeeds in *. assert (Eq : inl (A := sim f32A) (B := npe_error) q = inl s') by congruence. injection Eq as ->. auto.
Qed.

(* with a dependency the claim is false: here congestion makes the run of four transfers on one chip finish at cycle 1000 instead of 1095 *)
Theorem C89_waiting_refuted : exists wl s s' x x', proper wl /\ validate wormhole_b0 wl = Ok true /\ Forall sound_transfer (all_transfers wl) /\
  succeeds f32A same_links same_buckets wormhole_b0 true 100 wl s /\ succeeds f32A same_links same_buckets wormhole_b0 false 100 wl s' /\
  nth_error (sm_sts f32A s) 2 = Some x /\ nth_error (sm_sts f32A s') 2 = Some x' /\ s_start x = 100 /\ s_end x = 1000 /\ s_start x' = 95 /\ s_end x' = 1095 /\
  (forall i y, nth_error (sm_sts f32A s) i = Some y -> s_end y <= 1000).
Proof. exact jam_runs. Qed.
Print Assumptions C89_waiting_refuted.
Example C89_waiting_estimates : est_of (runSinglePerfSim f32A same_links same_buckets wormhole_b0 "fast" 100 wl_jam) 0 = Some 1000 /\ est_of (runSinglePerfSim f32A same_links same_buckets wormhole_b0 "none" 100 wl_jam) 0 = Some 1095.
Proof. exact jam_estimates. Qed.
