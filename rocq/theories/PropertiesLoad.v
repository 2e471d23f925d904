(* C91: more transfers do not make the others end earlier, unless one waits for another. *)
From Coq Require Import ZArith String List Bool Lia Floats.SpecFloat.
From Verif Require Import Base Arith Util Device Workload SpecWorkload DepTracker Rates Stats Engine SpecRates SpecEngine Cases EngineWitness SpecAlone AloneWitness CongestWitness SpecLoad LoadRun LoadWitness.
Import ListNotations.
Local Open Scope string_scope.
Local Open Scope list_scope.
Open Scope Z_scope.

(* a workload and one that contains it, both with congestion: each common transfer starts at the same cycle in both and ends no earlier in the larger one.
   Restricted to runs in which no transfer waits for another and below cycle 2^24, where binary32 holds every cycle number;
   the links of a multicast are visited in an order that does not depend on the number of the transfer *)
Theorem C91_load_partial : forall ord bord, bucket_order bord -> (forall a b l, ord a l = ord b l) -> forall d cpt wl wl' f, proper wl -> proper wl' -> proper_cpt cpt -> cpt <= 2 ^ 20 ->
  Forall sound_transfer (all_transfers wl) -> Forall sound_transfer (all_transfers wl') -> contains f wl wl' ->
  forall s s', succeeds f32A ord bord d true cpt wl s -> succeeds f32A ord bord d true cpt wl' s' -> sm_curr f32A s < 2 ^ 24 -> sm_curr f32A s' < 2 ^ 24 ->
  (forall i j dl, ~ waits f32A s i j dl) -> (forall i j dl, ~ waits f32A s' i j dl) ->
  forall i x x', nth_error (sm_sts f32A s) i = Some x -> nth_error (sm_sts f32A s') (f i) = Some x' -> s_start x' = s_start x /\ s_end x <= s_end x'.
Proof. exact more_not_earlier. Qed.
Print Assumptions C91_load_partial.
(* a third transfer delays the first from cycle 95 to cycle 100 *)
Example C91_load_case : exists s s' x x', succeeds f32A same_links same_buckets wormhole_b0 true 100 wl_few s /\ succeeds f32A same_links same_buckets wormhole_b0 true 100 wl_more s' /\
  nth_error (sm_sts f32A s) 0 = Some x /\ nth_error (sm_sts f32A s') 1 = Some x' /\ s_start x' = s_start x /\ s_end x = 95 /\ s_end x' = 100.
Proof.
  destruct load_runs as (s & s' & x & x' & H & H' & C & C' & Hx & Hx' & E & E' & W & W'). exists s, s', x, x'. split; [exact H|]. split; [exact H'|]. split; [exact Hx|]. split; [exact Hx'|].
  destruct (C91_load_partial same_links _ same_buckets_order ltac:(reflexivity) wormhole_b0 100 wl_few wl_more S few_case more_case ltac:(cpt) ltac:(lia) few_sound more_sound few_more s s' H H' C C' W W' 0%nat x x' Hx Hx') as [G _].
  split; [exact G|]. split; assumption.
Qed.

(* hence, with the same golden cycles, no estimate is less for the larger workload *)
Theorem C91_estimates_partial : forall ord bord, bucket_order bord -> (forall a b l, ord a l = ord b l) -> forall d cpt wl wl' f, proper wl -> proper wl' -> proper_cpt cpt -> cpt <= 2 ^ 20 ->
  Forall sound_transfer (all_transfers wl) -> Forall sound_transfer (all_transfers wl') -> contains f wl wl' ->
  (forall id, getGoldenResultCycles wl' id = getGoldenResultCycles wl id) -> (forall id g, getGoldenResultCycles wl id = Ok g -> 0 <= fst g) ->
  forall model stt stt', model <> "none" -> runSinglePerfSim f32A ord bord d model cpt wl = Ok (Stats stt) -> runSinglePerfSim f32A ord bord d model cpt wl' = Ok (Stats stt') ->
  (forall w s, w = wl \/ w = wl' -> succeeds f32A ord bord d true cpt w s -> sm_curr f32A s < 2 ^ 24 /\ forall i j dl, ~ waits f32A s i j dl) ->
  forall id ds ds', stats_get f32A stt id = Some ds -> stats_get f32A stt' id = Some ds' -> ds_est f32A ds <= ds_est f32A ds'.
Proof. exact more_not_less. Qed.
Print Assumptions C91_estimates_partial.
Example C91_estimates_case : exists stt stt' ds ds', runSinglePerfSim f32A same_links same_buckets wormhole_b0 "fast" 100 wl_few = Ok (Stats stt) /\
  runSinglePerfSim f32A same_links same_buckets wormhole_b0 "fast" 100 wl_more = Ok (Stats stt') /\ stats_get f32A stt 0 = Some ds /\ stats_get f32A stt' 0 = Some ds' /\
  ds_est f32A ds = 95 /\ ds_est f32A ds' = 100 /\ ds_est f32A ds <= ds_est f32A ds'.
Proof.
  destruct (load_stats _ _ (proj1 load_estimates)) as (stt & ds & H & G & E). destruct (load_stats _ _ (proj2 load_estimates)) as (stt' & ds' & H' & G' & E').
  exists stt, stt', ds, ds'. do 6 (split; [assumption|]).
  destruct load_runs as (s & s' & x & x' & S1 & S1' & C & C' & _ & _ & _ & _ & W & W').
  apply (C91_estimates_partial same_links _ same_buckets_order ltac:(reflexivity) wormhole_b0 100 wl_few wl_more S few_case more_case ltac:(cpt) ltac:(lia) few_sound more_sound few_more (proj1 load_golden) (proj2 load_golden) "fast" stt stt' ltac:(discriminate) H H') with (id := 0); [|exact G|exact G'].
  intros w q [E1|E1] Q; subst w; unfold succeeds in *.
  - assert (Eq : inl (A := sim f32A) (B := npe_error) q = inl s) by congruence. injection Eq as ->. auto.
  - assert (Eq : inl (A := sim f32A) (B := npe_error) q = inl s') by congruence. injection Eq as ->. auto.
Qed.

(* when a transfer waits for another the claim is false: here the new transfer makes the last one, and the whole run, finish at cycle 1000 instead of 1095 *)
Theorem C91_waiting_refuted : exists wl wl' s s' x x', proper wl /\ proper wl' /\ validate wormhole_b0 wl = Ok true /\ validate wormhole_b0 wl' = Ok true /\
  Forall sound_transfer (all_transfers wl) /\ Forall sound_transfer (all_transfers wl') /\ contains S wl wl' /\
  succeeds f32A same_links same_buckets wormhole_b0 true 100 wl s /\ succeeds f32A same_links same_buckets wormhole_b0 true 100 wl' s' /\
  nth_error (sm_sts f32A s) 2 = Some x /\ nth_error (sm_sts f32A s') 3 = Some x' /\ s_end x = 1095 /\ s_end x' = 1000 /\ (forall i y, nth_error (sm_sts f32A s') i = Some y -> s_end y <= 1000).
Proof. exact wait_runs. Qed.
Print Assumptions C91_waiting_refuted.
Example C91_waiting_estimates : est_of (runSinglePerfSim f32A same_links same_buckets wormhole_b0 "fast" 100 wl_few_wait) 0 = Some 1095 /\ est_of (runSinglePerfSim f32A same_links same_buckets wormhole_b0 "fast" 100 wl_more_wait) 0 = Some 1000.
Proof. exact wait_estimates. Qed.
