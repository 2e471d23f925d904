(* C94: larger transfers do not make a simulation faster, unless the packets become larger. *)
From Coq Require Import ZArith String List Bool Lia Floats.SpecFloat.
From Verif Require Import Base Arith Util Device Workload SpecWorkload DepTracker Rates Stats Engine SpecRates SpecEngine Cases EngineWitness SpecAlone AloneWitness CongestWitness SpecLoad LoadRun GrowProofs GrowWitness.
Import ListNotations.
Local Open Scope string_scope.
Local Open Scope list_scope.
Open Scope Z_scope.

(* without congestion: two transfers, of one workload or of two, that wait for nothing and are asked for at the same cycle; the larger one ends no earlier.
   Restricted to the same packets or one packet each, and below cycle 2^24, where binary32 holds every cycle number *)
Theorem C94_free_partial : forall ord bord, bucket_order bord -> forall d cpt wl wl', proper wl -> proper wl' -> proper_cpt cpt -> cpt <= 2 ^ 20 ->
  Forall sound_transfer (all_transfers wl) -> Forall sound_transfer (all_transfers wl') ->
  forall s s', succeeds f32A ord bord d false cpt wl s -> succeeds f32A ord bord d false cpt wl' s' -> sm_curr f32A s < 2 ^ 24 -> sm_curr f32A s' < 2 ^ 24 ->
  forall i i' x x', nth_error (sm_sts f32A s) i = Some x -> nth_error (sm_sts f32A s') i' = Some x' ->
  (forall j dl, ~ waits f32A s i j dl) -> (forall j dl, ~ waits f32A s' i' j dl) -> no_shorter (s_tr x) (s_tr x') ->
  s_start x' = s_start x /\ s_end x <= s_end x'.
Proof. exact longer_not_earlier. Qed.
Print Assumptions C94_free_partial.
(* 1000 bytes until cycle 36, 9000 bytes until cycle 321 *)
Example C94_free_case : exists s s' x x', succeeds f32A same_links same_buckets wormhole_b0 false 100 wl_small s /\ succeeds f32A same_links same_buckets wormhole_b0 false 100 wl_large s' /\
  nth_error (sm_sts f32A s) 1 = Some x /\ nth_error (sm_sts f32A s') 1 = Some x' /\ s_start x' = s_start x /\ s_end x = 36 /\ s_end x' = 321.
Proof.
  destruct (grow_runs false) as (s & s' & y & y' & x & x' & H & H' & C & C' & _ & _ & Hx & Hx' & E & N & W & W'). exists s, s', x, x'. do 4 (split; [assumption|]).
  destruct (C94_free_partial same_links _ same_buckets_order wormhole_b0 100 wl_small wl_large small_case large_case ltac:(cpt) ltac:(lia) small_sound large_sound s s' H H' C C' 1%nat 1%nat x x' Hx Hx' (W 1%nat) (W' 1%nat) N) as [G _].
  split; [exact G|]. injection E as _ _ E1 E2. split; [exact E1|exact E2].
Qed.

(* with congestion: if each transfer of a workload is in another workload with at least as many bytes, and perhaps others with it,
   then each starts at the same cycle in both and ends no earlier in the other one. Restricted as C91_load_partial *)
Theorem C94_load_partial : forall ord bord, bucket_order bord -> (forall a b l, ord a l = ord b l) -> forall d cpt wl wl' f, proper wl -> proper wl' -> proper_cpt cpt -> cpt <= 2 ^ 20 ->
  Forall sound_transfer (all_transfers wl) -> Forall sound_transfer (all_transfers wl') -> outgrows f wl wl' ->
  forall s s', succeeds f32A ord bord d true cpt wl s -> succeeds f32A ord bord d true cpt wl' s' -> sm_curr f32A s < 2 ^ 24 -> sm_curr f32A s' < 2 ^ 24 ->
  (forall i j dl, ~ waits f32A s i j dl) -> (forall i j dl, ~ waits f32A s' i j dl) ->
  forall i x x', nth_error (sm_sts f32A s) i = Some x -> nth_error (sm_sts f32A s') (f i) = Some x' -> s_start x' = s_start x /\ s_end x <= s_end x'.
Proof. exact grown_not_earlier. Qed.
Print Assumptions C94_load_partial.
(* the second transfer grows and delays the first from cycle 163 to cycle 200 *)
Example C94_load_case : exists s s' y y' x x', succeeds f32A same_links same_buckets wormhole_b0 true 100 wl_small s /\ succeeds f32A same_links same_buckets wormhole_b0 true 100 wl_large s' /\
  nth_error (sm_sts f32A s) 0 = Some y /\ nth_error (sm_sts f32A s') 0 = Some y' /\ nth_error (sm_sts f32A s) 1 = Some x /\ nth_error (sm_sts f32A s') 1 = Some x' /\
  s_start y' = s_start y /\ s_end y = 163 /\ s_end y' = 200 /\ s_start x' = s_start x /\ s_end x = 67 /\ s_end x' = 414.
Proof.
  destruct (grow_runs true) as (s & s' & y & y' & x & x' & H & H' & C & C' & Hy & Hy' & Hx & Hx' & E & N & W & W'). exists s, s', y, y', x, x'. do 6 (split; [assumption|]).
  pose proof (C94_load_partial same_links _ same_buckets_order ltac:(reflexivity) wormhole_b0 100 wl_small wl_large (fun i => i) small_case large_case ltac:(cpt) ltac:(lia) small_sound large_sound small_large s s' H H' C C' W W') as G.
  destruct (G 0%nat y y' Hy Hy') as [G0 _]. destruct (G 1%nat x x' Hx Hx') as [G1 _]. injection E as E1 E2 E3 E4.
  split; [exact G0|]. split; [exact E1|]. split; [exact E2|]. split; [exact G1|]. split; [exact E3|exact E4].
Qed.

(* hence, with the same golden cycles, no estimate is less *)
Theorem C94_estimates_partial : forall ord bord, bucket_order bord -> (forall a b l, ord a l = ord b l) -> forall d cpt wl wl' f, proper wl -> proper wl' -> proper_cpt cpt -> cpt <= 2 ^ 20 ->
  Forall sound_transfer (all_transfers wl) -> Forall sound_transfer (all_transfers wl') -> outgrows f wl wl' ->
  (forall id, getGoldenResultCycles wl' id = getGoldenResultCycles wl id) -> (forall id g, getGoldenResultCycles wl id = Ok g -> 0 <= fst g) ->
  forall model stt stt', model <> "none" -> runSinglePerfSim f32A ord bord d model cpt wl = Ok (Stats stt) -> runSinglePerfSim f32A ord bord d model cpt wl' = Ok (Stats stt') ->
  (forall w s, w = wl \/ w = wl' -> succeeds f32A ord bord d true cpt w s -> sm_curr f32A s < 2 ^ 24 /\ forall i j dl, ~ waits f32A s i j dl) ->
  forall id ds ds', stats_get f32A stt id = Some ds -> stats_get f32A stt' id = Some ds' -> ds_est f32A ds <= ds_est f32A ds'.
Proof. exact grown_not_less. Qed.
Print Assumptions C94_estimates_partial.
Example C94_estimates_case : exists stt stt' ds ds', runSinglePerfSim f32A same_links same_buckets wormhole_b0 "fast" 100 wl_small = Ok (Stats stt) /\
  runSinglePerfSim f32A same_links same_buckets wormhole_b0 "fast" 100 wl_large = Ok (Stats stt') /\ stats_get f32A stt 0 = Some ds /\ stats_get f32A stt' 0 = Some ds' /\
  ds_est f32A ds = 163 /\ ds_est f32A ds' = 414 /\ ds_est f32A ds <= ds_est f32A ds'.
Proof.
  destruct (grow_stats _ _ (proj1 grow_estimates)) as (stt & ds & H & G & E). destruct (grow_stats _ _ (proj2 grow_estimates)) as (stt' & ds' & H' & G' & E').
  exists stt, stt', ds, ds'. do 6 (split; [assumption|]).
  destruct (grow_runs true) as (s & s' & y & y' & x & x' & S1 & S1' & C & C' & _ & _ & _ & _ & _ & _ & W & W').
  apply (C94_estimates_partial same_links _ same_buckets_order ltac:(reflexivity) wormhole_b0 100 wl_small wl_large (fun i => i) small_case large_case ltac:(cpt) ltac:(lia) small_sound large_sound small_large (proj1 grow_golden) (proj2 grow_golden) "fast" stt stt' ltac:(discriminate) H H') with (id := 0); [|exact G|exact G'].
  intros w q [E1|E1] Q; subst w; unfold succeeds in *.
  - assert (Eq : inl (A := sim f32A) (B := npe_error) q = inl s) by congruence. injection Eq as ->. auto.
  - assert (Eq : inl (A := sim f32A) (B := npe_error) q = inl s') by congruence. injection Eq as ->. auto.
Qed.

(* with larger packets, as many of them, the claim is false, with and without congestion: on Blackhole 1000 packets of 256 bytes end at cycle 21073, 1000 packets of 128 bytes at cycle 21141 *)
Theorem C94_packets_refuted : forall c, exists wl wl' s s' x x', proper wl /\ proper wl' /\ validate blackhole_p150 wl = Ok true /\ validate blackhole_p150 wl' = Ok true /\
  Forall sound_transfer (all_transfers wl) /\ Forall sound_transfer (all_transfers wl') /\
  succeeds f32A same_links same_buckets blackhole_p150 c 10000 wl s /\ succeeds f32A same_links same_buckets blackhole_p150 c 10000 wl' s' /\ only wl (s_tr x) /\ only wl' (s_tr x') /\
  nth_error (sm_sts f32A s) 0 = Some x /\ nth_error (sm_sts f32A s') 0 = Some x' /\ t_src (s_tr x') = t_src (s_tr x) /\ t_dst (s_tr x') = t_dst (s_tr x) /\ t_rate (s_tr x') = t_rate (s_tr x) /\ t_off (s_tr x') = t_off (s_tr x) /\
  t_npkts (s_tr x') = t_npkts (s_tr x) /\ t_bytes (s_tr x) = 128000 /\ t_bytes (s_tr x') = 256000 /\ s_end x = 21141 /\ s_end x' = 21073.
Proof. exact packets_runs. Qed.
Print Assumptions C94_packets_refuted.
