(* C59-C60: the summary statistics. C69: the reports on a result. *)
From Coq Require Import ZArith QArith Qreals Reals String List Bool Permutation Sorting.Sorted Floats.SpecFloat.
From Flocq Require Import Core IEEE754.BinarySingleNaN.
From Verif Require Import Base Arith Util Device SpecDevice Workload SpecWorkload Rates Stats Engine SpecEngine SpecRates SpecStats SpecSummary Cases EngineWitness RatesWitness StatsWitness SummaryRun MeanProofs SummaryWitness Files Report SpecReport ReportProofs ReportWitness.
Import ListNotations.
Local Open Scope string_scope.
Local Open Scope list_scope.
Open Scope Z_scope.

(** * C59: DRAM and Ethernet utilisation are the bytes moved over what the bandwidth allows *)
(* every transfer from or to DRAM counts once, for its chip and for the mesh; in doubles, up to 2^-21.
   Full statement: the bandwidth is [chip_dram d] for the statistics of a chip. *)
Theorem C59_dram_partial : forall ord bord, bucket_order bord -> forall d, made d -> forall cpt wl, proper wl -> wl_next wl <= 2 ^ 32 -> proper_cpt cpt ->
  forall model stt id ds, runSinglePerfSim f32A ord bord d model cpt wl = Ok (Stats stt) -> has_stats d id -> stats_get f32A stt id = Some ds ->
  exists n, sum_over (fun t => issued id t /\ uses_dram d t) t_bytes (all_transfers wl) n /\
    (0 < ds_golden f32A ds -> close_to (ds_dram f32A ds) (utilisation n (ds_golden f32A ds) (all_dram d))) /\
    (0 < ds_est f32A ds -> close_to (ds_dram_sim f32A ds) (utilisation n (ds_est f32A ds) (all_dram d))).
Proof. exact run_dram_float. Qed.
Print Assumptions C59_dram_partial.
(* without rounding *)
Theorem C59_dram_exact_partial : forall ord bord, bucket_order bord -> forall d, made d -> forall cpt wl, proper wl -> wl_next wl <= 2 ^ 32 -> proper_cpt cpt ->
  forall model stt id ds, runSinglePerfSim ratA ord bord d model cpt wl = Ok (Stats stt) -> has_stats d id -> stats_get ratA stt id = Some ds ->
  exists n, sum_over (fun t => issued id t /\ uses_dram d t) t_bytes (all_transfers wl) n /\
    (0 < ds_golden ratA ds -> exists q, ds_dram ratA ds = Some q /\ (q == utilisation n (ds_golden ratA ds) (all_dram d))%Q) /\
    (0 < ds_est ratA ds -> exists q, ds_dram_sim ratA ds = Some q /\ (q == utilisation n (ds_est ratA ds) (all_dram d))%Q).
Proof. exact run_dram_exact. Qed.
Print Assumptions C59_dram_exact_partial.
(* one entry for each Ethernet core that a transfer goes to *)
Theorem C59_ethernet : forall ord bord, bucket_order bord -> forall d, made d -> forall cpt wl, proper wl -> wl_next wl <= 2 ^ 32 -> proper_cpt cpt ->
  forall model stt id ds, runSinglePerfSim f32A ord bord d model cpt wl = Ok (Stats stt) -> has_stats d id -> stats_get f32A stt id = Some ds ->
  NoDup (map fst (ds_eth f32A ds)) /\
  (forall c, In c (map fst (ds_eth f32A ds)) <-> exists t, In t (all_transfers wl) /\ issued id t /\ to_eth d c t) /\
  (0 < ds_golden f32A ds -> forall c v, In (c, v) (ds_eth f32A ds) ->
    exists n, sum_over (fun t => issued id t /\ to_eth d c t) t_bytes (all_transfers wl) n /\ close_to v (utilisation n (ds_golden f32A ds) (eth_link d))).
Proof. exact run_eth_float. Qed.
Print Assumptions C59_ethernet.
(* chip 0 of two: the bandwidth of both chips halves its utilisation *)
Theorem C59_chip_refuted : exists wl stt ds n, proper wl /\ wl_next wl <= 2 ^ 32 /\ runSinglePerfSim f32A same_links same_buckets n300 "fast" 100 wl = Ok (Stats stt) /\ stats_get f32A stt 0 = Some ds /\
  sum_over (fun t => issued 0 t /\ uses_dram n300 t) t_bytes (all_transfers wl) n /\ 0 < ds_golden f32A ds /\
  close_to (ds_dram f32A ds) (utilisation n (ds_golden f32A ds) (chip_dram n300) / 2) /\ ~ close_to (ds_dram f32A ds) (utilisation n (ds_golden f32A ds) (chip_dram n300)).
Proof. exact half_utilisation. Qed.
Print Assumptions C59_chip_refuted.
(* no golden window *)
Theorem C59_window_refuted : exists wl stt ds, proper wl /\ runSinglePerfSim f32A same_links same_buckets wormhole_b0 "fast" 100 wl = Ok (Stats stt) /\ stats_get f32A stt 0 = Some ds /\
  ds_golden f32A ds = 0 /\ ds_dram f32A ds = S754_infinity false.
Proof. exact infinite_utilisation. Qed.
Print Assumptions C59_window_refuted.
(* 400 bytes from and to DRAM, 120 to one Ethernet core, in 1000 cycles *)
Example C59_example : made n300 /\ proper (wl_memory f32A) /\ wl_next (wl_memory f32A) <= 2 ^ 32 /\ proper_cpt 100 /\ has_stats n300 0 /\
  match sum_view (runSinglePerfSim f32A same_links same_buckets n300 "fast" 100 (wl_memory f32A)) 0 with
  | Some (cycles, _, _, dram) => cycles = (353, 1000) /\ dram = (S754_finite false 5088813138271747 (-56), S754_finite false 7207950508123036 (-55), [(mkCoord 0 6 1, S754_finite false 8646911284551352 (-53))])
  | None => False
  end.
Proof.
  split; [exact n300_made|]. split; [exact memory_case|]. split; [vm_compute; discriminate|]. split; [exact cpt_case|]. split; [exact n300_chip0|]. rewrite memory_chip. split; reflexivity.
Qed.

(** * C60: Overall averages and maxima summarise the timesteps of the result *)
(* Full statement: over the timesteps that were simulated, and the maxima of the links rather than of the averages. *)
Theorem C60_exact_partial : forall ord bord, bucket_order bord -> forall d cpt wl, proper wl -> proper_cpt cpt ->
  forall model stt id ds, runSinglePerfSim ratA ord bord d model cpt wl = Ok (Stats stt) -> has_stats d id -> stats_get ratA stt id = Some ds ->
  (forall fa ft l, In (fa, ft) (average_fields ratA) -> map ft (ds_ts ratA ds) = map (@Some Q) l -> l <> [] -> exists q, fa ds = Some q /\ (q == mean l)%Q) /\
  (forall fm ft l, In (fm, ft) (maximum_fields ratA) -> map ft (ds_ts ratA ds) = map (@Some Q) l -> exists q, fm ds = Some q /\ greatest (0%Q :: l) q) /\
  (0 < ds_golden ratA ds -> exists q, ds_err ratA ds = Some q /\ (q == 100 * inject_Z (ds_est ratA ds - ds_golden ratA ds) / inject_Z (ds_golden ratA ds))%Q).
Proof. exact run_means_exact. Qed.
Print Assumptions C60_exact_partial.
Theorem C60_float_partial : forall ord bord, bucket_order bord -> forall d cpt wl, proper wl -> proper_cpt cpt ->
  forall model stt id ds, runSinglePerfSim f32A ord bord d model cpt wl = Ok (Stats stt) -> has_stats d id -> stats_get f32A stt id = Some ds ->
  forall n, n = Z.of_nat (List.length (ds_ts f32A ds)) -> 0 < n <= 2 ^ 50 ->
  (forall fa ft, In (fa, ft) (average_fields f32A) -> Forall (fun t => number64 (ft t) /\ (SF2R radix2 (ft t) <= bpow radix2 900)%R) (ds_ts f32A ds) ->
    number64 (fa ds) /\ near (2 * n + 3) (fa ds) (rsum (map (fun t => SF2R radix2 (ft t)) (ds_ts f32A ds)) / IZR n)) /\
  (forall fm ft, In (fm, ft) (maximum_fields f32A) -> Forall (fun t => number64 (ft t)) (ds_ts f32A ds) ->
    (fm ds = S754_zero false \/ exists t, In t (ds_ts f32A ds) /\ fm ds = ft t) /\
    forall t, In t (ds_ts f32A ds) -> (SF2R radix2 (ft t) <= SF2R radix2 (fm ds))%R).
Proof. exact run_means_float. Qed.
Print Assumptions C60_float_partial.
(* three timesteps were simulated, the average is over four *)
Theorem C60_padded_refuted : exists wl stt ds q l, proper wl /\ runSinglePerfSim ratA same_links same_buckets wormhole_b0 "fast" 100 wl = Ok (Stats stt) /\ stats_get ratA stt MESH_DEVICE = Some ds /\
  intervals ds = [(0, 100); (100, 200); (200, 300); (0, 0)] /\ map (ts_avg_lu ratA) (firstn 3 (ds_ts ratA ds)) = map (@Some Q) l /\ ds_avg_lu ratA ds = Some q /\ (q == 1 # 30)%Q /\ (mean l == 2 # 45)%Q.
Proof. exact padded_mean. Qed.
Print Assumptions C60_padded_refuted.
(* a link had more than a hundred times the "maximum" demand *)
Theorem C60_peak_refuted : exists wl stt ds q p t, proper wl /\ runSinglePerfSim ratA same_links same_buckets wormhole_b0 "fast" 100 wl = Ok (Stats stt) /\ stats_get ratA stt MESH_DEVICE = Some ds /\
  ds_max_ld ratA ds = Some q /\ In t (ds_ts ratA ds) /\ ts_max_ld ratA t = Some p /\ (q * 100 < p)%Q.
Proof. exact missed_peak. Qed.
Print Assumptions C60_peak_refuted.
(* a chip without transfers *)
Theorem C60_idle_refuted : exists wl stt ds, proper wl /\ runSinglePerfSim f32A same_links same_buckets n300 "fast" 100 wl = Ok (Stats stt) /\ stats_get f32A stt 1 = Some ds /\
  ds_ts f32A ds = [] /\ ds_avg_lu f32A ds = S754_nan.
Proof. exact undefined_mean. Qed.
Print Assumptions C60_idle_refuted.
Example C60_example : proper (wl_share ratA) /\ proper_cpt 100 /\ has_stats wormhole_b0 MESH_DEVICE /\
  match sum_view (runSinglePerfSim ratA same_links same_buckets wormhole_b0 "fast" 100 (wl_share ratA)) MESH_DEVICE with
  | Some (_, (_, utils, _), (average, _), _) => utils = [Some (1 # 20); Some (1 # 18); Some (1 # 36); Some 0%Q] /\ average = Some (1 # 30)
  | None => False
  end.
Proof. split; [exact share_rat|]. split; [exact cpt_case|]. split; [exact (mesh_stats _)|]. rewrite share_exact. split; reflexivity. Qed.

(** * C69: Reports on a result *)
(* the function, for all counts that a double holds exactly *)
Theorem C69_impact : forall ds : dstats f32A, 0 <= ds_est f32A ds <= 2 ^ 53 -> 0 <= ds_congfree f32A ds <= 2 ^ 53 ->
  let e := ds_est f32A ds in let c := ds_congfree f32A ds in let x := getCongestionImpact f32A ds in
  (e = 0 \/ c = 0 -> x = S754_zero false) /\
  (e <> 0 -> c <> 0 -> approximates x (saving e c) /\ (SF2R radix2 x <= 100)%R /\ ((0 < SF2R radix2 x)%R <-> c < e) /\ (SF2R radix2 x = 0%R <-> c = e)).
Proof. exact impact_float. Qed.
Print Assumptions C69_impact.
(* no result ever reports an impact *)
Theorem C69_always_zero : forall ord bord, bucket_order bord -> forall d cfg wl, proper wl -> proper_cpt (cf_cpt cfg) ->
  forall stt id ds, runPerfEstimation f32A ord bord d cfg wl = Ok (Stats stt) -> has_stats d id -> stats_get f32A stt id = Some ds ->
  getCongestionImpact f32A ds = S754_zero false.
Proof. exact impact_zero. Qed.
Print Assumptions C69_always_zero.
(* more than 40 percent of the cycles are due to congestion *)
Theorem C69_impact_refuted : exists cfg wl stt ds stt0 ds0, cf_impact cfg = true /\ proper wl /\ proper_cpt (cf_cpt cfg) /\
  runPerfEstimation f32A same_links same_buckets wormhole_b0 cfg wl = Ok (Stats stt) /\ stats_get f32A stt 0 = Some ds /\
  runSinglePerfSim f32A same_links same_buckets wormhole_b0 "none" (cf_cpt cfg) wl = Ok (Stats stt0) /\ stats_get f32A stt0 0 = Some ds0 /\
  (40 < saving (ds_est f32A ds) (ds_est f32A ds0))%R /\ getCongestionImpact f32A ds = S754_zero false.
Proof. exact impact_hidden. Qed.
Print Assumptions C69_impact_refuted.
(* the mean over the Ethernet cores, for every order [l] in which the hash map gives them *)
Theorem C69_ethernet_mean : forall ord bord, bucket_order bord -> forall d, made d -> forall cpt wl, proper wl -> wl_next wl <= 2 ^ 32 -> proper_cpt cpt ->
  forall model stt id ds l n, runSinglePerfSim f32A ord bord d model cpt wl = Ok (Stats stt) -> has_stats d id -> stats_get f32A stt id = Some ds ->
  Permutation l (ds_eth f32A ds) -> n = Z.of_nat (List.length l) ->
  let x := getAggregateEthBwUtil f32A (reordered f32A ds l) in
  (l = [] -> x = S754_zero false) /\
  (l <> [] -> 0 < ds_golden f32A ds -> number64 x /\ near (2 * n + 3) x (rsum (map (fun e => SF2R radix2 (snd e)) (ds_eth f32A ds)) / IZR n)).
Proof. exact run_aggregate. Qed.
Print Assumptions C69_ethernet_mean.
(* the last bit depends on the order *)
Theorem C69_order_refuted : exists wl stt ds l, proper wl /\ wl_next wl <= 2 ^ 32 /\ runSinglePerfSim f32A same_links same_buckets wormhole_b0 "fast" 100 wl = Ok (Stats stt) /\ stats_get f32A stt 0 = Some ds /\
  0 < ds_golden f32A ds /\ Permutation l (ds_eth f32A ds) /\ getAggregateEthBwUtil f32A (reordered f32A ds l) <> getAggregateEthBwUtil f32A ds.
Proof. exact order_matters. Qed.
Print Assumptions C69_order_refuted.
(* in words: every core once, in the order of chip, row and column, whatever the order of the hash map *)
Theorem C69_words : forall ord bord, bucket_order bord -> forall d, made d -> forall cpt wl, proper wl -> wl_next wl <= 2 ^ 32 -> proper_cpt cpt ->
  forall model stt id ds one_digit, runSinglePerfSim f32A ord bord d model cpt wl = Ok (Stats stt) -> has_stats d id -> stats_get f32A stt id = Some ds ->
  exists l, Permutation l (ds_eth f32A ds) /\ StronglySorted core_before (map fst l) /\
    forall l', Permutation l' (ds_eth f32A ds) ->
      getEthBwUtilPerCoreStr f32A one_digit (reordered f32A ds l') = match l with [] => "-" | _ => String.concat " " (map (core_str f32A one_digit) l) end.
Proof. exact run_words. Qed.
Print Assumptions C69_words.
Theorem C69_core_words : forall (one_digit : D f32A -> string) e, core_words (fst e) (one_digit (snd e)) (core_str f32A one_digit e).
Proof. exact (core_text f32A). Qed.
Print Assumptions C69_core_words.
Example C69_example : proper (wl_cores f32A) /\ made wormhole_b0 /\ exists stt ds, runSinglePerfSim f32A same_links same_buckets wormhole_b0 "fast" 100 (wl_cores f32A) = Ok (Stats stt) /\ stats_get f32A stt 0 = Some ds /\
  getEthBwUtilPerCoreStr f32A three_digits ds = "(0,6,1):235% (0,6,2):235% (0,6,3):794%".
Proof. split; [exact cores_case|]. split; [exact wormhole_made|exact cores_words]. Qed.
