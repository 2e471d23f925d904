(* C82: the numbers of the statistics are finite; C43 in floats. *)
From Coq Require Import ZArith Reals String List Bool.
From Verif Require Import Base Arith Util SpecUtil Device SpecDevice Workload SpecWorkload Rates Stats Engine SpecEngine SpecRates SpecStats SpecSummary SpecFinite Cases EngineWitness RatesWitness StatsWitness SummaryWitness
  Timeline SpecTimeline TimelineWitness SpecZones SpecGroups GroupWitness Layout SpecLayout FiniteProofs FiniteStep FiniteRun FiniteFile FiniteWitness.
Import ListNotations.
Local Open Scope string_scope.
Local Open Scope list_scope.
Open Scope Z_scope.

(** * C43 in floats: the averages and maxima of a timestep *)
(* up to 2^-22 they are those of the exact demands; the NIU demand of a chip is divided by the number of chips, see C43_nius_refuted *)
Theorem C43_float : forall d, made d -> forall g, limited_grids d g -> forall live id, has_stats d id -> forall s e,
  let t := device_timestep f32A d g live id (fresh_ts f32A s e) in
  let bw := real (link_bandwidth f32A d) in
  let links p := map real (select p (link_table d) (g_link g)) in
  let noc0 a := link_on id a && on_noc0 a in
  let noc1 a := link_on id a && negb (on_noc0 a) in
  about (ts_avg_ld f32A t) (rpercent bw (links (link_on id))) /\
  about (ts_avg_lu f32A t) (rpercent bw (map (Rmin bw) (links (link_on id)))) /\
  about (ts_avg_mc f32A t) (rpercent bw (map (Rmin bw) (map real (select (link_on id) (link_table d) (g_mc g))))) /\
  about (ts_avg_ld0 f32A t) (rpercent bw (links noc0)) /\
  about (ts_avg_lu0 f32A t) (rpercent bw (map (Rmin bw) (links noc0))) /\
  about (ts_avg_ld1 f32A t) (rpercent bw (links noc1)) /\
  about (ts_avg_lu1 f32A t) (rpercent bw (map (Rmin bw) (links noc1))) /\
  about (ts_avg_nd f32A t) (rpercent bw (map real (select (niu_on id) (niu_table d) (g_niu g))) / (if id =? MESH_DEVICE then 1 else IZR (Z.of_nat (dv_chips d)))) /\
  (exists y, rgreatest (links (link_on id)) y /\ about (ts_max_ld f32A t) (100 * y / bw)) /\
  (exists y, rgreatest (links noc0) y /\ about (ts_max_ld0 f32A t) (100 * y / bw)) /\
  (exists y, rgreatest (links noc1) y /\ about (ts_max_ld1 f32A t) (100 * y / bw)) /\
  (exists y, rgreatest (map real (select (niu_on id) (niu_table d) (g_niu g))) y /\ about (ts_max_nd f32A t) (100 * y / bw)).
Proof. exact float_averages. Qed.
Print Assumptions C43_float.
(* one byte per cycle at every link and NIU of both chips *)
Example C43_float_example : made n300 /\ limited_grids n300 (unit_grids n300) /\ has_stats n300 1.
Proof. exact (conj n300_made (conj (unit_case n300) n300_chip)). Qed.

(** * C82: The numbers of a result are finite *)
(* the demands of every link and NIU, at every point of every run *)
Theorem C82_demands : forall ord bord, bucket_order bord -> forall d congestion cpt wl, proper wl -> proper_cpt cpt -> Forall sound_transfer (all_transfers wl) ->
  forall s, reach f32A ord bord d congestion cpt wl s -> limited_grids d (sm_grids f32A s).
Proof. exact reach_limited. Qed.
Print Assumptions C82_demands.
(* the timesteps of the chips and of the mesh *)
Theorem C82_timesteps : forall ord bord, bucket_order bord -> forall d, made d -> forall cpt wl, proper wl -> proper_cpt cpt -> Forall sound_transfer (all_transfers wl) ->
  forall model id, has_stats d id -> forall stt ds, runSinglePerfSim f32A ord bord d model cpt wl = Ok (Stats stt) -> stats_get f32A stt id = Some ds ->
  Forall (fun t => Forall number64 (timestep_numbers t) /\ Forall limited (ts_link f32A t) /\ Forall limited (ts_niu f32A t)) (ds_ts f32A ds).
Proof. exact run_timesteps. Qed.
Print Assumptions C82_timesteps.
(* the summaries of a chip, or of the mesh, that was in use, with a golden window *)
(* full statement: for every chip. It is false, see C82_idle_refuted and C82_window_refuted *)
Theorem C82_result_partial : forall ord bord, bucket_order bord -> forall d, made d -> forall cpt wl, proper wl -> wl_next wl <= 2 ^ 32 -> proper_cpt cpt -> Forall sound_transfer (all_transfers wl) ->
  forall model stt id ds, runSinglePerfSim f32A ord bord d model cpt wl = Ok (Stats stt) -> has_stats d id -> stats_get f32A stt id = Some ds ->
  (forall g, getGoldenResultCycles wl id = Ok g -> 0 <= fst g) -> 0 < ds_est f32A ds -> 0 < ds_golden f32A ds ->
  Forall number64 (result_numbers ds) /\ finite64 (ds_err f32A ds).
Proof. exact run_result_numbers. Qed.
Print Assumptions C82_result_partial.
(* the timeline files: no number of theirs is null *)
Theorem C82_files_partial : forall ord bord, link_order ord -> bucket_order bord -> forall gord zord, map_order gord -> forall topo d, made d -> forall cpt wl, proper wl -> wl_next wl <= 2 ^ 32 -> proper_cpt cpt ->
  Forall sound_transfer (all_transfers wl) -> Forall (on_grid d) (all_transfers wl) -> forall model name thr stt files ds r tl,
  runWithTimeline f32A ord bord gord zord topo false thr d model cpt wl = Ok (Stats stt, files) -> stats_get f32A stt MESH_DEVICE = Some ds ->
  (In (FullV1 f32A (Some tl)) files /\ r = None) \/ (exists k rg, In (Split f32A k rg (Some tl)) files /\ r = Some (k, rg)) ->
  (forall g, getGoldenResultCycles wl MESH_DEVICE = Ok g -> 0 <= fst g) -> 0 < ds_est f32A ds -> 0 < ds_golden f32A ds ->
  fits (emitted_schema SNum) (file_json name model cpt d wl ds thr (match r with None => FullV1 f32A (Some tl) | Some (k, rg) => Split f32A k rg (Some tl) end)).
Proof. exact finite_layout. Qed.
Print Assumptions C82_files_partial.
Theorem C82_legacy_partial : forall ord bord, link_order ord -> bucket_order bord -> forall gord zord topo d, made d -> forall cpt wl, proper wl -> wl_next wl <= 2 ^ 32 -> proper_cpt cpt ->
  Forall sound_transfer (all_transfers wl) -> Forall (on_grid d) (all_transfers wl) -> forall model name thr stt ds files,
  runWithTimeline f32A ord bord gord zord topo true thr d model cpt wl = Ok (Stats stt, files) -> stats_get f32A stt MESH_DEVICE = Some ds ->
  (forall g, getGoldenResultCycles wl MESH_DEVICE = Ok g -> 0 <= fst g) -> 0 < ds_est f32A ds -> 0 < ds_golden f32A ds ->
  exists doc, files = [FullV0 f32A doc] /\ fits (emitted_legacy SNum) (file_json name model cpt d wl ds thr (FullV0 f32A doc)).
Proof. exact finite_legacy. Qed.
Print Assumptions C82_legacy_partial.
(* the second chip of an N300 has no transfers: its averages are NaN *)
Theorem C82_idle_refuted : exists wl stt ds, proper wl /\ proper_cpt 100 /\ Forall sound_transfer (all_transfers wl) /\ runSinglePerfSim f32A same_links same_buckets n300 "fast" 100 wl = Ok (Stats stt) /\
  stats_get f32A stt 1 = Some ds /\ 0 < ds_golden f32A ds /\ ~ Forall number64 (result_numbers ds).
Proof. exact idle_numbers. Qed.
Print Assumptions C82_idle_refuted.
(* golden cycles 0 to 0: the utilisation of the DRAM is infinite *)
Theorem C82_window_refuted : exists wl stt ds, proper wl /\ proper_cpt 100 /\ Forall sound_transfer (all_transfers wl) /\ runSinglePerfSim f32A same_links same_buckets wormhole_b0 "fast" 100 wl = Ok (Stats stt) /\
  stats_get f32A stt 0 = Some ds /\ 0 < ds_est f32A ds /\ ~ Forall number64 (result_numbers ds).
Proof. exact window_numbers. Qed.
Print Assumptions C82_window_refuted.
(* the chip in use of the same run; a run with one timeline file *)
Example C82_example : made n300 /\ proper (wl_share f32A) /\ wl_next (wl_share f32A) <= 2 ^ 32 /\ proper_cpt 100 /\ Forall sound_transfer (all_transfers (wl_share f32A)) /\ has_stats n300 0 /\
  exists stt ds, runSinglePerfSim f32A same_links same_buckets n300 "fast" 100 (wl_share f32A) = Ok (Stats stt) /\ stats_get f32A stt 0 = Some ds /\
  (forall g, getGoldenResultCycles (wl_share f32A) 0 = Ok g -> 0 <= fst g) /\ 0 < ds_est f32A ds /\ 0 < ds_golden f32A ds.
Proof. split; [exact n300_made|]. split; [exact share_case|]. split; [vm_compute; discriminate|]. split; [exact cpt_case|]. split; [exact share_sound|]. split; [exact n300_chip0|]. exact chip_numbers. Qed.
Example C82_files_example : Forall (on_grid wormhole_b0) (all_transfers wl_group) /\ Forall sound_transfer (all_transfers wl_group) /\ wl_next wl_group <= 2 ^ 32 /\ getGoldenResultCycles wl_group MESH_DEVICE = Ok (0, 1000) /\
  mesh_view (tl_run 10 100 wl_group) = Some (320, 1000, 1%nat).
Proof. exact file_case. Qed.
