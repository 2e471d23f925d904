(* C41-C43: the statistics of the timesteps. *)
From Coq Require Import ZArith QArith String List Bool Floats.SpecFloat.
From Verif Require Import Base Arith Util Device Workload SpecWorkload Rates Stats Engine SpecEngine SpecRates SpecStats StatsFacts StatsAvg StatsRat StatsFloat StatsRun Cases EngineWitness RatesWitness StatsWitness.
Import ListNotations.
Local Open Scope list_scope.
Open Scope Z_scope.

(** * C41: Timestep statistics tile the measured interval *)
(* while the simulation runs: nothing before the golden start, then consecutive simulated timesteps up to the current cycle *)
Theorem C41_recorded : forall A ord bord, bucket_order bord -> forall d congestion cpt wl, proper wl -> proper_cpt cpt ->
  forall s id ds g, step_end A ord bord d congestion cpt wl s -> has_stats d id -> stats_get A (sm_stats A s) id = Some ds -> getGoldenResultCycles wl id = Ok g ->
  (sm_curr A s < fst g /\ intervals ds = []) \/
  exists c n, first_from cpt (fst g) c /\ intervals ds = tiles cpt c n /\ c + Z.of_nat n * cpt = sm_curr A s /\
    Forall (simulated A ord bord d congestion cpt wl) (intervals ds).
Proof. exact timesteps_recorded. Qed.
Print Assumptions C41_recorded.
(* in the result: a prefix of them, then timesteps that were not simulated; full statement: dummies = 0 *)
Theorem C41_final_partial : forall A ord bord, bucket_order bord -> forall d cpt wl, proper wl -> proper_cpt cpt ->
  forall model stt, runSinglePerfSim A ord bord d model cpt wl = Ok (Stats stt) ->
  exists s, succeeds A ord bord d (negb (String.eqb model "none")) cpt wl s /\
    forall id ds g, has_stats d id -> stats_get A stt id = Some ds -> getGoldenResultCycles wl id = Ok g -> 0 <= fst g ->
      (ds_est A ds = 0 /\ intervals ds = []) \/
      exists c kept dummies, intervals ds = tiles cpt c kept ++ repeat (0, 0) dummies /\
        Forall (simulated A ord bord d (negb (String.eqb model "none")) cpt wl) (tiles cpt c kept) /\
        ((0 < kept)%nat -> first_from cpt (fst g) c) /\
        Z.of_nat (kept + dummies) = (fst g + ds_est A ds + cpt - 1) / cpt - fst g / cpt + 1 /\
        ((0 < dummies)%nat -> sm_curr A s < fst g \/ c + Z.of_nat kept * cpt = sm_curr A s).
Proof. exact timesteps_final. Qed.
Print Assumptions C41_final_partial.
(* the fourth timestep was not simulated: the simulation ends in the third *)
Theorem C41_final_refuted : exists wl stt ds, proper wl /\ runSinglePerfSim f32A same_links same_buckets wormhole_b0 "fast" 100 wl = Ok (Stats stt) /\
  stats_get f32A stt MESH_DEVICE = Some ds /\ ds_est f32A ds = 206 /\ intervals ds = [(0, 100); (100, 200); (200, 300); (0, 0)].
Proof. exact dummy_timestep. Qed.
Print Assumptions C41_final_refuted.
Example C41_example : proper (wl_share f32A) /\ proper_cpt 100 /\ has_stats wormhole_b0 MESH_DEVICE /\
  ts_view (runSinglePerfSim f32A same_links same_buckets wormhole_b0 "fast" 100 (wl_share f32A)) MESH_DEVICE =
  Some (206, [(0, 100); (100, 200); (200, 300); (0, 0)],
        [S754_finite false 7205759212905358 (-57); S754_finite false 8006399337547548 (-57); S754_finite false 8006399337547548 (-58); S754_zero false], 4).
Proof. exact (conj share_case (conj cpt_case (conj (mesh_stats _) share_view))). Qed.

(** * C42: Average link utilisation never exceeds 100 percent *)
(* whatever the demand on the links, if it is not negative; an infinite or undefined one included *)
Theorem C42_utilisation : forall d, made d -> forall g,
  List.length (g_link g) = List.length (link_table d) -> List.length (g_mc g) = List.length (link_table d) ->
  Forall not_negative (g_link g) -> Forall not_negative (g_mc g) ->
  forall id live s e, has_stats d id -> percentages (device_timestep f32A d g live id (fresh_ts f32A s e)).
Proof. exact utilisation. Qed.
Print Assumptions C42_utilisation.
(* in every run, and for the averages over the timesteps of a run *)
Theorem C42_runs : forall ord bord, bucket_order bord -> forall d, made d -> forall cpt wl, proper wl -> proper_cpt cpt -> Forall sound_transfer (all_transfers wl) ->
  forall model stt id ds, runSinglePerfSim f32A ord bord d model cpt wl = Ok (Stats stt) -> has_stats d id -> stats_get f32A stt id = Some ds ->
  Forall percentages (ds_ts f32A ds) /\
  (0 < Z.of_nat (List.length (ds_ts f32A ds)) < 2 ^ 46 ->
   percentage (ds_avg_lu f32A ds) /\ percentage (ds_avg_lu0 f32A ds) /\ percentage (ds_avg_lu1 f32A ds) /\ percentage (ds_avg_mc f32A ds)).
Proof. exact run_utilisation. Qed.
Print Assumptions C42_runs.
(* negative injection rates pass validation; the first timestep has a utilisation below 0 *)
Theorem C42_negative_refuted : exists wl stt ds, proper wl /\ validate wormhole_b0 wl = Ok true /\
  runSinglePerfSim f32A same_links same_buckets wormhole_b0 "fast" 100 wl = Ok (Stats stt) /\
  stats_get f32A stt MESH_DEVICE = Some ds /\ map (ts_avg_lu f32A) (ds_ts f32A ds) = [S754_finite true 8006399337547548 (-58); S754_zero false].
Proof. exact negative_utilisation. Qed.
Print Assumptions C42_negative_refuted.
(* all demands infinite *)
Example C42_example : made wormhole_b0 /\ has_stats wormhole_b0 MESH_DEVICE /\
  exists g, List.length (g_link g) = List.length (link_table wormhole_b0) /\ List.length (g_mc g) = List.length (link_table wormhole_b0) /\
    Forall not_negative (g_link g) /\ Forall not_negative (g_mc g).
Proof. exact (conj wormhole_made (conj (mesh_stats _) infinite_demands)). Qed.
Example C42_runs_example : Forall sound_transfer (all_transfers (wl_share f32A)) /\
  ts_view (runSinglePerfSim f32A same_links same_buckets wormhole_b0 "fast" 100 (wl_share f32A)) MESH_DEVICE =
  Some (206, [(0, 100); (100, 200); (200, 300); (0, 0)],
        [S754_finite false 7205759212905358 (-57); S754_finite false 8006399337547548 (-57); S754_finite false 8006399337547548 (-58); S754_zero false], 4).
Proof. exact (conj share_sound share_view). Qed.

(** * C43: Per-device averages are over that device *)
(* exact arithmetic; [select (link_on id)] are the links of chip [id], or all links for the whole mesh *)
Theorem C43_links : forall d, SpecDevice.wf_device d -> forall g link mc niu, exact_grids d g link mc niu -> forall live id, has_stats d id -> forall s e,
  let t := device_timestep ratA d g live id (fresh_ts ratA s e) in
  let bw := qval (link_bandwidth ratA d) in
  (qval (ts_avg_ld ratA t) == percent bw (select (link_on id) (link_table d) link))%Q /\
  (qval (ts_avg_lu ratA t) == percent bw (map (fun x => qmin x bw) (select (link_on id) (link_table d) link)))%Q /\
  (qval (ts_avg_mc ratA t) == percent bw (map (fun x => qmin x bw) (select (link_on id) (link_table d) mc)))%Q /\
  (qval (ts_avg_ld0 ratA t) == percent bw (select (fun a => link_on id a && on_noc0 a) (link_table d) link))%Q /\
  (qval (ts_avg_lu0 ratA t) == percent bw (map (fun x => qmin x bw) (select (fun a => link_on id a && on_noc0 a) (link_table d) link)))%Q /\
  (qval (ts_avg_ld1 ratA t) == percent bw (select (fun a => link_on id a && negb (on_noc0 a)) (link_table d) link))%Q /\
  (qval (ts_avg_lu1 ratA t) == percent bw (map (fun x => qmin x bw) (select (fun a => link_on id a && negb (on_noc0 a)) (link_table d) link)))%Q.
Proof. exact link_averages. Qed.
Print Assumptions C43_links.
(* full statement: without the division by the number of chips *)
Theorem C43_nius_partial : forall d, SpecDevice.wf_device d -> forall g link mc niu, exact_grids d g link mc niu -> forall live id, has_stats d id -> forall s e,
  (qval (ts_avg_nd ratA (device_timestep ratA d g live id (fresh_ts ratA s e))) ==
   percent (qval (link_bandwidth ratA d)) (select (niu_on id) (niu_table d) niu) / inject_Z (if id =? MESH_DEVICE then 1 else Z.of_nat (dv_chips d)))%Q.
Proof. exact niu_average. Qed.
Print Assumptions C43_nius_partial.
(* two chips with the same demand at all NIUs: chip 1 is reported with half of it *)
Theorem C43_nius_refuted : exists g link mc niu, exact_grids n300 g link mc niu /\ has_stats n300 1 /\
  (percent (qval (link_bandwidth ratA n300)) (select (niu_on 1) (niu_table n300) niu) == 10 # 3)%Q /\
  forall live s e, (qval (ts_avg_nd ratA (device_timestep ratA n300 g live 1 (fresh_ts ratA s e))) == 5 # 3)%Q.
Proof. exact niu_halved. Qed.
Print Assumptions C43_nius_refuted.
Example C43_example : made n300 /\ SpecDevice.wf_device n300 /\ has_stats n300 1 /\
  exact_grids n300 (one_grids n300) (ones (link_table n300)) (ones (link_table n300)) (ones (niu_table n300)) /\
  (percent (qval (link_bandwidth ratA n300)) (select (link_on 1) (link_table n300) (ones (link_table n300))) == 10 # 3)%Q.
Proof. exact (conj n300_made (conj (made_wf _ n300_made) (conj n300_chip (conj (one_exact _) chip_averages)))). Qed.
