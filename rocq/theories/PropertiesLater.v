(* C87: a workload whose transfers and golden windows all start a whole number of timesteps later. *)
From Coq Require Import ZArith String List Bool Lia Floats.SpecFloat.
From Verif Require Import Base Arith Util Device SpecDevice Workload SpecWorkload DepTracker Rates Stats Engine SpecEngine SpecRates Cases EngineWitness SpecLater LaterRun LaterWitness.
Import ListNotations.
Local Open Scope string_scope.
Local Open Scope list_scope.
Open Scope Z_scope.

(* FULL STATEMENT: if a run succeeds and k is a multiple of the timestep, the run of the workload delayed by k cycles succeeds, every transfer starts and ends exactly k cycles
   later, and every statistic is the same.
   MISSING: transfers or windows that start at cycle 0, runs that end after cycle 8,000,000 (both fail in general, see the refuted statements), transfers of no bytes. *)
Theorem C87_run_partial : forall (k : Z) ord bord d congestion cpt (wl : workload (F f32A)) s,
  0 <= k -> (cpt | k) -> bucket_order bord -> wf_device d -> proper_cpt cpt ->
  proper wl -> Forall sound_transfer (all_transfers wl) -> Forall (fun t => 0 < t_bytes t) (all_transfers wl) -> all_transfers wl <> [] -> starts_after_zero wl ->
  succeeds f32A ord bord d congestion cpt wl s -> sm_curr f32A s + k <= 8000000 ->
  exists s', succeeds f32A ord bord d congestion cpt (later_workload k wl) s' /\ later_run f32A k s s'.
Proof. exact (fun k ord bord d c cpt wl s HK HD HB WF HC HW HF HP HN HZ => run_later k HK ord bord HB d cpt wl HW HC HF WF HP HZ HD HN c s). Qed.
Print Assumptions C87_run_partial.
Example C87_run_case : exists s s', succeeds f32A same_links same_buckets wormhole_b0 true 100 wl_queue s /\
  succeeds f32A same_links same_buckets wormhole_b0 true 100 (later_workload 700000 wl_queue) s' /\ later_run f32A 700000 s s' /\ sm_curr f32A s' = 700800.
Proof.
  destruct queue_run as (s & HS & HC). destruct queue_sound as (P1 & P2 & P3 & P4 & P5).
  destruct (C87_run_partial 700000 same_links same_buckets wormhole_b0 true 100 wl_queue s) as (s' & H1 & H2); try assumption; [lia|exists 7000; reflexivity|intros bs; apply Permutation.Permutation_refl|exact wormhole_wf|unfold proper_cpt; lia|lia|].
  exists s, s'. split; [exact HS|]. split; [exact H1|]. split; [exact H2|]. destruct H2 as [-> _]. lia.
Qed.

(* the statistics of one simulation *)
Theorem C87_results_partial : forall (k : Z) ord bord d model cpt (wl : workload (F f32A)) s stt,
  0 <= k -> (cpt | k) -> bucket_order bord -> wf_device d -> proper_cpt cpt ->
  proper wl -> Forall sound_transfer (all_transfers wl) -> Forall (fun t => 0 < t_bytes t) (all_transfers wl) -> all_transfers wl <> [] -> starts_after_zero wl ->
  succeeds f32A ord bord d (negb (String.eqb model "none")) cpt wl s -> sm_curr f32A s + k <= 8000000 ->
  runSinglePerfSim f32A ord bord d model cpt wl = Ok (Stats stt) ->
  exists stt', runSinglePerfSim f32A ord bord d model cpt (later_workload k wl) = Ok (Stats stt') /\ later_stats f32A k stt stt'.
Proof. exact (fun k ord bord d m cpt wl s stt HK HD HB WF HC HW HF HP HN HZ => single_later k HK ord bord HB d cpt wl HW HC HF WF HP HZ HD HN m s stt). Qed.
Print Assumptions C87_results_partial.
Example C87_results_case : exists stt stt', runSinglePerfSim f32A same_links same_buckets wormhole_b0 "fast" 100 wl_queue = Ok (Stats stt) /\
  runSinglePerfSim f32A same_links same_buckets wormhole_b0 "fast" 100 (later_workload 700000 wl_queue) = Ok (Stats stt') /\ later_stats f32A 700000 stt stt' /\
  (exists ds, stats_get f32A stt 0 = Some ds /\ ds_est f32A ds = 732 /\ List.length (ds_ts f32A ds) = 9%nat).
Proof.
  destruct queue_run as (s & HS & HC). destruct queue_sound as (P1 & P2 & P3 & P4 & P5). destruct queue_result as (stt & ds & HR & HD).
  destruct (C87_results_partial 700000 same_links same_buckets wormhole_b0 "fast" 100 wl_queue s stt) as (stt' & H1 & H2); try assumption; [lia|exists 7000; reflexivity|intros bs; apply Permutation.Permutation_refl|exact wormhole_wf|unfold proper_cpt; lia|lia|].
  exists stt, stt'. split; [exact HR|]. split; [exact H1|]. split; [exact H2|]. exists ds. exact HD.
Qed.

(* the whole estimation, with or without the simulation that ignores congestion *)
Theorem C87_estimation_partial : forall (k : Z) ord bord d (cfg : config (F f32A)) (wl : workload (F f32A)) s stt,
  0 <= k -> (cf_cpt cfg | k) -> bucket_order bord -> wf_device d -> proper_cpt (cf_cpt cfg) ->
  proper wl -> Forall sound_transfer (all_transfers wl) -> Forall (fun t => 0 < t_bytes t) (all_transfers wl) -> all_transfers wl <> [] -> starts_after_zero wl ->
  succeeds f32A ord bord d (negb (String.eqb (cf_model cfg) "none")) (cf_cpt cfg) wl s -> sm_curr f32A s + k <= 8000000 ->
  (cf_impact cfg = true -> exists s0, succeeds f32A ord bord d false (cf_cpt cfg) wl s0 /\ sm_curr f32A s0 + k <= 8000000) ->
  runPerfEstimation f32A ord bord d cfg wl = Ok (Stats stt) ->
  exists stt', runPerfEstimation f32A ord bord d cfg (later_workload k wl) = Ok (Stats stt') /\ later_stats f32A k stt stt'.
Proof. exact (fun k ord bord d cfg wl s stt HK HD HB WF HC HW HF HP HN HZ => estimation_later k HK ord bord HB d cfg wl HW HC HF WF HP HZ HD HN s stt). Qed.
Print Assumptions C87_estimation_partial.
Example C87_estimation_case : exists stt stt', let cfg := mkCfg "wormhole_b0" "fast" 100 false true false (f_lit f32A 0 1) in
  runPerfEstimation f32A same_links same_buckets wormhole_b0 cfg wl_queue = Ok (Stats stt) /\
  runPerfEstimation f32A same_links same_buckets wormhole_b0 cfg (later_workload 700000 wl_queue) = Ok (Stats stt') /\ later_stats f32A 700000 stt stt'.
Proof.
  destruct queue_run as (s & HS & HC). destruct queue_free as (s0 & HS0 & HC0). destruct queue_sound as (P1 & P2 & P3 & P4 & P5). destruct queue_estimation as (stt & HR). exists stt.
  destruct (C87_estimation_partial 700000 same_links same_buckets wormhole_b0 (mkCfg "wormhole_b0" "fast" 100 false true false (f_lit f32A 0 1)) wl_queue s stt) as (stt' & H1 & H2); try assumption;
    [lia|exists 7000; reflexivity|intros bs; apply Permutation.Permutation_refl|exact wormhole_wf|cbn; unfold proper_cpt; lia|lia|intros _; exists s0; split; [exact HS0|lia]|].
  exists stt'. split; [exact HR|]. split; [exact H1|exact H2].
Qed.

(* a golden window that opens at cycle 0: the statistics of the delayed run begin one timestep early and their averages differ *)
Theorem C87_window_refuted : exists wl stt stt' ds ds', proper wl /\ Forall sound_transfer (all_transfers wl) /\ Forall (fun t => 0 < t_bytes t /\ 0 < t_off t) (all_transfers wl) /\
  runSinglePerfSim f32A same_links same_buckets wormhole_b0 "fast" 100 wl = Ok (Stats stt) /\
  runSinglePerfSim f32A same_links same_buckets wormhole_b0 "fast" 100 (later_workload 100 wl) = Ok (Stats stt') /\
  stats_get f32A stt 0 = Some ds /\ stats_get f32A stt' 0 = Some ds' /\ ds_est f32A ds' = ds_est f32A ds /\ ds_avg_lu f32A ds' <> ds_avg_lu f32A ds.
Proof. exact window_witness. Qed.
Print Assumptions C87_window_refuted.

(* cycles above 2^24: the end of the delayed transfer is rounded to another cycle *)
Theorem C87_cycles_refuted : exists wl s s' x x', proper wl /\ Forall sound_transfer (all_transfers wl) /\ Forall (fun t => 0 < t_bytes t) (all_transfers wl) /\ starts_after_zero wl /\
  succeeds f32A same_links same_buckets wormhole_b0 true 1000000 wl s /\ succeeds f32A same_links same_buckets wormhole_b0 true 1000000 (later_workload 20000000 wl) s' /\
  nth_error (sm_sts f32A s) 0 = Some x /\ nth_error (sm_sts f32A s') 0 = Some x' /\ s_start x' = s_start x + 20000000 /\ s_end x = 95 /\ s_end x' = 20000094.
Proof. exact cycles_witness. Qed.
Print Assumptions C87_cycles_refuted.
