(* C37 (workloads that keep moving complete) and C55 (which result runNPE returns). *)
From Coq Require Import ZArith String List Bool Floats.SpecFloat.
From Verif Require Import Base Arith Util Device SpecDevice Workload SpecWorkload DepTracker Rates Stats Engine Api SpecEngine SpecRates SpecApi SpecProgress SpecResult
  ProgressProofs ResultProofs ProgressRun Cases EngineWitness ApiWitness OrderWitness ResultWitness.
Import ListNotations.
Open Scope Z_scope.

(** ** C37 Live transfers make progress *)
(* A simulation whose live transfers all move at least m bytes in every timestep, whose group parents come first, and for which the
   cycle limit covers all transfers one after the other, does not run into the limit. (Not every simulation is of this kind:
   C37_no_progress_refuted.) *)
Theorem C37_completes_partial : forall ord bord, bucket_order bord -> forall d congestion cpt (wl : workload (F f32A)), proper wl -> proper_cpt cpt ->
  Forall sound_transfer (all_transfers wl) -> forall m, 1 <= m -> forall wait, moves_on f32A ord bord d congestion cpt wl m ->
  waits_at_most f32A d (all_transfers wl) wait -> parents_first f32A (all_transfers wl) -> cycles_for_all cpt m wait (all_transfers wl) <= MAX_CYCLE_LIMIT ->
  forall e, simulate f32A ord bord d congestion cpt wl <> Ok (inr e).
Proof. exact completes. Qed.
Print Assumptions C37_completes_partial.
(* The same from the workload alone: rates, bandwidths and the length of a timestep decide whether the transfers keep moving. *)
Theorem C37_succeeds_partial : forall ord bord (cfg : config (F f32A)) d (wl wl' : workload (F f32A)) m wait, link_order ord -> bucket_order bord -> u32_config cfg ->
  npeAPI_make f32A cfg = Ok d -> usable_workload d cfg wl -> preprocessWorkload f32A d cfg wl = Ok wl' -> plain d wl' -> parents_first f32A (all_transfers wl') ->
  keeps_moving d (cf_model cfg) (cf_cpt cfg) m (all_transfers wl') -> waits_at_most f32A d (all_transfers wl') wait ->
  cycles_for_all (cf_cpt cfg) m wait (all_transfers wl') <= MAX_CYCLE_LIMIT -> exists stt, runNPE f32A ord bord d cfg wl = Ok (Stats stt).
Proof. exact run_static. Qed.
Print Assumptions C37_succeeds_partial.
(* two transfers on one lane, with and without congestion *)
Example C37_succeeds_example : let wl := build f32A shared in
  usable_workload wormhole_b0 (config_of "wormhole_b0" "fast" 1024) wl /\ preprocessWorkload f32A wormhole_b0 (config_of "wormhole_b0" "fast" 1024) wl = Ok wl /\
  plain wormhole_b0 wl /\ parents_first f32A (all_transfers wl) /\ waits_at_most f32A wormhole_b0 (all_transfers wl) (fun _ => 0) /\
  keeps_moving wormhole_b0 "fast" 1024 2 (all_transfers wl) /\ cycles_for_all 1024 2 (fun _ => 0) (all_transfers wl) <= MAX_CYCLE_LIMIT /\
  keeps_moving wormhole_b0 "none" 1024 1024 (all_transfers wl) /\ cycles_for_all 1024 1024 (fun _ => 0) (all_transfers wl) <= MAX_CYCLE_LIMIT.
Proof.
  exact (conj (shared_usable "fast" 1024) (conj (shared_prep "fast" 1024) (conj shared_plain (conj (proj1 shared_alone) (conj (proj2 shared_alone)
    (conj shared_steady (conj (proj1 shared_cycles) (conj shared_brisk (proj2 shared_cycles))))))))).
Qed.

(** ** C55 Failures carry the code of their cause *)
(* What runNPE returns is decided by the preprocessed workload, except that a plain workload may also exceed the cycle limit, and
   then its simulation does. *)
Theorem C55_cases : forall ord bord (cfg : config (F f32A)) d (wl : workload (F f32A)), link_order ord -> bucket_order bord -> u32_config cfg -> npeAPI_make f32A cfg = Ok d ->
  usable_workload d cfg wl -> exists wl', preprocessWorkload f32A d cfg wl = Ok wl' /\
    let r := runNPE f32A ord bord d cfg wl in
    (rejected d wl' /\ r = Ok (Failure WORKLOAD_VALIDATION_FAILED) \/
     split_multicast d wl' /\ r = Ok (Failure UNDEF_ERR) \/
     blackhole_groups d wl' /\ r = Ok (Failure DEPENDENCY_GEN_FAILED) \/
     plain d wl' /\ ((exists stt, r = Ok (Stats stt)) \/
       r = Ok (Failure EXCEEDED_SIM_CYCLE_LIMIT) /\ runs_too_long f32A ord bord d (negb (String.eqb (cf_model cfg) "none")) (cf_cpt cfg) wl')).
Proof. exact run_cases. Qed.
Print Assumptions C55_cases.
Theorem C55_distinct : forall d (wl : workload spec_float),
  ~ (rejected d wl /\ (split_multicast d wl \/ blackhole_groups d wl \/ plain d wl)) /\
  ~ (split_multicast d wl /\ (blackhole_groups d wl \/ plain d wl)) /\ ~ (blackhole_groups d wl /\ plain d wl).
Proof. exact kinds_distinct. Qed.
Print Assumptions C55_distinct.
(* each of the five results occurs *)
Example C55_rejected : npeAPI_make f32A (config_of "wormhole_b0" "fast" 1024) = Ok wormhole_b0 /\ usable_workload wormhole_b0 (config_of "wormhole_b0" "fast" 1024) (build f32A off_grid) /\
  verdict (runNPE f32A same_links same_buckets wormhole_b0 (config_of "wormhole_b0" "fast" 1024) (build f32A off_grid)) = Some (Some WORKLOAD_VALIDATION_FAILED).
Proof. exact (conj (proj1 off_grid_run) (conj off_grid_usable (proj2 off_grid_run))). Qed.
Example C55_split : usable_workload wormhole_b0 (config_of "wormhole_b0" "fast" 1024) (build f32A two_rectangles) /\
  verdict (runNPE f32A same_links same_buckets wormhole_b0 (config_of "wormhole_b0" "fast" 1024) (build f32A two_rectangles)) = Some (Some UNDEF_ERR).
Proof. exact (conj two_rectangles_usable two_rectangles_run). Qed.
Example C55_groups : npeAPI_make f32A (config_of "P100" "fast" 1024) = Ok blackhole_p100 /\ usable_workload blackhole_p100 (config_of "P100" "fast" 1024) (build f32A grouped) /\
  verdict (runNPE f32A same_links same_buckets blackhole_p100 (config_of "P100" "fast" 1024) (build f32A grouped)) = Some (Some DEPENDENCY_GEN_FAILED).
Proof. exact (conj (proj1 grouped_run2) (conj grouped_usable (proj2 grouped_run2))). Qed.
Example C55_limit : npeAPI_make f32A (config_of "wormhole_b0" "fast" 60000000) = Ok wormhole_b0 /\ usable_workload wormhole_b0 (config_of "wormhole_b0" "fast" 60000000) (build f32A circular) /\
  verdict (runNPE f32A same_links same_buckets wormhole_b0 (config_of "wormhole_b0" "fast" 60000000) (build f32A circular)) = Some (Some EXCEEDED_SIM_CYCLE_LIMIT).
Proof. exact (conj (proj1 circular_run) (conj circular_usable (proj2 circular_run))). Qed.
Example C55_success : usable_workload wormhole_b0 (config_of "wormhole_b0" "fast" 1024) (build f32A shared) /\
  verdict (runNPE f32A same_links same_buckets wormhole_b0 (config_of "wormhole_b0" "fast" 1024) (build f32A shared)) = Some None.
Proof. exact (conj (shared_usable "fast" 1024) shared_run). Qed.
