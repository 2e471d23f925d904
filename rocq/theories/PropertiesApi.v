(* C22 (and the end of C31): what runNPE returns. *)
From Coq Require Import ZArith Reals String List Bool Floats.SpecFloat.
From Verif Require Import Base Arith Util Device SpecDevice Workload SpecWorkload DepTracker Rates Stats Engine Api SpecEngine SpecRates SpecStats SpecApi Cases RunProofs EngineWitness ApiProofs ApiWitness.
Import ListNotations.
Local Open Scope string_scope.
Local Open Scope list_scope.
Open Scope Z_scope.

(** ** C22 runNPE always returns a result object *)
Theorem C22_config : forall A (cfg : config (F A)),
  (forall d, npeAPI_make A cfg = Ok d <-> In (cf_device cfg, d) documented_devices /\ good_config cfg) /\
  (npeAPI_make A cfg = Throw DEVICE_MODEL_INIT_FAILED <-> forall d, ~ In (cf_device cfg, d) documented_devices) /\
  (npeAPI_make A cfg = Throw INVALID_CONFIG <-> (exists d, In (cf_device cfg, d) documented_devices) /\ ~ good_config cfg) /\
  ((exists d, npeAPI_make A cfg = Ok d) \/ npeAPI_make A cfg = Throw DEVICE_MODEL_INIT_FAILED \/ npeAPI_make A cfg = Throw INVALID_CONFIG).
Proof. exact make_iff. Qed.
Print Assumptions C22_config.
Example C22_config_example : npeAPI_make f32A (mkCfg "blackhole" "fast" 0 false false false (f_one f32A)) = Throw INVALID_CONFIG /\
  npeAPI_make f32A (mkCfg "p300" "slow" 0 false false false (f_one f32A)) = Throw DEVICE_MODEL_INIT_FAILED.
Proof. split; reflexivity. Qed.

(* The full statement is: forall cfg d wl, npeAPI_make f32A cfg = Ok d -> exists r, runNPE f32A ord bord d cfg wl = Ok r.
   It is false; [usable_workload] excludes just the causes below. *)
Theorem C22_total_partial : forall ord bord (cfg : config (F f32A)) d (wl : workload (F f32A)), link_order ord -> bucket_order bord ->
  u32_config cfg -> npeAPI_make f32A cfg = Ok d -> usable_workload d cfg wl ->
  exists r, runNPE f32A ord bord d cfg wl = Ok r.
Proof. exact run_total. Qed.
Print Assumptions C22_total_partial.
Example C22_total_example : link_order same_links /\ bucket_order same_buckets /\ u32_config (api_config "fast" false one32) /\
  npeAPI_make f32A (api_config "fast" false one32) = Ok wormhole_b0 /\ usable_workload wormhole_b0 (api_config "fast" false one32) (wl_share f32A).
Proof. split; [exact same_links_order|]. split; [exact same_buckets_order|]. split; [split; vm_compute; [discriminate|reflexivity]|]. split; [reflexivity|exact share_usable]. Qed.

(* no golden cycles: map::at throws, and runNPE catches only npe exceptions *)
Theorem C22_golden_refuted : exists cfg wl ts, npeAPI_make f32A cfg = Ok wormhole_b0 /\ built wl [ts] /\ validate wormhole_b0 wl = Ok true /\
  runNPE f32A same_links same_buckets wormhole_b0 cfg wl = StdThrow "out_of_range".
Proof. exact no_golden_run. Qed.
Print Assumptions C22_golden_refuted.
(* a multicast that waits for a member of its group: std::get throws *)
Theorem C22_variant_refuted : exists cfg wl ts, npeAPI_make f32A cfg = Ok wormhole_b0 /\ built wl [ts] /\ validate wormhole_b0 wl = Ok true /\
  runNPE f32A same_links same_buckets wormhole_b0 cfg wl = StdThrow "bad_variant_access".
Proof. exact grouped_run. Qed.
Print Assumptions C22_variant_refuted.
(* rates are inferred before validation: a source outside of the grid fails an assert *)
Theorem C22_abort_refuted : exists cfg wl ts, npeAPI_make f32A cfg = Ok wormhole_b0 /\ built wl [ts] /\ validate wormhole_b0 wl = Ok false /\
  runNPE f32A same_links same_buckets wormhole_b0 cfg wl = Abort.
Proof. exact outside_run. Qed.
Print Assumptions C22_abort_refuted.
(* a multicast without rectangles *)
Theorem C22_empty_refuted : exists cfg wl ts, npeAPI_make f32A cfg = Ok wormhole_b0 /\ built wl [ts] /\
  runNPE f32A same_links same_buckets wormhole_b0 cfg wl = UB "front() of an empty vector".
Proof. exact nowhere_run. Qed.
Print Assumptions C22_empty_refuted.
(* a negative injection rate *)
Theorem C22_rate_refuted : exists cfg wl ts, npeAPI_make f32A cfg = Ok wormhole_b0 /\ built wl [ts] /\ validate wormhole_b0 wl = Ok true /\
  Forall (fun t => t_rate t = f_lit f32A (-1) 1) (all_transfers wl) /\
  runNPE f32A same_links same_buckets wormhole_b0 cfg wl = UB "float to integer".
Proof. exact backwards_run. Qed.
Print Assumptions C22_rate_refuted.
(* a byte count that wraps to zero, with rate zero *)
Theorem C22_bytes_refuted : exists cfg wl ts, npeAPI_make f32A cfg = Ok wormhole_b0 /\ built wl [ts] /\ validate wormhole_b0 wl = Ok true /\
  Forall (fun t => t_psize t = 65536 /\ t_npkts t = 65536 /\ number (t_rate t)) (all_transfers wl) /\
  runNPE f32A same_links same_buckets wormhole_b0 cfg wl = UB "float to integer".
Proof. exact wrapped_run. Qed.
Print Assumptions C22_bytes_refuted.
(* a scale that is not a number *)
Theorem C22_scale_refuted : exists cfg wl ts, npeAPI_make f32A cfg = Ok wormhole_b0 /\ built wl [ts] /\ validate wormhole_b0 wl = Ok true /\ cf_scale cfg = S754_nan /\
  runNPE f32A same_links same_buckets wormhole_b0 cfg wl = UB "float to integer".
Proof. exact scaled_run. Qed.
Print Assumptions C22_scale_refuted.

(** ** C31 Every simulation terminates *)
(* in floats no timestep of a validated workload ends otherwise than the statement allows, except by an npe exception *)
Theorem C31_ends : forall ord bord (d : device) congestion cpt (cfg : config (F f32A)) (wl : workload (F f32A)), link_order ord -> bucket_order bord -> supported d -> proper_cpt cpt ->
  cf_infer cfg = false -> usable_workload d cfg wl -> Forall (accepted d) (all_transfers wl) ->
  let r := simulate f32A ord bord d congestion cpt wl in
  (exists s, r = Ok (inl s)) \/ r = Ok (inr EXCEEDED_SIM_CYCLE_LIMIT) \/ exists e, r = Throw e.
Proof. exact simulation_ends. Qed.
Print Assumptions C31_ends.
Example C31_ends_example : supported wormhole_b0 /\ proper_cpt 100 /\ usable_workload wormhole_b0 (api_config "fast" false one32) (wl_share f32A) /\
  Forall (accepted wormhole_b0) (all_transfers (wl_share f32A)).
Proof. split; [exact wormhole_supported|]. split; [split; vm_compute; [discriminate|reflexivity]|]. split; [exact share_usable|exact share_accepted]. Qed.
