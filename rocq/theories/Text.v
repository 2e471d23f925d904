(* Model of the texts tt_npe writes: the report on the statistics of a device (tt_npe/cpp/src/npeStats.cpp:87-124), the text of a
   configuration and its verbosity (tt_npe/cpp/include/npeConfig.hpp:12-68) and the message of an exception
   (tt_npe/cpp/include/npeCommon.hpp:35-56). Numbers are written as fmt does: "{:5d}" and "{:5.1f}" are aligned to the right, a double with
   one digit is rounded to the nearest tenth, ties to even. How fmt writes a double that is not finite and a float with "{}" are arguments.
   No proofs in this file. *)
From Coq Require Import ZArith String List Bool Ascii Floats.SpecFloat.
From Verif Require Import Base Arith Util Device Workload Rates Stats Files.
Import ListNotations.
Local Open Scope string_scope.
Open Scope Z_scope.

Definition nl : string := String (ascii_of_nat 10) "".
(* std::string(n, c) *)
Fixpoint copies (n : nat) (c : ascii) : string := match n with O => "" | S n => String c (copies n c) end.
(* width 5, aligned to the right *)
Definition right5 (s : string) : string := copies (5 - String.length s) " " ++ s.
(* |x| = m * 2^e in tenths, rounded to nearest, ties to even *)
Definition tenths (m : positive) (e : Z) : Z :=
  if 0 <=? e then 10 * Zpos m * 2 ^ e
  else
    let d := 2 ^ (- e) in
    let q := 10 * Zpos m / d in
    let r := 10 * Zpos m mod d in
    if 2 * r <? d then q else if d <? 2 * r then q + 1 else if Z.even q then q else q + 1.
Definition minus (s : bool) : string := if s then "-" else "".
(* "{:.1f}" *)
Definition fixed1 (nonfinite : spec_float -> string) (x : spec_float) : string :=
  match x with
  | S754_zero s => minus s ++ "0.0"
  | S754_finite s m e => let n := tenths m e in minus s ++ decimal (n / 10) ++ "." ++ digit_char (n mod 10)
  | _ => nonfinite x
  end.
(* "{:5.1f}", "{:5d}" *)
Definition percent (nonfinite : spec_float -> string) (x : spec_float) : string := right5 (fixed1 nonfinite x).
Definition int5 (n : Z) : string := right5 (decimal n).

(* npeStats.cpp:87-124; [us] is wallclock_runtime_us *)
Definition stats_to_string (nonfinite : spec_float -> string) (verbose : bool) (us : Z) (ds : dstats f32A) : string :=
  "  congestion impact: " ++ percent nonfinite (getCongestionImpact f32A ds) ++ "%" ++ nl ++
  "   estimated cycles: " ++ int5 (ds_est f32A ds) ++ nl ++
  "      golden cycles: " ++ int5 (ds_golden f32A ds) ++ nl ++
  (if 0 <? ds_golden f32A ds then "   cycle pred error: " ++ percent nonfinite (ds_err f32A ds) ++ "%" ++ nl else "") ++
  nl ++
  "       DRAM BW Util: " ++ percent nonfinite (ds_dram f32A ds) ++ "% (using golden)" ++ nl ++
  "       DRAM BW Util: " ++ percent nonfinite (ds_dram_sim f32A ds) ++ "% (using estimated)" ++ nl ++
  "        ETH BW Util: " ++ percent nonfinite (getAggregateEthBwUtil f32A ds) ++ "%" ++ nl ++
  nl ++
  "      avg Link util: " ++ percent nonfinite (ds_avg_lu f32A ds) ++ "%" ++ nl ++
  " avg Mcast link util: " ++ percent nonfinite (ds_avg_mc f32A ds) ++ "%" ++ nl ++
  "      max Link util: " ++ percent nonfinite (ds_max_lu f32A ds) ++ "%" ++ nl ++
  nl ++
  "    avg Link demand: " ++ percent nonfinite (ds_avg_ld f32A ds) ++ "%" ++ nl ++
  "    max Link demand: " ++ percent nonfinite (ds_max_ld f32A ds) ++ "%" ++ nl ++
  nl ++
  "    avg NIU  demand: " ++ percent nonfinite (ds_avg_nd f32A ds) ++ "%" ++ nl ++
  "    max NIU  demand: " ++ percent nonfinite (ds_max_nd f32A ds) ++ "%" ++ nl ++
  (if verbose then nl ++ "   wallclock time: " ++ int5 us ++ " us" ++ nl else "").

(* npeConfig.hpp:12-13 *)
Inductive verbosity : Type := Normal | Verbose | MoreVerbose | MostVerbose.
Definition verbosity_of (v : Z) : verbosity := if v =? 0 then Normal else if v =? 1 then Verbose else if v =? 2 then MoreVerbose else MostVerbose.
Definition verbosity_number (v : verbosity) : nat := match v with Normal => 0%nat | Verbose => 1%nat | MoreVerbose => 2%nat | MostVerbose => 3%nat end.
(* npeConfig.hpp:16-34: all fields *)
Record npe_config : Type := mkConfig {
  nc_device : string; nc_model : string; nc_workload : string;  (* device_name, congestion_model_name, workload_json *)
  nc_cpt : Z;                                                   (* cycles_per_timestep, uint32_t *)
  nc_verbosity : verbosity;
  nc_visualize : bool;                                          (* enable_visualizations *)
  nc_infer : bool;                                              (* infer_injection_rate_from_src *)
  nc_emit : bool;                                               (* emit_timeline_file *)
  nc_impact : bool;                                             (* estimate_cong_impact *)
  nc_is_trace : bool;                                           (* workload_is_noc_trace *)
  nc_remove_local : bool;                                       (* remove_localized_unicast_transfers *)
  nc_compress : bool;                                           (* compress_timeline_output_file *)
  nc_legacy : bool;                                             (* use_legacy_timeline_format *)
  nc_timeline : string;                                         (* timeline_filepath *)
  nc_scale : F f32A;                                            (* scale_workload_schedule *)
  nc_topology : string;                                         (* topology_json *)
  nc_split : Z }.                                               (* timeline_split_threshold_timesteps, size_t *)
(* npeConfig.hpp:36-39: std::clamp(vlvl, 0, 3) *)
Definition setVerbosityLevel (c : npe_config) (vlvl : Z) : npe_config :=
  let v := if vlvl <? 0 then 0 else if 3 <? vlvl then 3 else vlvl in
  mkConfig (nc_device c) (nc_model c) (nc_workload c) (nc_cpt c) (verbosity_of v) (nc_visualize c) (nc_infer c) (nc_emit c) (nc_impact c)
           (nc_is_trace c) (nc_remove_local c) (nc_compress c) (nc_legacy c) (nc_timeline c) (nc_scale c) (nc_topology c) (nc_split c).
(* fmt "{}" of a bool *)
Definition bool_text (b : bool) : string := if b then "true" else "false".
Definition quote : string := String (ascii_of_nat 34) "".
(* npeConfig.hpp:40-67 *)
Definition config_to_string (shortest : F f32A -> string) (c : npe_config) : string :=
  "Config {" ++
  nl ++ "  verbosity                          = " ++ copies (verbosity_number (nc_verbosity c)) "v" ++
  nl ++ "  device_name                        = " ++ nc_device c ++
  nl ++
  nl ++ "  workload_is_noc_trace              = " ++ bool_text (nc_is_trace c) ++
  nl ++ "  workload_json                      = " ++ quote ++ nc_workload c ++ quote ++
  nl ++ "  emit_timeline_file                 = " ++ bool_text (nc_emit c) ++
  nl ++ "  timeline_filepath                  = " ++ quote ++ nc_timeline c ++ quote ++
  nl ++
  nl ++ "  congestion_model_name              = " ++ nc_model c ++
  nl ++ "  estimate_cong_impact               = " ++ bool_text (nc_impact c) ++
  nl ++ "  cycles_per_timestep                = " ++ decimal (nc_cpt c) ++
  nl ++ "  infer_injection_rate_from_src      = " ++ bool_text (nc_infer c) ++
  nl ++
  nl ++ "  compress_timeline_output_file      = " ++ bool_text (nc_compress c) ++
  nl ++ "  enable_visualizations              = " ++ bool_text (nc_visualize c) ++
  nl ++ "  remove_localized_unicast_transfers = " ++ bool_text (nc_remove_local c) ++
  nl ++ "  scale_workload_schedule            = " ++ shortest (nc_scale c) ++
  nl ++ "  use_legacy_timeline_format         = " ++ bool_text (nc_legacy c) ++
  nl ++ "  topology_json                      = " ++ quote ++ nc_topology c ++ quote ++
  nl ++ "  timeline_split_threshold_timesteps = " ++ decimal (nc_split c) ++
  nl ++ "}".

(* magic_enum::enum_name *)
Definition error_name (e : npe_error) : string :=
  match e with
  | UNDEF_ERR => "UNDEF"
  | WORKLOAD_VALIDATION_FAILED => "WORKLOAD_VALIDATION_FAILED"
  | EXCEEDED_SIM_CYCLE_LIMIT => "EXCEEDED_SIM_CYCLE_LIMIT"
  | INVALID_CONFIG => "INVALID_CONFIG"
  | DEVICE_MODEL_INIT_FAILED => "DEVICE_MODEL_INIT_FAILED"
  | SIM_ENGINE_INIT_FAILED => "SIM_ENGINE_INIT_FAILED"
  | TRACE_INGEST_FAILED => "TRACE_INGEST_FAILED"
  | DEPENDENCY_GEN_FAILED => "DEPENDENCY_GEN_FAILED"
  end.
(* npeCommon.hpp:42-48 *)
Definition what (e : npe_error) (msg : string) : string := if String.eqb msg "" then error_name e else error_name e ++ " - " ++ msg.
