(* C79, C80: the command line, workloads without golden cycles. *)
From Coq Require Import ZArith String List Bool Floats.SpecFloat.
From Verif Require Import Base Arith Util Json Device SpecDevice Workload SpecWorkload Rates Stats Engine SpecEngine SpecRates SpecStats SpecGroups Cases EngineWitness Api SpecApi Bindings Ingest SpecIngest IngestWitness
  Timeline TimelineWitness SpecTimeline SpecEmit EmitWitness Cli SpecCli CliProofs CliFiles NoGolden ExampleProofs CliWitness.
Import ListNotations.
Local Open Scope string_scope.
Local Open Scope list_scope.
Open Scope Z_scope.

(** * C79: The exit status of the command line *)
(* what each ending means. [ended]: an exception that is not caught for statistics, status 0 for a failure *)
Theorem C79_status : forall ord bord gord zord file_at topology_at accept o st r fs, main ord bord gord zord file_at topology_at accept o = Ok (st, r, fs) ->
  let made := createWorkloadFromJSON (op_workload o) (op_device o) (op_trace o) accept (file_at (op_workload o)) in
  let cfg := mkCfg (op_device o) (op_model o) (op_cpt o) (negb (op_no_infer o)) true false (f_of_d f32A (op_scale o)) in
  (st = Exits 2 /\ ~ chosen o /\ r = None /\ fs = []) \/
  (st = Exits 1 /\ chosen o /\ r = None /\ fs = [] /\ (op_workload o = "" \/ made = Ok None \/ op_cpt o = 0)) \/
  (chosen o /\ exists wl d x, made = Ok (Some wl) /\ In (op_device o, d) documented_devices /\ r = Some x /\ st = ended x /\ (runNPE f32A ord bord d cfg wl = Ok x \/ (op_emit o = true /\ exists e, x = Failure e))).
Proof. exact main_status. Qed.
Print Assumptions C79_status.
(* without a timeline the program ends with what runNPE returns *)
Theorem C79_result : forall ord bord gord zord file_at topology_at accept o wl d, chosen o -> u32_steps o -> op_workload o <> "" -> op_cpt o <> 0 -> op_emit o = false ->
  createWorkloadFromJSON (op_workload o) (op_device o) (op_trace o) accept (file_at (op_workload o)) = Ok (Some wl) -> In (op_device o, d) documented_devices ->
  main ord bord gord zord file_at topology_at accept o =
    let! r := runNPE f32A ord bord d (mkCfg (op_device o) (op_model o) (op_cpt o) (negb (op_no_infer o)) true false (f_of_d f32A (op_scale o))) wl in Ok (ended r, Some r, []).
Proof. exact main_quiet. Qed.
Print Assumptions C79_result.
(* the program ends as above for every clean trace. Missing: traces that are not clean (see C49), sources off the grid. [fitting_scale] and [emittable]
   exclude exactly the scales that leave the range of the offsets (see C17) and the timelines that cannot be written (see C78). *)
Theorem C79_trace_partial : forall ord bord gord zord file_at topology_at accept o, link_order ord -> bucket_order bord -> map_order gord -> map_order zord ->
  forall evs d, chosen o -> u32_steps o -> op_workload o <> "" -> op_trace o = true -> file_at (op_workload o) = Parsed (JArray evs) -> In (op_device o, d) documented_devices ->
    clean d evs -> (op_no_infer o = false -> sources_on d evs) ->
    (forall wl, createWorkloadFromJSON (op_workload o) (op_device o) (op_trace o) accept (file_at (op_workload o)) = Ok (Some wl) -> fitting_scale o wl /\ emittable o d (topology_at (op_topology o)) wl) ->
    exists st r fs, main ord bord gord zord file_at topology_at accept o = Ok (st, r, fs) /\ ((st = Exits 1 /\ r = None) \/ exists x, r = Some x /\ st = ended x).
Proof. exact main_trace. Qed.
Print Assumptions C79_trace_partial.
(* the simulation ends for every workload file with golden cycles on one chip, with or without a timeline *)
Theorem C79_file_partial : forall ord bord gord zord file_at topology_at accept o, link_order ord -> bucket_order bord -> map_order gord -> map_order zord ->
  forall j ps ess d, chosen o -> u32_steps o -> op_workload o <> "" -> op_cpt o <> 0 -> op_trace o = false -> accept = true -> file_at (op_workload o) = Parsed j -> In (op_device o, d) documented_devices -> dv_chips d = 1%nat ->
    workload_file j ps -> golden_cycles j -> Forall2 (fun p es => holds p "transfers" (JArray es) /\ Forall (entry_on d (negb (op_no_infer o))) es) ps ess ->
    Z.of_nat (List.length (concat ess)) < 2 ^ 31 -> Z.of_nat (List.length ps) <= 2 ^ 31 ->
    (forall wl, createWorkloadFromJSON (op_workload o) (op_device o) (op_trace o) accept (file_at (op_workload o)) = Ok (Some wl) -> fitting_scale o wl) ->
    exists r fs, main ord bord gord zord file_at topology_at accept o = Ok (ended r, Some r, fs).
Proof. exact main_file. Qed.
Print Assumptions C79_file_partial.
(* a workload file never yields statistics on a device with several chips *)
Theorem C79_chips : forall ord bord gord zord file_at topology_at accept o wl d st r fs, In (op_device o, d) documented_devices -> (1 < dv_chips d)%nat -> op_trace o = false ->
  loadJSONWorkloadFormat (op_workload o) accept (file_at (op_workload o)) = Ok (Some wl) -> main ord bord gord zord file_at topology_at accept o = Ok (st, Some r, fs) -> exists e, r = Failure e.
Proof. exact main_chips. Qed.
Print Assumptions C79_chips.
(* the files: none, one in the old format, one in the new format, and more for more than 10000 timesteps *)
Theorem C79_files : forall ord bord gord zord file_at topology_at accept o st stt fs ds, main ord bord gord zord file_at topology_at accept o = Ok (st, Some (Stats stt), fs) ->
  stats_get f32A stt MESH_DEVICE = Some ds -> Z.of_nat (List.length (ds_ts f32A ds)) < 2 ^ 63 ->
  (op_emit o = false -> fs = []) /\
  (op_emit o = true -> op_legacy o = true -> exists doc, fs = [FullV0 f32A doc]) /\
  (op_emit o = true -> op_legacy o = false ->
    (Z.of_nat (List.length (ds_ts f32A ds)) <= 10000 -> exists doc, fs = [FullV1 f32A doc]) /\
    (10000 < Z.of_nat (List.length (ds_ts f32A ds)) ->
      flat_map (fun r => positions (rg_first r) (rg_last r)) (split_regions fs) = positions 0 (Z.of_nat (List.length (ds_ts f32A ds))) /\
      Forall (fun r => 0 < rg_last r - rg_first r <= 10000) (split_regions fs))).
Proof. exact main_files. Qed.
Print Assumptions C79_files.
(* a failed simulation exits with status 0 *)
Theorem C79_failed_refuted : exists file o, chosen o /\ main same_links same_buckets same_groups same_zones file no_topology true o = Ok (Exits 0, Some (Failure WORKLOAD_VALIDATION_FAILED), []).
Proof. exact failed_status. Qed.
Print Assumptions C79_failed_refuted.
(* a successful simulation ends in an exception (by C79_status all of them do) *)
Theorem C79_success_refuted : exists file o stt fs, chosen o /\ main same_links same_buckets same_groups same_zones file no_topology true o = Ok (Uncaught "AttributeError", Some (Stats stt), fs).
Proof. exact success_uncaught. Qed.
Print Assumptions C79_success_refuted.
(* a documented device that the program refuses *)
Theorem C79_device_refuted : exists d, In ("TG", d) documented_devices /\
  forall ord bord gord zord file_at topology_at accept o, op_device o = "TG" -> main ord bord gord zord file_at topology_at accept o = Ok (Exits 2, None, []).
Proof. exact device_refused. Qed.
Print Assumptions C79_device_refuted.
Example C79_trace_ex : clean wormhole_b0 tr_plain /\ sources_on wormhole_b0 tr_plain /\
  cli_view (main same_links same_buckets same_groups same_zones (one_file (JArray tr_plain)) no_topology true o_trace) = Some (Uncaught "AttributeError", Some true, 1%nat) /\
  cli_view (main same_links same_buckets same_groups same_zones (one_file (JArray tr_plain)) no_topology true o_scaled) = Some (Uncaught "AttributeError", Some true, 1%nat).
Proof. exact (conj plain_clean (conj plain_sources (conj trace_runs scaled_runs))). Qed.
Example C79_file_ex : workload_file (golden_file good_entries) [JObject [("transfers", JArray good_entries)]] /\ golden_cycles (golden_file good_entries) /\ Forall (entry_on wormhole_b0 true) good_entries /\
  cli_view (main same_links same_buckets same_groups same_zones (one_file (golden_file good_entries)) no_topology true (o_file "N150")) = Some (Uncaught "AttributeError", Some true, 0%nat) /\
  failure (main same_links same_buckets same_groups same_zones (one_file (golden_file good_entries)) no_topology true (o_file "T3K")) = Some ("StdThrow", "out_of_range").
Proof. exact (conj (proj1 good_file) (conj (proj2 good_file) (conj good_entries_on (conj file_runs chips_throw)))). Qed.

(** * C80: Workloads without golden cycles are not simulated *)
(* removing local unicasts supplies golden cycles for the mesh (C18), hence the exception *)
Theorem C80_never : forall (A : arith) ord bord d (cfg : config (F A)) (wl : workload (F A)) id, has_stats d id -> (forall w, getGoldenResultCycles wl id <> Ok w) ->
  cf_remove_local cfg = false \/ id <> MESH_DEVICE -> forall stt, runNPE A ord bord d cfg wl <> Ok (Stats stt).
Proof. exact missing_never. Qed.
Print Assumptions C80_never.
(* if nothing else is wrong with the workload, the exception is std::out_of_range, which runNPE does not catch *)
Theorem C80_throws : forall ord bord d (cfg : config (F f32A)) (wl : workload (F f32A)) m id, link_order ord -> bucket_order bord -> supported d -> good_config cfg -> cf_remove_local cfg = false ->
  usable_workload d cfg (setGoldenResultCycles wl m) -> has_stats d id -> (forall w, getGoldenResultCycles wl id <> Ok w) ->
  runNPE f32A ord bord d cfg wl = StdThrow "out_of_range" \/ exists e, runNPE f32A ord bord d cfg wl = Ok (Failure e).
Proof. exact missing_throws. Qed.
Print Assumptions C80_throws.
(* the example program that comes with the project always ends in this exception *)
Theorem C80_program : forall ord bord xs, link_order ord -> bucket_order bord -> List.length xs = 30%nat -> Forall drawn xs -> example_main ord bord xs = StdThrow "out_of_range".
Proof. exact example_throws. Qed.
Print Assumptions C80_program.
Example C80_ex : List.length some_draws = 30%nat /\ Forall drawn some_draws /\ failure (example_main same_links same_buckets some_draws) = Some ("StdThrow", "out_of_range") /\
  sim_ok (let! wl := genWorkload some_draws in runNPE f32A same_links same_buckets wormhole_b0 default_config (setGoldenResultCycles wl [(0, (0, 32))])) = true.
Proof. exact (conj (proj1 some_drawn) (conj (proj2 some_drawn) (conj example_fails example_with_golden))). Qed.
