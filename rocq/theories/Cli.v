(* Model of the command line (tt_npe/py/pycli/tt_npe.py) and of runNPE when it emits a timeline. [options] are the values of
   argparse; the words of the command line are in CliArgs.v. The messages are not modelled. An outcome [StdThrow] is an uncaught Python
   exception. No proofs in this file. *)
From Coq Require Import ZArith String List Bool Floats.SpecFloat.
From Verif Require Import Base Arith Util Json Device Workload Rates Stats Engine Api Bindings Ingest Timeline.
Import ListNotations.
Local Open Scope string_scope.
Local Open Scope list_scope.
Open Scope Z_scope.

Section Cli.
  (* orders of the unordered containers *)
  Context (ord : Z -> list Z -> list Z) (bord : list bucket -> list bucket) (gord : gmap -> gmap) (zord : zone_map -> zone_map).
  Notation A := f32A.
  Notation files := (list (content A)).

  (* emit_timeline_file, topology_json (what the file holds), use_legacy_timeline_format, timeline_split_threshold_timesteps *)
  Record emission : Type := mkEm { em_on : bool; em_topo : topology; em_legacy : bool; em_thr : Z }.
  (* npeEngine.cpp:202-361 *)
  Definition single_run (e : emission) (d : device) (model : string) (cpt : Z) (wl : workload (F A)) : outcome (npe_result A * files) :=
    if em_on e then runWithTimeline A ord bord gord zord (em_topo e) (em_legacy e) (em_thr e) d model cpt wl
    else let! r := runSinglePerfSim A ord bord d model cpt wl in Ok (r, []).
  (* npeEngine.cpp:172-200: the run without congestion emits nothing *)
  Definition estimate_run (e : emission) (d : device) (cfg : config (F A)) (wl : workload (F A)) : outcome (npe_result A * files) :=
    if cf_impact cfg then
      let! r := single_run e d (cf_model cfg) (cf_cpt cfg) wl in
      match fst r with
      | Failure _ => Ok r
      | Stats stt =>
          let! r0 := runSinglePerfSim A ord bord d "none" (cf_cpt cfg) wl in
          match r0 with
          | Failure _ => Ok r
          | Stats _ => Ok (Stats (map (fun e => (fst e, with_congfree A (snd e) (ds_est A (snd e)))) stt), snd r)
          end
      end
    else single_run e d (cf_model cfg) (cf_cpt cfg) wl.
  (* npeAPI.cpp:42-54. Files written before an npeException of the second run are left out: this run cannot throw one that the
     first has not thrown. *)
  Definition api_run (e : emission) (d : device) (cfg : config (F A)) (wl : workload (F A)) : outcome (npe_result A * files) :=
    let! wl := preprocessWorkload A d cfg wl in
    let! ok := validate d wl in
    if ok then
      match estimate_run e d cfg wl with
      | Throw er => Ok (Failure er, [])
      | r => r
      end
    else Ok (Failure WORKLOAD_VALIDATION_FAILED, []).

  (* 14-108 *)
  Record options : Type := mkOpt {
    op_cpt : Z; op_device : string; op_model : string; op_workload : string; op_no_infer : bool; op_emit : bool; op_trace : bool;
    op_compress : bool; op_scale : D A; op_timeline : string; op_legacy : bool; op_verbose : Z; op_topology : string }.
  Definition default_options : options :=
    mkOpt 32 "wormhole_b0" "fast" "" false false false false (d_ofZ A 0) "npe_timeline.json" false 0 "".
  Definition device_choices : list string := ["wormhole_b0"; "N150"; "N300"; "T3K"; "blackhole"; "P100"; "P150"].
  Definition model_choices : list string := ["none"; "fast"].
  Definition mem_choice (l : list string) (s : string) : bool := existsb (String.eqb s) l.

  (* 120-132; the other fields of the configuration have their defaults (npeConfig.hpp:18-36) *)
  Definition config_of (o : options) (cpt : Z) (scale : F A) : config (F A) :=
    mkCfg (op_device o) (op_model o) cpt (negb (op_no_infer o)) true false scale.
  Definition emission_of (o : options) (topo : topology) : emission := mkEm (op_emit o) topo (op_legacy o) 10000.

  (* How the program ends: with an exit status, or with a Python exception that is not caught (the interpreter prints it and exits
     with status 1) *)
  Inductive ending : Type := Exits : Z -> ending | Uncaught : string -> ending.
  (* 158-165: the first line for a successful simulation has the attribute wallclock_runtime_us of the result *)
  Definition report (r : npe_result A) : ending :=
    match r with
    | Stats _ => if bound_name Stats_names "wallclock_runtime_us" then Exits 0 else Uncaught "AttributeError"
    | Failure _ => Exits 0
    end.
  (* 116-168: ending, what runNPE returned, timeline files. [file_at], [topology_at]: what the files hold; [accept]: the
     user confirms a name that does not end in .json. argparse exits with status 2 when a value is not among the choices. *)
  Definition main (file_at : string -> file) (topology_at : string -> topology) (accept : bool) (o : options)
    : outcome (ending * option (npe_result A) * files) :=
    if negb (mem_choice device_choices (op_device o)) || negb (mem_choice model_choices (op_model o)) then Ok (Exits 2, None, [])
    else
      let! cpt := py_arg (cast_uint32 A (PyInt A (op_cpt o))) in
      let! scale := py_arg (cast_float A (PyFloat A (op_scale o))) in
      let cfg := config_of o cpt scale in
      if String.eqb (op_workload o) "" then Ok (Exits 1, None, [])
      else
        let! wl := createWorkloadFromJSON (op_workload o) (op_device o) (op_trace o) accept (file_at (op_workload o)) in
        match wl with
        | None => Ok (Exits 1, None, [])
        | Some wl =>
            let! api := InitAPI A cfg in
            match api with
            | None => Ok (Exits 1, None, [])
            | Some d =>
                let! r := api_run (emission_of o (topology_at (op_topology o))) d cfg wl in
                Ok (report (fst r), Some (fst r), snd r)
            end
        end.

  (** * tt_npe/py/examples/programmatic_workload_generation.py *)
  (* 29-32, 42, 47, 60: what random.randint and random.choice return for one transfer *)
  Record draw : Type := mkDraw { dr_src_row : Z; dr_dst_row : Z; dr_src_col : Z; dr_dst_col : Z; dr_noc : noc_type; dr_offset : Z; dr_packet : Z }.
  (* 38-71 *)
  Definition example_transfer (x : draw) : outcome (transfer (F A)) :=
    let! src := py_Coord A (PyInt A 0) (PyInt A (dr_src_row x)) (PyInt A (dr_src_col x)) in
    let! dst := py_Coord A (PyInt A 0) (PyInt A (dr_dst_row x)) (PyInt A (dr_dst_col x)) in
    py_Transfer A (PyInt A (dr_packet x)) (PyInt A 1) src (Unicast dst) (PyInt A 0) (PyInt A (dr_offset x)) (dr_noc x).
  (* 21-75 *)
  Definition genWorkload (xs : list draw) : outcome (workload (F A)) :=
    let! ts := mapM example_transfer xs in
    let! r := addPhase (@empty_workload (F A)) ts in
    Ok (fst r).
  (* npeConfig.hpp:16-33 *)
  Definition default_config : config (F A) := mkCfg "wormhole_b0" "fast" 128 true true false (f_zero A).
  (* 77-100: None if the program exits with status 1 *)
  Definition example_main (xs : list draw) : outcome (option (npe_result A)) :=
    let! wl := genWorkload xs in
    let! api := InitAPI A default_config in
    match api with
    | None => Ok None
    | Some d => let! r := runNPE A ord bord d default_config wl in Ok (Some r)
    end.
End Cli.
