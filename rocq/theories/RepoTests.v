(* The unit tests of the project (tt_npe/cpp/test, tt_npe/py/pytest), run on the model. These are tests of the model, not
   proofs of properties: they compare it with results that the project expects of its code. The longer runs are computed when this file is compiled
   ([_run], an evaluated term), and the result is compared with what is expected. *)
From Coq Require Import ZArith String List Bool Floats.SpecFloat.
From Verif Require Import Base Arith Util Device Workload Rates Stats Engine Api Json Ingest Bindings Cli Cases TestData.
Import ListNotations.
Local Open Scope string_scope.
Local Open Scope list_scope.
Open Scope Z_scope.

(** * test_npe_util.cpp *)
Definition rect (dev r0 c0 r1 c1 : Z) : outcome mcast := mcast_make (Coord_make dev r0 c0) (Coord_make dev r1 c1).
Definition cells (o : outcome mcast) : option (Z * list (Z * Z * Z)) :=
  match o with
  | Ok m => match grid_size m, mcast_coords m with Ok n, Ok l => Some (n, map (fun c => (c_dev c, c_row c, c_col c)) l) | _, _ => None end
  | _ => None
  end.
(* 12-23 *)
Example CanGetMulticastCoordSetGridSize :
  map (fun o => option_map fst (cells o)) [rect 0 1 1 1 1; rect 0 5 5 5 5; rect 0 1 1 1 2; rect 0 1 1 4 4] = [Some 1; Some 1; Some 2; Some 16].
Proof. vm_compute. reflexivity. Qed.
(* 24-90 *)
Example CanIterateOverMulticastCoordSet :
  map cells [rect 0 1 1 2 2; rect 0 1 1 1 1; rect 0 1 1 3 3; rect 0 3 2 4 7] =
  [Some (4, [(0,1,1); (0,1,2); (0,2,1); (0,2,2)]); Some (1, [(0,1,1)]);
   Some (9, [(0,1,1); (0,1,2); (0,1,3); (0,2,1); (0,2,2); (0,2,3); (0,3,1); (0,3,2); (0,3,3)]);
   Some (12, [(0,3,2); (0,3,3); (0,3,4); (0,3,5); (0,3,6); (0,3,7); (0,4,2); (0,4,3); (0,4,4); (0,4,5); (0,4,6); (0,4,7)])].
Proof. vm_compute. reflexivity. Qed.
(* 92-193, without the text *)
Example MultiDeviceMulticastCoordSet :
  map cells [rect 0 1 1 2 2; rect 1 3 3 4 4; rect 2 5 5 5 7] =
  [Some (4, [(0,1,1); (0,1,2); (0,2,1); (0,2,2)]); Some (4, [(1,3,3); (1,3,4); (1,4,3); (1,4,4)]); Some (3, [(2,5,5); (2,5,6); (2,5,7)])].
Proof. vm_compute. reflexivity. Qed.
(* 195-288, without the text *)
Example MultiDeviceDisjointMulticastCoordSet :
  cells (Ok [mkGrid (Coord_make 0 1 1) (Coord_make 0 2 2); mkGrid (Coord_make 1 3 3) (Coord_make 1 4 4); mkGrid (Coord_make 2 5 5) (Coord_make 2 5 7)]) =
  Some (11, [(0,1,1); (0,1,2); (0,2,1); (0,2,2); (1,3,3); (1,3,4); (1,4,3); (1,4,4); (2,5,5); (2,5,6); (2,5,7)]).
Proof. vm_compute. reflexivity. Qed.
(* hash_container: npeUtil.hpp:411-417 *)
Definition hash_container (seed : Z) (l : list Z) : Z := fold_left hash_combine l seed.
Definition hash_rect (o : outcome mcast) : Z := match o with Ok m => hash_mcast m | _ => 0 end.
(* 290-339 *)
Example HashFunctions :
  hash_combine (hash_combine 0 42) 123 <> hash_combine (hash_combine 0 123) 42 /\
  hash_container 0 (map hash_int [1; 2; 3; 4; 5]) <> hash_container 0 (map hash_int [5; 4; 3; 2; 1]) /\
  hash_rect (rect 0 1 1 2 2) <> hash_rect (rect 0 3 3 4 4).
Proof. vm_compute. repeat split; discriminate. Qed.
(* 341-408: 107 buckets; the standard deviation is below 0.3 of the expected size 9000/107 *)
Definition tally (hs : list Z) : list Z :=
  fold_left (fun counts h => let i := Z.to_nat (h mod 107) in upd counts i (nth i counts 0 + 1)) hs (repeat 0 107).
(* 107 * 107^2 * variance < 107 * (0.3 * samples)^2, in integers *)
Definition uniform (samples : Z) (hs : list Z) : bool :=
  100 * fold_left (fun s n => s + (107 * n - samples) * (107 * n - samples)) (tally hs) 0 <? 107 * 9 * samples * samples.
Definition upto (n : nat) : list Z := map Z.of_nat (seq 0 n).
Definition all_coords (devs rows cols : nat) : list coord := flat_map (fun d => flat_map (fun r => map (fun c => Coord_make d r c) (upto cols)) (upto rows)) (upto devs).
Definition HashFunctionQuality_run := Eval vm_compute in (uniform 9000 (map hash_coord (all_coords 11 31 31))).
Example HashFunctionQuality : HashFunctionQuality_run = true.
Proof. reflexivity. Qed.
(* 410-468 *)
Example HashContainerBasic :
  let h := hash_container 0 (map hash_int [1; 2; 3; 4; 5]) in
  h <> hash_container 0 (map hash_int [5; 4; 3; 2; 1]) /\ h <> hash_container 0 (map hash_int [1; 2; 3; 4; 6]) /\ h <> hash_container 42 (map hash_int [1; 2; 3; 4; 5]) /\
  hash_container 0 (map hash_coord [mkCoord 0 0 0; mkCoord 0 0 1; mkCoord 0 1 0]) <> hash_container 0 (map hash_coord [mkCoord 0 1 0; mkCoord 0 0 1; mkCoord 0 0 0]) /\
  hash_container 0 [] = 0.
Proof. vm_compute. repeat split; discriminate. Qed.
(* 530-710, for all attributes of one chip in place of 10000 random ones *)
Definition all_links : list link_attr := flat_map (fun c => map (mkLink c) link_types) (all_coords 1 21 21).
Definition all_nius : list niu_attr := flat_map (fun c => map (mkNiu c) niu_types) (all_coords 1 21 21).
Definition HashFunctionQualityLinkAndNIUAttrs_run := Eval vm_compute in (uniform (Z.of_nat (List.length all_links)) (map hash_link_attr all_links), uniform (Z.of_nat (List.length all_nius)) (map hash_niu_attr all_nius)).
Example HashFunctionQualityLinkAndNIUAttrs : HashFunctionQualityLinkAndNIUAttrs_run = (true, true).
Proof. reflexivity. Qed.

(** * test_npe_device.cpp *)
Definition made_or (name : string) : device := match createDeviceModel name with Ok d => d | _ => wormhole_b0 end.
(* 20-22 *)
Example CanErrOutOnUndefinedDevice : exists e, createDeviceModel "undef" = Throw e.
Proof. eexists. vm_compute. reflexivity. Qed.
(* 23-31, from one core to every core *)
Definition routed (d : device) (noc : noc_type) : bool :=
  forallb (fun s => forallb (fun e => match route d noc s (Unicast e) with Ok _ => true | _ => false end) (all_coords 1 (dv_rows d) (dv_cols d))) [mkCoord 0 5 7].
Definition CanRouteWormholeB0Noc_run := Eval vm_compute in (routed wormhole_b0 NOC0).
Example CanRouteWormholeB0Noc : CanRouteWormholeB0Noc_run = true.
Proof. reflexivity. Qed.
(* 32-48, 90-115 *)
Definition core (d : device) (c : Z * Z * Z) : option core_type := match getCoreType d (at_core c) with Ok t => Some t | _ => None end.
Definition all_cores (d : device) : bool := forallb (fun c => match getCoreType d c with Ok _ => true | _ => false end) (all_coords (dv_chips d) (dv_rows d) (dv_cols d)).
Example CanGetCoreTypeWormholeB0 : all_cores wormhole_b0 = true /\
  map (core wormhole_b0) [(0,0,1); (0,1,0); (0,1,1); (0,10,0)] = [Some ETH; Some DRAM; Some WORKER; Some UNDEF].
Proof. split; vm_compute; reflexivity. Qed.
Example CanGetCoreTypeWormholeMultichip : all_cores (wormhole_multichip 2) = true /\
  map (core (wormhole_multichip 2)) [(0,0,1); (0,1,0); (0,1,1); (0,10,0); (1,0,1); (1,1,0); (1,1,1)] = [Some ETH; Some DRAM; Some WORKER; Some UNDEF; Some ETH; Some DRAM; Some WORKER].
Proof. split; vm_compute; reflexivity. Qed.
(* 49-62, 117-139: EXPECT_FLOAT_EQ with the nearest float *)
Definition rate (d : device) (c : Z * Z * Z) : option (F f32A) := match getSrcInjectionRate f32A d (at_core c) with Ok r => Some r | _ => None end.
Example CanGetSrcInjectionRateWormholeB0 : map (rate wormhole_b0) [(0,1,0); (0,1,1)] = map (fun z => Some (f_lit f32A z 10)) [232; 281].
Proof. vm_compute. reflexivity. Qed.
Example CanGetSrcInjectionRateWormholeMultichip : map (rate (wormhole_multichip 2)) [(0,1,0); (0,1,1); (1,1,0); (1,1,1)] = map (fun z => Some (f_lit f32A z 10)) [232; 281; 232; 281].
Proof. vm_compute. reflexivity. Qed.
(* 63-83, 141-177 *)
Definition link_ids (d : device) : list Z :=
  flat_map (fun c => flat_map (fun t => match getLinkID d (mkLink c t) with Ok i => [i] | _ => [] end) link_types) (all_coords (dv_chips d) (dv_rows d) (dv_cols d)).
Definition lookups (d : device) : bool :=
  let ids := link_ids d in
  forallb (fun x => x =? 1) (fold_left (fun seen i => upd seen (Z.to_nat i) (nth (Z.to_nat i) seen 0 + 1)) ids (repeat 0 (List.length ids))) &&
  forallb (fun i => match getLinkAttributes d i with Ok a => match getLinkID d a with Ok j => j =? i | _ => false end | _ => false end) ids.
Definition TestLinkIDLookups_run := Eval vm_compute in (lookups wormhole_b0).
Example TestLinkIDLookups : TestLinkIDLookups_run = true.
Proof. reflexivity. Qed.
Definition TestLinkIDLookupsWormholeMultichip_run := Eval vm_compute in (lookups (wormhole_multichip 2)).
Example TestLinkIDLookupsWormholeMultichip : TestLinkIDLookupsWormholeMultichip_run = true.
Proof. reflexivity. Qed.
(* 178-186 *)
Example CanQueryArchUsingDeviceModel : dv_arch wormhole_b0 = WormholeB0 /\ dv_arch (wormhole_multichip 2) = WormholeB0 /\ dv_arch blackhole_p150 = Blackhole.
Proof. repeat split. Qed.

(** * test_npe_workload.cpp *)
(* 16-22: a read at 28.1 bytes per cycle on NoC 1 *)
Definition read (psize npkts : Z) (src dst : Z * Z * Z) : transfer (F f32A) :=
  tr_make psize npkts (at_core src) (Unicast (at_core dst)) (f_lit f32A 281 10) 0 NOC1 "READ" "" (-1) (-1) (-1).
Definition one_phase (ts : list (transfer (F f32A))) : outcome (workload (F f32A)) := let! w := addPhase empty_workload ts in Ok (fst w).
Definition valid (d : device) (ts : list (transfer (F f32A))) : option bool := match (let! w := one_phase ts in validate d w) with Ok b => Some b | _ => None end.
Example CanConstructWorkload : match one_phase [read 2048 1 (0,1,1) (0,1,5)] with Ok w => map (fun p => List.length (ph_trs p)) (wl_phases w) | _ => [] end = [1%nat].
Proof. vm_compute. reflexivity. Qed.
(* 27-133 *)
Definition CanValidateWorkload_run := Eval vm_compute in (valid wormhole_b0 [read 2048 1 (0,1,1) (0,1,5)]).
Example CanValidateWorkload : CanValidateWorkload_run = Some true.
Proof. reflexivity. Qed.
Example CanReject :
  map (fun t => valid wormhole_b0 [t])
    [read 2048 1 (0,1,100) (0,1,5); read 2048 1 (0,1,1) (0,1,100); read 2048 0 (0,1,1) (0,1,5); read 0 1 (0,1,1) (0,1,5); read 2048 1 (1,1,1) (2,1,5); read 2048 1 (100,1,1) (0,1,5)] =
  [Some false; Some false; Some false; Some false; Some false; Some false].
Proof. vm_compute. reflexivity. Qed.
(* 136-157; x before y *)
Definition hops (noc : string) (q : Z * Z * Z * Z) : option Z := let '(sx, sy, dx, dy) := q in match route_hops wormhole_b0 sx sy dx dy noc with Ok n => Some n | _ => None end.
Example CanCountRouteHops :
  map (hops "NOC_0") [(1,1,1,1); (1,1,3,1); (1,1,1,3); (1,1,3,3); (9,1,1,1); (5,1,4,1); (1,6,1,5)] = map Some [0; 2; 2; 4; 2; 9; 11] /\
  map (hops "NOC_1") [(1,1,1,1); (3,1,1,1); (1,3,1,1); (3,3,1,1); (1,1,9,11); (1,3,1,11); (3,1,9,1)] = map Some [0; 2; 2; 4; 4; 4; 4] /\
  hops "INVALID" (1,1,2,2) = Some (-1).
Proof. repeat split; vm_compute; reflexivity. Qed.
(* 159-168: a trace of eight chips. Its zones have the phases "begin" and "end", which are no names of ZonePhase: extractZones
   (npeWorkloadIngest.cpp:283) dereferences an empty optional, and the test of the project has undefined behaviour. With the names
   of ZonePhase the file is converted and valid; its 70 fabric writes name the ends of their segments "segment_end_x" and
   "segment_end_y", not "forward_x" and "forward_y", and give no transfer. *)
Definition loaded (path name : string) (trace : bool) (j : json) : outcome (workload (F f32A)) :=
  let! w := createWorkloadFromJSON path name trace true (Parsed j) in match w with Some w => Ok w | None => StdThrow "no workload" end.
Definition shown {T : Type} (o : outcome T) : option T := match o with Ok x => Some x | _ => None end.
Definition named (f : string * json) : string * json :=
  if String.eqb (fst f) "zone_phase" then (fst f, match snd f with JString s => JString (if String.eqb s "begin" then "ZONE_START" else if String.eqb s "end" then "ZONE_END" else s) | j => j end) else f.
Definition named_phases (j : json) : json :=
  match j with JArray es => JArray (map (fun e => match e with JObject fs => JObject (map named fs) | e => e end) es) | j => j end.
Definition multichip_file : string := "cpp/test/data/multichip-trace-example.json".
Definition MultichipTraceFileIsUndefined_run := Eval vm_compute in (createWorkloadFromJSON multichip_file "T3K" true true (Parsed multichip_trace)).
Example MultichipTraceFileIsUndefined : MultichipTraceFileIsUndefined_run = UB "empty optional".
Proof. reflexivity. Qed.
Definition CanIngestAndValidateMultichipTraceFile_run := Eval vm_compute in (shown (let! w := loaded multichip_file "T3K" true (named_phases multichip_trace) in let! ok := validate (wormhole_multichip 8) w in Ok (ok, List.length (flat_map ph_trs (wl_phases w))))).
Example CanIngestAndValidateMultichipTraceFile : CanIngestAndValidateMultichipTraceFile_run = Some (true, 192%nat).
Proof. reflexivity. Qed.

(** * test_npe_engine.cpp *)
(* npeConfig.hpp, with a congestion model and a timestep *)
Definition config_of (model : string) (cpt : Z) : config (F f32A) := mkCfg "wormhole_b0" model cpt true true false (f_zero f32A).
(* whether there are statistics, and the estimated cycles of the mesh *)
Definition outcome_of (r : outcome (npe_result f32A)) : option (option Z) :=
  match r with
  | Ok (Stats s) => Some (option_map (fun e => ds_est f32A (snd e)) (find (fun e => fst e =? MESH_DEVICE) s))
  | Ok (Failure _) => Some None
  | _ => None
  end.
Definition windowed (ts : list (transfer (F f32A))) : outcome (workload (F f32A)) := let! w := one_phase ts in Ok (setGoldenResultCycles w [(0, (0, 32))]).
Definition engine_run (model : string) (cpt : Z) (ts : list (transfer (F f32A))) : option (option Z) :=
  outcome_of (let! w := windowed ts in runPerfEstimation f32A same_links same_buckets wormhole_b0 (config_of model cpt) w).
(* 11-39; the tests ask for a result, the estimates are those of the model *)
Definition CanRunSimpleWorkload_run := Eval vm_compute in (engine_run "fast" 128 [read 2048 1 (0,1,1) (0,1,5)]).
Example CanRunSimpleWorkload : CanRunSimpleWorkload_run = Some (Some 86).
Proof. reflexivity. Qed.
Definition CanRunSimpleWorkloadCongestionFree_run := Eval vm_compute in (engine_run "none" 128 [read 2048 1 (0,1,1) (0,1,5)]).
Example CanRunSimpleWorkloadCongestionFree : CanRunSimpleWorkloadCongestionFree_run = Some (Some 73).
Proof. reflexivity. Qed.
(* 41-59, CanTimeoutOnMaxCycles: five thousand steps, not computed here; see C31 and C55 for the cycle limit *)

(** * test_npe_api.cpp *)
(* 13-29 *)
Example CanConstructAPI : npeAPI_make f32A (config_of "fast" 128) = Ok wormhole_b0.
Proof. vm_compute. reflexivity. Qed.
Example CanCatchUndefinedDevice : exists e, npeAPI_make f32A (mkCfg "undefined_af" "fast" 128 true true false (f_zero f32A)) = Throw e.
Proof. eexists. vm_compute. reflexivity. Qed.
Example CanCatchInvalidConfig : exists e, npeAPI_make f32A (config_of "fast" 0) = Throw e.
Proof. eexists. vm_compute. reflexivity. Qed.
(* 31-55: the multicast share of the link utilisation is within 0.001 of one *)
Definition mcast_share (r : outcome (npe_result f32A)) : option bool :=
  match r with
  | Ok (Stats s) =>
      option_map (fun e => let u := ds_avg_lu f32A (snd e) in let m := ds_avg_mc f32A (snd e) in let q := d_div f32A m u in
                           d_lt f32A (d_ofZ f32A 0) u && d_lt f32A (d_ofZ f32A 0) m &&
                           d_lt f32A (d_lit f32A 999 1000) q && d_lt f32A q (d_lit f32A 1001 1000))
                 (find (fun e => fst e =? MESH_DEVICE) s)
  | _ => None
  end.
Definition ValidatesMulticastUtilizationFromTrace_run := Eval vm_compute in (mcast_share (let! w := loaded "cpp/test/data/mcast-util-trace-small.json" "wormhole_b0" true mcast_trace in
               runNPE f32A same_links same_buckets wormhole_b0 (config_of "fast" 32) w)).
Example ValidatesMulticastUtilizationFromTrace : ValidatesMulticastUtilizationFromTrace_run = Some true.
Proof. reflexivity. Qed.

(** * test_bindings.py *)
(* 9-16, 27-35 *)
Example test_npe_init : shown (InitAPI f32A (config_of "fast" 128)) = Some (Some wormhole_b0).
Proof. vm_compute. reflexivity. Qed.
Example test_npe_invalid_init : shown (InitAPI f32A (mkCfg "dne" "fast" 128 true true false (f_zero f32A))) = Some None.
Proof. vm_compute. reflexivity. Qed.
Example test_npe_can_change_config_fields : shown (InitAPI f32A (config_of "none" 64)) = Some (Some wormhole_b0).
Proof. vm_compute. reflexivity. Qed.
(* 42-47 *)
Definition test_npe_run_workload_run := Eval vm_compute in (outcome_of (let! w := loaded "workload/example_wl.json" "wormhole_b0" false example_wl in runNPE f32A same_links same_buckets wormhole_b0 (config_of "fast" 128) w)).
Example test_npe_run_workload : test_npe_run_workload_run = Some (Some 467).
Proof. reflexivity. Qed.
Definition write (noc : noc_type) (psize npkts : Z) (src dst : Z * Z * Z) : transfer (F f32A) :=
  tr_make psize npkts (at_core src) (Unicast (at_core dst)) (f_zero f32A) 0 noc "" "" (-1) (-1) (-1).
Definition api_run (cpt : Z) (ts : list (transfer (F f32A))) : option (option Z) :=
  outcome_of (let! w := windowed ts in runNPE f32A same_links same_buckets wormhole_b0 (config_of "fast" cpt) w).
(* 70-87 *)
Definition test_npe_create_and_run_synthetic_workload_run := Eval vm_compute in (api_run 128 [write NOC0 2048 10 (0,1,1) (0,1,5)]).
Example test_npe_create_and_run_synthetic_workload : test_npe_create_and_run_synthetic_workload_run = Some (Some 854).
Proof. reflexivity. Qed.
(* 90-117, with fixed numbers in place of random ones *)
Definition draw (k i n : Z) : Z := (i * (2 * k + 7) * (i + 3 * k + 1) / 5 + k) mod n.
Definition larger : list (transfer (F f32A)) :=
  map (fun i => write (if draw 7 i 2 =? 0 then NOC0 else NOC1) ((2 + draw 1 i 14) * 256) (2 + draw 2 i 8) (0, 1 + draw 3 i 7, 1 + draw 4 i 7) (0, 1 + draw 5 i 7, 1 + draw 6 i 7)) (upto 64).
Definition test_npe_create_and_run_larger_synthetic_workload_run := Eval vm_compute in (api_run 128 larger).
Example test_npe_create_and_run_larger_synthetic_workload : test_npe_create_and_run_larger_synthetic_workload_run = Some (Some 3722).
Proof. reflexivity. Qed.
