(* C64-C68: the timeline files: zones, names, transfer groups, timesteps, chips. *)
From Coq Require Import ZArith String List Bool Permutation Sorting.Sorted Floats.SpecFloat.
From Verif Require Import Base Arith Util Json Device Workload SpecWorkload Rates Stats Engine SpecEngine SpecStats Timeline SpecTimeline SpecRates SpecDevice Cases EngineWitness TimelineWitness SpecZones ZoneProofs ZoneWitness Files SpecFiles FilesProofs FilesWitness SpecGroups GroupProofs GroupSpan GroupWitness SpecDemands DemandProofs ChipProofs DemandWitness.
Import ListNotations.
Local Open Scope list_scope.
Open Scope Z_scope.

(** * C64: The zones in a timeline file are the zones of the workload *)
(* numbered, with their cycles and nesting; full statement: without [unshadowed], and for a split file the entries of all zones inside the region *)
Theorem C64_zones_partial : forall A ord bord gord zord, map_order zord -> forall topo d cpt wl thr model stt files r tl k f,
  runWithTimeline A ord bord gord zord topo false thr d model cpt wl = Ok (Stats stt, files) -> document A files r tl ->
  tail_open f -> Forall (unshadowed []) f -> In (k, flat_map zevents f) (wl_zones wl) -> In (k, all_entries r [] f) (tl_zones A tl).
Proof. exact timeline_zones. Qed.
Print Assumptions C64_zones_partial.
(* no processor is added or lost; the zones of every processor are nested *)
Theorem C64_only : forall A ord bord gord zord, map_order zord -> forall topo d cpt wl thr model stt files r tl,
  runWithTimeline A ord bord gord zord topo false thr d model cpt wl = Ok (Stats stt, files) -> document A files r tl ->
  Permutation (map fst (tl_zones A tl)) (map fst (wl_zones wl)) /\
  forall k zs, In (k, zs) (wl_zones wl) -> exists f, tail_open f /\ zs = flat_map zevents f.
Proof. exact timeline_zones_only. Qed.
Print Assumptions C64_only.
(* a zone inside the region of a split file is missing because the zone around it is not inside *)
Theorem C64_split_refuted : exists thr cpt wl stt files rg tl k f n a b, proper wl /\ proper_cpt cpt /\ 0 < thr /\ tl_run thr cpt wl = Ok (Stats stt, files) /\
  document f32A files (Some rg) tl /\ forallb closed f = true /\ Forall (unshadowed []) f /\ wl_zones wl = [(k, flat_map zevents f)] /\
  In (mkZone a n ZONE_START) (flat_map zevents f) /\ In (mkZone b n ZONE_END) (flat_map zevents f) /\ inside (Some rg) a b = true /\ tl_zones f32A tl = [(k, [])].
Proof. exact inner_dropped. Qed.
Print Assumptions C64_split_refuted.
(* two nested zones of one name that begin in the same cycle: the inner one is overwritten *)
Theorem C64_shadow_refuted : exists thr cpt wl stt files tl k f n a b js, proper wl /\ proper_cpt cpt /\ 0 < thr /\ tl_run thr cpt wl = Ok (Stats stt, files) /\
  document f32A files None tl /\ forallb closed f = true /\ wl_zones wl = [(k, flat_map zevents f)] /\
  In (mkZone a n ZONE_START) (flat_map zevents f) /\ In (mkZone b n ZONE_END) (flat_map zevents f) /\ tl_zones f32A tl = [(k, js)] /\ ~ in_file n a b js.
Proof. exact shadow_lost. Qed.
Print Assumptions C64_shadow_refuted.
(* an end without a beginning is undefined behaviour, an end of another zone an error, though the simulation succeeds *)
Theorem C64_unmatched_refuted : exists thr cpt wl wl' k z n a, proper wl /\ proper_cpt cpt /\ 0 < thr /\
  (exists r, runSinglePerfSim f32A same_links same_buckets wormhole_b0 "fast" cpt wl = Ok r) /\ wl_zones wl = [(k, [z])] /\ z_phase z = ZONE_END /\
  tl_run thr cpt wl = UB "back() of an empty vector" /\
  wl' = setZones wl [(k, [mkZone a n ZONE_START; z])] /\ n <> z_name z /\ tl_run thr cpt wl' = Throw UNDEF_ERR.
Proof. exact unmatched_end. Qed.
Print Assumptions C64_unmatched_refuted.
Example C64_example : tail_open nested /\ Forall (unshadowed []) nested /\ map_order same_zones /\
  zone_view (tl_run 2 100 (with_zones (flat_map zevents nested))) = Some [
    (None, [(core, [ZJ 50 (Some ("A"%string, 0)) (Some 350) [ZJ 210 (Some ("B"%string, 0)) (Some 300) []; ZJ 310 (Some ("B"%string, 1)) (Some 340) []]; ZJ 360 None None []])]);
    (Some (0, 200), [(core, [ZJ 360 None None []])]); (Some (200, 400), [(core, [ZJ 360 None None []])]); (Some (0, 0), [(core, [ZJ 360 None None []])])].
Proof. split; [exact (proj1 nested_ok)|]. split; [exact (proj2 nested_ok)|]. split; [exact same_zones_order|]. vm_compute. reflexivity. Qed.

(** * C65: Every timeline file is written under its own name *)
Local Open Scope string_scope.
(* no file replaces another; every file that can be opened is there afterwards, and nothing else has changed *)
Theorem C65_written : forall A ord bord gord zord topo d cpt wl legacy thr model stt files,
  runWithTimeline A ord bord gord zord topo legacy thr d model cpt wl = Ok (Stats stt, files) ->
  forall opens tp wj z fs, NoDup (map (path_of A tp wj z) files) /\
    (forall c, In c files -> opens (path_of A tp wj z c) = true -> write_all A opens tp wj z files fs (path_of A tp wj z c) = Some c) /\
    (forall p, (forall c, In c files -> opens p = true -> path_of A tp wj z c <> p) -> write_all A opens tp wj z files fs p = fs p).
Proof. exact run_written. Qed.
Print Assumptions C65_written.
(* the names, for a given path, a workload with and without extension, and no path *)
Theorem C65_names : forall A ord bord gord zord topo d cpt wl legacy thr model stt files,
  runWithTimeline A ord bord gord zord topo legacy thr d model cpt wl = Ok (Stats stt, files) ->
  forall stem tp wj z c, ~ occurs ".npeviz" stem ->
  (tp = stem ++ ".npeviz" \/
   (tp = "" /\ exists name ext, wj = name ++ "." ++ ext /\ ~ occurs "." ext /\ stem = "npe_timeline_" ++ name) \/
   (tp = "" /\ wj <> "" /\ ~ occurs "." wj /\ stem = "npe_timeline_" ++ wj) \/ (tp = "" /\ wj = "" /\ stem = "npe_timeline")) ->
  In c files -> exists p, named stem c p /\ path_of A tp wj z c = if z then p ++ ".zst" else p.
Proof. exact run_names. Qed.
Print Assumptions C65_names.
(* two workload files whose timelines replace each other *)
Theorem C65_workloads_refuted : exists wl1 wl2 wj1 wj2, wj1 <> wj2 /\ overwritten wl1 wl2 "" wj1 "" wj2.
Proof. exact default_collides. Qed.
Print Assumptions C65_workloads_refuted.
(* two timeline paths whose split files replace each other *)
Theorem C65_paths_refuted : exists wl1 wl2 tp1 tp2, tp1 <> tp2 /\ overwritten wl1 wl2 tp1 "" tp2 "".
Proof. exact split_collides. Qed.
Print Assumptions C65_paths_refuted.
(* no file at all though the working directory and the directory of the workload are writable *)
Theorem C65_directory_refuted : exists wl thr cpt wj opens fs stt files, proper wl /\ proper_cpt cpt /\ (0 < thr)%Z /\ tl_run thr cpt wl = Ok (Stats stt, files) /\
  (forall p, directory p = "" \/ directory p = directory wj -> opens p = true) /\ files <> [] /\ forall p, write_all f32A opens "" wj false files fs p = fs p.
Proof. exact default_lost. Qed.
Print Assumptions C65_directory_refuted.
Example C65_example : match tl_run 2 100 wl_long with Ok (Stats _, files) => Some (map (path_of f32A "" "noc_trace.json" true) files) | _ => None end =
  Some ["npe_timeline_noc_trace.npeviz.zst"; "npe_timeline_noc_trace_split_0.npeviz.zst"; "npe_timeline_noc_trace_split_1.npeviz.zst"; "npe_timeline_noc_trace_split_2.npeviz.zst"].
Proof. vm_compute. reflexivity. Qed.

(** * C66: The transfer groups in a timeline file describe the transfers *)
(* every transfer is one segment, with its own route and cycles; a split file may leave out some *)
Theorem C66_segments : forall A ord bord, link_order ord -> bucket_order bord -> forall gord zord, map_order gord -> forall topo d cpt wl, supported d -> proper wl -> proper_cpt cpt ->
  Forall (on_grid d) (all_transfers wl) -> forall model thr stt files r tl,
  runWithTimeline A ord bord gord zord topo false thr d model cpt wl = Ok (Stats stt, files) -> document A files r tl ->
  exists sf ss rest, succeeds A ord bord d (negb (String.eqb model "none")) cpt wl sf /\ Permutation (ss ++ rest) (sm_sts A sf) /\ (r = None -> rest = []) /\
    Forall2 (describes A d) ss (flat_map (tg_route A) (tl_groups A tl)).
Proof. exact run_segments. Qed.
Print Assumptions C66_segments.
(* the members of a group, in the order of their indices, and its header *)
Theorem C66_group : forall A ord bord, link_order ord -> bucket_order bord -> forall gord zord, map_order gord -> forall topo d cpt wl, supported d -> proper wl -> proper_cpt cpt ->
  Forall (on_grid d) (all_transfers wl) -> forall model thr stt files r tl tg,
  registered wl -> wl_groups wl + Z.of_nat (List.length (all_transfers wl)) < 2 ^ 31 ->
  runWithTimeline A ord bord gord zord topo false thr d model cpt wl = Ok (Stats stt, files) -> document A files r tl -> In tg (tl_groups A tl) ->
  exists sf ss, succeeds A ord bord d (negb (String.eqb model "none")) cpt wl sf /\ members A wl (sm_sts A sf) (tg_id A tg) ss /\ header A d ss tg /\ Forall2 (describes A d) ss (tg_route A tg).
Proof. exact run_group. Qed.
Print Assumptions C66_group.
(* full statement: the interval of a group covers its segments. It is false, see C66_short_refuted and C66_late_refuted; it holds
   for a chain of transfers, and for a transfer without group *)
Theorem C66_span_partial : forall ord bord, link_order ord -> bucket_order bord -> forall gord zord, map_order gord -> forall topo d cpt wl, supported d -> proper wl -> proper_cpt cpt ->
  Forall (on_grid d) (all_transfers wl) -> forall model, Forall sound_transfer (all_transfers wl) -> cpt <= 2 ^ 30 -> forall thr stt files r tl tg,
  registered wl -> wl_groups wl + Z.of_nat (List.length (all_transfers wl)) < 2 ^ 31 ->
  runWithTimeline f32A ord bord gord zord topo false thr d model cpt wl = Ok (Stats stt, files) -> document f32A files r tl -> In tg (tl_groups f32A tl) ->
  chain f32A wl (tg_id f32A tg) -> Forall (fun sg => sg_start f32A sg <= 2 ^ 24) (tg_route f32A tg) ->
  Forall (fun sg => tg_start f32A tg <= sg_start f32A sg <= sg_end f32A sg /\ sg_end f32A sg <= tg_end f32A tg) (tg_route f32A tg).
Proof. exact run_span. Qed.
Print Assumptions C66_span_partial.
Theorem C66_short_refuted : exists wl thr cpt stt files tl tg sg, proper wl /\ proper_cpt cpt /\ Forall (on_grid wormhole_b0) (all_transfers wl) /\ Forall sound_transfer (all_transfers wl) /\ registered wl /\ 0 < thr /\
  tl_run thr cpt wl = Ok (Stats stt, files) /\ document f32A files None tl /\ In tg (tl_groups f32A tl) /\ In sg (tg_route f32A tg) /\ tg_end f32A tg < sg_end f32A sg.
Proof. exact group_short. Qed.
Print Assumptions C66_short_refuted.
Theorem C66_late_refuted : exists wl thr cpt stt files tl tg sg, proper wl /\ proper_cpt cpt /\ Forall (on_grid wormhole_b0) (all_transfers wl) /\ Forall sound_transfer (all_transfers wl) /\ registered wl /\ 0 < thr /\
  tl_run thr cpt wl = Ok (Stats stt, files) /\ document f32A files None tl /\ In tg (tl_groups f32A tl) /\ In sg (tg_route f32A tg) /\ sg_start f32A sg < tg_start f32A tg /\ tg_end f32A tg < tg_start f32A tg.
Proof. exact group_late. Qed.
Print Assumptions C66_late_refuted.
(* a chain of two hops, and a transfer of its own *)
Example C66_example : chain f32A wl_group 0 /\ Forall (on_grid wormhole_b0) (all_transfers wl_group) /\ Forall sound_transfer (all_transfers wl_group) /\ registered wl_group /\
  group_view (tl_run 10 100 wl_group) = Some [(0, 0, 320, [(0, 150); (220, 320)]); (1, 0, 20, [(0, 20)])].
Proof. exact group_chain. Qed.

(** * C67: Every timestep of a timeline file shows a simulated timestep *)
(* its interval, the demands above the threshold, and the groups of the transfers that take part *)
Theorem C67_steps : forall A ord bord, bucket_order bord -> forall gord zord topo d cpt wl, supported d -> proper wl -> proper_cpt cpt -> forall model thr stt files r tl p,
  runWithTimeline A ord bord gord zord topo false thr d model cpt wl = Ok (Stats stt, files) -> document A files r tl -> In p (tl_steps A tl) -> filler A p \/
  exists n s s', begins A ord bord d (negb (String.eqb model "none")) cpt wl n s /\ timestep A d (negb (String.eqb model "none")) cpt wl s = Ok s' /\ shows_demand A d cpt s s' p /\
    StronglySorted Z.lt (tp_active A p) /\ forall g, In g (tp_active A p) <-> exists i, takes_part s s' i /\ label wl i g.
Proof. exact run_steps. Qed.
Print Assumptions C67_steps.
(* the legacy format: timesteps with transfers in place of groups, and the transfers *)
Theorem C67_legacy_steps : forall A ord bord, bucket_order bord -> forall gord zord topo d cpt wl, supported d -> proper wl -> proper_cpt cpt -> forall model thr stt files doc,
  runWithTimeline A ord bord gord zord topo true thr d model cpt wl = Ok (Stats stt, files) -> In (FullV0 A doc) files -> Forall (fun p => filler A p \/
  exists n s s', begins A ord bord d (negb (String.eqb model "none")) cpt wl n s /\ timestep A d (negb (String.eqb model "none")) cpt wl s = Ok s' /\ shows_demand A d cpt s s' p /\
    NoDup (tp_active A p) /\ forall i, In i (tp_active A p) <-> exists k, takes_part s s' k /\ i = Z.of_nat k) (v0_steps A doc).
Proof. exact run_legacy. Qed.
Print Assumptions C67_legacy_steps.
Theorem C67_legacy_transfers : forall A ord bord, link_order ord -> bucket_order bord -> forall gord zord topo d cpt wl, supported d -> proper wl -> proper_cpt cpt -> Forall (on_grid d) (all_transfers wl) ->
  forall model thr stt files doc, runWithTimeline A ord bord gord zord topo true thr d model cpt wl = Ok (Stats stt, files) -> In (FullV0 A doc) files ->
  exists sf, succeeds A ord bord d (negb (String.eqb model "none")) cpt wl sf /\ Forall2 (fun x v => v0_id A v = t_id (s_tr x) /\ v0_state A v = x /\
    exists sg, describes A d x sg /\ v0_dst A v = sg_dst A sg /\ v0_route A v = sg_links A sg) (sm_sts A sf) (v0_transfers A doc).
Proof. exact legacy_transfers. Qed.
Print Assumptions C67_legacy_transfers.
(* without congestion model a file shows no demand *)
Theorem C67_no_congestion : forall A ord bord, bucket_order bord -> forall gord zord topo d cpt wl, supported d -> proper wl -> proper_cpt cpt -> forall model thr stt files r tl p,
  f_lt A (f_lit A 1 1000) (f_zero A) = false -> negb (String.eqb model "none") = false ->
  runWithTimeline A ord bord gord zord topo false thr d model cpt wl = Ok (Stats stt, files) -> document A files r tl -> In p (tl_steps A tl) -> tp_demand A p = [].
Proof. exact run_calm. Qed.
Print Assumptions C67_no_congestion.
(* 1.5 bytes per cycle in the first timestep, 1 in the second *)
Example C67_example : let wl := build f32A [xfer f32A 120 (0,1,1) (0,1,3) 50; xfer f32A 10 (0,1,1) (0,1,3) 0] in
  let at_core c := mkCoord 0 1 c in let load v := [(at_core 1, HopIn NOC0, v); (at_core 3, HopOut NOC0, v); (at_core 1, HopLink NOC0_EAST, v); (at_core 2, HopLink NOC0_EAST, v)] in
  f_lt f32A (f_lit f32A 1 1000) (f_zero f32A) = false /\ proper wl /\ proper_cpt 100 /\ supported wormhole_b0 /\
  step_view (tl_run 10 100 wl) = Some [(0, 100, [0; 1], load (S754_finite false 12582912 (-23))); (100, 200, [0], load (S754_finite false 8388608 (-23))); (0, 0, [], [])].
Proof.
  split; [reflexivity|]. split; [apply proper_case; vm_compute; reflexivity|]. split; [exact (proj1 (proj2 chips_proper))|]. split; [exists "wormhole_b0"%string; left; reflexivity|]. vm_compute. reflexivity.
Qed.

(** * C68: Every chip has its position in a timeline file *)
Theorem C68_mesh_partial : forall A ord bord gord zord topo d cpt wl thr model stt files r tl ns ew nodes j, (1 < dv_chips d)%nat -> topo = TopoJson j -> mesh_topology ns ew nodes j ->
  0 < ns -> 0 < ew -> ns * ew < 2 ^ 31 -> Forall (fun e => 0 <= snd (snd e) < ns * ew) nodes -> NoDup (map (fun e => snd (snd e)) nodes) ->
  runWithTimeline A ord bord gord zord topo false thr d model cpt wl = Ok (Stats stt, files) -> document A files r tl ->
  Forall2 (placed ns ew) nodes (tl_chips A tl) /\ NoDup (map snd (tl_chips A tl)).
Proof. exact run_mesh. Qed.
Print Assumptions C68_mesh_partial.
Theorem C68_single : forall A ord bord gord zord topo d cpt wl thr model stt files r tl, dv_chips d = 1%nat ->
  runWithTimeline A ord bord gord zord topo false thr d model cpt wl = Ok (Stats stt, files) -> document A files r tl -> tl_chips A tl = [("0"%string, [0; 0; 0; 0])].
Proof. exact run_single. Qed.
Print Assumptions C68_single.
(* several chips and no topology: the run succeeds, but its files are empty *)
Theorem C68_topology_refuted : exists d cpt wl stt files, supported d /\ proper wl /\ proper_cpt cpt /\
  runWithTimeline f32A same_links same_buckets same_groups same_zones TopoUnset false 10 d "fast" cpt wl = Ok (Stats stt, files) /\ files <> [] /\ forall r tl, ~ document f32A files r tl.
Proof. exact no_topology. Qed.
Print Assumptions C68_topology_refuted.
(* two meshes: no device has a position *)
Theorem C68_meshes_refuted : exists d cpt wl s1 s2 nodes stt files r tl, supported d /\ proper wl /\ proper_cpt cpt /\ List.length nodes = dv_chips d /\ NoDup (map fst nodes) /\ NoDup (map snd nodes) /\
  runWithTimeline f32A same_links same_buckets same_groups same_zones (TopoJson (mesh_json [s1; s2] nodes)) false 10 d "fast" cpt wl = Ok (Stats stt, files) /\ document f32A files r tl /\ tl_chips f32A tl = [].
Proof. exact two_meshes. Qed.
Print Assumptions C68_meshes_refuted.
Example C68_example : let nodes := [("0", (0, 1)); ("1", (0, 0))]%string in
  mesh_topology 1 2 nodes (mesh_json [(1, 2)] nodes) /\ chip_view (mesh_run (TopoJson (mesh_json [(1, 2)] nodes)) wl_chips) = Some [Some [("0"%string, [1; 0; 0; 0]); ("1"%string, [0; 0; 0; 0])]].
Proof.
  split; [|vm_compute; reflexivity]. exists (JObject [("shape"%string, JArray [JInt 1; JInt 2])]). split; [eexists; split; reflexivity|]. split; eexists; split; reflexivity.
Qed.
