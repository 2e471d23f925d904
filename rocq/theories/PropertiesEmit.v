(* C78: the timeline of a finished simulation is emitted. *)
From Coq Require Import ZArith String List Bool.
From Verif Require Import Base Arith Util Json Device SpecDevice Workload SpecWorkload Rates Stats Engine SpecEngine SpecRates SpecStats Cases EngineWitness Timeline SpecTimeline TimelineWitness SpecZones SpecGroups SpecDemands DemandWitness
  SpecEmit EmitProofs EmitExact EmitWitness.
Import ListNotations.
Local Open Scope list_scope.
Open Scope Z_scope.

(** * C78: The timeline of a finished simulation is emitted *)
Theorem C78_emits_partial : forall A ord, link_order ord -> forall bord, bucket_order bord -> forall gord, map_order gord -> forall zord, map_order zord ->
  forall d, supported d -> forall cpt wl, proper wl -> proper_cpt cpt -> forall model, Forall (accepted d) (all_transfers wl) ->
  forall topo thr stt, window_from wl -> registered wl -> wl_groups wl + Z.of_nat (List.length (all_transfers wl)) < 2 ^ 31 -> nested_zones wl -> 0 < thr ->
  mesh_known d topo \/ mesh_unknown d topo -> runSinglePerfSim A ord bord d model cpt wl = Ok (Stats stt) ->
  exists ds files, stats_get A stt MESH_DEVICE = Some ds /\ runWithTimeline A ord bord gord zord topo false thr d model cpt wl = Ok (Stats stt, files) /\
    file_count (Z.of_nat (List.length (ds_ts A ds))) thr (Z.of_nat (List.length files)) /\ (mesh_known d topo -> Forall has_document files).
Proof. exact run_emits. Qed.
Print Assumptions C78_emits_partial.
(* exactly when, for all topologies and all zones that are kept apart *)
Theorem C78_exact : forall A ord, link_order ord -> forall bord, bucket_order bord -> forall gord, map_order gord -> forall zord, map_order zord ->
  forall d, supported d -> forall cpt wl, proper wl -> proper_cpt cpt -> forall model, Forall (accepted d) (all_transfers wl) ->
  forall topo thr stt, window_from wl -> registered wl -> wl_groups wl + Z.of_nat (List.length (all_transfers wl)) < 2 ^ 31 -> apart_zones wl -> 0 < thr ->
  runSinglePerfSim A ord bord d model cpt wl = Ok (Stats stt) ->
  ((exists files, runWithTimeline A ord bord gord zord topo false thr d model cpt wl = Ok (Stats stt, files)) <->
     topology_read d topo /\ (chips_known d topo -> matched_zones wl)) /\
  (forall files, runWithTimeline A ord bord gord zord topo false thr d model cpt wl = Ok (Stats stt, files) ->
     Forall (fun c => has_document c <-> chips_known d topo) files).
Proof. exact run_exact. Qed.
Print Assumptions C78_exact.
Theorem C78_legacy : forall A ord, link_order ord -> forall bord, bucket_order bord -> forall gord zord d, supported d -> forall cpt wl, proper wl -> proper_cpt cpt ->
  forall model, Forall (accepted d) (all_transfers wl) -> forall topo thr stt, runSinglePerfSim A ord bord d model cpt wl = Ok (Stats stt) ->
  exists doc, runWithTimeline A ord bord gord zord topo true thr d model cpt wl = Ok (Stats stt, [FullV0 A doc]).
Proof. exact run_emits_legacy. Qed.
Print Assumptions C78_legacy.
Theorem C78_failed : forall A ord bord gord zord topo legacy thr d model cpt wl e, runSinglePerfSim A ord bord d model cpt wl = Ok (Failure e) ->
  runWithTimeline A ord bord gord zord topo legacy thr d model cpt wl = Ok (Failure e, []).
Proof. exact run_no_files. Qed.
Print Assumptions C78_failed.
(* the topology file is read but not checked: a successful simulation ends in a division by zero or in an exception *)
Theorem C78_topology_refuted : exists d cpt wl stt j j' s, supported d /\ proper wl /\ proper_cpt cpt /\ Forall (accepted d) (all_transfers wl) /\ window_from wl /\ registered wl /\
  wl_groups wl + Z.of_nat (List.length (all_transfers wl)) < 2 ^ 31 /\ nested_zones wl /\ runSinglePerfSim f32A same_links same_buckets d "fast" cpt wl = Ok (Stats stt) /\
  runWithTimeline f32A same_links same_buckets same_groups same_zones (TopoJson j) false 10 d "fast" cpt wl = UB "division by zero" /\
  runWithTimeline f32A same_links same_buckets same_groups same_zones (TopoJson j') false 10 d "fast" cpt wl = StdThrow s.
Proof. exact bad_topology. Qed.
Print Assumptions C78_topology_refuted.
Example C78_example : Forall (accepted (wormhole_multichip 2)) (all_transfers wl_emit) /\ window_from wl_emit /\ nested_zones wl_emit /\ mesh_known (wormhole_multichip 2) (TopoJson two_chips) /\
  emit_view (runWithTimeline f32A same_links same_buckets same_groups same_zones (TopoJson two_chips) false 1 (wormhole_multichip 2) "fast" 100 wl_emit) =
    Some [(-1, 3%nat, 2%nat); (0, 2%nat, 2%nat); (1, 1%nat, 1%nat); (2, 1%nat, 0%nat)].
Proof. split; [exact emit_accepted|]. split; [exact emit_window|]. split; [exact emit_nested|]. split; [exact emit_mesh|]. vm_compute. reflexivity. Qed.
(* an entry that is not a pair of numbers: the files are emitted, without a document *)
Example C78_exact_example : apart_zones wl_emit /\ topology_read (wormhole_multichip 2) (TopoJson odd_mesh) /\ ~ chips_known (wormhole_multichip 2) (TopoJson odd_mesh) /\
  emit_view (runWithTimeline f32A same_links same_buckets same_groups same_zones (TopoJson odd_mesh) false 1 (wormhole_multichip 2) "fast" 100 wl_emit) =
    Some [(-2, 0%nat, 0%nat); (-2, 0%nat, 0%nat); (-2, 0%nat, 0%nat); (-2, 0%nat, 0%nat)].
Proof. split; [exact emit_apart|]. split; [exact (proj1 odd_read)|]. split; [exact (proj2 odd_read)|]. vm_compute. reflexivity. Qed.
