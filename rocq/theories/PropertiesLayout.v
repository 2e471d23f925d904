(* C81: the documents in the timeline files. *)
From Coq Require Import ZArith String List Bool.
From Verif Require Import Base Arith Util Json Device SpecDevice Workload SpecWorkload Rates Stats Engine SpecEngine SpecStats Cases EngineWitness Timeline SpecTimeline TimelineWitness EmitWitness DemandWitness
  Layout SpecLayout LayoutProofs LayoutWitness.
Import ListNotations.
Local Open Scope string_scope.
Local Open Scope list_scope.
Open Scope Z_scope.

(** * C81: Timeline files can be read back *)
(* a reader finds in every file the header of the simulation, its place among the split files, and the chips, transfers, zones and
   timesteps selected for it. [r]: the number and the region of a split file *)
Theorem C81_read : forall ord bord gord zord, map_order zord -> forall name model cpt d topo wl thr stt files ds r tl, 0 <= thr ->
  runWithTimeline f32A ord bord gord zord topo false thr d model cpt wl = Ok (Stats stt, files) -> stats_get f32A stt MESH_DEVICE = Some ds ->
  (In (FullV1 f32A (Some tl)) files /\ r = None) \/ (exists k rg, In (Split f32A k rg (Some tl)) files /\ r = Some (k, rg)) ->
  read_file (file_json name model cpt d wl ds thr (match r with None => FullV1 f32A (Some tl) | Some (k, rg) => Split f32A k rg (Some tl) end)) =
    Some (v_file name model cpt d ds (Z.of_nat (List.length files) - 1) r tl).
Proof. exact run_read. Qed.
Print Assumptions C81_read.
(* every file has the layout of the schema file, with the names the program uses; numbers are null only if one is not finite *)
Theorem C81_layout_partial : forall ord bord gord zord name model cpt d topo wl thr stt files ds r tl,
  runWithTimeline f32A ord bord gord zord topo false thr d model cpt wl = Ok (Stats stt, files) -> stats_get f32A stt MESH_DEVICE = Some ds ->
  (In (FullV1 f32A (Some tl)) files /\ r = None) \/ (exists k rg, In (Split f32A k rg (Some tl)) files /\ r = Some (k, rg)) ->
  fits (emitted_schema (number_of (file_numbers ds tl)))
    (file_json name model cpt d wl ds thr (match r with None => FullV1 f32A (Some tl) | Some (k, rg) => Split f32A k rg (Some tl) end)).
Proof. exact run_layout. Qed.
Print Assumptions C81_layout_partial.
Theorem C81_legacy : forall ord bord gord zord name model cpt d topo wl thr stt files ds,
  runWithTimeline f32A ord bord gord zord topo true thr d model cpt wl = Ok (Stats stt, files) -> stats_get f32A stt MESH_DEVICE = Some ds ->
  exists s doc, succeeds f32A ord bord d (negb (String.eqb model "none")) cpt wl s /\ files = [FullV0 f32A doc] /\
    read_legacy (file_json name model cpt d wl ds thr (FullV0 f32A doc)) = Some (v_legacy name model cpt d ds (sm_sts f32A s) doc) /\
    fits (emitted_legacy (number_of (legacy_numbers ds doc))) (file_json name model cpt d wl ds thr (FullV0 f32A doc)).
Proof. exact run_old. Qed.
Print Assumptions C81_legacy.
(* a file without document cannot be read: it is null, or holds the description of the split only *)
Theorem C81_empty : forall name model cpt d wl thr ds c, (c = FullV1 f32A None \/ exists k rg, c = Split f32A k rg None) ->
  read_file (file_json name model cpt d wl ds thr c) = None /\ forall sh, ~ fits (emitted_schema sh) (file_json name model cpt d wl ds thr c).
Proof. exact no_document. Qed.
Print Assumptions C81_empty.
Theorem C81_empty_text : forall name model cpt d wl thr ds,
  file_json name model cpt d wl ds thr (FullV1 f32A None) = JNull /\
  forall k rg, exists v, file_json name model cpt d wl ds thr (Split f32A k rg None) = JObject [("common_info", JObject [("split_info", v)])] /\
    r_split v = Some (mkPv k (num_splits (Z.of_nat (List.length (ds_ts f32A ds))) thr) (rg_first rg) (rg_last rg) (rg_start rg) (rg_end rg)).
Proof. exact no_document_text. Qed.
Print Assumptions C81_empty_text.
(* no file ever has the keys of the schema files: NOC_0, transfer_id, avg_demand, avg_util *)
Theorem C81_documented_never : forall name model cpt d wl thr ds c, ~ fits documented_schema (file_json name model cpt d wl ds thr c) /\
  (forall t, c = FullV0 f32A t -> v0_transfers _ t <> [] -> ~ fits documented_legacy (file_json name model cpt d wl ds thr c)).
Proof. exact never_documented. Qed.
Print Assumptions C81_documented_never.
(* with an empty golden window the utilisation of the DRAM is null *)
Theorem C81_null_refuted : exists wl stt files ds tl, proper wl /\ proper_cpt 100 /\ run1 false wormhole_b0 TopoUnset wl = Ok (Stats stt, files) /\
  stats_get f32A stt MESH_DEVICE = Some ds /\ In (FullV1 f32A (Some tl)) files /\
  ~ fits (emitted_schema SNum) (file_json "wormhole_b0" "fast" 100 wormhole_b0 wl ds 10 (FullV1 f32A (Some tl))).
Proof. exact null_number. Qed.
Print Assumptions C81_null_refuted.
(* the legacy file does not say on which chip a transfer is: two different workloads have the same file *)
Theorem C81_legacy_refuted : exists wl wl' stt stt' ds ds' doc doc', proper wl /\ proper wl' /\ proper_cpt 100 /\ map t_src (all_transfers wl) <> map t_src (all_transfers wl') /\
  run1 true (wormhole_multichip 2) TopoUnset wl = Ok (Stats stt, [FullV0 f32A doc]) /\ stats_get f32A stt MESH_DEVICE = Some ds /\
  run1 true (wormhole_multichip 2) TopoUnset wl' = Ok (Stats stt', [FullV0 f32A doc']) /\ stats_get f32A stt' MESH_DEVICE = Some ds' /\
  file_json "N300" "fast" 100 (wormhole_multichip 2) wl ds 10 (FullV0 f32A doc) = file_json "N300" "fast" 100 (wormhole_multichip 2) wl' ds' 10 (FullV0 f32A doc').
Proof. exact same_legacy. Qed.
Print Assumptions C81_legacy_refuted.
(* three split files: header, place, numbers of chips, transfers, zones and timesteps *)
Example C81_example :
  option_map (map (fun j => file_summary (read_file j)))
    (json_view "N300" (wormhole_multichip 2) wl_emit 1 (runWithTimeline f32A same_links same_buckets same_groups same_zones (TopoJson two_chips) false 1 (wormhole_multichip 2) "fast" 100 wl_emit)) =
  Some [Some ("N300", "wormhole_b0", 10, None, [2; 2; 1; 3]%nat); Some ("N300", "wormhole_b0", 10, Some (0, 3, 0, 1), [2; 2; 1; 2]%nat);
        Some ("N300", "wormhole_b0", 10, Some (1, 3, 1, 2), [2; 1; 1; 1]%nat); Some ("N300", "wormhole_b0", 10, Some (2, 3, 2, 3), [2; 0; 1; 1]%nat)].
Proof. vm_compute. reflexivity. Qed.
