(* C47-C50, C52: the loaders of workloads and traces. *)
From Coq Require Import ZArith String List Bool.
From Verif Require Import Base Arith Util Device Workload SpecWorkload Json Ingest SpecIngest IngestProofs IngestFacts IngestWitness.
Import ListNotations.
Local Open Scope string_scope.
Local Open Scope list_scope.
Open Scope Z_scope.

(** * C47: Trace ingestion keeps exactly the supported data movements *)
(* one phase, whose transfers are those of the events, in order: none for an event that moves no data, one for an event without
   fabric path ([transfer_of]: size, source and target exchanged for reads, time), those of the path otherwise ([path_transfers]) *)
Theorem C47_trace_events : forall path name f wl, convertNocTracesToNpeWorkload path name f = Ok (Some wl) ->
  exists d evs tss p, createDeviceModel name = Ok d /\ f = Parsed (JArray evs) /\ wl_phases wl = [p] /\
    Forall2 (fun a b => same_content a b /\ t_phase b = ph_id p) (concat tss) (ph_trs p) /\ map t_id (ph_trs p) = map Z.of_nat (seq 0 (List.length (ph_trs p))) /\
    List.length tss = List.length evs /\ forall i ev ts, nth_error evs i = Some ev -> nth_error tss i = Some ts -> yields d evs (firstn i evs) ev ts.
Proof. exact conversion. Qed.
Print Assumptions C47_trace_events.
(* a read from another chip: the coordinates of source and target are exchanged, the chips are not; the data leaves the chip that
   issued the read *)
Theorem C47_read_across_chips_refuted : exists name evs ev wl t, In ev evs /\ moves ev /\ text ev "type" "READ" /\
  int_or ev "src_device_id" 0 0 /\ int_or ev "dst_device_id" 0 1 /\
  convertNocTracesToNpeWorkload "t.json" name (Parsed (JArray evs)) = Ok (Some wl) /\ all_transfers wl = [t] /\
  c_dev (t_src t) = 0 /\ exists c, t_dst t = Unicast c /\ c_dev c = 1.
Proof. exact read_across_chips. Qed.
Print Assumptions C47_read_across_chips_refuted.
(* a write, a read (exchanged), a SET_STATE event, a barrier and a read through the saved state *)
Example C47_example : view (convertNocTracesToNpeWorkload "t.json" "wormhole_b0" (Parsed (JArray tr_plain))) =
  Some [(2048, mkCoord 0 1 1, Unicast (mkCoord 0 5 4), 120, -1, -1, -1); (64, mkCoord 0 5 4, Unicast (mkCoord 0 1 1), 290, -1, -1, -1);
        (32, mkCoord 0 8 7, Unicast (mkCoord 0 1 1), 310, -1, -1, -1)].
Proof. exact plain_converts. Qed.

(** * C48: WITH_STATE events use the state set by their own core *)
(* the only READ_SET_STATE event of the processor asks for (7, 8); its READ_WITH_STATE event reads from (3, 4), for another core *)
Theorem C48_own_state_refuted : exists name evs s ev wl t, In s evs /\ In ev evs /\ same_processor s ev /\ is_set Read s /\ int_or s "dx" (-1) 7 /\ int_or s "dy" (-1) 8 /\
  text ev "type" "READ_WITH_STATE" /\ (forall s', In s' evs -> is_set Read s' -> same_processor s' ev -> s' = s) /\
  convertNocTracesToNpeWorkload "t.json" name (Parsed (JArray evs)) = Ok (Some wl) /\ all_transfers wl = [t] /\
  t_src t = mkCoord 0 4 3 /\ t_dst t = Unicast (mkCoord 0 2 2).
Proof. exact state_of_another_core. Qed.
Print Assumptions C48_own_state_refuted.
(* true when no other processor has set a state of this kind before; full statement: without this hypothesis *)
Theorem C48_own_state_partial : forall path name wl evs, convertNocTracesToNpeWorkload path name (Parsed (JArray evs)) = Ok (Some wl) ->
  exists tss p, wl_phases wl = [p] /\ Forall2 same_content (concat tss) (ph_trs p) /\ List.length tss = List.length evs /\
  forall i ev ts ty k s st own, nth_error evs i = Some ev -> nth_error tss i = Some ts -> moves ev -> (forall f, ~ fabric ev f) -> text ev "type" ty -> In ty (with_types k) ->
    own_set k (firstn i evs) ev s -> (forall e, In e (firstn i evs) -> is_set k e -> same_processor e ev) -> own_fields s st -> own_fields ev own ->
    exists t q sx sy dx dy dev dst_dev c, ts = [t] /\ from_state st own q /\ data_source ty q sx sy /\ data_target ty q dx dy /\ int_or ev "src_device_id" 0 dev /\ int_or ev "dst_device_id" dev dst_dev /\
      t_psize t = rq_bytes q mod 2 ^ 32 /\ coord_is (t_src t) dev sy sx /\ t_dst t = Unicast c /\ coord_is c dst_dev dy dx.
Proof. exact state_of_own_core. Qed.
Print Assumptions C48_own_state_partial.

(** * C49: Trace conversion is total *)
Theorem C49_empty_refuted : convertNocTracesToNpeWorkload "t.json" "wormhole_b0" (Parsed (JArray [])) = UB "float to integer".
Proof. exact no_events. Qed.
Print Assumptions C49_empty_refuted.
(* a trace that converts for one chip, for a device with a second chip *)
Theorem C49_idle_chip_refuted : exists evs, Forall known_proc evs /\ Forall known_phase evs /\ Forall small_time evs /\ (forall ev, In ev evs -> int_or ev "src_device_id" (-1) 0) /\
  convertNocTracesToNpeWorkload "t.json" "wormhole_b0" (Parsed (JArray evs)) <> UB "float to integer" /\
  convertNocTracesToNpeWorkload "t.json" "N300" (Parsed (JArray evs)) = UB "float to integer".
Proof. exact idle_chip. Qed.
Print Assumptions C49_idle_chip_refuted.
Theorem C49_unknown_processor_refuted : exists ev, text ev "proc" "MRISC" /\ convertNocTracesToNpeWorkload "t.json" "wormhole_b0" (Parsed (JArray (tr_plain ++ [ev]))) = UB "empty optional".
Proof. exact unknown_processor. Qed.
Print Assumptions C49_unknown_processor_refuted.
Theorem C49_missing_processor_refuted : exists fs, text (JObject fs) "proc" "" /\ convertNocTracesToNpeWorkload "t.json" "wormhole_b0" (Parsed (JArray (tr_plain ++ [JObject fs]))) = UB "empty optional".
Proof. exact missing_processor. Qed.
Print Assumptions C49_missing_processor_refuted.
(* the phase names of the traces shipped with the project (RepoTests.v) *)
Theorem C49_phase_name_refuted : exists ev, text ev "zone_phase" "begin" /\ known_proc ev /\ convertNocTracesToNpeWorkload "t.json" "wormhole_b0" (Parsed (JArray (ev :: tr_plain))) = UB "empty optional".
Proof. exact unnamed_phase. Qed.
Print Assumptions C49_phase_name_refuted.
Theorem C49_without_zones_refuted : exists evs, evs <> [] /\ Forall moves evs /\ Forall known_proc evs /\ convertNocTracesToNpeWorkload "t.json" "wormhole_b0" (Parsed (JArray evs)) = UB "null pointer".
Proof. exact without_zones. Qed.
Print Assumptions C49_without_zones_refuted.
(* total on [clean] traces: known processors and phases, 0 <= timestamps <= 2^53, every chip has an event, the first event's core
   has a zone, coordinates of 32 bits, fewer than 2^31 transfers *)
Theorem C49_clean_partial : forall path name d accept evs, createDeviceModel name = Ok d -> clean d evs ->
  exists o, createWorkloadFromJSON path name true accept (Parsed (JArray evs)) = Ok o.
Proof. exact clean_name. Qed.
Print Assumptions C49_clean_partial.
Example C49_example : clean wormhole_b0 tr_plain.
Proof. exact plain_clean. Qed.

(** * C50: Fabric paths become parent chains *)
(* a fabric event has a group of its own, the transfers are numbered from 0 in it; for a path of n complete segments that only
   forward, each with its predecessor as parent in the trace, n transfers form a chain; full statement: for every path *)
Theorem C50_chain_partial : forall path name wl evs, convertNocTracesToNpeWorkload path name (Parsed (JArray evs)) = Ok (Some wl) ->
  exists tss p, wl_phases wl = [p] /\ Forall2 same_content (concat tss) (ph_trs p) /\ List.length tss = List.length evs /\
  forall i ev ts segs q, nth_error evs i = Some ev -> nth_error tss i = Some ts -> moves ev -> path_of ev segs -> requests (firstn i evs) ev q ->
    exists g, 0 <= g < wl_groups wl /\ Forall (fun t => t_gid t = g) ts /\ map t_gix ts = map Z.of_nat (seq 0 (List.length ts)) /\
      (forall k ts', k <> i -> nth_error tss k = Some ts' -> Forall (fun t => t_gid t <> g) ts') /\
      (chain_path segs -> List.length ts = List.length segs /\ forall n t, nth_error ts n = Some t -> t_gpar t = Z.of_nat n - 1 /\
         exists r s c, nth_error segs n = Some r /\ segment r s /\ t_psize t = rq_bytes q mod 2 ^ 32 /\ coord_is (t_src t) (sg_dev s) (sg_sy s) (sg_sx s) /\ t_dst t = Unicast c /\ coord_is c (sg_dev s) (sg_fy s) (sg_fx s)).
Proof. exact fabric_chain. Qed.
Print Assumptions C50_chain_partial.
(* three segments, each the child of the one before; the second one is skipped, the third becomes its own parent *)
Theorem C50_skipped_refuted : exists ev segs wl, moves ev /\ path_of ev segs /\ List.length segs = 3%nat /\
  (forall i r, nth_error segs i = Some r -> int_or r "parent_id" (-1) (Z.of_nat i - 1)) /\
  convertNocTracesToNpeWorkload "t.json" "wormhole_b0" (Parsed (JArray [zone_event "BRISC" 0 1 1 100 "KERNEL" "ZONE_START"; ev])) = Ok (Some wl) /\
  map (fun t => (t_gid t, t_gix t, t_gpar t)) (all_transfers wl) = [(0, 0, -1); (0, 1, 1)].
Proof. exact skipped_segment. Qed.
Print Assumptions C50_skipped_refuted.
(* no trace with a fabric path converts for a Blackhole device: the switch has no break *)
Theorem C50_blackhole_refuted : exists ev segs, moves ev /\ path_of ev segs /\ List.length segs = 3%nat /\ (forall i r, nth_error segs i = Some r -> exists s, complete r s) /\
  createWorkloadFromJSON "t.json" "P150" true true (Parsed (JArray [zone_event "BRISC" 0 1 1 100 "KERNEL" "ZONE_START"; ev])) = Ok None.
Proof. exact blackhole_chain. Qed.
Print Assumptions C50_blackhole_refuted.
Theorem C50_blackhole : forall path name wl evs d ev segs, createDeviceModel name = Ok d -> dv_arch d = Blackhole -> convertNocTracesToNpeWorkload path name (Parsed (JArray evs)) = Ok (Some wl) ->
  In ev evs -> moves ev -> path_of ev segs -> segs = [].
Proof. exact blackhole_fabric. Qed.
Print Assumptions C50_blackhole.
Example C50_example : view (convertNocTracesToNpeWorkload "t.json" "wormhole_b0" (Parsed (JArray (tr_fabric chain3)))) =
  Some [(64, mkCoord 0 1 1, Unicast (mkCoord 0 1 2), 70, 0, 0, -1); (64, mkCoord 0 1 1, Unicast (mkCoord 0 1 3), 70, 0, 1, 0); (64, mkCoord 0 1 1, Unicast (mkCoord 0 1 4), 70, 0, 2, 1)].
Proof. exact chain_converts. Qed.

(** * C52: The workload JSON loader creates the described transfers *)
(* a loaded file gives one transfer for each well-formed entry, phase by phase and in order ([loads]) *)
Theorem C52_loaded : forall path accept f wl, loadJSONWorkloadFormat path accept f = Ok (Some wl) ->
  exists j ps, f = Parsed j /\ accept = true /\ holds j "phases" (JArray ps) /\ (Z.of_nat (List.length ps) <= 2 ^ 31 -> dense wl) /\ wl_path wl = Some path /\ wl_zones wl = [] /\ wl_groups wl = 0 /\
    (forall g n, holds j "golden_result" g -> holds g "cycles" (JInt n) -> getGoldenResultCycles wl 0 = Ok (0, n mod 2 ^ 32)) /\
    (no_golden j -> wl_golden wl = []) /\
    Forall2 (fun p q => exists es ts, holds p "transfers" (JArray es) /\ loads es ts /\ Forall2 same_content ts (ph_trs q)) ps (wl_phases wl).
Proof. exact workload_loaded. Qed.
Print Assumptions C52_loaded.
(* files that are loaded; full statement: malformed entries never prevent this *)
Theorem C52_accepted_partial : forall path j fs ps ess, j = JObject fs -> holds j "phases" (JArray ps) ->
  (no_golden j \/ exists g n, holds j "golden_result" g /\ holds g "cycles" (JInt n) /\ 0 <= n) ->
  Forall2 (fun p es => holds p "transfers" (JArray es) /\ Forall (fun e => ~ reversed e) es) ps ess -> Z.of_nat (List.length (concat ess)) < 2 ^ 31 ->
  exists wl, loadJSONWorkloadFormat path true (Parsed j) = Ok (Some wl).
Proof. exact file_accepted. Qed.
Print Assumptions C52_accepted_partial.
(* an entry whose rectangle is reversed prevents the whole file from being loaded *)
Theorem C52_reversed_refuted : exists e e', well_formed_entry e /\ reversed e' /\
  loadJSONWorkloadFormat "w.json" true (Parsed (JObject [("phases", JArray [JObject [("transfers", JArray [e; e'])]])])) = Throw UNDEF_ERR /\
  createWorkloadFromJSON "w.json" "wormhole_b0" false true (Parsed (JObject [("phases", JArray [JObject [("transfers", JArray [e; e'])]])])) = Ok None.
Proof. exact reversed_entry. Qed.
Print Assumptions C52_reversed_refuted.
(* a phase without transfers: the file is then read as a trace, and an exception escapes *)
Theorem C52_phase_refuted : exists e, well_formed_entry e /\
  createWorkloadFromJSON "w.json" "wormhole_b0" false true (Parsed (JObject [("phases", JArray [JObject [("transfers", JArray [e])]; JObject []])])) = StdThrow "simdjson_error".
Proof. exact phase_without_transfers. Qed.
Print Assumptions C52_phase_refuted.
(* numbers that do not fit are truncated: a packet of 4294967360 bytes becomes one of 64 bytes, column 65540 becomes 4 *)
Theorem C52_large_refuted : exists e wl t, well_formed_entry e /\ int_field e "packet_size" 4294967360 /\ int_field e "dst_x" 65540 /\
  createWorkloadFromJSON "w.json" "wormhole_b0" false true (Parsed (JObject [("phases", JArray [JObject [("transfers", JArray [e])]])])) = Ok (Some wl) /\
  all_transfers wl = [t] /\ t_psize t = 64 /\ exists c, t_dst t = Unicast c /\ c_col c = 4.
Proof. exact large_fields. Qed.
Print Assumptions C52_large_refuted.
(* the second entry is malformed and skipped *)
Example C52_example : view (createWorkloadFromJSON "w.json" "wormhole_b0" false true (Parsed (wl_file [entry 64 10 1 1 4 5 "NOC_0"; JObject [N "packet_size" 3]; mcast_entry 32 2 1 1 2 3 4 5]))) =
  Some [(64, mkCoord 0 1 1, Unicast (mkCoord 0 5 4), 0, -1, -1, -1); (32, mkCoord 0 1 1, Multicast [mkGrid (mkCoord 0 3 2) (mkCoord 0 5 4)], 0, -1, -1, -1)].
Proof. exact load_example. Qed.
