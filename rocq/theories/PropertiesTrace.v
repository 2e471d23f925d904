(* C56-C58: golden windows, zones and zone paths of traces. *)
From Coq Require Import ZArith String List Bool.
From Verif Require Import Base Arith Util Device Workload SpecWorkload Json Ingest SpecIngest SpecTrace TraceProofs IngestWitness TraceWitness.
Import ListNotations.
Local Open Scope string_scope.
Local Open Scope list_scope.
Open Scope Z_scope.

(** * C56: The golden window of a chip spans its events *)
(* from its first event to twenty cycles before its last one, counted from the first event of the trace, as 32-bit numbers *)
Theorem C56_window_partial : forall path name d evs wl, convertNocTracesToNpeWorkload path name (Parsed (JArray evs)) = Ok (Some wl) -> createDeviceModel name = Ok d ->
  Forall small_time evs -> forall t0 dev a b, earliest evs t0 -> In dev (dv_device_ids d) -> first_time evs dev a -> last_time evs dev b ->
  getGoldenResultCycles wl dev = Ok ((a - t0) mod 2 ^ 32, (b - t0 - 20) mod 2 ^ 32).
Proof. exact golden_windows. Qed.
Print Assumptions C56_window_partial.
(* the last event ten cycles after the first: the window ends at 4294967286 *)
Theorem C56_short_refuted : exists evs t0 a b wl, Forall small_time evs /\ earliest evs t0 /\ first_time evs 0 a /\ last_time evs 0 b /\ t0 <= a < b /\
  convertNocTracesToNpeWorkload "t.json" "wormhole_b0" (Parsed (JArray evs)) = Ok (Some wl) /\ getGoldenResultCycles wl 0 = Ok (0, 4294967286).
Proof. exact short_window. Qed.
Print Assumptions C56_short_refuted.
Example C56_example : exists wl, convertNocTracesToNpeWorkload "t.json" "wormhole_b0" (Parsed (JArray tr_plain)) = Ok (Some wl) /\ Forall small_time tr_plain /\ earliest tr_plain 100 /\
  first_time tr_plain 0 100 /\ last_time tr_plain 0 200 /\ getGoldenResultCycles wl 0 = Ok (0, 80).
Proof. exact plain_window. Qed.

(** * C57: The zones of a processor are its zone events *)
(* one list per processor, with its zone events in the order of the trace, at their times *)
Theorem C57_zones : forall path name evs wl, convertNocTracesToNpeWorkload path name (Parsed (JArray evs)) = Ok (Some wl) -> Forall small_time evs -> forall t0, earliest evs t0 ->
  NoDup (map fst (wl_zones wl)) /\ forall c r, exists l, collected t0 c r evs l /\ forall l', zone_list wl c r l' <-> l' = l.
Proof. exact trace_zones. Qed.
Print Assumptions C57_zones.
Example C57_example : made (convertNocTracesToNpeWorkload "t.json" "wormhole_b0" (Parsed (JArray tr_nested))) (fun wl =>
  wl_zones wl = [((mkCoord 0 1 1, BRISC), nested_zones); ((mkCoord 0 1 1, NCRISC), [mkZone 1 "READER" ZONE_START; mkZone 50 "READER" ZONE_END])]).
Proof. exact nested_listed. Qed.

(** * C58: Transfers are labelled with the zones that enclose them *)
(* for processors with zones, when the events of each processor are in the order of time; full statement: for all events *)
Theorem C58_path_partial : forall path name d evs wl, convertNocTracesToNpeWorkload path name (Parsed (JArray evs)) = Ok (Some wl) -> createDeviceModel name = Ok d ->
  Forall small_time evs -> in_order evs -> forall t0, earliest evs t0 ->
  exists tss p, wl_phases wl = [p] /\ Forall2 (fun a b => same_content a b) (concat tss) (ph_trs p) /\ List.length tss = List.length evs /\
    forall i ev ts, nth_error evs i = Some ev -> nth_error tss i = Some ts -> yields d evs (firstn i evs) ev ts /\
      forall c r l z t, processor ev c r -> zone_list wl c r l -> l <> [] -> int_or ev "timestamp" 0 z -> In t ts -> enclosing_path l (z - t0) (t_zone t).
Proof. exact trace_paths. Qed.
Print Assumptions C58_path_partial.
(* a processor without zones: its transfer gets the path of another core *)
Theorem C58_no_zones_refuted : exists evs ev wl t, Forall small_time evs /\ in_order evs /\ In ev evs /\ processor ev (mkCoord 0 2 2) BRISC /\
  convertNocTracesToNpeWorkload "t.json" "wormhole_b0" (Parsed (JArray evs)) = Ok (Some wl) /\ zone_list wl (mkCoord 0 2 2) BRISC [] /\ all_transfers wl = [t] /\ t_src t = mkCoord 0 2 2 /\ t_zone t = "KERNEL[0]".
Proof. exact stale_path. Qed.
Print Assumptions C58_no_zones_refuted.
(* an event listed after a later one of its processor: the zone has been left already *)
Theorem C58_disorder_refuted : exists evs ev wl t l, Forall small_time evs /\ earliest evs 100 /\ In ev evs /\ processor ev (mkCoord 0 1 1) BRISC /\ int_or ev "timestamp" 0 110 /\
  convertNocTracesToNpeWorkload "t.json" "wormhole_b0" (Parsed (JArray evs)) = Ok (Some wl) /\ zone_list wl (mkCoord 0 1 1) BRISC l /\ enclosing_path l 10 "KERNEL[0]" /\ all_transfers wl = [t] /\ t_zone t = "".
Proof. exact disorder_path. Qed.
Print Assumptions C58_disorder_refuted.
Example C58_hypotheses : Forall small_time tr_nested /\ in_order tr_nested /\ earliest tr_nested 100.
Proof. exact nested_hypotheses. Qed.
Example C58_example : made (convertNocTracesToNpeWorkload "t.json" "wormhole_b0" (Parsed (JArray tr_nested))) (fun wl => map (fun t => (t_off t, t_zone t)) (all_transfers wl) = [(145, "KERNEL[0]/LOOP[1]")]).
Proof. exact nested_path. Qed.
