{
 "claims": [
  {
   "property": "C01",
   "status": "proved",
   "theorems": [
    "C01_unicast_route"
   ],
   "note": ""
  },
  {
   "property": "C02",
   "status": "proved",
   "theorems": [
    "C02_link_roundtrip",
    "C02_niu_roundtrip",
    "C02_link_ids_contiguous",
    "C02_niu_ids_contiguous",
    "C02_link_defined_in_grid",
    "C02_niu_defined_in_grid"
   ],
   "note": ""
  },
  {
   "property": "C03",
   "status": "proved",
   "theorems": [
    "C03_relocated_single_chip_route",
    "C03_other_chip_rejected"
   ],
   "note": ""
  },
  {
   "property": "C04",
   "status": "partial",
   "theorems": [
    "C04_union_of_unicast_routes",
    "C04_coverage_refuted",
    "C04_coverage_noc1_refuted",
    "C04_coverage_iff"
   ],
   "note": "REFUTED: on NOC0 rows above the source inside the rectangle are missed, on NOC1 columns other than the last; proved: no duplicates, exact union of unicast routes, and coverage if and only if the stated condition"
  },
  {
   "property": "C05",
   "status": "proved",
   "theorems": [
    "C05_validated_transfer",
    "C05_validated_workload",
    "C05_exception_iff_several_rectangles",
    "C05_unvalidated_diverges"
   ],
   "note": ""
  },
  {
   "property": "C06",
   "status": "proved",
   "theorems": [
    "C06_write_latency",
    "C06_read_latency"
   ],
   "note": ""
  },
  {
   "property": "C07",
   "status": "proved",
   "theorems": [
    "C07_core_type",
    "C07_rates",
    "C07_out_of_grid_aborts",
    "C07_rates_out_of_grid_abort"
   ],
   "note": ""
  },
  {
   "property": "C08",
   "status": "proved",
   "theorems": [
    "C08_accepts_documented",
    "C08_rejects_others",
    "C08_documented_well_formed"
   ],
   "note": ""
  },
  {
   "property": "C09",
   "status": "partial",
   "theorems": [
    "C09_iteration_enumerates",
    "C09_grid_size_is_count",
    "C09_spec_is_functional",
    "C09_inverted_rectangle_refuted",
    "C09_last_row_overflow_refuted"
   ],
   "note": "REFUTED for rectangles with inverted corners (accepted by the constructor) and for last row 32767; proved for all lists of ordered rectangles"
  },
  {
   "property": "C10",
   "status": "partial",
   "theorems": [
    "C10_link",
    "C10_niu",
    "C10_coord",
    "C10_mcast_same_chips",
    "C10_mcast_refuted"
   ],
   "note": "REFUTED for multicast destinations (equality ignores the chip, hash does not); proved for coordinates, links, NIUs and for multicast destinations on the same chips"
  },
  {
   "property": "C11",
   "status": "proved",
   "theorems": [
    "C11_distribute32",
    "C11_distribute64",
    "C11_combine_value",
    "C11_combine_seed"
   ],
   "note": ""
  },
  {
   "property": "C12",
   "status": "proved",
   "theorems": [
    "C12_wrapToRange",
    "C12_modulo",
    "C12_remainder_unique",
    "C12_routing_operands",
    "C12_huge_range_refuted"
   ],
   "note": "holds for every range up to 2^62, which covers all uses; beyond that the intermediate sum overflows (refuted)"
  },
  {
   "property": "C13",
   "status": "proved",
   "theorems": [
    "C13_uniquify",
    "C13_any_sort"
   ],
   "note": "proved for every sorting algorithm"
  },
  {
   "property": "C14",
   "status": "proved",
   "theorems": [
    "C14_open_zones",
    "C14_mismatch_is_an_error",
    "C14_well_nested",
    "C14_past_the_end"
   ],
   "note": ""
  },
  {
   "property": "C15",
   "status": "proved",
   "theorems": [
    "C15_ids_and_contents",
    "C15_returned_id",
    "C15_addPhase_defined"
   ],
   "note": "for workloads below 2^31 phases and transfers, the range of the int identifiers"
  },
  {
   "property": "C16",
   "status": "partial",
   "theorems": [
    "C16_every_rectangle_refuted",
    "C16_empty_multicast_refuted",
    "C16_validate_iff_accepted",
    "C16_validate_iff_routable"
   ],
   "note": "REFUTED: a multicast is accepted when any one rectangle is in the grid, and an empty multicast is undefined behaviour; proved: the exact acceptance condition, and that accepted single-rectangle transfers route"
  },
  {
   "property": "C17",
   "status": "partial",
   "theorems": [
    "C17_order_preserved",
    "C17_only_offsets_change",
    "C17_scale_zero",
    "C17_scale_one_partial",
    "C17_defined_partial",
    "C17_scale_one_refuted",
    "C17_defined_refuted"
   ],
   "note": "REFUTED: scale 1 changes offsets above 2^24 and the conversion is undefined near 2^32; order preservation and scale 0 proved for all scales"
  },
  {
   "property": "C18",
   "status": "partial",
   "theorems": [
    "C18_multicast_refuted",
    "C18_metadata_refuted",
    "C18_removal_exact",
    "C18_kept_iff"
   ],
   "note": "REFUTED: multicasts, zones and group count are dropped too; exact characterisation of what remains proved"
  },
  {
   "property": "C19",
   "status": "partial",
   "theorems": [
    "C19_rates_and_frame",
    "C19_idempotent",
    "C19_defined",
    "C19_out_of_grid_aborts"
   ],
   "note": "REFUTED: an out-of-grid source aborts because inference runs before validation; rest proved"
  },
  {
   "property": "C20",
   "status": "proved",
   "theorems": [
    "C20_mesh_smallest",
    "C20_others_unchanged",
    "C20_no_new_entries",
    "C20_idempotent"
   ],
   "note": ""
  },
  {
   "property": "C21",
   "status": "partial",
   "theorems": [
    "C21_product_iff_fits",
    "C21_refuted"
   ],
   "note": "REFUTED: the total wraps modulo 2^32; exact condition proved"
  },
  {
   "property": "C22",
   "status": "partial",
   "theorems": [
    "C22_config",
    "C22_total_partial",
    "C22_golden_refuted",
    "C22_variant_refuted",
    "C22_abort_refuted",
    "C22_empty_refuted",
    "C22_rate_refuted",
    "C22_bytes_refuted",
    "C22_scale_refuted"
   ],
   "note": "The configuration check is proved exactly (C22_config). Proved in binary32: for every accepted configuration and every usable workload runNPE returns a result object (C22_total_partial). REFUTED otherwise: missing golden cycles and a grouped multicast let a std exception escape, inference from a source outside the grid aborts, an empty multicast, a negative rate, a byte count that wraps to zero and a NaN scale are undefined behaviour."
  },
  {
   "property": "C23",
   "status": "partial",
   "theorems": [
    "C23_buckets",
    "C23_links_partial",
    "C23_results_partial",
    "C23_unicasts",
    "C23_order_refuted"
   ],
   "note": "REFUTED in general: the lane of a multicast is chosen by the direction of the first link its unordered set yields, so a multicast that turns can start at a different cycle for a different iteration order (C23_order_refuted, estimated cycles differ). Proved: the order of the dependency buckets never matters; link-set order matters only through that first direction; runNPE gives equal results for every order when the links of each multicast have one direction (in particular without multicasts)."
  },
  {
   "property": "C24",
   "status": "partial",
   "theorems": [
    "C24_lane_order",
    "C24_lane_first",
    "C24_lane_one_chip",
    "C24_several_chips_refuted"
   ],
   "note": "REFUTED with several chips: the lanes of all chips with the same row and column are merged; proved for lanes as the code forms them, and that they are the lanes of the statement when all sources are on one chip"
  },
  {
   "property": "C25",
   "status": "proved",
   "theorems": [
    "C25_never_exits",
    "C25_checkpoints"
   ],
   "note": ""
  },
  {
   "property": "C26",
   "status": "proved",
   "theorems": [
    "C26_start",
    "C26_no_dependency",
    "C26_moving_is_started",
    "C26_no_wrap"
   ],
   "note": "C26_start holds for every arithmetic, with the sum of end cycle and delay taken modulo 2^32 as in the code; C26_no_wrap shows for binary32 and validated transfers that the sum does not wrap around"
  },
  {
   "property": "C27",
   "status": "proved",
   "theorems": [
    "C27_acyclic",
    "C27_no_deadlock",
    "C27_cycle"
   ],
   "note": ""
  },
  {
   "property": "C28",
   "status": "partial",
   "theorems": [
    "C28_different_chips_refuted",
    "C28_rule",
    "C28_lane"
   ],
   "note": "REFUTED: transfers from the same row and column of different chips depend on each other; the exact rule is proved"
  },
  {
   "property": "C29",
   "status": "partial",
   "theorems": [
    "C29_group",
    "C29_one_dependency",
    "C29_blackhole",
    "C29_blackhole_refuted",
    "C29_missing_parent_refuted"
   ],
   "note": "REFUTED on Blackhole (any group parent ends in DEPENDENCY_GEN_FAILED) and for missing parents (replaced by transfer 0); the rule for Wormhole is proved"
  },
  {
   "property": "C30",
   "status": "proved",
   "theorems": [
    "C30_activation",
    "C30_places",
    "C30_moves",
    "C30_transfers"
   ],
   "note": ""
  },
  {
   "property": "C31",
   "status": "proved",
   "theorems": [
    "C31_ends",
    "C31_clock",
    "C31_terminates",
    "C31_diverges_only_inside",
    "C31_error"
   ],
   "note": "In binary32 the run of a validated usable workload ends with a result, the cycle limit or an npe exception (C31_ends)"
  },
  {
   "property": "C32",
   "status": "proved",
   "theorems": [
    "C32_bounds",
    "C32_monotone",
    "C32_success"
   ],
   "note": ""
  },
  {
   "property": "C33",
   "status": "partial",
   "theorems": [
    "C33_end_before_start_refuted",
    "C33_end_after_start_partial",
    "C33_end_wraps_refuted"
   ],
   "note": "REFUTED above cycle 2^24, where the end cycle is rounded to a float, and for one timestep that spans the 32-bit clock; proved: up to cycle 2^24 the end is not before the start, later it is at most one part in 2^24 before it; start >= offset is C26_start"
  },
  {
   "property": "C34",
   "status": "partial",
   "theorems": [
    "C34_credit",
    "C34_assertions",
    "C34_too_fast_refuted"
   ],
   "note": "REFUTED: one timestep can be credited twice; proved: the credited cycles exceed the elapsed ones by at most one timestep, and the assertions never fire"
  },
  {
   "property": "C35",
   "status": "proved",
   "theorems": [
    "C35_estimate"
   ],
   "note": ""
  },
  {
   "property": "C36",
   "status": "partial",
   "theorems": [
    "C36_congfree_refuted",
    "C36_always_equal"
   ],
   "note": "REFUTED: the reported congestion-free count is always the congested one; that is proved"
  },
  {
   "property": "C37",
   "status": "partial",
   "theorems": [
    "C37_progress",
    "C37_no_progress_refuted",
    "C37_completes_partial",
    "C37_succeeds_partial"
   ],
   "note": "REFUTED in general: a slow transfer may move no byte in a timestep. Proved: the exact amount moved, and that a simulation whose transfers keep moving (for which criteria on rates, bandwidths and timestep length are given, with and without congestion) completes within the cycle limit."
  },
  {
   "property": "C38",
   "status": "proved",
   "theorems": [
    "C38_interpolated"
   ],
   "note": ""
  },
  {
   "property": "C39",
   "status": "partial",
   "theorems": [
    "C39_rates",
    "C39_rates_of_live",
    "C39_congestion_never_raises",
    "C39_negative_rate_refuted"
   ],
   "note": "REFUTED for injection rates below zero, which validation accepts; proved for all runs and all sets of live transfers whose injection rates are finite non-negative floats"
  },
  {
   "property": "C40",
   "status": "partial",
   "theorems": [
    "C40_links",
    "C40_sources",
    "C40_sinks_partial",
    "C40_multicast_sinks_refuted",
    "C40_keeps",
    "C40_float_links",
    "C40_float_sources",
    "C40_float_sinks_partial",
    "C40_run_links",
    "C40_run_sources",
    "C40_run_sinks_partial"
   ],
   "note": "REFUTED for multicast sinks, which are never slowed down; the sums over links, sources and unicast sinks are proved in exact arithmetic and, within a bound on the rounding errors that grows with the number of summands, for floats and for every timestep of every run; that unaffected transfers keep their bandwidth is proved for floats"
  },
  {
   "property": "C41",
   "status": "partial",
   "theorems": [
    "C41_recorded",
    "C41_final_partial",
    "C41_final_refuted"
   ],
   "note": "REFUTED for the result: finishSimulation resizes the list of timesteps to one more than the simulation recorded, so a dummy interval (0,0) is appended (C41_final_refuted). Proved: during the run the recorded timesteps tile the cycles from the golden start on and were all simulated; the result is a prefix of them followed by dummies, with the exact count."
  },
  {
   "property": "C42",
   "status": "partial",
   "theorems": [
    "C42_utilisation",
    "C42_runs",
    "C42_negative_refuted"
   ],
   "note": "REFUTED for negative injection rates, which validation accepts. Proved in floats for every demand grid without negative values (infinities and NaN included), every device of the factory, every chip and the mesh; and for every run whose rates are not negative, including the averages over the run."
  },
  {
   "property": "C43",
   "status": "partial",
   "theorems": [
    "C43_float",
    "C43_links",
    "C43_nius_partial",
    "C43_nius_refuted"
   ],
   "note": "REFUTED for NIU demand: the sum over one chip is divided by the NIUs of all chips (C43_nius_refuted; C43_nius_partial gives the exact factor). Proved for link demand, link utilisation and multicast demand, overall and per NoC, in exact arithmetic (C43_links), and in binary32/64 for all averages and maxima, up to 2^-22 (C43_float)."
  },
  {
   "property": "C44",
   "status": "partial",
   "theorems": [
    "C44_ranges",
    "C44_contents_partial",
    "C44_contents_refuted",
    "C44_zero_refuted"
   ],
   "note": "The ranges are consecutive, disjoint, non-empty and cover all timesteps (C44_ranges). REFUTED: for threshold 0 the emission divides by zero, and since a file selects its timesteps by cycles, a range that ends in the dummy timestep gives a file without the simulated timesteps of its range. C44_contents_partial: other files hold exactly the timesteps of their range (besides dummies)."
  },
  {
   "property": "C45",
   "status": "partial",
   "theorems": [
    "C45_full",
    "C45_split_partial",
    "C45_span_refuted",
    "C45_edge_refuted"
   ],
   "note": "Proved for the full file. REFUTED for split files: a group that spans the region, or that starts in the last cycle of the region, is active but not described; C45_split_partial shows these are the only cases."
  },
  {
   "property": "C46",
   "status": "partial",
   "theorems": [
    "C46_groups",
    "C46_removal_refuted",
    "C46_unregistered_refuted"
   ],
   "note": "Proved for every run whose group ids were registered (C46_groups), for every iteration order. REFUTED after removal of local transfers, which resets the number of registered groups, and for unregistered ids: the consistency check throws."
  },
  {
   "property": "C47",
   "status": "partial",
   "theorems": [
    "C47_trace_events",
    "C47_read_across_chips_refuted"
   ],
   "note": "Proved for every trace that converts, except the chips of reads. REFUTED for reads from another chip: the coordinates of source and target are exchanged but the chips are not."
  },
  {
   "property": "C48",
   "status": "partial",
   "theorems": [
    "C48_own_state_refuted",
    "C48_own_state_partial"
   ],
   "note": "REFUTED: the saved state is kept for each kind of processor, not for each core, so a WITH_STATE event uses the state of another core. Proved when no other processor set a state of the same kind before."
  },
  {
   "property": "C49",
   "status": "partial",
   "theorems": [
    "C49_empty_refuted",
    "C49_idle_chip_refuted",
    "C49_unknown_processor_refuted",
    "C49_missing_processor_refuted",
    "C49_phase_name_refuted",
    "C49_without_zones_refuted",
    "C49_clean_partial"
   ],
   "note": "REFUTED: undefined behaviour for an empty trace, a chip without events, an unknown or missing processor, an unknown phase name (such as \"begin\", used by the traces shipped with the project), and a trace whose first events have no zone. Proved total for clean traces, whose definition excludes just these and values out of range."
  },
  {
   "property": "C50",
   "status": "partial",
   "theorems": [
    "C50_chain_partial",
    "C50_skipped_refuted",
    "C50_blackhole_refuted",
    "C50_blackhole"
   ],
   "note": "Fresh groups, indices and the chain of a path whose segments all yield one transfer are proved. REFUTED when a segment is skipped (the indices shift and a transfer becomes its own parent) and for Blackhole, where the missing break makes every fabric path throw."
  },
  {
   "property": "C51",
   "status": "partial",
   "theorems": [
    "C51_done_iff",
    "C51_done_wrapping",
    "C51_stays_done",
    "C51_undefined_done",
    "C51_delay_wraps_refuted"
   ],
   "note": "REFUTED when the sum of end cycle and delay wraps modulo 2^32; proved without overflow, and exactly with wrap-around"
  },
  {
   "property": "C52",
   "status": "partial",
   "theorems": [
    "C52_loaded",
    "C52_accepted_partial",
    "C52_reversed_refuted",
    "C52_phase_refuted",
    "C52_large_refuted"
   ],
   "note": "Proved: a loaded file holds one transfer for each well-formed entry, in order, with the described contents; files without reversed rectangles are loaded. REFUTED for reversed rectangles, phases without transfers, and numbers out of range."
  },
  {
   "property": "C53",
   "status": "proved",
   "theorems": [
    "C53_rates",
    "C53_demand"
   ],
   "note": ""
  },
  {
   "property": "C54",
   "status": "proved",
   "theorems": [
    "C54_monotone"
   ],
   "note": ""
  },
  {
   "property": "C55",
   "status": "proved",
   "theorems": [
    "C55_cases",
    "C55_distinct"
   ],
   "note": "In binary32, for every iteration order of the unordered containers: the four failure codes and success are matched to disjoint, exhaustive kinds of workload."
  },
  {
   "property": "C56",
   "status": "partial",
   "theorems": [
    "C56_window_partial",
    "C56_short_refuted"
   ],
   "note": "Proved exactly modulo 2^32 for every chip with events (C56_window_partial). REFUTED without wrap-around: when the last event of a chip is less than twenty cycles after the start of the trace, the end of the window wraps to almost 2^32."
  },
  {
   "property": "C57",
   "status": "proved",
   "theorems": [
    "C57_zones"
   ],
   "note": "One list per processor, its zone events in the order of the trace."
  },
  {
   "property": "C58",
   "status": "partial",
   "theorems": [
    "C58_path_partial",
    "C58_no_zones_refuted",
    "C58_disorder_refuted"
   ],
   "note": "Proved for processors that have zones, when the events of each processor are in the order of time. REFUTED otherwise: a processor without zones gets the path of the processor before it, and an event listed after a later one gets the zones of the later time."
  },
  {
   "property": "C59",
   "status": "partial",
   "theorems": [
    "C59_dram_partial",
    "C59_dram_exact_partial",
    "C59_ethernet",
    "C59_chip_refuted",
    "C59_window_refuted"
   ],
   "note": "Proved in doubles (relative error 2^-21) and exactly: the bytes are those of the transfers from or to DRAM, each once; one entry per Ethernet core that is a destination (C59_ethernet, complete). REFUTED: on a device with several chips the statistics of one chip are divided by the bandwidth of all chips, and with an empty golden window the utilisation is infinite."
  },
  {
   "property": "C60",
   "status": "partial",
   "theorems": [
    "C60_exact_partial",
    "C60_float_partial",
    "C60_padded_refuted",
    "C60_peak_refuted",
    "C60_idle_refuted"
   ],
   "note": "Proved for the timesteps of the result: averages are means (exactly in rationals; in doubles up to (2n+3) 2^-53), maxima are attained and greatest, prediction error is the signed percentage. REFUTED: the mean includes the dummy timestep that finishing adds, the maximum link demand is that of the averages of the timesteps and not of a link, and a chip without timesteps has undefined averages."
  },
  {
   "property": "C61",
   "status": "proved",
   "theorems": [
    "C61_device",
    "C61_stats",
    "C61_accepts",
    "C61_total",
    "C61_names"
   ],
   "note": "For every order of the hash maps. The timesteps, which Python cannot read, are not pickled."
  },
  {
   "property": "C62",
   "status": "proved",
   "theorems": [
    "C62_init"
   ],
   "note": ""
  },
  {
   "property": "C63",
   "status": "partial",
   "theorems": [
    "C63_coord",
    "C63_transfer",
    "C63_golden",
    "C63_errors",
    "C63_coord_refuted",
    "C63_offset_refuted"
   ],
   "note": "Proved: exactly which numbers are accepted and kept. REFUTED: rows, columns and chips beyond 16 bits and negative offsets are accepted and changed silently."
  },
  {
   "property": "C64",
   "status": "partial",
   "theorems": [
    "C64_zones_partial",
    "C64_only",
    "C64_split_refuted",
    "C64_shadow_refuted",
    "C64_unmatched_refuted"
   ],
   "note": "Proved: the entries of the full file and of each split file are exactly those of the zone forest, for every nesting in which no zone begins in the cycle of an enclosing zone of its name. REFUTED: a split file loses a zone inside its region if an enclosing zone is not inside; nested zones of one name and one first cycle overwrite each other; an unmatched end is undefined behaviour after a successful simulation."
  },
  {
   "property": "C65",
   "status": "partial",
   "theorems": [
    "C65_written",
    "C65_names",
    "C65_workloads_refuted",
    "C65_paths_refuted",
    "C65_directory_refuted"
   ],
   "note": "Proved: names of one simulation are pairwise different and as documented, files that can be opened are written, nothing else changes. REFUTED between simulations: workloads in a directory with a dot share one default name; an extension in the directory gives split files one name; the default path of a workload in a directory lies in another directory, and no file is written though the run succeeds."
  },
  {
   "property": "C66",
   "status": "partial",
   "theorems": [
    "C66_segments",
    "C66_group",
    "C66_span_partial",
    "C66_short_refuted",
    "C66_late_refuted"
   ],
   "note": "Proved: segments are exactly the transfers, members, order and header of each group, and the interval of chains. REFUTED for groups that are not chains: a group that branches ends before one of its transfers, a group whose first index starts late begins after one of its transfers and ends before it starts."
  },
  {
   "property": "C67",
   "status": "proved",
   "theorems": [
    "C67_steps",
    "C67_legacy_steps",
    "C67_legacy_transfers",
    "C67_no_congestion"
   ],
   "note": "For every arithmetic and every iteration order. The averages printed with a timestep are the recorded ones (C42, C43); the values of the demands are those of the congestion model (C38, C40, C53)."
  },
  {
   "property": "C68",
   "status": "partial",
   "theorems": [
    "C68_mesh_partial",
    "C68_single",
    "C68_topology_refuted",
    "C68_meshes_refuted"
   ],
   "note": "Proved for one chip and for the topology of one mesh. REFUTED without a topology (C68_topology_refuted: the run succeeds but every file is an empty document) and for two meshes (C68_meshes_refuted: the list of chips is empty)."
  },
  {
   "property": "C69",
   "status": "partial",
   "theorems": [
    "C69_impact",
    "C69_always_zero",
    "C69_impact_refuted",
    "C69_ethernet_mean",
    "C69_order_refuted",
    "C69_words",
    "C69_core_words"
   ],
   "note": "Proved: the impact as a function of the two counts (C69_impact), the mean up to (2n+3) 2^-53 for every order (C69_ethernet_mean), the words exactly (C69_words, C69_core_words). REFUTED: because the congestion-free count is overwritten with the congested one (C36), every result of every run reports exactly zero (C69_always_zero, witness C69_impact_refuted with more than 40 percent due to congestion); the last bit of the mean depends on the order of the hash map (C69_order_refuted)."
  },
  {
   "property": "C70",
   "status": "partial",
   "theorems": [
    "C70_topology",
    "C70_accepted",
    "C70_neighbour",
    "C70_back",
    "C70_ring",
    "C70_ring_closed",
    "C70_one_row_refuted",
    "C70_shared_node_refuted"
   ],
   "note": "Proved: exactly which files are accepted (C70_accepted) and what the constructor makes of them (C70_topology), neighbours as an equivalence (C70_neighbour), reciprocity (C70_back), the ring of a two-row T3K (C70_ring, C70_ring_closed). REFUTED without the hypotheses: on a T3K with one row the corrections of the direction follow one another, and west of the first chip is the chip to its east (C70_one_row_refuted); the constructor accepts two chips for one node, and then the way back leads to another chip (C70_shared_node_refuted)."
  },
  {
   "property": "C71",
   "status": "partial",
   "theorems": [
    "C71_path",
    "C71_found",
    "C71_connected",
    "C71_destination",
    "C71_written",
    "C71_plane_refuted",
    "C71_unknown_channel",
    "C71_unknown_refuted"
   ],
   "note": "Proved: the path segment by segment (C71_path), its existence (C71_found), connectedness (C71_connected), destination (C71_destination), written chips (C71_written). REFUTED: the core that receives the first link is looked up on the plane of the last entry of the table, since the loop variable is used after the loop, so it is on another plane when there are several (C71_plane_refuted; C71_path says exactly which); a channel without plane ends the program with a NameError instead of a processing error (C71_unknown_channel for all inputs, C71_unknown_refuted)."
  },
  {
   "property": "C72",
   "status": "partial",
   "theorems": [
    "C72_unicast",
    "C72_multicast_partial",
    "C72_fan",
    "C72_multicast_refuted",
    "C72_write_refuted"
   ],
   "note": "Proved: unicast (C72_unicast); multicast along a column or a row (C72_multicast_partial); exactly what a multicast with branches consists of (C72_fan). REFUTED: the branches of a multicast start at the end of the column, or of the branch before, so chips beside the column are never written, the last one several times, and segments have parents on chips that are no neighbours (C72_multicast_refuted); a unicast whose channel faces east without hops to the east writes nothing (C72_write_refuted)."
  },
  {
   "property": "C73",
   "status": "partial",
   "theorems": [
    "C73_traces",
    "C73_kept",
    "C73_send",
    "C73_send_2d",
    "C73_failures",
    "C73_dropped_refuted",
    "C73_error_refuted"
   ],
   "note": "Proved: C73_traces, C73_kept (the kept events are determined), C73_send and C73_send_2d (the path of a send, on a line and on a grid), C73_failures. REFUTED: the filter drops events of one and the same core when the second comes more than twice as late as the first (C73_dropped_refuted); a send without the fields of the fabric's dimension ends the program with a KeyError (C73_error_refuted)."
  },
  {
   "property": "C74",
   "status": "partial",
   "theorems": [
    "C74_runtime_id",
    "C74_name",
    "C74_distinct_partial",
    "C74_distinct_refuted"
   ],
   "note": "Proved: C74_runtime_id, C74_name (an equivalence for all paths), C74_distinct_partial when no trace has number 0. REFUTED: an operation without trace and the same operation in trace 0 have the same string, both from valid file names (C74_distinct_refuted)."
  },
  {
   "property": "C75",
   "status": "partial",
   "theorems": [
    "C75_groups",
    "C75_metal_refuted",
    "C75_metal_outcome",
    "C75_metal_never"
   ],
   "note": "Proved for the grouping of operations: C75_groups. REFUTED for --group_as_metal_traces: it assigns into a list at the index of an operation, a TypeError for files with valid names (C75_metal_refuted); the analysis never gives a result with it (C75_metal_never); the outcome for every list of files is C75_metal_outcome."
  },
  {
   "property": "C76",
   "status": "partial",
   "theorems": [
    "C76_lookup",
    "C76_weighted",
    "C76_percentiles",
    "C76_table_partial",
    "C76_empty",
    "C76_zero",
    "C76_table_refuted"
   ],
   "note": "Proved in exact arithmetic: C76_lookup, C76_weighted, C76_percentiles, C76_table_partial. REFUTED: the table fails with a ZeroDivisionError when no run succeeded or a device has no cycles (C76_empty, C76_zero), so the analysis of well-formed traces can end with it (C76_table_refuted)."
  },
  {
   "property": "C77",
   "status": "partial",
   "theorems": [
    "C77_points_partial",
    "C77_manifest",
    "C77_order",
    "C77_stale_refuted",
    "C77_points_refuted"
   ],
   "note": "Proved: data points (C77_points_partial, when no trace has number 0 and for operations that can be merged), manifest and timelines (C77_manifest), any order (C77_order). REFUTED: after a ProcessingError the merged file of an earlier analysis is simulated (C77_stale_refuted); an operation and the same in trace 0 share a merged file, and one has the data points of the other (C77_points_refuted)."
  },
  {
   "property": "C78",
   "status": "partial",
   "theorems": [
    "C78_emits_partial",
    "C78_exact",
    "C78_legacy",
    "C78_failed",
    "C78_topology_refuted"
   ],
   "note": "For registered groups C78_exact says exactly which topologies and which zone lists let the files be emitted and which files have a document (zones that begin in the cycle of an enclosing zone of their name excepted); C78_emits_partial counts the files; the legacy format needs none of this (C78_legacy), failures C78_failed. REFUTED in general: a mesh of width 0 divides by zero and a shape that is not numeric raises an exception after a successful simulation (C78_topology_refuted); for zones see C64, for groups C46, for threshold 0 C44."
  },
  {
   "property": "C79",
   "status": "partial",
   "theorems": [
    "C79_status",
    "C79_result",
    "C79_trace_partial",
    "C79_file_partial",
    "C79_chips",
    "C79_files",
    "C79_failed_refuted",
    "C79_success_refuted",
    "C79_device_refuted"
   ],
   "note": "Proved: meaning of the statuses (C79_status), the result (C79_result), totality for clean traces (C79_trace_partial) and for workload files with golden cycles on one chip (C79_file_partial); a workload file never yields statistics on several chips (C79_chips). The schedule may be scaled (within the range of the offsets) and every timeline that can be written by C78_exact is covered. Missing: traces that are not clean. REFUTED: a successful simulation ends in an uncaught AttributeError because the bound class Stats has no wallclock_runtime_us (C79_success_refuted; by C79_status this is so for every successful simulation); a failed simulation exits with status 0 (C79_failed_refuted); the documented device TG is refused (C79_device_refuted)."
  },
  {
   "property": "C80",
   "status": "proved",
   "theorems": [
    "C80_never",
    "C80_throws",
    "C80_program"
   ],
   "note": "C80_never, C80_throws, C80_program. Removing local unicasts adds golden cycles of the mesh (C18), so C80_never excludes that case."
  },
  {
   "property": "C81",
   "status": "partial",
   "theorems": [
    "C81_read",
    "C81_layout_partial",
    "C81_legacy",
    "C81_empty",
    "C81_empty_text",
    "C81_documented_never",
    "C81_null_refuted",
    "C81_legacy_refuted"
   ],
   "note": "Proved: a reader recovers header, place, chips, transfers, zones and timesteps (C81_read; C81_legacy for the legacy format, without chips); keys and types are those of the schema with the names the program uses, and numbers are null only if one of them is not finite (C81_layout_partial); files without document cannot be read (C81_empty; their text C81_empty_text). REFUTED: no file has the keys of the schema files, which say NOC_0, transfer_id, avg_demand, avg_util and nested routes (C81_documented_never, for every file); with an empty golden window a statistic is null (C81_null_refuted); the legacy format leaves out the chip, so different workloads have the same file (C81_legacy_refuted)."
  },
  {
   "property": "C82",
   "status": "partial",
   "theorems": [
    "C82_demands",
    "C82_timesteps",
    "C82_result_partial",
    "C82_files_partial",
    "C82_legacy_partial",
    "C82_idle_refuted",
    "C82_window_refuted"
   ],
   "note": "Proved: all demands of every reachable state are numbers of at most 2^32 (C82_demands; float sums saturate); all twelve fields of all timesteps of all chips are finite (C82_timesteps); all fields of the result of a chip that was in use are, if the golden window is not empty (C82_result_partial), and then no number of a timeline file is null (C82_files_partial, C82_legacy_partial), which strengthens C81_layout_partial. REFUTED in general: averages of an idle chip are NaN (C82_idle_refuted); with an empty golden window the DRAM utilisation is infinite (C82_window_refuted)."
  },
  {
   "property": "C83",
   "status": "partial",
   "theorems": [
    "C83_succeeds",
    "C83_total",
    "C83_empty",
    "C83_true_partial",
    "C83_true_refuted",
    "C83_false",
    "C83_timeline",
    "C83_timeline_total",
    "C83_overwrite_refuted"
   ],
   "note": "Proved: success and reading back when the path can be opened and has room for the bound (C83_succeeds, C83_timeline); totality; what false means (C83_false); other files are unchanged. REFUTED: true is also answered when the text stayed in the buffer of the stream and the flush at close fails (C83_true_refuted); C83_true_partial shows that this is the only case. A failed write destroys the earlier file and writeTimelineToFile ignores the answer (C83_overwrite_refuted)."
  },
  {
   "property": "C84",
   "status": "partial",
   "theorems": [
    "C84_routes",
    "C84_stuck",
    "C84_one_chip",
    "C84_between_chips",
    "C84_between_outcome",
    "C84_no_draws",
    "C84_file_refuted"
   ],
   "note": "Proved: equality with the routes of the simulator (C84_routes), completion and contents for draws inside chips (C84_one_chip), the loop is not left for a destination outside the grid (C84_stuck). REFUTED for several chips: a transfer between chips always fails an assertion and no file is written (C84_file_refuted, C84_between_chips and C84_between_outcome for all such draws). No draws at all: C84_no_draws."
  },
  {
   "property": "C85",
   "status": "partial",
   "theorems": [
    "C85_transfers",
    "C85_steps",
    "C85_active",
    "C85_covers",
    "C85_demand",
    "C85_averages",
    "C85_util_partial",
    "C85_util_refuted",
    "C85_bytes_refuted"
   ],
   "note": "Proved for all files: C85_transfers, C85_steps, C85_active, C85_covers, C85_demand, C85_averages (the four averages of a timestep as sums over its links); utilisations are at most 50 % per chip (C85_util_partial). REFUTED: utilisations above 100 % are possible with several chips, since the number of links is that of one chip, counted twice (C85_util_refuted); share times cycles is less than the bytes (C85_bytes_refuted)."
  },
  {
   "property": "C86",
   "status": "proved",
   "theorems": [
    "C86_accepted",
    "C86_refused",
    "C86_help",
    "C86_order",
    "C86_program"
   ],
   "note": "C86_accepted (both directions, against a grammar), C86_refused, C86_help, C86_order, C86_program. argparse of Python 3.11.10 is transcribed (CliArgs.v) because the behaviour of the table depends on it; int() and float() are arguments of the theorems."
  },
  {
   "property": "C87",
   "status": "partial",
   "theorems": [
    "C87_run_partial",
    "C87_results_partial",
    "C87_estimation_partial",
    "C87_window_refuted",
    "C87_cycles_refuted"
   ],
   "note": "Proved in binary32 for delays and runs that stay below cycle 8,000,000 when no transfer and no golden window starts at cycle 0 and every transfer has bytes: C87_run_partial (start and end of every transfer), C87_results_partial and C87_estimation_partial (all statistics). REFUTED without these: C87_window_refuted (a golden window that opens at cycle 0: the delayed run records one idle timestep at its start, so averages change) and C87_cycles_refuted (above 2^24 the end of a transfer is rounded)."
  },
  {
   "property": "C88",
   "status": "proved",
   "theorems": [
    "C88_free",
    "C88_alone",
    "C88_congested_refuted"
   ],
   "note": "C88_free (pairs defined inductively along the dependencies), C88_alone; with congestion the statement is false: C88_congested_refuted (29154 cycles alone, 87443 in company)."
  },
  {
   "property": "C89",
   "status": "partial",
   "theorems": [
    "C89_free_partial",
    "C89_estimates_partial",
    "C89_waiting_refuted"
   ],
   "note": "C89_free_partial and C89_estimates_partial hold for runs below cycle 2^24 with timesteps up to 2^20 cycles (where binary32 represents every cycle number); beyond, the rounding of the elapsed cycles is not bounded. The claim for transfers that wait is REFUTED: C89_waiting_refuted (1000 cycles with congestion, 1095 without)."
  },
  {
   "property": "C90",
   "status": "proved",
   "theorems": [
    "C90_rate",
    "C90_run",
    "C90_estimates"
   ],
   "note": "In binary32. The capacities (30 or 60.9 bytes per cycle for a link, the absorption rate of the destination) are hypotheses, since an injection rate above them is reduced even for a lone transfer."
  },
  {
   "property": "C91",
   "status": "partial",
   "theorems": [
    "C91_load_partial",
    "C91_estimates_partial",
    "C91_waiting_refuted"
   ],
   "note": "C91_load_partial and C91_estimates_partial hold for runs below cycle 2^24 with timesteps up to 2^20 cycles, when no transfer waits for another and the links of a multicast are visited in an order that does not depend on the number of the transfer. The claim for transfers that wait is REFUTED: C91_waiting_refuted (a new transfer shortens the run from 1095 to 1000 cycles)."
  },
  {
   "property": "C92",
   "status": "proved",
   "theorems": [
    "C92_lines",
    "C92_equal",
    "C92_error",
    "C92_verbose"
   ],
   "note": "C92_lines, C92_equal, C92_error and C92_verbose. The text of a double that is not finite is an argument of the model; how fmt rounds is part of the model (Text.v)."
  },
  {
   "property": "C93",
   "status": "partial",
   "theorems": [
    "C93_config",
    "C93_config_refuted",
    "C93_verbosity",
    "C93_what"
   ],
   "note": "C93_config holds for configurations whose strings have one line each, for every way of writing floats that is injective and has no line breaks; in general it is REFUTED (C93_config_refuted: strings are written without escapes). C93_verbosity and C93_what hold in full."
  },
  {
   "property": "C94",
   "status": "partial",
   "theorems": [
    "C94_free_partial",
    "C94_load_partial",
    "C94_estimates_partial",
    "C94_packets_refuted"
   ],
   "note": "C94_free_partial, C94_load_partial and C94_estimates_partial hold for runs below cycle 2^24 with timesteps up to 2^20 cycles, for transfers that wait for nothing and keep their packets or have one packet each; with congestion the links of a multicast are visited in an order that does not depend on the number of the transfer. The claim for packets of another size is REFUTED: C94_packets_refuted (more bytes in as many packets end 68 cycles earlier)."
  },
  {
   "property": "C95",
   "status": "partial",
   "theorems": [
    "C95_free_partial",
    "C95_estimates_partial",
    "C95_congestion_refuted"
   ],
   "note": "C95_free_partial and C95_estimates_partial hold without congestion for runs below cycle 2^24 with timesteps up to 2^20 cycles, for transfers that wait for nothing and keep their packets or have one packet each. The claim with congestion is REFUTED: C95_congestion_refuted (the estimate falls from 1246 to 1171 cycles)."
  },
  {
   "property": "C96",
   "status": "partial",
   "theorems": [
    "C96_free_partial",
    "C96_congestion_refuted"
   ],
   "note": "C96_free_partial holds without congestion for runs below cycle 2^24 with timesteps up to 2^20 cycles, for transfers that wait for nothing, are not empty and keep their packets or have one packet each. The claim with congestion is REFUTED: C96_congestion_refuted (the run ends 41 cycles earlier)."
  },
  {
   "property": "C97",
   "status": "partial",
   "theorems": [
    "C97_two_partial",
    "C97_three_partial",
    "C97_core_types",
    "C97_size_refuted"
   ],
   "note": "C97_two_partial and C97_three_partial hold for grids whose number of positions (and, for three dimensions, row size) fits in 64 bits; C97_core_types is proved in full. Without that bound the claim is REFUTED: C97_size_refuted (a grid of 2^32 rows and columns has no elements)."
  },
  {
   "property": "C98",
   "status": "partial",
   "theorems": [
    "C98_written",
    "C98_unique",
    "C98_identified_partial",
    "C98_made",
    "C98_same",
    "C98_identified_refuted",
    "C98_same_converse_refuted"
   ],
   "note": "C98_written, C98_unique, C98_made and C98_same are proved in full; C98_identified_partial is for destinations whose rectangles each lie on one chip. Without that the claim is REFUTED: C98_identified_refuted; the converse of C98_same is REFUTED: C98_same_converse_refuted."
  },
  {
   "property": "C99",
   "status": "partial",
   "theorems": [
    "C99_answers",
    "C99_identifier",
    "C99_unknown",
    "C99_succeeds",
    "C99_checks",
    "C99_reset_partial",
    "C99_reset_refuted"
   ],
   "note": "C99_answers, C99_identifier, C99_unknown, C99_succeeds and C99_checks are proved in full (the count of updates is modulo 2^32, as in the code); C99_reset_partial is for histories whose updates are all at cycle 0. In general the reset is REFUTED: C99_reset_refuted."
  },
  {
   "property": "C100",
   "status": "partial",
   "theorems": [
    "C100_coord",
    "C100_link",
    "C100_niu",
    "C100_mcast",
    "C100_swap",
    "C100_two_places_refuted"
   ],
   "note": "C100_coord, C100_link, C100_niu, C100_mcast and C100_swap (any first and last of 65 rectangles) are proved in full. That sets which differ in two places have different hashes is REFUTED: C100_two_places_refuted."
  }
 ]
}