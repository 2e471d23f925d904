{"id": "C01", "title": "Unicast routes are dimension-ordered torus paths from source to destination", "statement": "On every supported device, for every in-grid source and destination on the same chip and either NoC, route() returns after finitely many steps a list of link ids which, read through the link attribute table, is a contiguous path of hops on that NoC (NoC 0: east hops then south hops; NoC 1: north hops then west hops, with wrap-around at the grid edge) that starts at the source and whose last hop enters the destination. The path repeats no link, and it is empty exactly when source and destination coincide.", "quantifier": "every device accepted by the factory, every in-grid (source,destination) pair, both NoCs", "why_tests_cant": "The unit tests compare a handful of hand-written routes; a wrap-around error for one row/column combination is not visible in them.", "anchors": ["tt_npe/cpp/include/device_models/wormhole_b0.hpp:unicastRoute", "tt_npe/cpp/include/device_models/blackhole.hpp:unicastRoute", "tt_npe/cpp/include/device_models/wormhole_multichip.hpp:route"]}
{"id": "C02", "title": "Link and NIU identifiers are a bijection with physical positions", "statement": "For every device, looking up the identifier of a (device,row,column,type) and then its attributes gives the same position back; distinct positions get distinct identifiers; identifiers are exactly 0..N-1 and fit the 16-bit identifier type for every device the factory can build. Positions outside the grid are rejected with an error, never mapped to an id.", "quantifier": "every device of the factory, every link/NIU position, every identifier", "why_tests_cant": "Tests probe single positions; injectivity and 16-bit fit is a statement about all of the up to 17280 identifiers at once.", "anchors": ["tt_npe/cpp/include/device_models/wormhole_b0.hpp:populateNoCLinkLookups", "tt_npe/cpp/include/device_models/wormhole_b0.hpp:getLinkID", "tt_npe/cpp/include/device_models/wormhole_multichip.hpp:populateNoCLinkLookups", "tt_npe/cpp/include/device_models/blackhole.hpp:populateNoCNIULookups", "tt_npe/cpp/include/npeDeviceTypes.hpp:nocLinkID"]}
{"id": "C03", "title": "Multi-chip routes stay on the source chip", "statement": "On a multi-chip device, a route for a transfer whose destination is on the source chip uses only links of that chip and is, hop for hop, the single-chip route relocated to that chip; a transfer whose destination is on another chip is rejected with an error.", "quantifier": "every chip count, every chip, every in-grid pair, both NoCs", "why_tests_cant": "Tests use one or two chips and a few coordinates; the relocation goes through the id tables of the whole mesh.", "anchors": ["tt_npe/cpp/include/device_models/wormhole_multichip.hpp:route", "tt_npe/cpp/include/device_models/wormhole_multichip.hpp:changeRouteDeviceID"]}
{"id": "C04", "title": "A multicast route reaches every destination of its grid", "statement": "For every in-grid multicast (source, rectangle, NoC) the returned set of links contains no duplicates, contains only links lying on a unicast path from the source to a core of the rectangle, and every core of the rectangle other than the source is entered by at least one of its links.", "quantifier": "every source, every well-formed rectangle, both NoCs, every device", "why_tests_cant": "The unit tests check sizes of a few multicast routes from a source above/left of the rectangle; coverage is a statement over all source/rectangle positions.", "anchors": ["tt_npe/cpp/include/device_models/wormhole_b0.hpp:route", "tt_npe/cpp/include/device_models/blackhole.hpp:route"]}
{"id": "C05", "title": "Routing a validated transfer always terminates", "statement": "If a transfer is accepted by workload validation for a device, then route() terminates for it, either with a route or with a reported npe exception; no accepted transfer makes the routing loop run forever or touch memory outside the tables.", "quantifier": "every transfer accepted by validation, every device", "why_tests_cant": "Non-termination cannot be observed by a finite test, and out-of-range destinations are not in the test data.", "anchors": ["tt_npe/cpp/src/npeWorkload.cpp:npeWorkloadTransfer::validate", "tt_npe/cpp/include/device_models/wormhole_b0.hpp:unicastRoute"]}
{"id": "C06", "title": "Latency estimates agree with the routes", "statement": "For in-grid coordinates the write latency reported by a device is 40 cycles plus a fixed cost per hop times exactly the number of links of the unicast route between the same two cores, and the read latency is one of the four documented values and depends only on whether the row and the column agree.", "quantifier": "every in-grid pair, both NoCs, Wormhole and Blackhole", "why_tests_cant": "Hop counting (closed form) and route construction (loop) are two independent implementations; tests do not compare them.", "anchors": ["tt_npe/cpp/include/device_models/wormhole_b0.hpp:get_write_latency", "tt_npe/cpp/include/device_models/wormhole_b0.hpp:route_hops", "tt_npe/cpp/include/device_models/wormhole_b0.hpp:get_read_latency", "tt_npe/cpp/include/device_models/blackhole.hpp:get_write_latency"]}
{"id": "C07", "title": "Every in-grid core has a type and positive rates", "statement": "For every in-grid coordinate of every device the core type is defined, and its injection and absorption rate are finite, positive and no larger than the fastest documented rate; an out-of-grid coordinate is reported as an error by the bounds assertion.", "quantifier": "every device, every coordinate (in or out of grid)", "why_tests_cant": "The core map is a literal table; tests look at a few cells.", "anchors": ["tt_npe/cpp/include/device_models/wormhole_b0.hpp:getCoreType", "tt_npe/cpp/include/device_models/blackhole.hpp:getCoreType", "tt_npe/cpp/include/device_models/wormhole_b0.hpp:getSrcInjectionRate", "tt_npe/cpp/include/grid.hpp:Grid2D"]}
{"id": "C08", "title": "The device factory accepts exactly the documented names", "statement": "createDeviceModel accepts a name if and only if it is one of the documented device names, builds the documented grid and chip count for it, and reports DEVICE_MODEL_INIT_FAILED for every other string.", "quantifier": "every string", "why_tests_cant": "The set of strings is infinite.", "anchors": ["tt_npe/cpp/include/npeDeviceModelFactory.hpp:createDeviceModel"]}
{"id": "C09", "title": "Multicast sets enumerate exactly their cores", "statement": "Iterating over a multicast destination built from well-formed rectangles yields exactly the coordinates contained in the rectangles, rectangle after rectangle, row-major, each once per rectangle, and grid_size() equals the number of coordinates iterated. This holds for every rectangle that the constructor accepts.", "quantifier": "every list of rectangles accepted by the constructor", "why_tests_cant": "Iterator edge cases (single row/column, several grids, inverted corners) are combinatorial.", "anchors": ["tt_npe/cpp/include/npeUtil.hpp:MulticastCoordSet"]}
{"id": "C10", "title": "Equal keys have equal hashes", "statement": "Two coordinates, link attributes, NIU attributes or multicast destinations which compare equal have equal hash values, as the unordered containers used by the library require.", "quantifier": "every pair of values of each hashable type", "why_tests_cant": "A violating pair has to be guessed; the tests only measure the distribution of hashes.", "anchors": ["tt_npe/cpp/include/npeUtil.hpp:std::hash", "tt_npe/cpp/include/npeUtil.hpp:MulticastCoordSet", "tt_npe/cpp/include/npeDeviceTypes.hpp"]}
{"id": "C11", "title": "The hash mixer loses no information", "statement": "The 32- and 64-bit mixing function used for hashing is a bijection, and combining a fixed seed with two different values never gives the same result; so single-field keys never collide.", "quantifier": "every 32-bit and 64-bit word, every seed", "why_tests_cant": "2^64 inputs; tests sample 10000 random ones.", "anchors": ["tt_npe/cpp/include/npeUtil.hpp:distribute", "tt_npe/cpp/include/npeUtil.hpp:hash_combine"]}
{"id": "C12", "title": "Modular wrapping is a true Euclidean remainder", "statement": "modulo and wrapToRange return, for every number and every positive range, the unique value in [0,range) congruent to the number; no intermediate overflow happens for operands in the documented types as used by routing.", "quantifier": "every 64-bit number (negative too), every positive range", "why_tests_cant": "The domain is 2^64 x 2^63.", "anchors": ["tt_npe/cpp/include/npeUtil.hpp:modulo", "tt_npe/cpp/include/npeUtil.hpp:wrapToRange"]}
{"id": "C13", "title": "uniquify keeps the set and sorts it", "statement": "uniquify turns any vector into the strictly increasing vector with the same set of elements.", "quantifier": "every vector", "why_tests_cant": "Unbounded input.", "anchors": ["tt_npe/cpp/include/npeUtil.hpp:uniquify"]}
{"id": "C14", "title": "Zone iteration reports exactly the open zones", "statement": "While walking a sequence of zone begin/end events, the enclosing-zone list is the stack of zones begun but not yet ended at that point; a well-nested sequence is walked to the end without error and leaves the stack empty, and an end event with no open zone or with a different name is reported as an error. The occurrence counter attached to a zone is the number of earlier begins of a zone with the same name.", "quantifier": "every zone event sequence (well nested or not)", "why_tests_cant": "Stack behaviour over arbitrary event histories.", "anchors": ["tt_npe/cpp/include/npeUtil.hpp:ZoneIterator", "tt_npe/cpp/src/npeWorkloadIngest.cpp:flattenEnclosingZones"]}
{"id": "C15", "title": "Building a workload assigns dense unique ids in order", "statement": "After any sequence of addPhase calls, phase ids are 0,1,2,... in the order of the calls and transfer ids are 0,1,2,... in the order of the phases and of the transfers inside each phase; no other field of a transfer changes.", "quantifier": "every history of addPhase calls with phases of any size", "why_tests_cant": "Histories are unbounded.", "anchors": ["tt_npe/cpp/src/npeWorkload.cpp:npeWorkload::addPhase"]}
{"id": "C16", "title": "Validation accepts exactly the routable workloads", "statement": "A workload built through the API passes validation for a device if and only if every transfer has a positive packet size, a positive packet count and in-grid source and destination(s) on existing chips; a multicast destination is only accepted if every one of its rectangles lies in the grid.", "quantifier": "every workload built through the API, every device", "why_tests_cant": "Both directions of an equivalence over all workloads.", "anchors": ["tt_npe/cpp/src/npeWorkload.cpp:npeWorkload::validate", "tt_npe/cpp/src/npeWorkload.cpp:npeWorkloadTransfer::validate"]}
{"id": "C17", "title": "Scaling the schedule preserves order and is exact at scale 1", "statement": "scaleWorkloadSchedule with any finite non-negative scale keeps the relative order of start offsets, scale 0 starts everything at 0, scale 1 leaves every offset unchanged, and the conversion back to an integer is always defined.", "quantifier": "every workload, every scale", "why_tests_cant": "A statement about all float scales and all 32-bit offsets, including rounding.", "anchors": ["tt_npe/cpp/src/npeWorkload.cpp:npeWorkload::scaleWorkloadSchedule"]}
{"id": "C18", "title": "Removing local unicast transfers removes nothing else", "statement": "removeLocalUnicastTransfers keeps, in order and with unchanged contents, exactly the transfers that are not unicasts inside one 2x2 block; multicast transfers, zones, golden cycles, source path and transfer-group numbering are preserved.", "quantifier": "every workload", "why_tests_cant": "Preservation of everything else is not asserted by any test.", "anchors": ["tt_npe/cpp/src/npeWorkload.cpp:npeWorkload::removeLocalUnicastTransfers"]}
{"id": "C19", "title": "Injection-rate inference depends only on the source core", "statement": "After inferInjectionRates every transfer has the injection rate of the core type at its source; nothing else changes; inferring twice equals inferring once. It is defined for every workload that validation accepts, and a workload with an out-of-grid source is reported by runNPE as a validation error.", "quantifier": "every workload, every device", "why_tests_cant": "All coordinates and all workloads; the preprocessing order relative to validation matters.", "anchors": ["tt_npe/cpp/src/npeWorkload.cpp:npeWorkload::inferInjectionRates", "tt_npe/cpp/src/npeAPI.cpp:npeAPI::preprocessWorkload", "tt_npe/cpp/src/npeAPI.cpp:npeAPI::runNPE"]}
{"id": "C20", "title": "Mesh golden window encloses all device windows", "statement": "After setGoldenResultCycles the mesh entry is the smallest window containing every given device window, the other entries are unchanged, and setting the stored map again changes nothing.", "quantifier": "every non-empty map of device windows", "why_tests_cant": "Unbounded maps; idempotence is used by the preprocessing step.", "anchors": ["tt_npe/cpp/include/npeWorkload.hpp:setGoldenResultCycles"]}
{"id": "C21", "title": "Total bytes is packet size times packet count", "statement": "The number of bytes a transfer moves equals packet_size * num_packets as integers.", "quantifier": "every pair of 32-bit packet size and count", "why_tests_cant": "2^64 pairs; wrap-around only for large products.", "anchors": ["tt_npe/cpp/include/npeWorkload.hpp:npeWorkloadTransfer"]}
{"id": "C22", "title": "runNPE always returns a result object", "statement": "Constructing the API fails with INVALID_CONFIG exactly when cycles_per_timestep is zero or the congestion model is unknown (and with DEVICE_MODEL_INIT_FAILED for an unknown device). For every workload, runNPE returns either statistics or an npe exception value: no C++ exception escapes, the process is not ended and no undefined behaviour happens.", "quantifier": "every configuration, every workload", "why_tests_cant": "Absence of any escaping exception over all inputs.", "anchors": ["tt_npe/cpp/src/npeAPI.cpp:npeAPI::validateConfig", "tt_npe/cpp/src/npeAPI.cpp:npeAPI::runNPE", "tt_npe/cpp/src/npeEngine.cpp:npeEngine::runSinglePerfSim"]}
{"id": "C23", "title": "Results do not depend on hash-table order", "statement": "Two runs of the same workload and configuration give the same start cycle, end cycle and byte count for every transfer, and the same estimated cycles, whatever iteration order the unordered containers use for dependency buckets and multicast link sets.", "quantifier": "every workload, every configuration, every iteration order", "why_tests_cant": "Iteration order cannot be controlled by a test.", "anchors": ["tt_npe/cpp/src/npeEngine.cpp:npeEngine::genDependencies", "tt_npe/cpp/include/device_models/wormhole_b0.hpp:route"]}
{"id": "C24", "title": "Per-NIU serialisation allows two transfers in flight", "statement": "Among the (ungrouped) transfers leaving one source core on one NoC in the same first direction, ordered by start offset and then id, the k-th one does not start before the (k-2)-th one has ended; the first two are not delayed by this rule.", "quantifier": "every workload, every completed run", "why_tests_cant": "A temporal statement about all schedules.", "anchors": ["tt_npe/cpp/src/npeEngine.cpp:npeEngine::genDependencies", "tt_npe/cpp/src/npeEngine.cpp:npeEngine::runSinglePerfSim"]}
{"id": "C25", "title": "The dependency consistency check never fails", "statement": "For every workload the check after dependency generation succeeds (the process is never ended with exit(1)), each checkpoint is required by exactly one transfer, and the tracker is handed to the simulation with no checkpoint fulfilled.", "quantifier": "every workload", "why_tests_cant": "A check in the code that must hold for all inputs.", "anchors": ["tt_npe/cpp/src/npeEngine.cpp:npeEngine::genDependencies", "tt_npe/cpp/include/npeDependencyTracker.hpp"]}
{"id": "C26", "title": "No transfer starts before its dependency is fulfilled", "statement": "In every run and at every timestep, a transfer that has begun moving bytes has a start cycle not earlier than its phase offset and not earlier than the end cycle of the transfer it depends on plus the delay of the dependency.", "quantifier": "every workload, every timestep of every run", "why_tests_cant": "Invariant over unbounded executions.", "anchors": ["tt_npe/cpp/src/npeEngine.cpp:npeEngine::runSinglePerfSim", "tt_npe/cpp/include/npeDependencyTracker.hpp:done"]}
{"id": "C27", "title": "Dependencies cannot deadlock", "statement": "If every transfer-group parent precedes its children in (start offset, id) order, the dependencies form no cycle, so at every point with unfinished transfers some unfinished transfer has all its dependencies finished. A workload whose group parents form a cycle ends with the cycle-limit error.", "quantifier": "every workload", "why_tests_cant": "Deadlock freedom over all dependency graphs.", "anchors": ["tt_npe/cpp/src/npeEngine.cpp:npeEngine::genDependencies"]}
{"id": "C28", "title": "Transfers on different chips do not serialise each other", "statement": "Transfers whose source cores are on different chips, and which are not in the same transfer group, never depend on each other.", "quantifier": "every multi-chip workload", "why_tests_cant": "Needs two chips with equal local coordinates and at least three transfers.", "anchors": ["tt_npe/cpp/src/npeEngine.cpp:npeEngine::genDependencies"]}
{"id": "C29", "title": "Multi-hop groups are simulated hop after hop", "statement": "A transfer with a group parent depends on exactly that parent with a delay of its write latency (plus the ethernet hop cost if the parent is on another chip), on every supported architecture; a parent that does not exist in the workload is reported as an error.", "quantifier": "every workload with transfer groups, every device", "why_tests_cant": "Fabric tests exist for Wormhole only and contain only well-formed groups.", "anchors": ["tt_npe/cpp/src/npeEngine.cpp:npeEngine::genDependencies"]}
{"id": "C30", "title": "Activation is exact: nothing is starved, lost or started twice", "statement": "At every timestep the set of transfers activated is exactly the set of queued transfers whose start offset has been reached and whose dependency is fulfilled; every transfer is at any time in exactly one of queue, live list, or finished.", "quantifier": "every workload, every timestep", "why_tests_cant": "The in-place swap scan reorders the queue; correctness depends on an invariant over all earlier steps.", "anchors": ["tt_npe/cpp/src/npeEngine.cpp:npeEngine::runSinglePerfSim", "tt_npe/cpp/src/npeEngine.cpp:npeEngine::createTransferQueue"]}
{"id": "C31", "title": "Every simulation terminates and the clock never wraps", "statement": "For every workload and every accepted configuration the simulation loop ends after at most floor(50,000,000 / cycles_per_timestep) + 2 timesteps, either successfully or with EXCEEDED_SIM_CYCLE_LIMIT, and the 32-bit cycle counter never wraps.", "quantifier": "every workload, every timestep length 1..2^32-1", "why_tests_cant": "Termination and absence of wrap-around for all timestep lengths.", "anchors": ["tt_npe/cpp/src/npeEngine.cpp:npeEngine::runSinglePerfSim", "tt_npe/cpp/include/npeEngine.hpp:MAX_CYCLE_LIMIT"]}
{"id": "C32", "title": "Bytes are conserved", "statement": "At no time has a transfer moved more bytes than its total; the amount never decreases; and when the simulation reports success every transfer has moved exactly its total bytes and every dependency is fulfilled.", "quantifier": "every workload, every timestep of every run", "why_tests_cant": "Invariant over unbounded executions.", "anchors": ["tt_npe/cpp/src/npeEngine.cpp:npeEngine::runSinglePerfSim"]}
{"id": "C33", "title": "A transfer ends no earlier than it starts", "statement": "In every successful run every transfer has start cycle >= its phase offset and end cycle >= start cycle.", "quantifier": "every workload, every successful run", "why_tests_cant": "Involves float rounding of large cycle numbers.", "anchors": ["tt_npe/cpp/src/npeEngine.cpp:npeEngine::runSinglePerfSim"]}
{"id": "C34", "title": "No transfer is faster than its bandwidth", "statement": "In every run the bytes moved by a transfer never exceed its (largest) bandwidth times the number of cycles since its start; the cycles credited in one timestep never exceed twice the timestep, and the corresponding assertions never fire.", "quantifier": "every workload, every timestep of every run", "why_tests_cant": "Needs particular alignments of a dependency end with a timestep boundary.", "anchors": ["tt_npe/cpp/src/npeEngine.cpp:npeEngine::runSinglePerfSim"]}
{"id": "C35", "title": "Estimated cycles is the last end inside the golden window", "statement": "In a successful run the estimated cycle count of a device (and of the mesh) is the largest end cycle of the transfers from that device whose phase offset lies inside the golden window, minus the window start, and zero if there is none or if it is before the window start.", "quantifier": "every workload, every successful run", "why_tests_cant": "Relates a per-event incremental update to a global maximum.", "anchors": ["tt_npe/cpp/src/npeStats.cpp:npeStats::updateWorstCaseTransferEndCycle", "tt_npe/cpp/src/npeStats.cpp:npeStats::finishSimulation"]}
{"id": "C36", "title": "Congestion impact compares the two simulations", "statement": "When congestion impact estimation is enabled, the reported congestion-free cycle count of each device is the estimate of the run with the congestion model switched off, and the congestion impact is the relative difference between both runs.", "quantifier": "every workload", "why_tests_cant": "Tests only check that the value exists.", "anchors": ["tt_npe/cpp/src/npeEngine.cpp:npeEngine::runPerfEstimation", "tt_npe/cpp/src/npeStats.cpp:getCongestionImpact"]}
{"id": "C37", "title": "Live transfers make progress", "statement": "In every timestep a live transfer that is active for the full timestep moves at least one byte, so a workload without dependency cycles whose offsets are small enough completes instead of running into the cycle limit.", "quantifier": "every workload, every configuration", "why_tests_cant": "Depends on the truncation of bandwidth x cycles for every rate and timestep.", "anchors": ["tt_npe/cpp/src/npeEngine.cpp:npeEngine::runSinglePerfSim", "tt_npe/cpp/include/npeDeviceModelUtils.hpp:updateTransferBandwidth"]}
{"id": "C38", "title": "Interpolated bandwidth is within the table", "statement": "For every packet size and packet count accepted by validation, the bandwidth interpolated from the device table is a positive finite number not above the table maximum (up to one float rounding), and the final assertion of the lookup is never reached.", "quantifier": "every 32-bit packet size and packet count, every device", "why_tests_cant": "Float arithmetic over 2^64 argument pairs.", "anchors": ["tt_npe/cpp/include/npeDeviceModelUtils.hpp:interpolateBW"]}
{"id": "C39", "title": "Rates are finite, non-negative and bounded", "statement": "At every timestep the bandwidth of each live transfer is a finite number between zero and its injection rate, and applying the congestion model never raises the bandwidth of any transfer.", "quantifier": "every set of live transfers, every timestep", "why_tests_cant": "Float reasoning over all combinations of live transfers (division by zero demand, infinities).", "anchors": ["tt_npe/cpp/include/npeDeviceModelUtils.hpp:updateTransferBandwidth", "tt_npe/cpp/include/device_models/wormhole_b0.hpp:modelCongestion", "tt_npe/cpp/include/device_models/wormhole_multichip.hpp:modelCongestion", "tt_npe/cpp/include/device_models/blackhole.hpp:modelCongestion"]}
{"id": "C40", "title": "Congestion derating respects link and NIU capacities", "statement": "After congestion modelling, the (activity weighted) bandwidths of the transfers crossing any link sum to at most the link bandwidth, those leaving a source NIU sum to at most the injection rate, and those entering a sink NIU (unicast or multicast) sum to at most its absorption rate; a transfer that meets no over-subscribed resource keeps its bandwidth.", "quantifier": "every set of live transfers, every link and NIU", "why_tests_cant": "A conservation law over all traffic patterns.", "anchors": ["tt_npe/cpp/include/device_models/wormhole_b0.hpp:modelCongestion", "tt_npe/cpp/include/device_models/wormhole_multichip.hpp:modelCongestion", "tt_npe/cpp/include/device_models/blackhole.hpp:modelCongestion"]}
{"id": "C41", "title": "Timestep statistics tile the measured interval", "statement": "In a successful run the recorded timesteps of a device are consecutive intervals of cycles_per_timestep cycles each, without gaps or duplicates, and each of them was really simulated.", "quantifier": "every workload, every successful run", "why_tests_cant": "Depends on the alignment of the golden start and the last end with the timestep.", "anchors": ["tt_npe/cpp/src/npeStats.cpp:npeStats::insertTimestep", "tt_npe/cpp/src/npeStats.cpp:npeStats::finishSimulation"]}
{"id": "C42", "title": "Average link utilisation never exceeds 100 percent", "statement": "Per timestep, average utilisation of links (overall, per NoC, and per device) lies between 0 and 100 percent, whatever the demand.", "quantifier": "every demand grid", "why_tests_cant": "All demand values.", "anchors": ["tt_npe/cpp/include/npeDeviceModelUtils.hpp:updateSimulationStats"]}
{"id": "C43", "title": "Per-device averages are over that device", "statement": "On a multi-chip device the per-device average link demand, link utilisation and NIU demand are averages over the links/NIUs of that chip only.", "quantifier": "every demand grid, every chip count", "why_tests_cant": "Normalisation errors are invisible on single-chip tests.", "anchors": ["tt_npe/cpp/include/npeDeviceModelUtils.hpp:updateSimulationStats"]}
{"id": "C44", "title": "Timeline splits partition the timesteps", "statement": "When a long timeline is split into several files, the timestep ranges of the files are consecutive, disjoint and cover all recorded timesteps, for every split threshold.", "quantifier": "every number of timesteps, every threshold", "why_tests_cant": "Integer division edge cases for all sizes.", "anchors": ["tt_npe/cpp/src/npeStats.cpp:npeStats::emitSimTimelineToFile"]}
{"id": "C45", "title": "Every transfer active in a timeline file is described in it", "statement": "In each emitted timeline file, every transfer listed as active in a timestep of that file appears in the transfer list of that file.", "quantifier": "every run, every split region", "why_tests_cant": "Needs a transfer that spans a whole split region.", "anchors": ["tt_npe/cpp/src/npeStats.cpp:TimelineRegion", "tt_npe/cpp/src/npeStats.cpp:npeStats::v1TimelineSerialization"]}
{"id": "C46", "title": "Transfer groups in the timeline partition the transfers", "statement": "In the timeline every transfer belongs to exactly one transfer group: its registered group, or a group of its own; dummy group ids never collide with registered ones.", "quantifier": "every workload", "why_tests_cant": "Collisions depend on how group ids were registered and on preprocessing.", "anchors": ["tt_npe/cpp/src/npeStats.cpp:npeStats::v1TimelineSerialization", "tt_npe/cpp/include/npeWorkload.hpp:registerTransferGroupID"]}
{"id": "C47", "title": "Trace ingestion keeps exactly the supported data movements", "statement": "Converting a noc trace yields, in trace order, one transfer for each supported event that moves data (none for SET_STATE, barriers, semaphores or events with unusable fields), with packet size = num_bytes, and for READ events with source and destination exchanged so that data flows from the remote core to the issuing core.", "quantifier": "every trace", "why_tests_cant": "Unbounded event sequences.", "anchors": ["tt_npe/cpp/src/npeWorkloadIngest.cpp:convertNocTracesToNpeWorkload"]}
{"id": "C48", "title": "WITH_STATE events use the state set by their own core", "statement": "A WITH_STATE event takes its missing fields from the most recent SET_STATE event issued by the same core and processor.", "quantifier": "every trace", "why_tests_cant": "Only visible in traces which interleave cores.", "anchors": ["tt_npe/cpp/src/npeWorkloadIngest.cpp:convertNocTracesToNpeWorkload"]}
{"id": "C49", "title": "Trace conversion is total", "statement": "For every trace that is a JSON array of objects, conversion returns a workload or reports an npe error; no undefined behaviour happens for traces with missing or unknown processors, without zones, or with chips that issued no events.", "quantifier": "every trace", "why_tests_cant": "Missing-field combinations are not covered by the sample traces.", "anchors": ["tt_npe/cpp/src/npeWorkloadIngest.cpp:convertNocTracesToNpeWorkload", "tt_npe/cpp/src/npeWorkloadIngest.cpp:computeGoldenCyclesAndT0"]}
{"id": "C50", "title": "Fabric paths become parent chains", "statement": "For a fabric event with a path of n segments, conversion emits n transfers in one fresh transfer group whose indices are distinct and whose parents are the preceding segments, so that the group is a chain rooted at the first segment.", "quantifier": "every fabric event", "why_tests_cant": "Every path length.", "anchors": ["tt_npe/cpp/src/npeWorkloadIngest.cpp:convertNocTracesToNpeWorkload"]}
{"id": "C51", "title": "Checkpoint semantics", "statement": "After any history of createCheckpoint/updateCheckpoint calls, a checkpoint is done at a cycle if and only if it has received exactly as many updates as it was created with and the cycle is at least the largest update cycle plus its delay; once done it stays done as time advances while no further update arrives; the undefined checkpoint is always done.", "quantifier": "every history of operations, every cycle", "why_tests_cant": "Histories are unbounded.", "anchors": ["tt_npe/cpp/include/npeDependencyTracker.hpp:npeTransferDependencyTracker"]}
{"id": "C52", "title": "The workload JSON loader creates the described transfers", "statement": "Loading a JSON workload yields, in order, one transfer per well-formed transfer entry with exactly the given packet size, packet count, coordinates, offset, rate and NoC; malformed entries are skipped and do not affect the others.", "quantifier": "every parsed JSON document", "why_tests_cant": "All documents, including out-of-range numbers.", "anchors": ["tt_npe/cpp/src/npeWorkloadIngest.cpp:loadJSONWorkloadFormat"]}
{"id": "C53", "title": "The congestion-free model reports no demand and uncongested rates", "statement": "With congestion model \"none\" every live transfer runs at min(injection rate, interpolated bandwidth) in every timestep, independently of all other transfers.", "quantifier": "every workload, every timestep", "why_tests_cant": "Non-interference over all sets of other transfers.", "anchors": ["tt_npe/cpp/include/device_models/wormhole_b0.hpp:computeCurrentTransferRate", "tt_npe/cpp/include/npeDeviceModelUtils.hpp:updateTransferBandwidth"]}
{"id": "C54", "title": "More congestion never speeds a transfer up within a timestep", "statement": "Adding a live transfer to a timestep never increases the demand-limited share of another: each link and NIU demand can only grow, and the derating applied to every other transfer can only get stronger.", "quantifier": "every set of live transfers and every additional transfer", "why_tests_cant": "Monotonicity over all traffic patterns.", "anchors": ["tt_npe/cpp/include/device_models/wormhole_b0.hpp:modelCongestion"]}
{"id": "C55", "title": "Failures carry the code of their cause", "statement": "For an accepted configuration and a usable workload, runNPE reports WORKLOAD_VALIDATION_FAILED exactly when the preprocessed workload is rejected by validation, UNDEF_ERR exactly when a valid workload contains a multicast whose destination consists of several rectangles, DEPENDENCY_GEN_FAILED exactly when an otherwise valid workload for a Blackhole device has a transfer that waits for its group, EXCEEDED_SIM_CYCLE_LIMIT only when the simulation passes the cycle limit, and statistics otherwise.", "quantifier": "every accepted configuration, every usable workload, every iteration order of the unordered containers", "why_tests_cant": "Each test exercises one cause; that the causes are exclusive, exhaustive and mapped to the right code over all workloads needs a proof about the whole call.", "anchors": ["tt_npe/cpp/src/npeAPI.cpp:runNPE", "tt_npe/cpp/src/npeEngine.cpp:runPerfEstimation"]}
{"id": "C56", "title": "The golden window of a chip spans its events", "statement": "For a converted trace, the golden window of a chip runs from the first event of the chip that names a processor and a core to twenty cycles before its last such event, counted from the earliest event of the trace.", "quantifier": "every trace and device for which conversion succeeds, every chip with events, timestamps up to 2^53", "why_tests_cant": "The window goes through doubles, unsigned 64-bit and 32-bit arithmetic; only a proof shows for which spans the subtraction of 20 stays in range.", "anchors": ["tt_npe/cpp/src/npeWorkloadIngest.cpp:computeGoldenCyclesAndT0"]}
{"id": "C57", "title": "The zones of a processor are its zone events", "statement": "For a converted trace, the zone map of the workload has one entry per processor that has zone events, and the entry lists exactly these events in the order of the trace, with name, phase and time relative to the earliest event.", "quantifier": "every trace for which conversion succeeds, every core and processor, timestamps up to 2^53", "why_tests_cant": "Zone events of many processors interleave arbitrarily; the claim is about every interleaving.", "anchors": ["tt_npe/cpp/src/npeWorkloadIngest.cpp:extractZones"]}
{"id": "C58", "title": "Transfers are labelled with the zones that enclose them", "statement": "For a converted trace, every transfer of an event carries the path of the zones of its own processor that are open at the time of the event, outermost first, each with its iteration number, and the empty path when none is open.", "quantifier": "every trace for which conversion succeeds, every event that yields transfers, timestamps up to 2^53", "why_tests_cant": "The iterator is kept across events and reset only when the processor changes; whether stale state is ever used depends on all interleavings of processors with and without zones.", "anchors": ["tt_npe/cpp/src/npeWorkloadIngest.cpp:convertNocTracesToNpeWorkload", "tt_npe/cpp/src/npeWorkloadIngest.cpp:flattenEnclosingZones", "tt_npe/cpp/include/npeUtil.hpp:ZoneIterator"]}
{"id": "C59", "title": "DRAM and Ethernet utilisation are the bytes moved over what the bandwidth allows", "statement": "After a successful run, the DRAM utilisation of a chip is the bytes of its transfers from or to DRAM, each counted once, as a percentage of what the DRAM of the chip can move in the golden (or estimated) cycles, and that of the mesh is over all transfers and all chips; each Ethernet core that a transfer goes to has one entry with its utilisation, and no other core has one.", "quantifier": "every device of the factory, every workload with up to 2^32 transfers, every run that succeeds, every chip and the mesh; in doubles up to a relative error of 2^-21", "why_tests_cant": "The value passes through size_t sums, float products and double divisions; a test sees a few values and cannot show that no transfer is missed or counted twice.", "anchors": ["tt_npe/cpp/src/npeStats.cpp:computeSummaryStats"]}
{"id": "C60", "title": "Overall averages and maxima summarise the simulated timesteps", "statement": "After a successful run, each overall average is the mean of its value over the simulated timesteps, each overall maximum is the greatest value that occurred, and the prediction error is the signed difference of estimated and golden cycles in percent of the golden cycles.", "quantifier": "every workload, every run that succeeds, every chip and the mesh; averages in doubles up to rounding, maxima exactly", "why_tests_cant": "The rounding error of a long sum and the number of timesteps that finishing adds depend on the whole run.", "anchors": ["tt_npe/cpp/src/npeStats.cpp:computeSummaryStats", "tt_npe/cpp/src/npeStats.cpp:finishSimulation"]}
{"id": "C61", "title": "Pickling statistics and loading them again preserves everything that Python can read", "statement": "For every statistics object, unpickling its pickled form succeeds and every field that is readable from Python (flags, cycle counts, all averages and maxima, DRAM and Ethernet utilisation, per device) has its old value.", "quantifier": "every value of every field of its C++ type, every number of devices and Ethernet cores, every iteration order of the hash maps", "why_tests_cant": "The two functions list 22 fields by position; a swapped or missing position shows only for values that differ, and hash-map order is arbitrary.", "anchors": ["tt_npe/cpp/pybind/bindings.cpp:py::pickle"]}
{"id": "C62", "title": "InitAPI gives a handle for every valid configuration and None otherwise", "statement": "InitAPI returns a handle to the model of the named device if the device name is documented, cycles_per_timestep is positive and the congestion model is known; it returns None for every other configuration, and lets no exception through.", "quantifier": "every device name, model name and number of cycles", "why_tests_cant": "The space of names is infinite; the order of the checks decides which exceptions can occur.", "anchors": ["tt_npe/cpp/pybind/bindings.cpp:InitAPI", "tt_npe/cpp/src/npeAPI.cpp:validateConfig"]}
{"id": "C63", "title": "Objects built from Python hold the numbers they were built from", "statement": "A Coord, a Transfer and the golden cycles that are built from Python numbers hold exactly these numbers, or building them is an error.", "quantifier": "all integers, all dictionaries of golden cycles", "why_tests_cant": "The values that are silently changed lie at the edges of 16-bit and 32-bit types.", "anchors": ["tt_npe/cpp/pybind/bindings.cpp:Coord", "tt_npe/cpp/pybind/bindings.cpp:Transfer", "tt_npe/cpp/pybind/bindings.cpp:setGoldenResultCycles"]}
{"id": "C64", "title": "The zones in a timeline file are the zones of the workload", "statement": "For every processor of the workload, the full timeline file lists every zone once, with its number among the zones of its name, its first and last cycle and the zones nested in it; a split file lists the zones inside its region; no processor is added or lost.", "quantifier": "all workloads whose simulation succeeds, all lists of zone events, every split threshold, every iteration order of the zone map", "why_tests_cant": "Zone entries are reached through a map of JSON pointers that is updated while the document is edited; errors need particular nestings, equal names and equal cycles.", "anchors": ["tt_npe/cpp/src/npeStats.cpp:v1TimelineSerialization", "tt_npe/cpp/include/npeUtil.hpp:ZoneIterator"]}
{"id": "C65", "title": "Every timeline file is written under its own name", "statement": "The files of one simulation have pairwise different names, formed from the given path, or from the name of the workload, and the number of the split; every file that can be opened holds its content afterwards and no other file changes. Timelines of different workloads or with different paths do not replace each other.", "quantifier": "all simulations that succeed, all paths and workload names, every number of splits, with and without compression, every set of paths that can be opened", "why_tests_cant": "Names are built by searching for dots and extensions; collisions need particular strings, and silent failures need particular directories.", "anchors": ["tt_npe/cpp/src/npeStats.cpp:emitSimTimelineToFile", "tt_npe/cpp/src/npeStats.cpp:writeTimelineToFile"]}
{"id": "C66", "title": "The transfer groups in a timeline file describe the transfers", "statement": "In the full timeline file every transfer is exactly one segment of one group, with its source, its receivers, its route (injection, links in order, ejection) and its first and last cycle; a split file holds some of these. The segments of a group are its transfers in the order of their indices, its header comes from the first and the last of them, and its interval covers all of them.", "quantifier": "all workloads with endpoints on the grid, every supported device, every iteration order of links, buckets and groups, every split threshold", "why_tests_cant": "Groups are formed through two hash maps and sorted by index; loss or duplication needs particular identifiers, and intervals go wrong only for groups that branch or start out of order.", "anchors": ["tt_npe/cpp/src/npeStats.cpp:v1TimelineSerialization"]}
{"id": "C67", "title": "Every timestep of a timeline file shows a simulated timestep", "statement": "Every timestep of a timeline file (full, split or legacy) is either one of the empty timesteps appended by the resize of the statistics, or carries the interval of a timestep of the simulation, lists every link and network interface of the device whose demand at the end of that timestep is above 0.001 exactly once, with that demand, and nothing else, and lists exactly the transfer groups (legacy: the transfers) that took part in that timestep; a transfer without group appears under its own number after all groups of the workload. A run without congestion model shows no demand.", "quantifier": "all supported devices, proper workloads, timestep lengths, congestion models, split thresholds, iteration orders of the hash maps, arithmetics", "why_tests_cant": "tests compare a few output files with recorded ones; they do not relate every listed demand and every active group to the state of the simulation, and an omitted link or a wrong group number looks plausible", "anchors": ["tt_npe/cpp/src/npeStats.cpp:203-331", "tt_npe/cpp/src/npeStats.cpp:452-466", "tt_npe/cpp/src/npeStats.cpp:677-745", "tt_npe/cpp/include/npeDeviceModelUtils.hpp:67-140"]}
{"id": "C68", "title": "Every chip has its position in a timeline file", "statement": "The timeline files of a successful run give every chip of the device its own position: for one chip (0,0); for several chips with a topology of one mesh of ns rows of ew chips, each listed device at the position (x, y) with chip = y*ew + x, 0 <= x < ew, 0 <= y < ns, no two at the same position.", "quantifier": "all runs, devices, topologies", "why_tests_cant": "the tests write timelines of one chip only; the effect of missing or multi-mesh topologies on the file is visible only in the visualiser", "anchors": ["tt_npe/cpp/src/npeStats.cpp:398-444"]}
{"id": "C69", "title": "Reports on a result", "statement": "The congestion impact that a result reports is the share of its estimated cycles that the run without congestion saves, in percent: correctly rounded up to three units in the last place, at most 100, with the right sign. The aggregate Ethernet utilisation is the mean over the Ethernet cores that are destinations, for every iteration order of the hash map. The utilisation in words lists every such core once, in the order of chip, row and column, and does not depend on the order of the hash map.", "quantifier": "all statistics with counts up to 2^53; all devices of the factory, proper workloads, configurations, simulation results, chips, and orders of the hash map; all ways to write a number", "why_tests_cant": "the order of a hash map is fixed in one build, and the reported impact is always a plausible zero, which a test of a workload without congestion expects", "anchors": ["tt_npe/cpp/src/npeStats.cpp:878-917", "tt_npe/cpp/src/npeEngine.cpp:172-200", "tt_npe/cpp/pybind/bindings.cpp:66-79"]}
{"id": "C70", "title": "Neighbouring chips in the fabric", "statement": "A topology contains exactly what its file says. The next chip in a direction is the chip at the adjacent position of the mesh; in a ring or torus the mesh is closed up, and in a one-dimensional fabric of a T3K the message turns at the corners along the border. The way back leads back, and on a T3K with two rows the moves clockwise go once around the border.", "quantifier": "all topology files, all chips and directions, any number of moves", "why_tests_cant": "mesh sizes, chip numberings and the positions of corners are unbounded, and the successive corrections of the direction only interfere on shapes that no test has", "anchors": ["tt_npe/py/util/fabric_post_process.py:49-137", "tt_npe/py/util/fabric_post_process.py:189-247"]}
{"id": "C71", "title": "Paths in a one-dimensional fabric", "statement": "The elaborated path of a message starts at its core, leads (through a multiplexer, if any) to the Ethernet core of its channel, and then has one segment on each of the next chips in the direction of that channel, all on its routing plane. Each segment continues its parent. The last chip is as many links away as start distance and range say, and exactly the chips from the start distance on are written. If the links are there, the path is found; a channel without a routing plane is reported as a processing error.", "quantifier": "all topologies, sources, channels, start distances and ranges, multiplexers and destinations", "why_tests_cant": "paths of any length through meshes of any size; with one routing plane, as in small tests, the wrong plane is the right one", "anchors": ["tt_npe/py/util/fabric_post_process.py:249-298", "tt_npe/py/util/fabric_post_process.py:300-351", "tt_npe/py/util/fabric_post_process.py:353-394"]}
{"id": "C72", "title": "Paths in a two-dimensional fabric", "statement": "A unicast goes along the column first and then along the row, ends on the chip that the hops say (the chip of the turn counts as a hop along the row), each segment continues its parent, and only the last one writes. A multicast writes every chip of its column, and of the rows beside it, once.", "quantifier": "all grids and tori, channels, numbers of hops, multiplexers and destinations", "why_tests_cant": "grids of any size and any numbers of hops; the branches of a multicast are wrong only from the second dimension on", "anchors": ["tt_npe/py/util/fabric_post_process.py:396-482"]}
{"id": "C73", "title": "Combined traces", "statement": "The combined trace contains the events of all files in the order of chip, core, processor and time, where ties keep their order; with the filter, exactly the events before the first jump in time. Elaboration changes nothing but the path and the destination chip of fabric sends, and on a line these are those of C71. Synchronised events are kept, and one bad event is reported as a processing error.", "quantifier": "all lists of files and events, all topologies", "why_tests_cant": "stability and the filter depend on the order of all events of all files", "anchors": ["tt_npe/py/util/fabric_post_process.py:506-601"]}
{"id": "C74", "title": "Names of trace files and of operations", "statement": "Operation and device are recovered from the identifier of a program run, and every identifier is made of its operation and device. A file name is accepted exactly when it is noc_trace_dev<n>_[<operation>_]ID<n>[_traceID<n>].json, with exactly the values it names. Different operations have different strings, so different merged and timeline files.", "quantifier": "all identifiers, all strings as paths, all operations", "why_tests_cant": "the strings are unbounded, and the regular expression has optional and greedy parts whose ambiguity (an operation name may itself contain _ID5) only an argument over all strings excludes", "anchors": ["tt_npe/py/util/npe_analyze_noc_trace_dir.py:126-138", "tt_npe/py/util/npe_analyze_noc_trace_dir.py:264-274", "tt_npe/py/util/npe_analyze_noc_trace_dir.py:321-331"]}
{"id": "C75", "title": "Grouping of trace files by operation", "statement": "Every trace file with a valid name is in the group of its operation and trace and in no other; a group holds exactly those files, in the order of the listing, under the name in the first. This holds for both groupings.", "quantifier": "all lists of file names", "why_tests_cant": "all interleavings of files of different operations, devices and traces, with invalid names between them", "anchors": ["tt_npe/py/util/npe_analyze_noc_trace_dir.py:277-319", "tt_npe/py/util/npe_analyze_noc_trace_dir.py:333-362"]}
{"id": "C76", "title": "Statistics over the analysed operations", "statement": "A data point is found under the identifier of its program run and its trace; the weighted averages lie between the least and the greatest value and do not depend on the order; the percentiles are quantiles of the errors; the table shows the operations by falling cycles, with shares that add up to 100 percent, and always succeeds.", "quantifier": "all dictionaries of data points", "why_tests_cant": "unbounded dictionaries, any order of insertion; index arithmetic at all lengths", "anchors": ["tt_npe/py/util/npe_analyze_noc_trace_dir.py:42-124", "tt_npe/py/util/npe_analyze_noc_trace_dir.py:232-262"]}
{"id": "C77", "title": "The analysis of a directory", "statement": "The analysis has exactly the data points of the simulations of the merged traces of each operation, whatever the order in which the workers return; the manifest lists exactly one timeline file for each simulated operation, and that file shows the simulation of its merged trace; an operation whose traces cannot be merged has no data points.", "quantifier": "all directories, file systems, topologies, simulators and orders of results", "why_tests_cant": "merged files are written and read through the file system, where operations can overwrite each other's files; the order of the pool is not determined", "anchors": ["tt_npe/py/util/npe_analyze_noc_trace_dir.py:140-150", "tt_npe/py/util/npe_analyze_noc_trace_dir.py:205-230", "tt_npe/py/util/npe_analyze_noc_trace_dir.py:364-448", "tt_npe/py/util/fabric_post_process.py:506-601"]}
{"id": "C78", "title": "The timeline of a finished simulation is emitted", "statement": "When a simulation of an accepted workload succeeds, emitting its timeline succeeds too: no assertion fails, no lookup misses and no pointer dangles. The run then has one file for all timesteps and, if there are more timesteps than the threshold, one for each group of that many; every file holds a document if the chips' positions are known. A failed simulation emits nothing.", "quantifier": "all supported devices, accepted workloads with registered groups and nested zones, topologies, thresholds, congestion models, timestep lengths, iteration orders and arithmetics", "why_tests_cant": "emission depends on every transfer, zone, demand table and on the order of hash maps; its assertions only fail for workloads no test contains", "anchors": ["tt_npe/cpp/src/npeStats.cpp:203-331", "tt_npe/cpp/src/npeStats.cpp:359-775", "tt_npe/cpp/src/npeStats.cpp:799-876", "tt_npe/cpp/src/npeEngine.cpp:339-361"]}
{"id": "C79", "title": "The exit status of the command line", "statement": "tt_npe.py exits with status 2 if the device or the congestion model is not among its choices, with status 1 if no workload is given, the workload cannot be made or the timestep is zero, and otherwise when runNPE has returned for that workload: with status 0 if the simulation failed, and with an exception that is not caught if it succeeded. For a clean trace, and for a workload file with golden cycles on one chip, it always ends in one of these ways, also when it scales the schedule or writes a timeline. A successful simulation should exit with status 0 and a failed one should not, every documented device should be among the choices, and a workload file should be simulated on every device.", "quantifier": "all option values, workload files, traces, topologies, random iteration orders of hash maps", "why_tests_cant": "the options and files combine without bound; an uncaught exception or undefined behaviour in any layer breaks the claim", "anchors": ["tt_npe/py/pycli/tt_npe.py:14-168", "tt_npe/cpp/src/npeAPI.cpp:11-54", "tt_npe/cpp/src/npeEngine.cpp:172-361", "tt_npe/cpp/include/npeDeviceModelFactory.hpp:19-43"]}
{"id": "C80", "title": "Workloads without golden cycles are not simulated", "statement": "If the golden cycles of a chip of the device or of the mesh are missing, runNPE never returns statistics. If nothing else is wrong with the workload, std::out_of_range escapes from runNPE or it returns a failure. The example program programmatic_workload_generation.py, which sets no golden cycles, ends in this exception whatever its random choices are.", "quantifier": "all devices, configurations, workloads, arithmetics and iteration orders; all random choices of the example program", "why_tests_cant": "the project's tests all set golden cycles; the example is random", "anchors": ["tt_npe/cpp/src/npeStats.cpp:42-53", "tt_npe/cpp/include/npeWorkload.hpp:111", "tt_npe/cpp/src/npeAPI.cpp:42-54", "tt_npe/py/examples/programmatic_workload_generation.py:21-100"]}
{"id": "C81", "title": "Timeline files can be read back", "statement": "A reader that knows the keys finds in every timeline file exactly what was simulated: the header with device, architecture, grid, timestep length, congestion model and the overall statistics of the result; the number, range and cycles of a split file; the chips; every selected transfer with its segments and links; the zones; and every selected timestep with its active transfers, demands and averages. The file has the keys and types of the schema files in tt_npe/scripts, and every statistic is a number.", "quantifier": "all devices, workloads, topologies, thresholds, congestion models, timestep lengths and iteration orders; both file formats", "why_tests_cant": "tests parse a few files; a swapped or misspelt key, a lost chip or a null appears only for some devices, zones or statistics", "anchors": ["tt_npe/cpp/src/npeStats.cpp:203-331", "tt_npe/cpp/src/npeStats.cpp:359-745", "tt_npe/cpp/src/npeStats.cpp:818-876", "tt_npe/cpp/include/npeStats.hpp:124", "tt_npe/scripts/timeline_schema_v1.json", "tt_npe/scripts/stats_schema.json"]}
{"id": "C82", "title": "The numbers of a result are finite", "statement": "No demand, average, maximum, utilisation or prediction error reported for a finished simulation is infinite, NaN or, but for the prediction error, negative: float demands never exceed 2^32 bytes per cycle however many transfers meet on a link, and no summary divides by zero. Hence no number of a timeline file is null.", "quantifier": "all devices, proper workloads with non-negative finite injection rates and any number of transfers, congestion models, timestep lengths and iteration orders, in binary32/binary64 arithmetic", "why_tests_cant": "overflow and NaN need extreme counts of transfers on one link or an idle chip, and IEEE rounding makes long sums saturate in ways no finite set of runs shows", "anchors": ["tt_npe/cpp/src/npeStats.cpp:42-85", "tt_npe/cpp/src/npeStats.cpp:122-201", "tt_npe/cpp/include/npeDeviceModelUtils.hpp:67-140", "tt_npe/cpp/include/device_models/wormhole_b0.hpp:55-189", "tt_npe/cpp/include/device_models/wormhole_multichip.hpp:90-216"]}
{"id": "C83", "title": "A compressed timeline can be read back", "statement": "compressToFile answers true only if the file then holds the complete compressed text, from which decompression gives back the contents; it answers false only if nothing was written or the file was cut short; it never changes another file, and writing a timeline never throws. For an empty text it throws.", "quantifier": "all texts, paths, previous files, codes with the properties promised by zstd.h, disks with any room, and stream buffer sizes", "why_tests_cant": "the tests compress a handful of texts to a disk with room; a disk that fills up while the buffer of the stream is flushed is never seen", "anchors": ["tt_npe/cpp/src/npeCompressionUtil.cpp:13-58", "tt_npe/cpp/src/npeStats.cpp:776-797"]}
{"id": "C84", "title": "Generated routes are the simulator's", "statement": "generate_multichip_data.py gives every transfer inside a chip exactly the links that the simulator's routing gives it, and completes a file for any numbers drawn for a grid: as many transfers as asked for, with the drawn endpoints, bytes and start.", "quantifier": "all grids, chips, pairs of cores, NoCs, lists of drawn numbers", "why_tests_cant": "the script is random and has no test; its routing is a second copy of the C++ routing that only a proof for all pairs of cores can compare", "anchors": ["tt_npe/scripts/generate_multichip_data.py:134-372", "tt_npe/cpp/include/device_models/wormhole_multichip.hpp"]}
{"id": "C85", "title": "Timesteps of the generated file", "statement": "In a generated file timestep k is [k*cpt, (k+1)*cpt); its active transfers are exactly those under way in it, without repetition; its listed links are exactly those in use, each once, with the sum of the shares of the transfers using it; every cycle of every transfer lies in a timestep that lists it; utilisations are at most 100 %; the share of a transfer times its cycles is its bytes.", "quantifier": "all grids, numbers of chips, timestep lengths, lists of drawn numbers", "why_tests_cant": "the script is random and untested; the dictionaries and bins depend on the order of transfers, which only an invariant covers", "anchors": ["tt_npe/scripts/generate_multichip_data.py:374-516"]}
{"id": "C86", "title": "The words of the command line", "statement": "tt_npe.py accepts exactly the command lines in which each option is written by its letter, its full name or an unambiguous beginning of it, with a value in the next word, after = or attached to the letter, and switches may share a word, provided that numbers are numbers and device and congestion model are among the choices. The last value given for an option counts; an option that is not given has its documented default. The order of different options does not matter. Every other line ends with status 2, or with status 0 if it asks for help, before anything is simulated.", "quantifier": "all lists of words, all readings of integers and floats", "why_tests_cant": "lines are unbounded lists of arbitrary strings with abbreviations, clusters of letters and words that look like options or negative numbers", "anchors": ["tt_npe/py/pycli/tt_npe.py:14-134"]}
{"id": "C87", "title": "A workload that starts later", "statement": "Let a workload be delayed as a whole: every transfer and every golden window starts k cycles later, k a multiple of the timestep. If the simulation of the workload succeeds, so does the simulation of the delayed one, every transfer starts and ends exactly k cycles later with the same bandwidth and route, and every statistic (estimated and golden cycles, utilisations, demands, errors, every timestep) is the same apart from the cycles of the timesteps.", "quantifier": "all devices, workloads, orders of the hash containers, timestep lengths and delays", "why_tests_cant": "a relation between two unbounded executions; rounding and boundary effects depend on the cycle at which a run begins", "anchors": ["tt_npe/cpp/src/npeEngine.cpp:202-361", "tt_npe/cpp/src/npeStats.cpp:41-120", "tt_npe/cpp/include/npeDependencyTracker.hpp:14-101"]}
{"id": "C88", "title": "Without congestion transfers do not disturb each other", "statement": "In a simulation without congestion the start and end cycle of a transfer depend only on its own request (start offset, bytes, packet size and number, injection rate) and on what it waits for: two transfers, of one workload or of two, that ask for the same and wait equally long for transfers that are again such a pair, start and end at the same cycles, whatever else the workloads hold and in whatever order the hash containers are traversed. In particular a transfer that waits for nothing takes exactly as long as when it is the only transfer. With congestion this is false.", "quantifier": "all devices, pairs of workloads, orders of the hash containers, timestep lengths, successful runs and arithmetics", "why_tests_cant": "a relation between two unbounded executions of unrelated workloads, which may end in different timesteps", "anchors": ["tt_npe/cpp/src/npeEngine.cpp:202-361", "tt_npe/cpp/include/npeDeviceModelUtils.hpp:51-90", "tt_npe/cpp/include/npeDependencyTracker.hpp:14-101"]}
{"id": "C89", "title": "Congestion does not make a simulation faster", "statement": "Simulate one workload with and without the congestion model. A transfer that waits for no other starts at the same cycle in both runs and ends no earlier with congestion. Hence, if no transfer waits for another, no estimated cycle count is less with a congestion model than without. With dependencies this is false: a transfer whose predecessor congestion delays to the end of a timestep is credited with that timestep twice, and the whole run can finish earlier than without congestion.", "quantifier": "all devices, workloads, orders of the hash containers, timestep lengths up to 2^20 and successful runs below cycle 2^24", "why_tests_cant": "a relation between two unbounded executions with rounding in every timestep; the counterexample needs a transfer that ends exactly on a boundary", "anchors": ["tt_npe/cpp/src/npeEngine.cpp:202-361", "tt_npe/cpp/include/npeDeviceModelUtils.hpp:updateTransferBandwidth", "tt_npe/cpp/include/device_models/wormhole_b0.hpp:modelCongestion"]}
{"id": "C90", "title": "Transfers that share nothing are not slowed down by congestion", "statement": "In a timestep with the congestion model, a live transfer that has no link, no source interface and no destination interface in common with another live transfer gets its whole bandwidth: the lesser of its injection rate and the bandwidth of its packet size, provided a link and its destination can carry that. If no two transfers of a workload have any of these in common, every transfer starts and ends at the same cycle with the congestion model as without, and every estimated cycle count is the same. Interfaces of the same core on different chips are not shared.", "quantifier": "all supported devices, all accepted workloads (at most one rectangle per multicast), orders of the hash containers, timestep lengths, reachable states and successful runs", "why_tests_cant": "a relation between two unbounded executions over all sets of transfers that are disjoint on the network; a test sees only particular placements", "anchors": ["tt_npe/cpp/include/npeDeviceModelUtils.hpp:updateTransferBandwidth", "tt_npe/cpp/include/device_models/wormhole_b0.hpp:modelCongestion", "tt_npe/cpp/src/npeEngine.cpp:202-361", "tt_npe/cpp/include/device_models/wormhole_multichip.hpp:43-54", "tt_npe/cpp/include/device_models/wormhole_multichip.hpp:90-232"]}
{"id": "C91", "title": "More transfers do not make the others faster", "statement": "Simulate a workload and a second one that contains all its transfers (under other numbers, in the same order) and more, both with congestion. If no transfer waits for another, every transfer of the first workload starts at the same cycle in both runs and ends no earlier in the second; with the same golden cycles no estimated cycle count is less for the second workload. With dependencies this is false: a new transfer that delays another to the end of a timestep can make the transfer that waits for it, and the whole run, finish earlier.", "quantifier": "all devices, pairs of workloads, orders of the hash containers that do not depend on transfer numbers, timestep lengths up to 2^20 and successful runs below cycle 2^24", "why_tests_cant": "a relation between two unbounded executions of different workloads; it depends on the order in which rounded demands are added up and on monotonicity of every rounding step", "anchors": ["tt_npe/cpp/src/npeEngine.cpp:202-361", "tt_npe/cpp/src/npeEngine.cpp:49-66", "tt_npe/cpp/include/device_models/wormhole_b0.hpp:modelCongestion"]}
{"id": "C92", "title": "The report on a device shows its statistics", "statement": "deviceStats::to_string writes one line for every percentage with the nearest tenth (ties to the even digit, filled to five characters) and one for each of the two cycle counts with all digits. The line of the prediction error is there exactly if the golden cycles are known. The verbose report is the other one followed by a blank line and the wall clock time. Two devices with the same report have the same cycle counts and percentages at most a tenth apart.", "quantifier": "all statistics with finite values, both verbosities, all wall clock times", "why_tests_cant": "a statement about all doubles and all pairs of reports; rounding and alignment errors show only for particular values", "anchors": ["tt_npe/cpp/src/npeStats.cpp:87-124", "tt_npe/cpp/src/npeStats.cpp:getCongestionImpact"]}
{"id": "C93", "title": "Texts of configurations and exceptions identify them", "statement": "Two configurations with the same text are the same in all 17 fields. setVerbosityLevel cuts its argument to 0 to 3 and changes no other field. Two exceptions with the same message have the same code and the same text. The first claim is false for strings with line breaks: two different configurations have the same text.", "quantifier": "all configurations, all verbosity levels, all error codes and messages", "why_tests_cant": "injectivity over all pairs of configurations and messages", "anchors": ["tt_npe/cpp/include/npeConfig.hpp:12-68", "tt_npe/cpp/include/npeCommon.hpp:35-56"]}
{"id": "C94", "title": "Larger transfers do not make a simulation faster", "statement": "Simulate a workload and a second one in which every transfer of the first occurs with at least as many bytes, in the same packets or as one packet each. If no transfer waits for another, with congestion every transfer starts at the same cycle in both runs and ends no earlier in the second, and with the same golden cycles no estimate is less. Without congestion this holds for any two transfers that wait for nothing, wherever they go. With larger packets it is false: on Blackhole 256000 bytes in 1000 packets end earlier than 128000 bytes in 1000 packets.", "quantifier": "all devices, pairs of workloads, orders of the hash containers that do not depend on transfer numbers (any order without congestion), timestep lengths up to 2^20 and successful runs below cycle 2^24", "why_tests_cant": "a relation between two unbounded executions of different workloads, whose transfers end in different timesteps and load the links for different times", "anchors": ["tt_npe/cpp/src/npeEngine.cpp:202-361", "tt_npe/cpp/include/npeDeviceModelUtils.hpp:16-75", "tt_npe/cpp/include/device_models/blackhole.hpp:466-467"]}
{"id": "C95", "title": "Lower injection rates do not make a simulation faster", "statement": "Simulate a workload and a second one in which every transfer of the first has a counterpart on the same chip that is asked for at the same cycle, with at least as many bytes and at most the same injection rate, in the same packets or as one packet each. Without congestion, if no transfer waits for another, no transfer starts at another cycle or ends earlier in the second run, and with the same golden cycles no estimate is less. With congestion this is false: a lower rate of one transfer leaves more of the links to another, and the whole run ends earlier.", "quantifier": "all devices, pairs of workloads, orders of the hash containers, timestep lengths up to 2^20 and successful runs below cycle 2^24", "why_tests_cant": "a relation between two unbounded executions of different workloads for all pairs of binary32 rates", "anchors": ["tt_npe/cpp/include/npeDeviceModelUtils.hpp:51-65", "tt_npe/cpp/src/npeEngine.cpp:202-361"]}
{"id": "C96", "title": "Asking for a transfer later does not make it end earlier", "statement": "Take two transfers, of one workload or of two, that wait for nothing, in simulations without congestion. If the second is asked for at the same cycle as the first or later, with at least as many bytes and at most the same injection rate, in the same packets or as one packet each, then it starts and ends no earlier. With congestion this is false of other transfers and of the whole run: asking for one transfer at cycle 900 instead of 0 makes the last transfer end at cycle 1205 instead of 1246.", "quantifier": "all devices, pairs of workloads and of transfers in them, orders of the hash containers, timestep lengths up to 2^20 and successful runs below cycle 2^24", "why_tests_cant": "a relation between two unbounded executions in which the transfers are active in different timesteps; bytes are rounded down at the end of each timestep, so it depends on where the timesteps cut the two transfers", "anchors": ["tt_npe/cpp/src/npeEngine.cpp:49-65", "tt_npe/cpp/src/npeEngine.cpp:227-328", "tt_npe/cpp/include/npeDeviceModelUtils.hpp:51-65"]}
{"id": "C97", "title": "Grids hold what is stored in them", "statement": "After any sequence of assignments to positions inside a two- or three-dimensional grid, and of resets, every position holds the value last assigned to it, the assignments to one position never change another, and an access outside the grid ends the process instead of touching memory. In particular the grid of core types that a device model fills from its hash map, in whatever order the map is visited, gives for every 16-bit coordinate what the table of core types gives. The claim is false of grids whose number of positions does not fit in 64 bits: the storage wraps and the bounds do not.", "quantifier": "all element types, dimensions, initial values and sequences of operations; all devices, visiting orders of the map and coordinates", "why_tests_cant": "all sequences of operations on grids of all sizes, all orders of a hash map and all 2^32 coordinates", "anchors": ["tt_npe/cpp/include/grid.hpp:11-102", "tt_npe/cpp/include/device_models/wormhole_b0.hpp:18-22", "tt_npe/cpp/include/device_models/wormhole_b0.hpp:278", "tt_npe/cpp/include/device_models/blackhole.hpp:23-27"]}
{"id": "C98", "title": "The text of a destination identifies it", "statement": "The text that is written for a destination is the chip, row and column of its core, or for a multicast set the first corner and the row and column of the last corner of each of its rectangles in order. Two destinations with the same text are the same destination: a core is never taken for a rectangle, nor a set of several rectangles for another. Sets with the same text are also equal for the equality operator of the code. The first claim is false of sets with a rectangle whose corners lie on two chips, which the constructor from two corners rejects and the constructor from a list accepts: the chip of the last corner is not written. The converse of the second is false as well: the operator does not compare chips.", "quantifier": "all destinations, with all coordinates, positive or negative, and all numbers of rectangles", "why_tests_cant": "all pairs of destinations, with any number of rectangles each", "anchors": ["tt_npe/cpp/include/npeUtil.hpp:483-538", "tt_npe/cpp/include/npeUtil.hpp:172-209"]}
{"id": "C99", "title": "The tracker of dependencies answers what it was told, and resets", "statement": "After any history of creations, updates and resets: the identifier returned by a creation is that of the checkpoint created, new and never updated before; the end cycle of a checkpoint is the largest cycle of its updates; it is done when it has as many updates since the last reset as it was created with and the time has come; the sanity check holds if and only if no checkpoint has more, and the completeness check if and only if each has as many; a history fails if and only if it updates a checkpoint that has not been created, and every question about such a checkpoint is an error. A reset restores the state after the creations alone, as its comment says. The last claim is false: the end cycle of the updates stays, so that a checkpoint can be done later than on a fresh tracker. It is true if all updates so far were at cycle 0, as in the check of the dependencies in the engine.", "quantifier": "all histories of creations, updates and resets, with counters of 32 bits; all cycles and identifiers", "why_tests_cant": "histories are unbounded, and the counters wrap", "anchors": ["tt_npe/cpp/include/npeDependencyTracker.hpp:15-101", "tt_npe/cpp/src/npeEngine.cpp:155-167"]}
{"id": "C100", "title": "Keys that differ in one place have different hashes", "statement": "Coordinates that differ in the chip, the row or the column alone have different hashes. So have links and network interfaces that differ in one number of their coordinate or in their type, and multicast sets of any number of rectangles that differ in one number of one corner of one rectangle. The claim does not extend to two places: the first and the last of any 65 rectangles can change places without a change of the hash, since 64 rotations by 21 bits are none.", "quantifier": "all 16-bit coordinates, types and lists of rectangles", "why_tests_cant": "2^48 coordinates and unbounded lists; the tests measure the distribution of hashes of some", "anchors": ["tt_npe/cpp/include/npeUtil.hpp:378-450", "tt_npe/cpp/include/npeDeviceTypes.hpp:58-75"]}
