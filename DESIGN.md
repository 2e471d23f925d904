# Formal model of tt-npe (tenstorrent NoC performance estimator)

Target: `/repo/tt_npe/cpp` at the pinned commit (read as text, never built or run).
Prover: Coq 8.16.1. All development is under `rocq/theories`.

## 1. What is modelled

Each model definition carries a comment with the file and lines it transcribes. Model files contain
definitions only; proofs are in files of their own; specifications (written without the model's helpers) are in
`Spec*.v`; property theorems are in `Properties*.v`, each closed by `exact lemma`, each followed by
`Print Assumptions`, and each with an `Example` showing that its hypotheses are met by a concrete case.

| Model file | Code | Simplifications |
|---|---|---|
| `Base.v` | outcomes of C++ code, fixed-width integer wraps, vectors and grids (`grid.hpp`) | |
| `Arith.v` | the operations of the C++ `float`/`double` expressions, as a record of operations with two instances: IEEE binary32/binary64 (`SpecFloat` of the standard library, round to nearest even) and exact rationals with an infinity; float to integer conversions out of range are undefined behaviour | |
| `Util.v` | `npeUtil.hpp`: coordinates, multicast sets and their iterator, modulo, uniquify, hash mixing, zone iterator | `std::sort` is insertion sort (C13 is proved for every sort) |
| `Device.v` | `device_models/*.hpp`, `npeDeviceTypes.hpp`, `npeDeviceModelFactory.hpp`: grids, id tables, core types, rates, latencies, routing | routing loops have fuel; running out of it is the outcome `Diverge` |
| `Grid.v` | `grid.hpp`, and the grid of core types of the device models (`wormhole_b0.hpp:18-22,278`, `blackhole.hpp:23-27,290`) | a vector is a list; sums and products of `size_t` wrap; the order in which the hash map of core types is visited is an argument; iterators are not modelled |
| `Workload.v` | `npeWorkload.{hpp,cpp}`: construction, validation, preprocessing | strings used only for display are kept but mean nothing |
| `DepTracker.v` | `npeDependencyTracker.hpp` | checkpoint ids are `option nat`: fewer than 2^31 checkpoints |
| `Rates.v` | `npeDeviceModelUtils.hpp` (bandwidth interpolation), `modelCongestion` of the three device models | |
| `Engine.v` | `npeEngine.cpp`: transfer state, queue, dependency generation, activation scan, simulation loop | transfer ids inside the engine are `nat`; iteration orders of hash containers are arguments |
| `Stats.v` | `npeStats.{hpp,cpp}` (timestep windows, summary), `updateSimulationStats` | no wall clock time |
| `Api.v` | `npeAPI.cpp`, `npeConfig.hpp` | |
| `Json.v` | parsed JSON values | the parsers are not modelled |
| `Timeline.v` | timeline regions, splitting, transfer groups, both file formats of `npeStats.cpp` | the result is what the serialisers select, without keys; compression and I/O errors are not modelled; cycles are compared as integers (the code compares doubles, exact below 2^53); an empty zone list yields a root without "zones" |
| `Ingest.v` | `npeWorkloadIngest.cpp` on already parsed JSON values | messages and timers are not modelled; doubles in the ingest code hold integers and are integers here, rounded to 53 bits where the code rounds; reallocated pointers are not distinguished |
| `Layout.v` | the JSON documents of the timeline files: keys, header, `split_info`, names of links and processors (`npeStats.cpp`, both serialisers and 862-870) | a document is the parsed value: fields are not ordered, a double that is not finite is null; strings are taken to be valid UTF-8 |
| `Files.v` | names of the timeline files and writing them (`npeStats.cpp:776-876`) | a file system is a map from paths to contents; which paths can be opened is an argument; a started write succeeds; compression is lossless |
| `Compress.v` | `npeCompressionUtil.cpp`, `writeTimelineToFile` (`npeStats.cpp:776-797`) | zstd, the room on the disk and the size of the stream buffer are arguments; a write shorter than the buffer reaches the disk at close |
| `Multichip.v` | `generate_multichip_data.py:134-516` | the random numbers are an argument; a transfer between chips always fails (the dictionary it needs is never filled); exact rationals, no rounding to two decimals; `common_info`, `chips` and printing left out |
| `Report.v` | utilisation of the Ethernet cores in words (`npeStats.cpp:887-905`); the accessors 878-885 and 907-917 are in `Stats.v` | how fmt writes a double with one digit is an argument; the order of the hash map is an argument (`reordered`) |
| `Text.v` | `deviceStats::to_string` (`npeStats.cpp:87-124`), `npeConfig.hpp` (text, verbosity), `npeException::what` | `{:5d}` and `{:5.1f}` of fmt: aligned to the right, nearest tenth, ties to even |
| `TextDest.v` | the fmt formatters of coordinates, multicast sets and destinations (`npeUtil.hpp:483-538`) | `{}` of an `int16_t` is its decimal notation with sign |
| `Fabric.v` | `tt_npe/py/util/fabric_post_process.py`: topology, neighbours, paths in one and two dimensions, combination of traces | a JSON file is a record of its parsed fields; Python integers are unbounded; `int(a / b)` is exact; exceptions are outcomes; lines 139-187 (unused) and the command line are not modelled |
| `Cli.v` | `tt_npe/py/pycli/tt_npe.py`, `tt_npe/py/examples/programmatic_workload_generation.py`, runNPE with emission | the options are the values argparse produces; messages and visualisation are not modelled; the random choices of the example are an argument |
| `CliArgs.v` | `tt_npe/py/pycli/tt_npe.py:14-109` and what argparse (Python 3.11.10) does with the words | `int()` and `float()` are arguments; words are strings of bytes; messages are not modelled. The model was compared with argparse itself on 4500 random lines |
| `Analyze.v` | `tt_npe/py/util/npe_analyze_noc_trace_dir.py`: names of trace files, grouping, statistics, summary table, the analysis of a directory | file names are ASCII; the statistics are exact rationals; the listing of the directory, the order of results, the output directory, the parsed topology and the simulation are arguments; messages, temporary files and the command line are not modelled |
| `Bindings.v` | `pybind/bindings.cpp`: `InitAPI`, pickling, constructors of `Coord` and `Transfer`, golden cycles | Python values are trees; pybind11 conversions only between the natural types; attribute access and docstrings are not modelled |

### Not modelled

* JSON text parsing (simdjson, nlohmann), reading files, the functions of zstd (arguments in `Compress.v`), logging, the texts of doubles that are not finite and of floats with `{}` (arguments in `Text.v`), wall-clock timers (`ScopedTimer.hpp`), the C++ command line (`cliOptions.*`, `main`), `npeChart.hpp` (unused), the Python programs other than `tt_npe.py`, `programmatic_workload_generation.py`, `fabric_post_process.py`, `npe_analyze_noc_trace_dir.py` and `generate_multichip_data.py`.
* Memory exhaustion and containers larger than 2^31 elements (the code uses `int` indices).
* Addresses, allocation, aliasing: values are immutable, a function which mutates returns the new value.
* The hash table implementation of boost: a map is a finite map; iteration order, where it can matter, is an explicit argument.
* Compiler dependent float evaluation: we assume IEEE 754 binary32/binary64, round-to-nearest-even, no extended precision, no contraction into fused multiply-add and no fast-math (the project's CMake flags are `-O3` for baseline x86-64, without `-ffast-math`/`-march`).
* A conversion double to float is IEEE rounding.

### Outcomes

`Ok v`, `Throw code` (an `npeException`, including every failed `TT_ASSERT`), `StdThrow` (a C++ exception that is not
an `npeException`, e.g. `std::out_of_range`), `UB` (undefined behaviour: out-of-range float to integer conversion,
out-of-bounds access, null dereference, signed overflow), `Abort` (a failed `assert`, which is active because the build does not define
`NDEBUG`), `Exit` (`exit(1)`) and `Diverge` (a loop that does not end: fuel exhausted; termination theorems show that it does not
occur for enough fuel, refutations that it occurs for every fuel).

### Floats

`float` values are `spec_float` (standard library, axiom free, executable with `vm_compute`). Facts about rounding are proved through
Flocq's correctness theorems (`BinarySingleNaN`); those theorems use the classical real numbers of the standard
library, so the corresponding property theorems list axioms of the standard library (section 4). Laws that hold in exact
arithmetic only (the exact sums of C40, the means of C43 and part of C59, C60) are proved about the same definitions
instantiated with rational numbers; this is stated at the property.

### Specifications, proofs, properties

| File | Contents |
|---|---|
| `SpecUtil.v` | Specifications for the helpers of npeUtil.hpp, written without the model's algorithms: they use only the data types of the model (coordinates, rectangles, zone events). |
| `UtilProofs.v` | Proofs about Util.v |
| `PropertiesUtil.v` | Property theorems C09-C14 (npeUtil.hpp). Specifications: SpecUtil.v. |
| `SpecDevice.v` | Specifications for the device models (C01-C08), stated on the data types of the model only: grids, link attributes, core types. |
| `DeviceProofs.v` | Proofs about Device.v: identifier tables, routes, latencies, core types |
| `RouteProofs.v` | Proofs about routing (Device.v): closed form of routes, paths, relocation, multicast coverage |
| `MulticastProofs.v` | Proofs about multicast routes (Device.v): a multicast route is the union of unicast routes to the far edge of the rectangle; exactly which rectangles it covers |
| `FactoryProofs.v` | Proofs about the device factory, core types, rates (Device.v) |
| `PropertiesDevice.v` | Property theorems C01-C04, C06-C08, C10 (device models). Specifications: SpecDevice.v. |
| `FloatProofs.v` | Facts on the IEEE instance of the arithmetic, through Flocq: SpecFloat operations on non-negative numbers are the rounded real operations, cut off at infinity. |
| `SpecWorkload.v` | Specifications for workloads (C05, C15-C21). |
| `WorkloadProofs.v` | Proofs about workloads (C05, C15, C16, C18-C21). |
| `ScheduleProofs.v` | Proofs about schedule scaling in binary32 arithmetic (C17). |
| `WorkloadCases.v` | Workload facts on whole workloads, and the counterexamples of C16-C18, C21. |
| `PropertiesWorkload.v` | Property theorems C05, C15-C21 (workloads). Specifications: SpecWorkload.v. |
| `SpecTracker.v` | Specification of the dependency tracker (C51): histories of calls. |
| `TrackerProofs.v` | Proofs about the dependency tracker (C51), and helpers for folds that may fail. |
| `PropertiesTracker.v` | Property theorems C51 (dependency tracker). Specification: SpecTracker.v. |
| `DepGenProofs.v` | Transfer state, dependency buckets and dependency generation (npeEngine.cpp:25-170). |
| `SpecEngine.v` | Specifications for the simulation (C24-C37). |
| `StepProofs.v` | One timestep: the activation scan, the rate computation as a frame, and the live transfers. |
| `EngineProofs.v` | The invariant of the simulation loop and its preservation by a timestep. |
| `RunProofs.v` | Runs of the simulation: initial state, reachable states, the loop. |
| `DepFacts.v` | The dependencies of a run, in terms of the transfers. |
| `EngineFacts.v` | Facts about runs, generic in the arithmetic (C24-C32, C34). |
| `EngineFacts2.v` | Facts about runs, continued: dependencies, activation, termination, bytes (C27-C32, C34). |
| `EngineFacts3.v` | Facts about runs, continued: credited cycles and assertions (C34), states across a timestep. |
| `EngineFacts4.v` | Facts about runs, continued: cycles credited to a transfer (C34), estimated cycles (C35). |
| `EngineFacts5.v` | Facts about runs, continued: parents that form a cycle (C27), one chip (C24, C28), end cycles (C26, C33), progress (C37). |
| `Cases.v` | Concrete workloads, used by the examples beside the theorems and as witnesses. Not part of the model. |
| `EngineWitness.v` | Counterexamples for the simulation properties that are false of the code. |
| `PropertiesEngine.v` | Property theorems C24-C37 (dependencies and simulation). Specification: SpecEngine.v; concrete workloads: Cases.v. Generic theorems hold for every arithmetic [A], in particular for IEEE floats ([f32A]). |
| `FloatProofs2.v` | More facts on the IEEE instance: operations with infinite operands, conversions between float and double. |
| `RateFacts.v` | The rate computation read as pointwise equations, for every arithmetic. |
| `RateFloat.v` | Float facts on the interpolated bandwidth. |
| `RateFloat2.v` | Float facts on congestion: rates stay between zero and the uncongested rate, and more demand never raises them. |
| `RateFloat3.v` | Congestion in floats: bounds of the rates, and monotonicity in the set of live transfers. |
| `SpecRates.v` | Specifications for the rates (C38-C40, C53, C54). |
| `RateFloat4.v` | The rates of a timestep in floats (C38, C39, C54, second half of C40). |
| `RateRat.v` | Capacities in exact arithmetic (C40). |
| `EngineRates.v` | The rates in the timesteps of a run (C39, C53). |
| `RatesWitness.v` | Examples and counterexamples for the rates. |
| `PropertiesRates.v` | Property theorems C38-C40, C53, C54 (rates). Specification: SpecRates.v; concrete workloads: Cases.v. |
| `SpecStats.v` | Specifications for the statistics (C41-C43). |
| `StatsFacts.v` | Facts on the recorded timesteps (C41). |
| `StatsAvg.v` | Facts on the per-timestep statistics (C42, C43): formulas for any arithmetic, and the number of links and NIUs of a chip. |
| `StatsRat.v` | Averages of the per-timestep statistics in exact arithmetic (C43). |
| `StatsFloat.v` | Utilisation of links in floats (C42). |
| `StatsRun.v` | The statistics recorded in a run (C42). |
| `StatsWitness.v` | Witnesses for C41-C43. |
| `PropertiesStats.v` | C41-C43: the statistics of the timesteps. |
| `SpecTimeline.v` | Specifications for the timeline files (C44-C46). |
| `TimelineProofs.v` | Groups and split regions of the timeline (C44, C46). |
| `TimelineSplit.v` | Split regions and descriptions in the timeline files (C44, C45). |
| `TimelineLive.v` | The transfers that the timeline lists as active are described (C45). |
| `TimelineWitness.v` | Witnesses for C44-C46. |
| `PropertiesTimeline.v` | C44-C46: the timeline files. |
| `SpecIngest.v` | Specifications for the loaders (C47-C50, C52). |
| `IngestProofs.v` | Proofs about JSON fields and about workload files (C52). |
| `IngestTrace.v` | Proofs about the conversion of traces (C47, C48, C50). |
| `IngestTotal.v` | Proofs that the conversion of clean traces is defined (C49). |
| `IngestWitness.v` | Concrete files for the properties of the loaders. |
| `IngestFacts.v` | Consequences for the loaders: C47, C48, C49, C50. |
| `PropertiesIngest.v` | C47-C50, C52: the loaders of workloads and traces. |
| `EndFloat.v` | The end cycle of a transfer in binary32 (C26, C33): how far rounding can move it. |
| `EngineFloat.v` | End cycles and start cycles in binary32 (C26, C33): no wrap-around, and how far an end can lie before the start. |
| `FloatWitness.v` | Witnesses for PropertiesFloat.v. |
| `PropertiesFloat.v` | Property theorems C26 and C33 for IEEE binary32: start and end cycles. Specification: SpecEngine.v, SpecRates.v. |
| `SafeProofs.v` | No undefined behaviour, no escaping exception and no endless loop in the simulation of a validated workload (C22, C31). |
| `SafeFloat.v` | The conversions from binary32 to integers in the simulation are defined (C22). |
| `SafeRun.v` | Simulating a validated workload in binary32 gives a result or an npe exception: no undefined behaviour, no other exception, no endless loop (C22, C31). |
| `SpecApi.v` | Specification of the configuration check and of the inputs runNPE handles (C22), written without reference to the engine. |
| `ApiProofs.v` | runNPE returns a result object for every usable workload in binary32; what the configuration check rejects (C22). |
| `ApiWitness.v` | Inputs for which runNPE does not return a result object, and one for which it does (C22). |
| `PropertiesApi.v` | C22 (and the end of C31): what runNPE returns. |
| `SpecOrder.v` | What two runs with different orders of the hash containers have in common (C23). |
| `OrderProofs.v` | The order of hash containers and the result of a run (C23). |
| `OrderInit.v` | The order of hash containers and the dependencies of a run (C23). |
| `OrderRun.v` | Two runs with different orders of the hash containers (C23). |
| `OrderWitness.v` | A workload whose results depend on the order of a multicast link set, and one whose results do not (C23). |
| `PropertiesOrder.v` | C23: results and the order of the hash containers. |
| `SpecProgress.v` | When a workload completes (C37). |
| `ProgressProofs.v` | Workloads that make progress complete (C37). |
| `CalmProofs.v` | The simulation of a validated workload throws no npe exception, unless a multicast has several rectangles or a Blackhole workload has groups (C55). |
| `SpecResult.v` | Specification of the results of runNPE (C55). |
| `ResultProofs.v` | Which result runNPE returns (C55), and that workloads that make progress succeed (C37). |
| `RateLow.v` | Lower bounds on congested rates (C37). |
| `NiuProofs.v` | A transfer puts demand on each link and each NIU at most once. |
| `ProgressRun.v` | Conditions on the workload under which transfers keep moving, and runNPE succeeds (C37). |
| `ResultWitness.v` | A workload for each result of runNPE (C55), and workloads that keep moving (C37). |
| `PropertiesResult.v` | C37 (workloads that keep moving complete) and C55 (which result runNPE returns). |
| `SpecTrace.v` | Specifications of what a trace determines besides its transfers: golden windows, zones and zone paths (C56-C58). |
| `TraceProofs.v` | Golden windows, zones and zone paths of converted traces (C56-C58). |
| `TraceWitness.v` | Witnesses and examples for C56-C58. |
| `PropertiesTrace.v` | C56-C58: golden windows, zones and zone paths of traces. |
| `SpecSummary.v` | Specifications of the summary statistics (C59, C60). |
| `SummaryProofs.v` | Bytes counted by the summary statistics (C59). |
| `SummaryFloat.v` | Relative errors of the DRAM and Ethernet utilisation in floats (C59). |
| `SummaryRun.v` | DRAM and Ethernet utilisation in the results of a run (C59). |
| `MeanProofs.v` | Overall averages and maxima in the results of a run (C60). |
| `SummaryWitness.v` | Witnesses for C59 and C60. |
| `PropertiesSummary.v` | C59-C60: the summary statistics. C69: the reports on a result. |
| `SpecBindings.v` | Specifications for the Python bindings (C61-C63). |
| `BindingsProofs.v` | Proofs about the Python bindings (C61-C63). |
| `BindingsWitness.v` | Witnesses and examples for C61-C63. |
| `BindingsErrors.v` | Lemmas: what the bindings accept and what they do otherwise (C61, C63). |
| `PropertiesBindings.v` | C61-C63: the Python bindings. |
| `SpecZones.v` | Specifications for the zones in the timeline files (C64). |
| `ZoneProofs.v` | Lemmas: the zones in the timeline files are the zone tree of the processor (C64). |
| `ZoneWitness.v` | Witnesses for C64. |
| `SpecFiles.v` | Specifications for the names of the timeline files (C65). |
| `FilesProofs.v` | Lemmas: names of the timeline files (C65). |
| `FilesWitness.v` | Witnesses for C65. |
| `SpecGroups.v` | Specifications for the transfer groups of the timeline files (C66). |
| `GroupProofs.v` | The transfer groups of the timeline files: proofs of C66. |
| `GroupSpan.v` | The span of a group in the timeline files covers its transfers (C66). |
| `GroupWitness.v` | Witnesses for C66. |
| `SpecDemands.v` | Specifications for the timesteps and the chips of the timeline files (C67, C68). |
| `DemandProofs.v` | The timesteps of the timeline files show the simulated timesteps (C67). |
| `ChipProofs.v` | The chips of the timeline files (C68). |
| `DemandWitness.v` | A timeline with demands (C67). |
| `SpecReport.v` | Specification of the reports on a result (C69). |
| `ReportProofs.v` | C69: the reports on a result. |
| `ReportWitness.v` | Witnesses for C69. |
| `PropertiesFiles.v` | C64-C68: the timeline files: zones, names, transfer groups, timesteps, chips. |
| `SpecFabric.v` | Specification of the fabric and of the paths through it (C70-C73). |
| `FabricProofs.v` | C70: neighbours in the fabric. |
| `FabricTopology.v` | C70: the topology and its file. |
| `FabricAccept.v` | C70: which topology files are accepted. |
| `FabricPaths.v` | C71, C72: paths. |
| `FabricGrid.v` | C72: paths in two dimensions. |
| `FabricTraces.v` | C73: traces. |
| `FabricSends.v` | C73: what a configuration makes of a fabric send. |
| `FabricWitness.v` | Witnesses and examples of C70-C73. |
| `PropertiesFabric.v` | Properties of the elaboration of fabric paths (C70-C73). |
| `SpecAnalyze.v` | Specification of the analysis of a directory of traces (C74-C77). |
| `AnalyzeNames.v` | Lemmas: names of trace files and of operations (C74), grouping (C75). |
| `AnalyzeGroups.v` | Lemmas: grouping of trace files (C75). |
| `AnalyzeStats.v` | Lemmas: statistics over the runs of a directory (C76). |
| `AnalyzeProofs.v` | Lemmas: the analysis of a directory (C77). |
| `AnalyzeMain.v` | Theorems on the analysis of a directory (C77). |
| `AnalyzeWitness.v` | Cases for C74-C77. |
| `PropertiesAnalyze.v` | C74-C77: the analysis of a directory of traces. |
| `SpecEmit.v` | Specifications for the emission of the timeline files (C78). |
| `EmitProofs.v` | The emission of the timeline files succeeds (C78). |
| `EmitExact.v` | Exactly when the timeline files are emitted (C78). |
| `EmitWitness.v` | Cases for C78. |
| `PropertiesEmit.v` | C78: the timeline of a finished simulation is emitted. |
| `SpecCli.v` | Specifications for the command line (C79) and for workloads without golden cycles (C80). |
| `CliTrace.v` | The workload made from a clean trace is one that runNPE handles (C79). |
| `CliFile.v` | The workload made from a workload file is one that runNPE handles (C79). |
| `NoGolden.v` | Workloads without golden cycles are never simulated (C80). |
| `ExampleProofs.v` | The example program ends in an exception (C80). |
| `CliProofs.v` | Proofs about the command line (C79). |
| `CliWitness.v` | Cases for C79 and C80. |
| `CliFiles.v` | Lemmas: the files the command line writes (C79). |
| `PropertiesCli.v` | C79, C80: the command line, workloads without golden cycles. |
| `SpecLayout.v` | Specifications for the layout of the timeline files (C81): the schema in tt_npe/scripts/timeline_schema_v1.json and tt_npe/scripts/stats_schema.json, and a reader of the files. |
| `LayoutProofs.v` | Proofs about the layout of the timeline files (C81). |
| `LayoutWitness.v` | Cases for C81. |
| `PropertiesLayout.v` | C81: the documents in the timeline files. |
| `SpecFinite.v` | Specifications of the numbers in the statistics, in floats (C82, C43). |
| `FiniteProofs.v` | The statistics of a run are numbers, and close to the exact ones (C82, C43). |
| `FiniteStep.v` | The statistics of a timestep in floats: numbers, close to the exact averages (C43, C82). |
| `FiniteRun.v` | The statistics of a run in floats (C82, C43). |
| `FiniteFile.v` | The numbers in the timeline files are finite (C82). |
| `FiniteWitness.v` | Concrete cases for C82 and for C43 in floats. |
| `PropertiesFinite.v` | C82: the numbers of the statistics are finite; C43 in floats. |
| `TestData.v` | Data files of the tests of the project, as parsed JSON (RepoTests.v). Generated from the files named. |
| `RepoTests.v` | The unit tests of the project (tt_npe/cpp/test, tt_npe/py/pytest), run on the model. These are tests of the model, not proofs of properties: they compare it with results that the project expects of its code. The longer runs are computed when this file is compiled ([_run], an evaluated term), and the result is compared with what is expected. |
| `SpecCompress.v` | Specification of the writing of compressed files. |
| `CompressProofs.v` | Proofs about the writing of compressed files. |
| `PropertiesCompress.v` | C83: the bytes of the compressed timeline files. |
| `SpecMultichip.v` | Specification of the generated timeline files (C84, C85). |
| `MultichipProofs.v` | Proofs about the generator of timeline files: routes. |
| `MultichipSteps.v` | Proofs about the generator of timeline files: timesteps. |
| `MultichipAverages.v` | Proofs about the generator of timeline files: fields of the transfers, averages over the links, and the outcome of a transfer between chips. |
| `MultichipWitness.v` | Witnesses for the generator of timeline files (C84, C85). |
| `PropertiesMultichip.v` | Theorems about the generator of timeline files: C84, C85. |
| `CapacityFloat.v` | Congestion in floats: the sums of the new rates stay within the capacities up to the rounding errors. First part: single values. |
| `CapacityFloat2.v` | Congestion in floats: the sums of the new rates stay within the capacities up to the rounding errors. Second part: links, sources, sinks. |
| `CapacityRun.v` | The capacities in the timesteps of a run (C40). |
| `CapacityWitness.v` | Example for the capacities in floats. |
| `CliArgs.v` | Model of the text of the command line: parse_cli_args of tt_npe/py/pycli/tt_npe.py, that is, the table of its arguments and what argparse (Python 3.11.10, Lib/argparse.py) does with the words. int() and float() of Python are arguments. Words are strings of bytes; digits are those of ASCII. Messages are not modelled. No proofs in this file. |
| `SpecArgs.v` | Specification of the words of the command line (C86): which lines are accepted, and what they set. |
| `ArgsProofs.v` | Proofs for C86: the words of the command line. |
| `ArgsLines.v` | Proofs for C86: lines and values of the command line. |
| `ArgsWitness.v` | Cases for C86. |
| `PropertiesArgs.v` | C86: the words of the command line. |
| `SpecLater.v` | Specification of a workload that runs later (C87): every start cycle and every golden window is moved by the same number of cycles. Independent of the engine's helpers: a workload, states and statistics are compared field by field. |
| `LaterProofs.v` | A workload that starts a whole number of timesteps later (C87): one timestep and the statistics. |
| `LaterFloat.v` | The end cycle of a transfer that runs later (C87): below cycle 2^24 the binary32 sum of the first cycle and the number of cycles is exact. |
| `LaterStep.v` | A workload that starts a whole number of timesteps later (C87): the timesteps of the two runs correspond. |
| `LaterRun.v` | A workload that starts a whole number of timesteps later (C87): the start of the run, the idle timesteps before it, and the whole run. |
| `LaterWitness.v` | Witnesses for C87. |
| `PropertiesLater.v` | C87: a workload whose transfers and golden windows all start a whole number of timesteps later. |
| `SpecAlone.v` | Specification of transfers that do not disturb each other (C88): two transfers, of one workload or of two, that ask for the same and wait for the same. Independent of the engine's helpers: only the fields of the transfers and the dependencies of SpecEngine are used. |
| `AloneProofs.v` | Without congestion the course of a transfer depends only on its own request and on what it waits for (C88). |
| `AloneWitness.v` | Witnesses for C88. |
| `PropertiesAlone.v` | C88: without congestion transfers do not disturb each other. |
| `EndFloat2.v` | The end cycle of a transfer in binary32, exactly, up to cycle 2^24 (C89), and how it moves with the bandwidth. |
| `BehindProofs.v` | One transfer in two runs, one of which never gives it more bandwidth than the other (C89, C91), or the same with fewer bytes in the faster run (C94). The transfer waits for nothing. |
| `CongestProofs.v` | Congestion against no congestion (C89): a transfer that waits for nothing ends no earlier with congestion. |
| `CongestWitness.v` | Runs with and without congestion (C89): one that is faster with it, one that is slower. |
| `PropertiesCongest.v` | C89: congestion does not make transfers end earlier, unless one waits for another. |
| `SpecShare.v` | Specification for C90: what two transfers share. |
| `ShareProofs.v` | Transfers that share nothing are not slowed down (C90). |
| `ShareWitness.v` | Transfers that share nothing (C90): the same cores on two chips, and another row. |
| `PropertiesShare.v` | C90: transfers that share no link and no interface are not slowed down. |
| `SpecLoad.v` | Specification of one workload that contains another (C91), possibly with larger transfers (C94). Only the fields of the transfers are used. |
| `LoadProofs.v` | More and larger transfers never make the others end earlier (C91, C94): the rates. |
| `LoadRun.v` | More transfers never make the others end earlier (C91): the runs. |
| `LoadWitness.v` | Runs of a workload and of the same workload with one more transfer (C91): the others are slower, or one that waits is faster. |
| `PropertiesLoad.v` | C91: more transfers do not make the others end earlier, unless one waits for another. |
| `GrowProofs.v` | Without congestion a larger transfer does not end earlier (C94). |
| `GrowWitness.v` | Runs with smaller and larger transfers (C94). |
| `PropertiesGrow.v` | C94: larger transfers do not make a simulation faster, unless the packets become larger. |
| `SpecPace.v` | Requests at a lower rate or at a later cycle (C95, C96). |
| `PaceProofs.v` | Without congestion a transfer with a higher injection rate does not end later (C95). |
| `PaceWitness.v` | Runs with lower injection rates (C95). |
| `PropertiesPace.v` | C95: lower injection rates do not make a simulation without congestion faster. |
| `DelayProofs.v` | A transfer that is asked for later, in one of two runs without congestion (C96). The transfer waits for nothing. |
| `DelayWitness.v` | Runs in which a transfer is asked for later (C96). |
| `PropertiesDelay.v` | C96: asking for a transfer later does not make it end earlier without congestion. |
| `Text.v` | Model of the texts tt_npe writes: the report on the statistics of a device (tt_npe/cpp/src/npeStats.cpp:87-124), the text of a configuration and its verbosity (tt_npe/cpp/include/npeConfig.hpp:12-68) and the message of an exception (tt_npe/cpp/include/npeCommon.hpp:35-56). Numbers are written as fmt does: "{:5d}" and "{:5.1f}" are aligned to the right, a double with one digit is rounded to the nearest tenth, ties to even. How fmt writes a double that is not finite and a float with "{}" are arguments. No proofs in this file. |
| `SpecText.v` | Specification of the texts (C92, C93): numbers with one decimal, lines. |
| `TextProofs.v` | The texts of tt_npe can be read back (C92, C93). |
| `TextReport.v` | The report on a device (C92). |
| `TextConfig.v` | The text of a configuration and the message of an exception (C93). |
| `TextWitness.v` | Witnesses for C92 and C93. |
| `PropertiesText.v` | C92: the report on a device. C93: the text of a configuration, its verbosity, and the messages of exceptions. |
| `Grid.v` | Model of tt_npe/cpp/include/grid.hpp: Grid2D and Grid3D, and of the grid of core types that the device models fill (wormhole_b0.hpp:18-22,278, blackhole.hpp:23-27,290). Positions are size_t; sums and products wrap at 2^64. The vector is a list; a vector too large for the memory is not modelled. The iterators and the dimensions are not modelled. No proofs in this file. |
| `SpecGrid.v` | Grids as functions from positions to values (C97). |
| `GridProofs.v` | Proofs about Grid.v (C97). |
| `PropertiesGrid.v` | C97: grids hold what is stored in them. |
| `TextDest.v` | Model of the texts of coordinates and destinations: the fmt formatters of npeUtil.hpp:483-538. Numbers of type int16_t and DeviceID are written in decimal notation with their sign ([signed], as fmt does for "{}"). |
| `SpecDest.v` | Specification of the texts of destinations (C98). |
| `DestProofs.v` | The texts of destinations can be read back (C98). |
| `PropertiesDest.v` | C98: the text of a destination identifies it. |
| `SpecCheckpoint.v` | Specification of what a tracker answers after calls and resets (C99). |
| `CheckpointProofs.v` | What a tracker of dependencies answers after calls and resets (C99). |
| `PropertiesCheckpoint.v` | C99: the tracker of dependencies answers what it was told. |
| `SpecHash.v` | Specification of keys that differ in one place (C100). |
| `HashProofs.v` | Keys that differ in one place have different hashes (C100). |
| `PropertiesHash.v` | C100: keys that differ in one place have different hashes. |

## 2. Trusted base

1. Coq's kernel (type checker, `vm_compute`).
2. The axioms listed by `Print Assumptions` below each theorem; see section 4 (only standard-library axioms; none of our own).
3. The reading of the C++ sources: the model is tied to the code by the citations only.
4. The assumptions of "Not modelled" above.
5. The specifications in `Spec*.v` and the statements in `Properties*.v` say what the properties in `properties.jsonl` say.

The theorems were tested against wrong programs: `seeded/LOG.jsonl` lists edits of the model's definitions in a scratch copy, the
claim each one breaks, and the theorems that then fail.

### Tests of the model

`RepoTests.v` runs the project's own unit tests (`cpp/test`, `test_bindings.py`) on the model, with their data files in
`TestData.v`. They are tests, not proofs: they show that the model gives the results that the project expects of its code. Left out:
the two tests of the cycle limit (thousands of timesteps), and text output; the compression tests are in `PropertiesCompress.v`, with a code that only stores. One test
(`CanIngestAndValidateMultichipTraceFile`) has undefined behaviour in the model, because its data file names the phases of zones
"begin" and "end" and `extractZones` dereferences the empty result of `enum_cast`; the example runs it with the names of the enum.

## 3. Properties

| Id | Model and proof method |
|---|---|
| C01 | Device.v transcribes the routing loops with fuel; Spec: inductive hop relation on the torus. The loop is proved to follow the closed form for every grid size; path facts by induction on hop counts. |
| C02 | Id tables are lists built as in the code; lookup is first match. Bijection by the closed form id = ((dev*rows+r)*cols+c)*4+t, for every grid size; 16-bit fit by computation for the factory list. |
| C03 | Follows from C01/C02 on the multi-chip tables. |
| C04 | Union over unicast routes. Coverage is expected to be false (NoC 1 routes stop at the last column; NoC 0 with a source row inside the rectangle): `_refuted` with witnesses, plus the true parts (no duplicates, only links of unicast paths, coverage for sources outside the rows of the rectangle on NoC 0). |
| C05 | Validation + route: termination from C01; the unvalidated case is shown divergent for every fuel. |
| C06 | Closed form of hop count equals route length (from C01). |
| C07 | Core map is a literal table; finite check lifted with forallb_forall; outside the grid the grid access aborts. |
| C08 | String matching of the factory, proved for all strings. |
| C09 | Iterator as a state machine with fuel; spec = list product. Inverted corners accepted by the constructor: `_refuted` for the unrestricted claim. |
| C10 | Hash functions transcribed with 64-bit wraps; multicast sets violate the law (equality ignores the chip): `_refuted`; true for the other types. |
| C11 | xor-shift by half width and multiplication by an odd constant are invertible on words. |
| C12 | Z arithmetic with C++ truncated remainder. |
| C13 | Sort + unique transcribed on lists; sortedness/set equality. |
| C14 | Zone iterator transcribed; spec = stack interpretation of the prefix. |
| C15 | Induction over the history of addPhase calls. |
| C16 | validate transcribed; spec predicate on transfers; the multi-rectangle part is expected to be false (any valid rectangle suffices): `_refuted`. |
| C17 | Float model; monotonicity by Flocq; exactness only below 2^24 (`_refuted` above). |
| C18 | Transcribed; multicast transfers are dropped: `_refuted`; exact characterisation of what is kept proved. |
| C19 | Transcribed; the preprocessing order makes an out-of-grid source an assertion failure: `_refuted` for the error code. |
| C20 | Fold for min/max over the map. |
| C21 | 32-bit product; `_refuted` for large products, exact below 2^32. |
| C22 | runNPE transcribed with all outcomes. For usable workloads it returns a result object (binary32). Every excluded case has a witness: missing golden cycles, grouped multicast, out-of-grid source, empty multicast, negative rate, wrapping byte count, large scaled offset. |
| C23 | Iteration orders are arguments. Bucket order never matters; the order of a link set matters only through the direction of its first link; `_refuted` for a multicast that turns. |
| C24 | Invariant of runs from C26 with the shape of generated dependencies. |
| C25 | Counting argument: each checkpoint is pushed to exactly one required_by list. |
| C26 | Invariant over simulation steps. |
| C27 | Strictly increasing (offset,id) along dependency edges; cyclic groups: `Diverge`-free cycle-limit result. |
| C28 | Bucket key has no chip: `_refuted`. |
| C29 | Transcribed switch with fallthrough: Blackhole throws (`_refuted`); missing parent maps to transfer 0 (`_refuted`); Wormhole case proved. |
| C30 | Scan transcribed with the in-place swaps; queue invariant (sorted part above the clock, arbitrary part below). |
| C31 | Loop with fuel; bound on the number of iterations; the clock stays below 2^32. Run outcome in binary32 by an invariant of the whole run (Safe*.v). |
| C32 | Invariant over simulation steps, for every rate function. |
| C33 | Float addition of the end cycle: exact up to cycle 2^24, later at most one part in 2^24 too early; `_refuted` beyond. |
| C34 | Assertions proved unreachable; double crediting at an aligned dependency end: `_refuted`; excess of at most one timestep proved. |
| C35 | Incremental maximum equals the maximum over finished transfers. |
| C36 | Transcribed runPerfEstimation: congestion-free cycles are copied from the congested run: `_refuted`, impact always 0 proved. |
| C37 | Truncation to zero bytes: `_refuted`; the exact amount moved, and completion within the limit when every moving transfer moves a byte per timestep (criteria in RateLow.v, NiuProofs.v, CalmProofs.v). |
| C38 | Float interval reasoning on the interpolation. |
| C39 | Float order lemmas for fmin, std::min and the derating product. |
| C40 | Exact arithmetic instance; multicast sinks: `_refuted`; transfers that meet no oversubscribed resource keep their rate (floats). |
| C41 | Window arithmetic; a zero timestep is appended for most golden starts: `_refuted`; characterisation proved. |
| C42 | Binary32/64, for all demand grids without negative values; by a fold invariant over the grid (StatsFloat.v). |
| C43 | Exact arithmetic instance; NIU average divides by the whole mesh: `_refuted`. |
| C44 | Integer arithmetic of the split loop. A file selects timesteps by cycles: `_refuted` for a range ending in the dummy timestep, and for threshold 0. |
| C45 | Region predicate misses transfers spanning the region: `_refuted`; true without splitting. |
| C46 | Group assignment transcribed; `_refuted` after removal of local transfers (group count reset) and for unregistered ids; proved for registered ids and every iteration order. |
| C47 | Event filter and conversion transcribed on parsed events. |
| C48 | State saved for each kind of processor, not each core: `_refuted`; proved when no other core set a state of the same kind before. |
| C49 | Null zone iterator and unknown processor: `_refuted` (UB); proved under stated conditions. |
| C50 | Path conversion transcribed; chain by induction. |
| C51 | Tracker state machine; spec = list of update cycles. |
| C52 | Loader transcribed on parsed JSON; coordinates wrap to 16 bits: `_refuted` for out-of-range numbers. |
| C53 | Rates.v without congestion; pointwise. |
| C54 | Binary32: rounding is monotone, sums of non-negative terms grow. |
| C55 | runNPE followed case by case; kinds of workload defined without the model (SpecResult.v), disjoint and exhaustive. |
| C56 | Golden windows of converted traces: closed form modulo 2^32; `_refuted` without wrap-around for a short window. |
| C57 | Zones of converted traces: filter of the trace, one list per processor. |
| C58 | Zone path of a transfer = zones open at its time; `_refuted` for processors without zones and traces out of order. |
| C59 | Sums over transfers; relative error of the chain of float operations; `_refuted` on several chips and for an empty window. |
| C60 | Means and maxima over the list of timesteps, exactly and with a summation error bound; `_refuted` for the dummy timestep, the peak and idle chips. |
| C61 | Both functions transcribed position by position; round trip by computation, Ethernet map by induction. |
| C62 | Case analysis over the outcomes of the constructor, on top of C22. |
| C63 | Ranges of the casts and of the C++ fields; `_refuted` for coordinates beyond 16 bits and negative offsets. |
| C64 | Zipper invariant (document = stack of open zones, pointer of each open zone = its path) along the events, then induction on the zone tree; `_refuted` for split regions, shadowing and unmatched ends. |
| C65 | Files.v: string functions of the names and a file system as a map; names by induction on strings, decimal notation proved injective; `_refuted` for collisions between runs and for the default directory. |
| C66 | The checks of the code make the groups disjoint, the invariant of C46 makes them cover all states, hence a permutation; routes from C01, C04; span by the strict order of indices with C26 and C29; `_refuted` by two registered groups. |
| C67 | Every recorded timestep is fresh or comes from a step of the run (invariant over the run, with the transfers that take part); names of links and interfaces by the bijection of C02; group numbers by induction over the transfers. |
| C68 | Euclidean division of the chip number by the row length; `_refuted` by two runs on two chips. |
| C69 | Report.v, Stats.v (getCongestionImpact, getAggregateEthBwUtil); Flocq error analysis of subtraction, product and quotient with either sign; the congestion-free count is 0 or the estimate in every result (invariant of the run); insertion sort by coordinate is canonical for distinct keys |
| C70 | Fabric.v dictionaries as association lists; next_spec, next_back, ring, made |
| C71 | Fabric.v; hops_spec by induction over the hops, plane_fold_spec over the table |
| C72 | Fabric.v; straight_row, turned, row on top of the hops of C71 |
| C73 | Fabric.v; sort_stable, synchronized_kept |
| C74 | Analyze.v the match of the regular expression as functions on strings; extract_name, runtime_id, uid_str_inj |
| C75 | group_step, group_traces_metal; groups_spec, metal_fails |
| C76 | exact rationals for the floats of the table; lookup, weighted_spec, percentiles, table |
| C77 | simulation, listing and order of results as arguments; run_spec, run_manifest, run_order |
| C78 | totality of v1, v0, regions and demand tables; run_emits, run_emits_legacy, run_no_files |
| C79 | composition of the loaders (C47-C52), the API (C55), emission (C78) and the golden cycles (C80) into the program |
| C80 | insertTimestep looks up every entry before anything else happens in the first timestep |
| C81 | an independent reader of the JSON documents; read_*, fits_* field by field; run_read, run_layout, run_old, never_documented |
| C82 | saturating float sums (sat_sum), invariant of the grids over all timesteps (step_limited, reach_limited), Flocq error bounds (float_timestep), run_result_numbers, file_finite |
| C83 | case analysis of the stream (written), prefixes of strings (prefix_cut) |
| C84 | closed form of the walks on a ring (walk_up_ok), equality with route_unicast_eq |
| C85 | the dictionary of usages is a permutation of all pairs of transfers and links (all_flat), sums invariant under permutation, NoDup and counting of links |
| C86 | exact classification of words (argument_iff, resolve_iff, g_next, g_whole), induction over lines both ways (walk_line, line_walk), last value by induction over settings (acts_sets) |
| C87 | simulation relation between the two runs (step_later, one timestep; loop_later, induction over the loop), idle timesteps before the first transfer (idle_loop), exact shift of the float end cycle (later_end32), statistics by field (finish_later, summary_later) |
| C88 | the effect of a timestep on one transfer as a function of its own request and its dependency (own_step), lockstep of the two runs by induction over the timesteps (agree_begins), finished transfers keep their cycles (finished_later) because the runs may end in different timesteps |
| C89 | lockstep of the two runs: bytes moved with congestion are at most those moved without (behind_step, monotonicity of binary32 division, rounding and conversion: cycles_mono, bytes_mono), a transfer finished with congestion finished without it earlier (late_step); estimates through the window of counted transfers (estimate_mono) |
| C90 | demand on a link or interface that only one transfer uses is its own bandwidth (no_unit, reps_sole, zero_add), which is within the capacity, so no factor below 1 is applied (sole_rate, uncongested_own); lockstep of the two runs (same_step, same_begins, same_end) |
| C91 | lockstep of the two runs (behind_step of BehindProofs, shared with C89); live transfers stay in the order of the queue (in_order), so those of the smaller run are a sublist of those of the larger one (sorted_sub) and the rounded demand on every link and unit is no less (more_load, grids_le, new_bw_mono) |
| C92 | the report is a list of lines without line breaks (report_text, lines_inj); rounding to tenths in exact integers (tenths_near); a padded numeral determines its value (decimal_unique) |
| C93 | the text is a list of lines, each a fixed label and one field (config_text, lines_inj) |
| C94 | the lockstep of C89 and C91 (behind_step of BehindProofs) with the remaining bytes of the two transfers compared instead of the bytes sent; the bandwidth of one packet is the largest of the table (single_bw) |
| C95 | the lockstep of C89 (behind_step, later_end of BehindProofs); the bandwidth of a transfer is the smaller one of its rate and that of the table, so it is monotone in the rate (slower_bw) |
| C96 | lockstep in which the transfer asked for earlier is never behind, though the other may still be queued (delay_step); a transfer that is queued when the other has ended starts after that end (delayed_end with C33) |
| C97 | invariant: the data has rows * cols elements and the element of each position is the value last assigned (holds2, holds3); row-major indices are injective; the entries of the map are checked against the table by computation |
| C98 | the texts are cut at the first character that is none of a number (peel); a core, a rectangle and a list differ in what follows the first closing parenthesis |
| C99 | invariant over histories (records): a checkpoint keeps its creation, the number of updates since the last reset modulo 2^32 and the largest cycle of all updates |
| C100 | the mixer is injective in the value and in the seed (C11), and hashes are 64-bit words; a set is reduced to the rectangle in which it differs, by induction on what follows it |

Naming: `Cnn_*` are the property theorems; suffix `_refuted` marks a proved negation (with a witness computed by the
model) of a claim as a user would expect it; suffix `_partial` marks a weaker statement than the property, with the full
statement kept in a comment beside it. In `MANIFEST.json` a property with a refuted part has status `partial`; its note
says what is refuted and what is proved instead.

## 4. Assumptions of each theorem

Output of `Print Assumptions`, which also stands below each theorem in the `Properties*.v` files
(432 theorems). Every axiom is of the standard library.

**Closed under the global context (no axiom)** (361 theorems): `C01_unicast_route`, `C02_link_defined_in_grid`, `C02_link_ids_contiguous`, `C02_link_roundtrip`, `C02_niu_defined_in_grid`, `C02_niu_ids_contiguous`, `C02_niu_roundtrip`, `C03_other_chip_rejected`, `C03_relocated_single_chip_route`, `C04_coverage_iff`, `C04_coverage_noc1_refuted`, `C04_coverage_refuted`, `C04_union_of_unicast_routes`, `C05_exception_iff_several_rectangles`, `C05_unvalidated_diverges`, `C05_validated_transfer`, `C05_validated_workload`, `C06_read_latency`, `C06_write_latency`, `C07_core_type`, `C07_out_of_grid_aborts`, `C07_rates`, `C07_rates_out_of_grid_abort`, `C08_accepts_documented`, `C08_documented_well_formed`, `C08_rejects_others`, `C09_grid_size_is_count`, `C09_inverted_rectangle_refuted`, `C09_iteration_enumerates`, `C09_last_row_overflow_refuted`, `C09_spec_is_functional`, `C100_coord`, `C100_link`, `C100_mcast`, `C100_niu`, `C100_swap`, `C100_two_places_refuted`, `C10_coord`, `C10_link`, `C10_mcast_refuted`, `C10_mcast_same_chips`, `C10_niu`, `C11_combine_seed`, `C11_combine_value`, `C11_distribute32`, `C11_distribute64`, `C12_huge_range_refuted`, `C12_modulo`, `C12_remainder_unique`, `C12_routing_operands`, `C12_wrapToRange`, `C13_any_sort`, `C13_uniquify`, `C14_mismatch_is_an_error`, `C14_open_zones`, `C14_past_the_end`, `C14_well_nested`, `C15_addPhase_defined`, `C15_ids_and_contents`, `C15_returned_id`, `C16_empty_multicast_refuted`, `C16_every_rectangle_refuted`, `C16_validate_iff_accepted`, `C16_validate_iff_routable`, `C17_defined_refuted`, `C17_only_offsets_change`, `C17_scale_one_refuted`, `C18_kept_iff`, `C18_metadata_refuted`, `C18_multicast_refuted`, `C18_removal_exact`, `C19_defined`, `C19_idempotent`, `C19_out_of_grid_aborts`, `C19_rates_and_frame`, `C20_idempotent`, `C20_mesh_smallest`, `C20_no_new_entries`, `C20_others_unchanged`, `C21_product_iff_fits`, `C21_refuted`, `C22_abort_refuted`, `C22_bytes_refuted`, `C22_config`, `C22_empty_refuted`, `C22_golden_refuted`, `C22_rate_refuted`, `C22_scale_refuted`, `C22_variant_refuted`, `C23_buckets`, `C23_links_partial`, `C23_unicasts`, `C24_lane_first`, `C24_lane_one_chip`, `C24_lane_order`, `C24_several_chips_refuted`, `C25_checkpoints`, `C25_never_exits`, `C26_moving_is_started`, `C26_no_dependency`, `C26_start`, `C27_acyclic`, `C27_cycle`, `C27_no_deadlock`, `C28_different_chips_refuted`, `C28_lane`, `C28_rule`, `C29_blackhole`, `C29_blackhole_refuted`, `C29_group`, `C29_missing_parent_refuted`, `C29_one_dependency`, `C30_activation`, `C30_moves`, `C30_places`, `C30_transfers`, `C31_clock`, `C31_diverges_only_inside`, `C31_error`, `C31_terminates`, `C32_bounds`, `C32_monotone`, `C32_success`, `C33_end_before_start_refuted`, `C33_end_wraps_refuted`, `C34_assertions`, `C34_credit`, `C34_too_fast_refuted`, `C35_estimate`, `C36_always_equal`, `C36_congfree_refuted`, `C37_no_progress_refuted`, `C37_progress`, `C39_negative_rate_refuted`, `C40_links`, `C40_multicast_sinks_refuted`, `C40_sinks_partial`, `C40_sources`, `C41_final_partial`, `C41_final_refuted`, `C41_recorded`, `C42_negative_refuted`, `C43_links`, `C43_nius_partial`, `C43_nius_refuted`, `C44_contents_partial`, `C44_contents_refuted`, `C44_ranges`, `C44_zero_refuted`, `C45_edge_refuted`, `C45_full`, `C45_span_refuted`, `C45_split_partial`, `C46_groups`, `C46_removal_refuted`, `C46_unregistered_refuted`, `C47_read_across_chips_refuted`, `C48_own_state_refuted`, `C49_empty_refuted`, `C49_idle_chip_refuted`, `C49_missing_processor_refuted`, `C49_phase_name_refuted`, `C49_unknown_processor_refuted`, `C49_without_zones_refuted`, `C50_blackhole_refuted`, `C50_skipped_refuted`, `C51_delay_wraps_refuted`, `C51_done_iff`, `C51_done_wrapping`, `C51_stays_done`, `C51_undefined_done`, `C52_accepted_partial`, `C52_large_refuted`, `C52_loaded`, `C52_phase_refuted`, `C52_reversed_refuted`, `C53_demand`, `C53_rates`, `C55_distinct`, `C56_short_refuted`, `C58_disorder_refuted`, `C58_no_zones_refuted`, `C59_dram_exact_partial`, `C59_window_refuted`, `C60_exact_partial`, `C60_idle_refuted`, `C60_padded_refuted`, `C60_peak_refuted`, `C61_accepts`, `C61_device`, `C61_names`, `C61_stats`, `C61_total`, `C62_init`, `C63_coord`, `C63_coord_refuted`, `C63_errors`, `C63_golden`, `C63_offset_refuted`, `C63_transfer`, `C64_only`, `C64_shadow_refuted`, `C64_split_refuted`, `C64_unmatched_refuted`, `C64_zones_partial`, `C65_directory_refuted`, `C65_names`, `C65_paths_refuted`, `C65_workloads_refuted`, `C65_written`, `C66_group`, `C66_late_refuted`, `C66_segments`, `C66_short_refuted`, `C67_legacy_steps`, `C67_legacy_transfers`, `C67_no_congestion`, `C67_steps`, `C68_mesh_partial`, `C68_meshes_refuted`, `C68_single`, `C68_topology_refuted`, `C69_core_words`, `C69_order_refuted`, `C70_accepted`, `C70_back`, `C70_neighbour`, `C70_one_row_refuted`, `C70_ring`, `C70_ring_closed`, `C70_shared_node_refuted`, `C70_topology`, `C71_connected`, `C71_destination`, `C71_found`, `C71_path`, `C71_plane_refuted`, `C71_unknown_channel`, `C71_unknown_refuted`, `C71_written`, `C72_fan`, `C72_multicast_partial`, `C72_multicast_refuted`, `C72_unicast`, `C72_write_refuted`, `C73_dropped_refuted`, `C73_error_refuted`, `C73_failures`, `C73_kept`, `C73_send`, `C73_send_2d`, `C73_traces`, `C74_distinct_partial`, `C74_distinct_refuted`, `C74_name`, `C74_runtime_id`, `C75_groups`, `C75_metal_never`, `C75_metal_outcome`, `C75_metal_refuted`, `C76_empty`, `C76_lookup`, `C76_percentiles`, `C76_table_partial`, `C76_table_refuted`, `C76_weighted`, `C76_zero`, `C77_manifest`, `C77_order`, `C77_points_partial`, `C77_points_refuted`, `C77_stale_refuted`, `C78_emits_partial`, `C78_exact`, `C78_failed`, `C78_legacy`, `C78_topology_refuted`, `C79_chips`, `C79_device_refuted`, `C79_failed_refuted`, `C79_files`, `C79_result`, `C79_status`, `C79_success_refuted`, `C80_never`, `C81_documented_never`, `C81_empty`, `C81_empty_text`, `C81_layout_partial`, `C81_legacy`, `C81_legacy_refuted`, `C81_null_refuted`, `C81_read`, `C82_idle_refuted`, `C82_window_refuted`, `C83_empty`, `C83_false`, `C83_overwrite_refuted`, `C83_succeeds`, `C83_timeline`, `C83_timeline_total`, `C83_total`, `C83_true_partial`, `C83_true_refuted`, `C84_between_chips`, `C84_between_outcome`, `C84_file_refuted`, `C84_no_draws`, `C84_one_chip`, `C84_routes`, `C84_stuck`, `C85_active`, `C85_averages`, `C85_bytes_refuted`, `C85_covers`, `C85_demand`, `C85_steps`, `C85_transfers`, `C85_util_partial`, `C85_util_refuted`, `C86_accepted`, `C86_help`, `C86_order`, `C86_program`, `C86_refused`, `C87_cycles_refuted`, `C87_window_refuted`, `C88_alone`, `C88_congested_refuted`, `C88_free`, `C89_waiting_refuted`, `C91_waiting_refuted`, `C92_equal`, `C92_error`, `C92_lines`, `C92_verbose`, `C93_config`, `C93_config_refuted`, `C93_verbosity`, `C93_what`, `C94_packets_refuted`, `C95_congestion_refuted`, `C96_congestion_refuted`, `C97_core_types`, `C97_size_refuted`, `C97_three_partial`, `C97_two_partial`, `C98_identified_partial`, `C98_identified_refuted`, `C98_made`, `C98_same`, `C98_same_converse_refuted`, `C98_unique`, `C98_written`, `C99_answers`, `C99_checks`, `C99_identifier`, `C99_reset_partial`, `C99_reset_refuted`, `C99_succeeds`, `C99_unknown`.

**Axioms: `ClassicalDedekindReals.sig_forall_dec`, `FunctionalExtensionality.functional_extensionality_dep`** (2 theorems): `C23_order_refuted`, `C59_chip_refuted`.

**Axioms: `ClassicalDedekindReals.sig_forall_dec`, `Classical_Prop.classic`, `FunctionalExtensionality.functional_extensionality_dep`, `ClassicalDedekindReals.sig_not_dec`** (69 theorems): `C17_defined_partial`, `C17_order_preserved`, `C17_scale_one_partial`, `C17_scale_zero`, `C22_total_partial`, `C23_results_partial`, `C26_no_wrap`, `C31_ends`, `C33_end_after_start_partial`, `C37_completes_partial`, `C37_succeeds_partial`, `C38_interpolated`, `C39_congestion_never_raises`, `C39_rates`, `C39_rates_of_live`, `C40_float_links`, `C40_float_sinks_partial`, `C40_float_sources`, `C40_keeps`, `C40_run_links`, `C40_run_sinks_partial`, `C40_run_sources`, `C42_runs`, `C42_utilisation`, `C43_float`, `C47_trace_events`, `C48_own_state_partial`, `C49_clean_partial`, `C50_blackhole`, `C50_chain_partial`, `C54_monotone`, `C55_cases`, `C56_window_partial`, `C57_zones`, `C58_path_partial`, `C59_dram_partial`, `C59_ethernet`, `C60_float_partial`, `C66_span_partial`, `C69_always_zero`, `C69_ethernet_mean`, `C69_impact`, `C69_impact_refuted`, `C69_words`, `C79_file_partial`, `C79_trace_partial`, `C80_program`, `C80_throws`, `C82_demands`, `C82_files_partial`, `C82_legacy_partial`, `C82_result_partial`, `C82_timesteps`, `C87_estimation_partial`, `C87_results_partial`, `C87_run_partial`, `C89_estimates_partial`, `C89_free_partial`, `C90_estimates`, `C90_rate`, `C90_run`, `C91_estimates_partial`, `C91_load_partial`, `C94_estimates_partial`, `C94_free_partial`, `C94_load_partial`, `C95_estimates_partial`, `C95_free_partial`, `C96_free_partial`.
