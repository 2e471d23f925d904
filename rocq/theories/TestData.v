(* Data files of the tests of the project, as parsed JSON (RepoTests.v). Generated from the files named. *)
From Coq Require Import ZArith String List Floats.SpecFloat.
From Verif Require Import Json.
Import ListNotations.
Local Open Scope list_scope.
Open Scope Z_scope.

Definition s0 : string := "golden_result"%string.
Definition s1 : string := "cycles"%string.
Definition s2 : string := "phases"%string.
Definition s3 : string := "transfers"%string.
Definition s4 : string := "packet_size"%string.
Definition s5 : string := "num_packets"%string.
Definition s6 : string := "src_x"%string.
Definition s7 : string := "src_y"%string.
Definition s8 : string := "injection_rate"%string.
Definition s9 : string := "phase_cycle_offset"%string.
Definition s10 : string := "noc_type"%string.
Definition s11 : string := "NOC_0"%string.
Definition s12 : string := "dst_x"%string.
Definition s13 : string := "dst_y"%string.
Definition s14 : string := "NOC_1"%string.
Definition s15 : string := "mcast_start_x"%string.
Definition s16 : string := "mcast_start_y"%string.
Definition s17 : string := "mcast_end_x"%string.
Definition s18 : string := "mcast_end_y"%string.
Definition s19 : string := "proc"%string.
Definition s20 : string := "NCRISC"%string.
Definition s21 : string := "sx"%string.
Definition s22 : string := "sy"%string.
Definition s23 : string := "zone"%string.
Definition s24 : string := "unit_test_region"%string.
Definition s25 : string := "zone_phase"%string.
Definition s26 : string := "ZONE_START"%string.
Definition s27 : string := "timestamp"%string.
Definition s28 : string := "dx"%string.
Definition s29 : string := "dy"%string.
Definition s30 : string := "noc"%string.
Definition s31 : string := "type"%string.
Definition s32 : string := "WRITE_MULTICAST"%string.
Definition s33 : string := "num_bytes"%string.
Definition s34 : string := "ZONE_END"%string.
Definition s35 : string := "op_name"%string.
Definition s36 : string := "AllGatherAsync"%string.
Definition s37 : string := "BRISC"%string.
Definition s38 : string := "run_host_id"%string.
Definition s39 : string := "run_id"%string.
Definition s40 : string := "BRISC-KERNEL"%string.
Definition s41 : string := "begin"%string.
Definition s42 : string := "NCRISC-KERNEL"%string.
Definition s43 : string := "dst_device_id"%string.
Definition s44 : string := "src_device_id"%string.
Definition s45 : string := "READ"%string.
Definition s46 : string := "vc"%string.
Definition s47 : string := "WRITE_WITH_TRID_SET_STATE"%string.
Definition s48 : string := "READ_BARRIER_START"%string.
Definition s49 : string := "READ_BARRIER_END"%string.
Definition s50 : string := "end"%string.
Definition s51 : string := "WRITE_"%string.
Definition s52 : string := "fabric_send"%string.
Definition s53 : string := "eth_chan"%string.
Definition s54 : string := "hops"%string.
Definition s55 : string := "path"%string.
Definition s56 : string := "device"%string.
Definition s57 : string := "segment_start_x"%string.
Definition s58 : string := "segment_start_y"%string.
Definition s59 : string := "segment_end_x"%string.
Definition s60 : string := "segment_end_y"%string.
Definition s61 : string := "FABRIC_UNICAST_WRITE"%string.
Definition s62 : string := "WRITE_FLUSH"%string.
Definition s63 : string := "SEMAPHORE_INC"%string.
Definition s64 : string := "SEMAPHORE_WAIT"%string.
Definition s65 : string := "WRITE_BARRIER_START"%string.
Definition s66 : string := "WRITE_BARRIER_END"%string.
(* tt_npe/workload/example_wl.json *)
Definition example_wl : json :=
 (JObject [(s0, (JObject [(s1, (JInt 450))])); (s2, (JArray [(JObject [(s3, (JArray [(JObject [(s4, (JInt 128)); (s5, (JInt 1)); (s6, (JInt 1)); (s7, (JInt 1)); (s8, (JInt 0)); (s9, (JInt 219)); (s10, (JString s11)); (s12, (JInt 1)); (s13, (JInt 1))]);
 (JObject [(s4, (JInt 256)); (s5, (JInt 3)); (s6, (JInt 0)); (s7, (JInt 1)); (s8, (JDouble (S754_finite false 6502071962016154 (-48)))); (s9, (JInt 112)); (s10, (JString s14)); (s12, (JInt 3)); (s13, (JInt 4))]);
 (JObject [(s4, (JInt 8192)); (s5, (JInt 1)); (s6, (JInt 2)); (s7, (JInt 2)); (s8, (JDouble (S754_finite false 7937594343240499 (-48)))); (s9, (JInt 145)); (s10, (JString s14)); (s15, (JInt 3)); (s16, (JInt 3)); (s17, (JInt 5)); (s18, (JInt 5))])]))])]))]).
(* tt_npe/cpp/test/data/mcast-util-trace-small.json *)
Definition mcast_trace : json :=
 (JArray [(JObject [(s19, (JString s20)); (s21, (JInt 1)); (s22, (JInt 1)); (s23, (JString s24)); (s25, (JString s26)); (s27, (JInt 0))]);
 (JObject [(s19, (JString s20)); (s21, (JInt 1)); (s22, (JInt 1)); (s28, (JInt 2)); (s29, (JInt 1)); (s30, (JString s11)); (s31, (JString s32)); (s33, (JInt 64)); (s15, (JInt 2)); (s16, (JInt 1)); (s17, (JInt 2)); (s18, (JInt 1)); (s27, (JInt 100))]);
 (JObject [(s19, (JString s20)); (s21, (JInt 1)); (s22, (JInt 1)); (s28, (JInt 2)); (s29, (JInt 1)); (s30, (JString s11)); (s31, (JString s32)); (s33, (JInt 64)); (s15, (JInt 2)); (s16, (JInt 1)); (s17, (JInt 2)); (s18, (JInt 1)); (s27, (JInt 200))]);
 (JObject [(s19, (JString s20)); (s21, (JInt 1)); (s22, (JInt 1)); (s28, (JInt 2)); (s29, (JInt 1)); (s30, (JString s11)); (s31, (JString s32)); (s33, (JInt 64)); (s15, (JInt 2)); (s16, (JInt 1)); (s17, (JInt 2)); (s18, (JInt 1)); (s27, (JInt 300))]);
 (JObject [(s19, (JString s20)); (s21, (JInt 1)); (s22, (JInt 1)); (s28, (JInt 2)); (s29, (JInt 1)); (s30, (JString s11)); (s31, (JString s32)); (s33, (JInt 64)); (s15, (JInt 2)); (s16, (JInt 1)); (s17, (JInt 2)); (s18, (JInt 1)); (s27, (JInt 400))]);
 (JObject [(s19, (JString s20)); (s21, (JInt 1)); (s22, (JInt 1)); (s28, (JInt 2)); (s29, (JInt 1)); (s30, (JString s11)); (s31, (JString s32)); (s33, (JInt 64)); (s15, (JInt 2)); (s16, (JInt 1)); (s17, (JInt 2)); (s18, (JInt 1)); (s27, (JInt 500))]);
 (JObject [(s19, (JString s20)); (s21, (JInt 1)); (s22, (JInt 1)); (s23, (JString s24)); (s25, (JString s34)); (s27, (JInt 700))])]).
(* tt_npe/cpp/test/data/multichip-trace-example.json *)
Definition multichip_trace : json :=
 (JArray [(JObject [(s35, (JString s36)); (s19, (JString s37)); (s38, (JInt 2)); (s39, (JInt 0)); (s21, (JInt 1)); (s22, (JInt 2)); (s27, (JInt 0)); (s23, (JString s40)); (s25, (JString s41))]);
 (JObject [(s35, (JString s36)); (s19, (JString s20)); (s38, (JInt 2)); (s39, (JInt 0)); (s21, (JInt 1)); (s22, (JInt 2)); (s27, (JInt 0)); (s23, (JString s42)); (s25, (JString s41))]);
 (JObject [(s35, (JString s36)); (s19, (JString s37)); (s38, (JInt 3)); (s39, (JInt 0)); (s21, (JInt 1)); (s22, (JInt 2)); (s27, (JInt 0)); (s23, (JString s40)); (s25, (JString s41))]);
 (JObject [(s35, (JString s36)); (s19, (JString s20)); (s38, (JInt 3)); (s39, (JInt 0)); (s21, (JInt 1)); (s22, (JInt 2)); (s27, (JInt 0)); (s23, (JString s42)); (s25, (JString s41))]);
 (JObject [(s35, (JString s36)); (s19, (JString s37)); (s38, (JInt 6)); (s39, (JInt 0)); (s21, (JInt 1)); (s22, (JInt 1)); (s27, (JInt 0)); (s23, (JString s40)); (s25, (JString s41))]);
 (JObject [(s35, (JString s36)); (s19, (JString s20)); (s38, (JInt 6)); (s39, (JInt 0)); (s21, (JInt 1)); (s22, (JInt 1)); (s27, (JInt 0)); (s23, (JString s42)); (s25, (JString s41))]);
 (JObject [(s35, (JString s36)); (s19, (JString s37)); (s38, (JInt 1)); (s39, (JInt 0)); (s21, (JInt 1)); (s22, (JInt 1)); (s27, (JInt 0)); (s23, (JString s40)); (s25, (JString s41))]);
 (JObject [(s35, (JString s36)); (s19, (JString s20)); (s38, (JInt 1)); (s39, (JInt 0)); (s21, (JInt 1)); (s22, (JInt 1)); (s27, (JInt 0)); (s23, (JString s42)); (s25, (JString s41))]);
 (JObject [(s35, (JString s36)); (s19, (JString s37)); (s38, (JInt 8)); (s39, (JInt 0)); (s21, (JInt 1)); (s22, (JInt 1)); (s27, (JInt 0)); (s23, (JString s40)); (s25, (JString s41))]);
 (JObject [(s35, (JString s36)); (s19, (JString s20)); (s38, (JInt 8)); (s39, (JInt 0)); (s21, (JInt 1)); (s22, (JInt 1)); (s27, (JInt 0)); (s23, (JString s42)); (s25, (JString s41))]);
 (JObject [(s35, (JString s36)); (s19, (JString s37)); (s38, (JInt 7)); (s39, (JInt 0)); (s21, (JInt 1)); (s22, (JInt 1)); (s27, (JInt 0)); (s23, (JString s40)); (s25, (JString s41))]);
 (JObject [(s35, (JString s36)); (s19, (JString s20)); (s38, (JInt 7)); (s39, (JInt 0)); (s21, (JInt 1)); (s22, (JInt 1)); (s27, (JInt 0)); (s23, (JString s42)); (s25, (JString s41))]);
 (JObject [(s35, (JString s36)); (s19, (JString s37)); (s38, (JInt 5)); (s39, (JInt 0)); (s21, (JInt 1)); (s22, (JInt 1)); (s27, (JInt 0)); (s23, (JString s40)); (s25, (JString s41))]);
 (JObject [(s35, (JString s36)); (s19, (JString s20)); (s38, (JInt 5)); (s39, (JInt 0)); (s21, (JInt 1)); (s22, (JInt 1)); (s27, (JInt 0)); (s23, (JString s42)); (s25, (JString s41))]);
 (JObject [(s35, (JString s36)); (s19, (JString s37)); (s38, (JInt 4)); (s39, (JInt 0)); (s21, (JInt 1)); (s22, (JInt 2)); (s27, (JInt 0)); (s23, (JString s40)); (s25, (JString s41))]);
 (JObject [(s35, (JString s36)); (s19, (JString s20)); (s38, (JInt 4)); (s39, (JInt 0)); (s21, (JInt 1)); (s22, (JInt 2)); (s27, (JInt 0)); (s23, (JString s42)); (s25, (JString s41))]);
 (JObject [(s43, (JInt 1)); (s28, (JInt 0)); (s29, (JInt 11)); (s30, (JString s11)); (s33, (JInt 1088)); (s35, (JString s36)); (s19, (JString s20)); (s38, (JInt 3)); (s39, (JInt 0)); (s44, (JInt 1)); (s21, (JInt 1)); (s22, (JInt 2)); (s27, (JInt 113)); (s31, (JString s45)); (s46, (JInt (-1)))]);
 (JObject [(s43, (JInt 4)); (s28, (JInt 0)); (s29, (JInt 11)); (s30, (JString s11)); (s33, (JInt 1088)); (s35, (JString s36)); (s19, (JString s20)); (s38, (JInt 8)); (s39, (JInt 0)); (s44, (JInt 4)); (s21, (JInt 1)); (s22, (JInt 1)); (s27, (JInt 113)); (s31, (JString s45)); (s46, (JInt (-1)))]);
 (JObject [(s43, (JInt 5)); (s28, (JInt 0)); (s29, (JInt 11)); (s30, (JString s11)); (s33, (JInt 1088)); (s35, (JString s36)); (s19, (JString s20)); (s38, (JInt 7)); (s39, (JInt 0)); (s44, (JInt 5)); (s21, (JInt 1)); (s22, (JInt 1)); (s27, (JInt 113)); (s31, (JString s45)); (s46, (JInt (-1)))]);
 (JObject [(s43, (JInt 6)); (s28, (JInt 0)); (s29, (JInt 11)); (s30, (JString s11)); (s33, (JInt 1088)); (s35, (JString s36)); (s19, (JString s20)); (s38, (JInt 5)); (s39, (JInt 0)); (s44, (JInt 6)); (s21, (JInt 1)); (s22, (JInt 1)); (s27, (JInt 113)); (s31, (JString s45)); (s46, (JInt (-1)))]);
 (JObject [(s43, (JInt 2)); (s28, (JInt 0)); (s29, (JInt 11)); (s30, (JString s11)); (s33, (JInt 1088)); (s35, (JString s36)); (s19, (JString s20)); (s38, (JInt 6)); (s39, (JInt 0)); (s44, (JInt 2)); (s21, (JInt 1)); (s22, (JInt 1)); (s27, (JInt 114)); (s31, (JString s45)); (s46, (JInt (-1)))]);
 (JObject [(s43, (JInt 7)); (s28, (JInt 0)); (s29, (JInt 11)); (s30, (JString s11)); (s33, (JInt 1088)); (s35, (JString s36)); (s19, (JString s20)); (s38, (JInt 4)); (s39, (JInt 0)); (s44, (JInt 7)); (s21, (JInt 1)); (s22, (JInt 2)); (s27, (JInt 114)); (s31, (JString s45)); (s46, (JInt (-1)))]);
 (JObject [(s43, (JInt 0)); (s28, (JInt 0)); (s29, (JInt 11)); (s30, (JString s11)); (s33, (JInt 1088)); (s35, (JString s36)); (s19, (JString s20)); (s38, (JInt 2)); (s39, (JInt 0)); (s44, (JInt 0)); (s21, (JInt 1)); (s22, (JInt 2)); (s27, (JInt 115)); (s31, (JString s45)); (s46, (JInt (-1)))]);
 (JObject [(s43, (JInt 3)); (s28, (JInt 0)); (s29, (JInt 11)); (s30, (JString s11)); (s33, (JInt 1088)); (s35, (JString s36)); (s19, (JString s20)); (s38, (JInt 1)); (s39, (JInt 0)); (s44, (JInt 3)); (s21, (JInt 1)); (s22, (JInt 1)); (s27, (JInt 115)); (s31, (JString s45)); (s46, (JInt (-1)))]);
 (JObject [(s43, (JInt 1)); (s28, (JInt 0)); (s29, (JInt 1)); (s30, (JString s11)); (s33, (JInt 1088)); (s35, (JString s36)); (s19, (JString s20)); (s38, (JInt 3)); (s39, (JInt 0)); (s44, (JInt 1)); (s21, (JInt 1)); (s22, (JInt 2)); (s27, (JInt 200)); (s31, (JString s45)); (s46, (JInt (-1)))]);
 (JObject [(s43, (JInt 4)); (s28, (JInt 0)); (s29, (JInt 1)); (s30, (JString s11)); (s33, (JInt 1088)); (s35, (JString s36)); (s19, (JString s20)); (s38, (JInt 8)); (s39, (JInt 0)); (s44, (JInt 4)); (s21, (JInt 1)); (s22, (JInt 1)); (s27, (JInt 200)); (s31, (JString s45)); (s46, (JInt (-1)))]);
 (JObject [(s43, (JInt 6)); (s28, (JInt 0)); (s29, (JInt 1)); (s30, (JString s11)); (s33, (JInt 1088)); (s35, (JString s36)); (s19, (JString s20)); (s38, (JInt 5)); (s39, (JInt 0)); (s44, (JInt 6)); (s21, (JInt 1)); (s22, (JInt 1)); (s27, (JInt 200)); (s31, (JString s45)); (s46, (JInt (-1)))]);
 (JObject [(s43, (JInt 2)); (s28, (JInt 0)); (s29, (JInt 1)); (s30, (JString s11)); (s33, (JInt 1088)); (s35, (JString s36)); (s19, (JString s20)); (s38, (JInt 6)); (s39, (JInt 0)); (s44, (JInt 2)); (s21, (JInt 1)); (s22, (JInt 1)); (s27, (JInt 201)); (s31, (JString s45)); (s46, (JInt (-1)))]);
 (JObject [(s43, (JInt 5)); (s28, (JInt 0)); (s29, (JInt 1)); (s30, (JString s11)); (s33, (JInt 1088)); (s35, (JString s36)); (s19, (JString s20)); (s38, (JInt 7)); (s39, (JInt 0)); (s44, (JInt 5)); (s21, (JInt 1)); (s22, (JInt 1)); (s27, (JInt 201)); (s31, (JString s45)); (s46, (JInt (-1)))]);
 (JObject [(s43, (JInt 7)); (s28, (JInt 0)); (s29, (JInt 1)); (s30, (JString s11)); (s33, (JInt 1088)); (s35, (JString s36)); (s19, (JString s20)); (s38, (JInt 4)); (s39, (JInt 0)); (s44, (JInt 7)); (s21, (JInt 1)); (s22, (JInt 2)); (s27, (JInt 201)); (s31, (JString s45)); (s46, (JInt (-1)))]);
 (JObject [(s43, (JInt 0)); (s28, (JInt 0)); (s29, (JInt 1)); (s30, (JString s11)); (s33, (JInt 1088)); (s35, (JString s36)); (s19, (JString s20)); (s38, (JInt 2)); (s39, (JInt 0)); (s44, (JInt 0)); (s21, (JInt 1)); (s22, (JInt 2)); (s27, (JInt 202)); (s31, (JString s45)); (s46, (JInt (-1)))]);
 (JObject [(s43, (JInt 3)); (s28, (JInt 0)); (s29, (JInt 1)); (s30, (JString s11)); (s33, (JInt 1088)); (s35, (JString s36)); (s19, (JString s20)); (s38, (JInt 1)); (s39, (JInt 0)); (s44, (JInt 3)); (s21, (JInt 1)); (s22, (JInt 1)); (s27, (JInt 202)); (s31, (JString s45)); (s46, (JInt (-1)))]);
 (JObject [(s43, (JInt 1)); (s28, (JInt 9)); (s29, (JInt 6)); (s30, (JString s14)); (s33, (JInt 0)); (s35, (JString s36)); (s19, (JString s37)); (s38, (JInt 3)); (s39, (JInt 0)); (s44, (JInt 1)); (s21, (JInt 1)); (s22, (JInt 2)); (s27, (JInt 241)); (s31, (JString s47)); (s46, (JInt 1))]);
 (JObject [(s43, (JInt 4)); (s28, (JInt 9)); (s29, (JInt 0)); (s30, (JString s14)); (s33, (JInt 0)); (s35, (JString s36)); (s19, (JString s37)); (s38, (JInt 8)); (s39, (JInt 0)); (s44, (JInt 4)); (s21, (JInt 1)); (s22, (JInt 1)); (s27, (JInt 241)); (s31, (JString s47)); (s46, (JInt 1))]);
 (JObject [(s43, (JInt 6)); (s28, (JInt 9)); (s29, (JInt 0)); (s30, (JString s14)); (s33, (JInt 0)); (s35, (JString s36)); (s19, (JString s37)); (s38, (JInt 5)); (s39, (JInt 0)); (s44, (JInt 6)); (s21, (JInt 1)); (s22, (JInt 1)); (s27, (JInt 241)); (s31, (JString s47)); (s46, (JInt 1))]);
 (JObject [(s43, (JInt 2)); (s28, (JInt 4)); (s29, (JInt 0)); (s30, (JString s14)); (s33, (JInt 0)); (s35, (JString s36)); (s19, (JString s37)); (s38, (JInt 6)); (s39, (JInt 0)); (s44, (JInt 2)); (s21, (JInt 1)); (s22, (JInt 1)); (s27, (JInt 246)); (s31, (JString s47)); (s46, (JInt 1))]);
 (JObject [(s43, (JInt 7)); (s28, (JInt 4)); (s29, (JInt 0)); (s30, (JString s14)); (s33, (JInt 0)); (s35, (JString s36)); (s19, (JString s37)); (s38, (JInt 4)); (s39, (JInt 0)); (s44, (JInt 7)); (s21, (JInt 1)); (s22, (JInt 2)); (s27, (JInt 246)); (s31, (JString s47)); (s46, (JInt 1))]);
 (JObject [(s43, (JInt 0)); (s28, (JInt 1)); (s29, (JInt 0)); (s30, (JString s14)); (s33, (JInt 0)); (s35, (JString s36)); (s19, (JString s37)); (s38, (JInt 2)); (s39, (JInt 0)); (s44, (JInt 0)); (s21, (JInt 1)); (s22, (JInt 2)); (s27, (JInt 247)); (s31, (JString s47)); (s46, (JInt 1))]);
 (JObject [(s43, (JInt 3)); (s28, (JInt 9)); (s29, (JInt 6)); (s30, (JString s14)); (s33, (JInt 0)); (s35, (JString s36)); (s19, (JString s37)); (s38, (JInt 1)); (s39, (JInt 0)); (s44, (JInt 3)); (s21, (JInt 1)); (s22, (JInt 1)); (s27, (JInt 247)); (s31, (JString s47)); (s46, (JInt 1))]);
 (JObject [(s43, (JInt 5)); (s28, (JInt 9)); (s29, (JInt 0)); (s30, (JString s14)); (s33, (JInt 0)); (s35, (JString s36)); (s19, (JString s37)); (s38, (JInt 7)); (s39, (JInt 0)); (s44, (JInt 5)); (s21, (JInt 1)); (s22, (JInt 1)); (s27, (JInt 280)); (s31, (JString s47)); (s46, (JInt 1))]);
 (JObject [(s43, (JInt 2)); (s28, (JInt 0)); (s29, (JInt 5)); (s30, (JString s11)); (s33, (JInt 1088)); (s35, (JString s36)); (s19, (JString s20)); (s38, (JInt 6)); (s39, (JInt 0)); (s44, (JInt 2)); (s21, (JInt 1)); (s22, (JInt 1)); (s27, (JInt 285)); (s31, (JString s45)); (s46, (JInt (-1)))]);
 (JObject [(s43, (JInt 5)); (s28, (JInt 0)); (s29, (JInt 5)); (s30, (JString s11)); (s33, (JInt 1088)); (s35, (JString s36)); (s19, (JString s20)); (s38, (JInt 7)); (s39, (JInt 0)); (s44, (JInt 5)); (s21, (JInt 1)); (s22, (JInt 1)); (s27, (JInt 285)); (s31, (JString s45)); (s46, (JInt (-1)))]);
 (JObject [(s43, (JInt 7)); (s28, (JInt 0)); (s29, (JInt 5)); (s30, (JString s11)); (s33, (JInt 1088)); (s35, (JString s36)); (s19, (JString s20)); (s38, (JInt 4)); (s39, (JInt 0)); (s44, (JInt 7)); (s21, (JInt 1)); (s22, (JInt 2)); (s27, (JInt 285)); (s31, (JString s45)); (s46, (JInt (-1)))]);
 (JObject [(s43, (JInt 0)); (s28, (JInt 0)); (s29, (JInt 5)); (s30, (JString s11)); (s33, (JInt 1088)); (s35, (JString s36)); (s19, (JString s20)); (s38, (JInt 2)); (s39, (JInt 0)); (s44, (JInt 0)); (s21, (JInt 1)); (s22, (JInt 2)); (s27, (JInt 287)); (s31, (JString s45)); (s46, (JInt (-1)))]);
 (JObject [(s43, (JInt 3)); (s28, (JInt 0)); (s29, (JInt 5)); (s30, (JString s11)); (s33, (JInt 1088)); (s35, (JString s36)); (s19, (JString s20)); (s38, (JInt 1)); (s39, (JInt 0)); (s44, (JInt 3)); (s21, (JInt 1)); (s22, (JInt 1)); (s27, (JInt 287)); (s31, (JString s45)); (s46, (JInt (-1)))]);
 (JObject [(s43, (JInt 1)); (s28, (JInt 0)); (s29, (JInt 5)); (s30, (JString s11)); (s33, (JInt 1088)); (s35, (JString s36)); (s19, (JString s20)); (s38, (JInt 3)); (s39, (JInt 0)); (s44, (JInt 1)); (s21, (JInt 1)); (s22, (JInt 2)); (s27, (JInt 288)); (s31, (JString s45)); (s46, (JInt (-1)))]);
 (JObject [(s43, (JInt 4)); (s28, (JInt 0)); (s29, (JInt 5)); (s30, (JString s11)); (s33, (JInt 1088)); (s35, (JString s36)); (s19, (JString s20)); (s38, (JInt 8)); (s39, (JInt 0)); (s44, (JInt 4)); (s21, (JInt 1)); (s22, (JInt 1)); (s27, (JInt 288)); (s31, (JString s45)); (s46, (JInt (-1)))]);
 (JObject [(s43, (JInt 6)); (s28, (JInt 0)); (s29, (JInt 5)); (s30, (JString s11)); (s33, (JInt 1088)); (s35, (JString s36)); (s19, (JString s20)); (s38, (JInt 5)); (s39, (JInt 0)); (s44, (JInt 6)); (s21, (JInt 1)); (s22, (JInt 1)); (s27, (JInt 288)); (s31, (JString s45)); (s46, (JInt (-1)))]);
 (JObject [(s43, (JInt 5)); (s28, (JInt 0)); (s29, (JInt 7)); (s30, (JString s11)); (s33, (JInt 1088)); (s35, (JString s36)); (s19, (JString s20)); (s38, (JInt 7)); (s39, (JInt 0)); (s44, (JInt 5)); (s21, (JInt 1)); (s22, (JInt 1)); (s27, (JInt 369)); (s31, (JString s45)); (s46, (JInt (-1)))]);
 (JObject [(s43, (JInt 2)); (s28, (JInt 0)); (s29, (JInt 7)); (s30, (JString s11)); (s33, (JInt 1088)); (s35, (JString s36)); (s19, (JString s20)); (s38, (JInt 6)); (s39, (JInt 0)); (s44, (JInt 2)); (s21, (JInt 1)); (s22, (JInt 1)); (s27, (JInt 370)); (s31, (JString s45)); (s46, (JInt (-1)))]);
 (JObject [(s43, (JInt 7)); (s28, (JInt 0)); (s29, (JInt 7)); (s30, (JString s11)); (s33, (JInt 1088)); (s35, (JString s36)); (s19, (JString s20)); (s38, (JInt 4)); (s39, (JInt 0)); (s44, (JInt 7)); (s21, (JInt 1)); (s22, (JInt 2)); (s27, (JInt 370)); (s31, (JString s45)); (s46, (JInt (-1)))]);
 (JObject [(s43, (JInt 0)); (s28, (JInt 0)); (s29, (JInt 7)); (s30, (JString s11)); (s33, (JInt 1088)); (s35, (JString s36)); (s19, (JString s20)); (s38, (JInt 2)); (s39, (JInt 0)); (s44, (JInt 0)); (s21, (JInt 1)); (s22, (JInt 2)); (s27, (JInt 379)); (s31, (JString s45)); (s46, (JInt (-1)))]);
 (JObject [(s43, (JInt 3)); (s28, (JInt 0)); (s29, (JInt 7)); (s30, (JString s11)); (s33, (JInt 1088)); (s35, (JString s36)); (s19, (JString s20)); (s38, (JInt 1)); (s39, (JInt 0)); (s44, (JInt 3)); (s21, (JInt 1)); (s22, (JInt 1)); (s27, (JInt 379)); (s31, (JString s45)); (s46, (JInt (-1)))]);
 (JObject [(s43, (JInt 1)); (s28, (JInt 0)); (s29, (JInt 7)); (s30, (JString s11)); (s33, (JInt 1088)); (s35, (JString s36)); (s19, (JString s20)); (s38, (JInt 3)); (s39, (JInt 0)); (s44, (JInt 1)); (s21, (JInt 1)); (s22, (JInt 2)); (s27, (JInt 381)); (s31, (JString s45)); (s46, (JInt (-1)))]);
 (JObject [(s43, (JInt 4)); (s28, (JInt 0)); (s29, (JInt 7)); (s30, (JString s11)); (s33, (JInt 1088)); (s35, (JString s36)); (s19, (JString s20)); (s38, (JInt 8)); (s39, (JInt 0)); (s44, (JInt 4)); (s21, (JInt 1)); (s22, (JInt 1)); (s27, (JInt 381)); (s31, (JString s45)); (s46, (JInt (-1)))]);
 (JObject [(s43, (JInt 6)); (s28, (JInt 0)); (s29, (JInt 7)); (s30, (JString s11)); (s33, (JInt 1088)); (s35, (JString s36)); (s19, (JString s20)); (s38, (JInt 5)); (s39, (JInt 0)); (s44, (JInt 6)); (s21, (JInt 1)); (s22, (JInt 1)); (s27, (JInt 381)); (s31, (JString s45)); (s46, (JInt (-1)))]);
 (JObject [(s43, (JInt 5)); (s30, (JString s11)); (s33, (JInt 0)); (s35, (JString s36)); (s19, (JString s20)); (s38, (JInt 7)); (s39, (JInt 0)); (s44, (JInt 5)); (s21, (JInt 1)); (s22, (JInt 1)); (s27, (JInt 447)); (s31, (JString s48)); (s46, (JInt (-1)))]);
 (JObject [(s43, (JInt 2)); (s30, (JString s11)); (s33, (JInt 0)); (s35, (JString s36)); (s19, (JString s20)); (s38, (JInt 6)); (s39, (JInt 0)); (s44, (JInt 2)); (s21, (JInt 1)); (s22, (JInt 1)); (s27, (JInt 448)); (s31, (JString s48)); (s46, (JInt (-1)))]);
 (JObject [(s43, (JInt 7)); (s30, (JString s11)); (s33, (JInt 0)); (s35, (JString s36)); (s19, (JString s20)); (s38, (JInt 4)); (s39, (JInt 0)); (s44, (JInt 7)); (s21, (JInt 1)); (s22, (JInt 2)); (s27, (JInt 448)); (s31, (JString s48)); (s46, (JInt (-1)))]);
 (JObject [(s43, (JInt 0)); (s30, (JString s11)); (s33, (JInt 0)); (s35, (JString s36)); (s19, (JString s20)); (s38, (JInt 2)); (s39, (JInt 0)); (s44, (JInt 0)); (s21, (JInt 1)); (s22, (JInt 2)); (s27, (JInt 457)); (s31, (JString s48)); (s46, (JInt (-1)))]);
 (JObject [(s43, (JInt 3)); (s30, (JString s11)); (s33, (JInt 0)); (s35, (JString s36)); (s19, (JString s20)); (s38, (JInt 1)); (s39, (JInt 0)); (s44, (JInt 3)); (s21, (JInt 1)); (s22, (JInt 1)); (s27, (JInt 457)); (s31, (JString s48)); (s46, (JInt (-1)))]);
 (JObject [(s43, (JInt 1)); (s30, (JString s11)); (s33, (JInt 0)); (s35, (JString s36)); (s19, (JString s20)); (s38, (JInt 3)); (s39, (JInt 0)); (s44, (JInt 1)); (s21, (JInt 1)); (s22, (JInt 2)); (s27, (JInt 459)); (s31, (JString s48)); (s46, (JInt (-1)))]);
 (JObject [(s43, (JInt 4)); (s30, (JString s11)); (s33, (JInt 0)); (s35, (JString s36)); (s19, (JString s20)); (s38, (JInt 8)); (s39, (JInt 0)); (s44, (JInt 4)); (s21, (JInt 1)); (s22, (JInt 1)); (s27, (JInt 459)); (s31, (JString s48)); (s46, (JInt (-1)))]);
 (JObject [(s43, (JInt 6)); (s30, (JString s11)); (s33, (JInt 0)); (s35, (JString s36)); (s19, (JString s20)); (s38, (JInt 5)); (s39, (JInt 0)); (s44, (JInt 6)); (s21, (JInt 1)); (s22, (JInt 1)); (s27, (JInt 459)); (s31, (JString s48)); (s46, (JInt (-1)))]);
 (JObject [(s43, (JInt 2)); (s28, (JInt 9)); (s29, (JInt 6)); (s30, (JString s14)); (s33, (JInt 0)); (s35, (JString s36)); (s19, (JString s37)); (s38, (JInt 6)); (s39, (JInt 0)); (s44, (JInt 2)); (s21, (JInt 1)); (s22, (JInt 1)); (s27, (JInt 500)); (s31, (JString s47)); (s46, (JInt 1))]);
 (JObject [(s43, (JInt 7)); (s28, (JInt 9)); (s29, (JInt 0)); (s30, (JString s14)); (s33, (JInt 0)); (s35, (JString s36)); (s19, (JString s37)); (s38, (JInt 4)); (s39, (JInt 0)); (s44, (JInt 7)); (s21, (JInt 1)); (s22, (JInt 2)); (s27, (JInt 500)); (s31, (JString s47)); (s46, (JInt 1))]);
 (JObject [(s43, (JInt 1)); (s28, (JInt 4)); (s29, (JInt 0)); (s30, (JString s14)); (s33, (JInt 0)); (s35, (JString s36)); (s19, (JString s37)); (s38, (JInt 3)); (s39, (JInt 0)); (s44, (JInt 1)); (s21, (JInt 1)); (s22, (JInt 2)); (s27, (JInt 501)); (s31, (JString s47)); (s46, (JInt 1))]);
 (JObject [(s43, (JInt 6)); (s28, (JInt 4)); (s29, (JInt 0)); (s30, (JString s14)); (s33, (JInt 0)); (s35, (JString s36)); (s19, (JString s37)); (s38, (JInt 5)); (s39, (JInt 0)); (s44, (JInt 6)); (s21, (JInt 1)); (s22, (JInt 1)); (s27, (JInt 501)); (s31, (JString s47)); (s46, (JInt 1))]);
 (JObject [(s43, (JInt 0)); (s28, (JInt 9)); (s29, (JInt 6)); (s30, (JString s14)); (s33, (JInt 0)); (s35, (JString s36)); (s19, (JString s37)); (s38, (JInt 2)); (s39, (JInt 0)); (s44, (JInt 0)); (s21, (JInt 1)); (s22, (JInt 2)); (s27, (JInt 508)); (s31, (JString s47)); (s46, (JInt 1))]);
 (JObject [(s43, (JInt 3)); (s28, (JInt 1)); (s29, (JInt 0)); (s30, (JString s14)); (s33, (JInt 0)); (s35, (JString s36)); (s19, (JString s37)); (s38, (JInt 1)); (s39, (JInt 0)); (s44, (JInt 3)); (s21, (JInt 1)); (s22, (JInt 1)); (s27, (JInt 510)); (s31, (JString s47)); (s46, (JInt 1))]);
 (JObject [(s43, (JInt 5)); (s28, (JInt 9)); (s29, (JInt 0)); (s30, (JString s14)); (s33, (JInt 32)); (s35, (JString s36)); (s19, (JString s37)); (s38, (JInt 7)); (s39, (JInt 0)); (s44, (JInt 5)); (s21, (JInt 1)); (s22, (JInt 1)); (s27, (JInt 600)); (s31, (JString s45)); (s46, (JInt (-1)))]);
 (JObject [(s43, (JInt 4)); (s28, (JInt 9)); (s29, (JInt 0)); (s30, (JString s14)); (s33, (JInt 32)); (s35, (JString s36)); (s19, (JString s37)); (s38, (JInt 8)); (s39, (JInt 0)); (s44, (JInt 4)); (s21, (JInt 1)); (s22, (JInt 1)); (s27, (JInt 618)); (s31, (JString s45)); (s46, (JInt (-1)))]);
 (JObject [(s43, (JInt 5)); (s28, (JInt 9)); (s29, (JInt 0)); (s30, (JString s14)); (s33, (JInt 32)); (s35, (JString s36)); (s19, (JString s37)); (s38, (JInt 7)); (s39, (JInt 0)); (s44, (JInt 5)); (s21, (JInt 1)); (s22, (JInt 1)); (s27, (JInt 702)); (s31, (JString s45)); (s46, (JInt (-1)))]);
 (JObject [(s43, (JInt 4)); (s28, (JInt 9)); (s29, (JInt 0)); (s30, (JString s14)); (s33, (JInt 32)); (s35, (JString s36)); (s19, (JString s37)); (s38, (JInt 8)); (s39, (JInt 0)); (s44, (JInt 4)); (s21, (JInt 1)); (s22, (JInt 1)); (s27, (JInt 721)); (s31, (JString s45)); (s46, (JInt (-1)))]);
 (JObject [(s43, (JInt 2)); (s28, (JInt 4)); (s29, (JInt 0)); (s30, (JString s14)); (s33, (JInt 32)); (s35, (JString s36)); (s19, (JString s37)); (s38, (JInt 6)); (s39, (JInt 0)); (s44, (JInt 2)); (s21, (JInt 1)); (s22, (JInt 1)); (s27, (JInt 798)); (s31, (JString s45)); (s46, (JInt (-1)))]);
 (JObject [(s43, (JInt 7)); (s28, (JInt 4)); (s29, (JInt 0)); (s30, (JString s14)); (s33, (JInt 32)); (s35, (JString s36)); (s19, (JString s37)); (s38, (JInt 4)); (s39, (JInt 0)); (s44, (JInt 7)); (s21, (JInt 1)); (s22, (JInt 2)); (s27, (JInt 799)); (s31, (JString s45)); (s46, (JInt (-1)))]);
 (JObject [(s43, (JInt 1)); (s28, (JInt 9)); (s29, (JInt 6)); (s30, (JString s14)); (s33, (JInt 32)); (s35, (JString s36)); (s19, (JString s37)); (s38, (JInt 3)); (s39, (JInt 0)); (s44, (JInt 1)); (s21, (JInt 1)); (s22, (JInt 2)); (s27, (JInt 802)); (s31, (JString s45)); (s46, (JInt (-1)))]);
 (JObject [(s43, (JInt 6)); (s28, (JInt 9)); (s29, (JInt 0)); (s30, (JString s14)); (s33, (JInt 32)); (s35, (JString s36)); (s19, (JString s37)); (s38, (JInt 5)); (s39, (JInt 0)); (s44, (JInt 6)); (s21, (JInt 1)); (s22, (JInt 1)); (s27, (JInt 802)); (s31, (JString s45)); (s46, (JInt (-1)))]);
 (JObject [(s43, (JInt 0)); (s28, (JInt 1)); (s29, (JInt 0)); (s30, (JString s14)); (s33, (JInt 32)); (s35, (JString s36)); (s19, (JString s37)); (s38, (JInt 2)); (s39, (JInt 0)); (s44, (JInt 0)); (s21, (JInt 1)); (s22, (JInt 2)); (s27, (JInt 808)); (s31, (JString s45)); (s46, (JInt (-1)))]);
 (JObject [(s43, (JInt 5)); (s30, (JString s11)); (s33, (JInt 0)); (s35, (JString s36)); (s19, (JString s20)); (s38, (JInt 7)); (s39, (JInt 0)); (s44, (JInt 5)); (s21, (JInt 1)); (s22, (JInt 1)); (s27, (JInt 808)); (s31, (JString s49)); (s46, (JInt (-1)))]);
 (JObject [(s43, (JInt 2)); (s30, (JString s11)); (s33, (JInt 0)); (s35, (JString s36)); (s19, (JString s20)); (s38, (JInt 6)); (s39, (JInt 0)); (s44, (JInt 2)); (s21, (JInt 1)); (s22, (JInt 1)); (s27, (JInt 809)); (s31, (JString s49)); (s46, (JInt (-1)))]);
 (JObject [(s43, (JInt 3)); (s28, (JInt 9)); (s29, (JInt 6)); (s30, (JString s14)); (s33, (JInt 32)); (s35, (JString s36)); (s19, (JString s37)); (s38, (JInt 1)); (s39, (JInt 0)); (s44, (JInt 3)); (s21, (JInt 1)); (s22, (JInt 1)); (s27, (JInt 810)); (s31, (JString s45)); (s46, (JInt (-1)))]);
 (JObject [(s43, (JInt 7)); (s30, (JString s11)); (s33, (JInt 0)); (s35, (JString s36)); (s19, (JString s20)); (s38, (JInt 4)); (s39, (JInt 0)); (s44, (JInt 7)); (s21, (JInt 1)); (s22, (JInt 2)); (s27, (JInt 811)); (s31, (JString s49)); (s46, (JInt (-1)))]);
 (JObject [(s43, (JInt 3)); (s30, (JString s11)); (s33, (JInt 0)); (s35, (JString s36)); (s19, (JString s20)); (s38, (JInt 1)); (s39, (JInt 0)); (s44, (JInt 3)); (s21, (JInt 1)); (s22, (JInt 1)); (s27, (JInt 813)); (s31, (JString s49)); (s46, (JInt (-1)))]);
 (JObject [(s43, (JInt 4)); (s30, (JString s11)); (s33, (JInt 0)); (s35, (JString s36)); (s19, (JString s20)); (s38, (JInt 8)); (s39, (JInt 0)); (s44, (JInt 4)); (s21, (JInt 1)); (s22, (JInt 1)); (s27, (JInt 819)); (s31, (JString s49)); (s46, (JInt (-1)))]);
 (JObject [(s43, (JInt 0)); (s30, (JString s11)); (s33, (JInt 0)); (s35, (JString s36)); (s19, (JString s20)); (s38, (JInt 2)); (s39, (JInt 0)); (s44, (JInt 0)); (s21, (JInt 1)); (s22, (JInt 2)); (s27, (JInt 821)); (s31, (JString s49)); (s46, (JInt (-1)))]);
 (JObject [(s43, (JInt 1)); (s30, (JString s11)); (s33, (JInt 0)); (s35, (JString s36)); (s19, (JString s20)); (s38, (JInt 3)); (s39, (JInt 0)); (s44, (JInt 1)); (s21, (JInt 1)); (s22, (JInt 2)); (s27, (JInt 821)); (s31, (JString s49)); (s46, (JInt (-1)))]);
 (JObject [(s43, (JInt 6)); (s30, (JString s11)); (s33, (JInt 0)); (s35, (JString s36)); (s19, (JString s20)); (s38, (JInt 5)); (s39, (JInt 0)); (s44, (JInt 6)); (s21, (JInt 1)); (s22, (JInt 1)); (s27, (JInt 821)); (s31, (JString s49)); (s46, (JInt (-1)))]);
 (JObject [(s43, (JInt 2)); (s28, (JInt 4)); (s29, (JInt 0)); (s30, (JString s14)); (s33, (JInt 32)); (s35, (JString s36)); (s19, (JString s37)); (s38, (JInt 6)); (s39, (JInt 0)); (s44, (JInt 2)); (s21, (JInt 1)); (s22, (JInt 1)); (s27, (JInt 901)); (s31, (JString s45)); (s46, (JInt (-1)))]);
 (JObject [(s43, (JInt 7)); (s28, (JInt 4)); (s29, (JInt 0)); (s30, (JString s14)); (s33, (JInt 32)); (s35, (JString s36)); (s19, (JString s37)); (s38, (JInt 4)); (s39, (JInt 0)); (s44, (JInt 7)); (s21, (JInt 1)); (s22, (JInt 2)); (s27, (JInt 902)); (s31, (JString s45)); (s46, (JInt (-1)))]);
 (JObject [(s43, (JInt 1)); (s28, (JInt 9)); (s29, (JInt 6)); (s30, (JString s14)); (s33, (JInt 32)); (s35, (JString s36)); (s19, (JString s37)); (s38, (JInt 3)); (s39, (JInt 0)); (s44, (JInt 1)); (s21, (JInt 1)); (s22, (JInt 2)); (s27, (JInt 904)); (s31, (JString s45)); (s46, (JInt (-1)))]);
 (JObject [(s43, (JInt 6)); (s28, (JInt 9)); (s29, (JInt 0)); (s30, (JString s14)); (s33, (JInt 32)); (s35, (JString s36)); (s19, (JString s37)); (s38, (JInt 5)); (s39, (JInt 0)); (s44, (JInt 6)); (s21, (JInt 1)); (s22, (JInt 1)); (s27, (JInt 904)); (s31, (JString s45)); (s46, (JInt (-1)))]);
 (JObject [(s43, (JInt 0)); (s28, (JInt 1)); (s29, (JInt 0)); (s30, (JString s14)); (s33, (JInt 32)); (s35, (JString s36)); (s19, (JString s37)); (s38, (JInt 2)); (s39, (JInt 0)); (s44, (JInt 0)); (s21, (JInt 1)); (s22, (JInt 2)); (s27, (JInt 910)); (s31, (JString s45)); (s46, (JInt (-1)))]);
 (JObject [(s43, (JInt 3)); (s28, (JInt 9)); (s29, (JInt 6)); (s30, (JString s14)); (s33, (JInt 32)); (s35, (JString s36)); (s19, (JString s37)); (s38, (JInt 1)); (s39, (JInt 0)); (s44, (JInt 3)); (s21, (JInt 1)); (s22, (JInt 1)); (s27, (JInt 912)); (s31, (JString s45)); (s46, (JInt (-1)))]);
 (JObject [(s43, (JInt 5)); (s28, (JInt 5)); (s29, (JInt 1)); (s30, (JString s11)); (s33, (JInt 1088)); (s35, (JString s36)); (s19, (JString s20)); (s38, (JInt 7)); (s39, (JInt 0)); (s44, (JInt 5)); (s21, (JInt 1)); (s22, (JInt 1)); (s27, (JInt 929)); (s31, (JString s45)); (s46, (JInt (-1)))]);
 (JObject [(s43, (JInt 2)); (s28, (JInt 5)); (s29, (JInt 1)); (s30, (JString s11)); (s33, (JInt 1088)); (s35, (JString s36)); (s19, (JString s20)); (s38, (JInt 6)); (s39, (JInt 0)); (s44, (JInt 2)); (s21, (JInt 1)); (s22, (JInt 1)); (s27, (JInt 931)); (s31, (JString s45)); (s46, (JInt (-1)))]);
 (JObject [(s43, (JInt 7)); (s28, (JInt 5)); (s29, (JInt 1)); (s30, (JString s11)); (s33, (JInt 1088)); (s35, (JString s36)); (s19, (JString s20)); (s38, (JInt 4)); (s39, (JInt 0)); (s44, (JInt 7)); (s21, (JInt 1)); (s22, (JInt 2)); (s27, (JInt 935)); (s31, (JString s45)); (s46, (JInt (-1)))]);
 (JObject [(s43, (JInt 3)); (s28, (JInt 5)); (s29, (JInt 1)); (s30, (JString s11)); (s33, (JInt 1088)); (s35, (JString s36)); (s19, (JString s20)); (s38, (JInt 1)); (s39, (JInt 0)); (s44, (JInt 3)); (s21, (JInt 1)); (s22, (JInt 1)); (s27, (JInt 937)); (s31, (JString s45)); (s46, (JInt (-1)))]);
 (JObject [(s43, (JInt 4)); (s28, (JInt 5)); (s29, (JInt 1)); (s30, (JString s11)); (s33, (JInt 1088)); (s35, (JString s36)); (s19, (JString s20)); (s38, (JInt 8)); (s39, (JInt 0)); (s44, (JInt 4)); (s21, (JInt 1)); (s22, (JInt 1)); (s27, (JInt 944)); (s31, (JString s45)); (s46, (JInt (-1)))]);
 (JObject [(s43, (JInt 0)); (s28, (JInt 5)); (s29, (JInt 1)); (s30, (JString s11)); (s33, (JInt 1088)); (s35, (JString s36)); (s19, (JString s20)); (s38, (JInt 2)); (s39, (JInt 0)); (s44, (JInt 0)); (s21, (JInt 1)); (s22, (JInt 2)); (s27, (JInt 945)); (s31, (JString s45)); (s46, (JInt (-1)))]);
 (JObject [(s43, (JInt 1)); (s28, (JInt 5)); (s29, (JInt 1)); (s30, (JString s11)); (s33, (JInt 1088)); (s35, (JString s36)); (s19, (JString s20)); (s38, (JInt 3)); (s39, (JInt 0)); (s44, (JInt 1)); (s21, (JInt 1)); (s22, (JInt 2)); (s27, (JInt 945)); (s31, (JString s45)); (s46, (JInt (-1)))]);
 (JObject [(s43, (JInt 6)); (s28, (JInt 5)); (s29, (JInt 1)); (s30, (JString s11)); (s33, (JInt 1088)); (s35, (JString s36)); (s19, (JString s20)); (s38, (JInt 5)); (s39, (JInt 0)); (s44, (JInt 6)); (s21, (JInt 1)); (s22, (JInt 1)); (s27, (JInt 945)); (s31, (JString s45)); (s46, (JInt (-1)))]);
 (JObject [(s43, (JInt 5)); (s30, (JString s14)); (s33, (JInt 0)); (s35, (JString s36)); (s19, (JString s37)); (s38, (JInt 7)); (s39, (JInt 0)); (s44, (JInt 5)); (s21, (JInt 1)); (s22, (JInt 1)); (s27, (JInt 955)); (s31, (JString s48)); (s46, (JInt (-1)))]);
 (JObject [(s43, (JInt 4)); (s30, (JString s14)); (s33, (JInt 0)); (s35, (JString s36)); (s19, (JString s37)); (s38, (JInt 8)); (s39, (JInt 0)); (s44, (JInt 4)); (s21, (JInt 1)); (s22, (JInt 1)); (s27, (JInt 978)); (s31, (JString s48)); (s46, (JInt (-1)))]);
 (JObject [(s43, (JInt 2)); (s30, (JString s11)); (s33, (JInt 0)); (s35, (JString s36)); (s19, (JString s20)); (s38, (JInt 6)); (s39, (JInt 0)); (s44, (JInt 2)); (s21, (JInt 1)); (s22, (JInt 1)); (s27, (JInt 1008)); (s31, (JString s48)); (s46, (JInt (-1)))]);
 (JObject [(s43, (JInt 5)); (s30, (JString s11)); (s33, (JInt 0)); (s35, (JString s36)); (s19, (JString s20)); (s38, (JInt 7)); (s39, (JInt 0)); (s44, (JInt 5)); (s21, (JInt 1)); (s22, (JInt 1)); (s27, (JInt 1008)); (s31, (JString s48)); (s46, (JInt (-1)))]);
 (JObject [(s43, (JInt 3)); (s30, (JString s11)); (s33, (JInt 0)); (s35, (JString s36)); (s19, (JString s20)); (s38, (JInt 1)); (s39, (JInt 0)); (s44, (JInt 3)); (s21, (JInt 1)); (s22, (JInt 1)); (s27, (JInt 1012)); (s31, (JString s48)); (s46, (JInt (-1)))]);
 (JObject [(s43, (JInt 7)); (s30, (JString s11)); (s33, (JInt 0)); (s35, (JString s36)); (s19, (JString s20)); (s38, (JInt 4)); (s39, (JInt 0)); (s44, (JInt 7)); (s21, (JInt 1)); (s22, (JInt 2)); (s27, (JInt 1017)); (s31, (JString s48)); (s46, (JInt (-1)))]);
 (JObject [(s43, (JInt 4)); (s30, (JString s11)); (s33, (JInt 0)); (s35, (JString s36)); (s19, (JString s20)); (s38, (JInt 8)); (s39, (JInt 0)); (s44, (JInt 4)); (s21, (JInt 1)); (s22, (JInt 1)); (s27, (JInt 1019)); (s31, (JString s48)); (s46, (JInt (-1)))]);
 (JObject [(s43, (JInt 0)); (s30, (JString s11)); (s33, (JInt 0)); (s35, (JString s36)); (s19, (JString s20)); (s38, (JInt 2)); (s39, (JInt 0)); (s44, (JInt 0)); (s21, (JInt 1)); (s22, (JInt 2)); (s27, (JInt 1024)); (s31, (JString s48)); (s46, (JInt (-1)))]);
 (JObject [(s43, (JInt 1)); (s30, (JString s11)); (s33, (JInt 0)); (s35, (JString s36)); (s19, (JString s20)); (s38, (JInt 3)); (s39, (JInt 0)); (s44, (JInt 1)); (s21, (JInt 1)); (s22, (JInt 2)); (s27, (JInt 1026)); (s31, (JString s48)); (s46, (JInt (-1)))]);
 (JObject [(s43, (JInt 6)); (s30, (JString s11)); (s33, (JInt 0)); (s35, (JString s36)); (s19, (JString s20)); (s38, (JInt 5)); (s39, (JInt 0)); (s44, (JInt 6)); (s21, (JInt 1)); (s22, (JInt 1)); (s27, (JInt 1026)); (s31, (JString s48)); (s46, (JInt (-1)))]);
 (JObject [(s43, (JInt 5)); (s30, (JString s14)); (s33, (JInt 0)); (s35, (JString s36)); (s19, (JString s37)); (s38, (JInt 7)); (s39, (JInt 0)); (s44, (JInt 5)); (s21, (JInt 1)); (s22, (JInt 1)); (s27, (JInt 1028)); (s31, (JString s49)); (s46, (JInt (-1)))]);
 (JObject [(s43, (JInt 4)); (s30, (JString s14)); (s33, (JInt 0)); (s35, (JString s36)); (s19, (JString s37)); (s38, (JInt 8)); (s39, (JInt 0)); (s44, (JInt 4)); (s21, (JInt 1)); (s22, (JInt 1)); (s27, (JInt 1050)); (s31, (JString s49)); (s46, (JInt (-1)))]);
 (JObject [(s43, (JInt 2)); (s28, (JInt 9)); (s29, (JInt 6)); (s30, (JString s14)); (s33, (JInt 32)); (s35, (JString s36)); (s19, (JString s37)); (s38, (JInt 6)); (s39, (JInt 0)); (s44, (JInt 2)); (s21, (JInt 1)); (s22, (JInt 1)); (s27, (JInt 1186)); (s31, (JString s45)); (s46, (JInt (-1)))]);
 (JObject [(s43, (JInt 7)); (s28, (JInt 9)); (s29, (JInt 0)); (s30, (JString s14)); (s33, (JInt 32)); (s35, (JString s36)); (s19, (JString s37)); (s38, (JInt 4)); (s39, (JInt 0)); (s44, (JInt 7)); (s21, (JInt 1)); (s22, (JInt 2)); (s27, (JInt 1188)); (s31, (JString s45)); (s46, (JInt (-1)))]);
 (JObject [(s43, (JInt 6)); (s28, (JInt 4)); (s29, (JInt 0)); (s30, (JString s14)); (s33, (JInt 32)); (s35, (JString s36)); (s19, (JString s37)); (s38, (JInt 5)); (s39, (JInt 0)); (s44, (JInt 6)); (s21, (JInt 1)); (s22, (JInt 1)); (s27, (JInt 1194)); (s31, (JString s45)); (s46, (JInt (-1)))]);
 (JObject [(s43, (JInt 1)); (s28, (JInt 4)); (s29, (JInt 0)); (s30, (JString s14)); (s33, (JInt 32)); (s35, (JString s36)); (s19, (JString s37)); (s38, (JInt 3)); (s39, (JInt 0)); (s44, (JInt 1)); (s21, (JInt 1)); (s22, (JInt 2)); (s27, (JInt 1196)); (s31, (JString s45)); (s46, (JInt (-1)))]);
 (JObject [(s43, (JInt 3)); (s28, (JInt 1)); (s29, (JInt 0)); (s30, (JString s14)); (s33, (JInt 32)); (s35, (JString s36)); (s19, (JString s37)); (s38, (JInt 1)); (s39, (JInt 0)); (s44, (JInt 3)); (s21, (JInt 1)); (s22, (JInt 1)); (s27, (JInt 1200)); (s31, (JString s45)); (s46, (JInt (-1)))]);
 (JObject [(s43, (JInt 0)); (s28, (JInt 9)); (s29, (JInt 6)); (s30, (JString s14)); (s33, (JInt 32)); (s35, (JString s36)); (s19, (JString s37)); (s38, (JInt 2)); (s39, (JInt 0)); (s44, (JInt 0)); (s21, (JInt 1)); (s22, (JInt 2)); (s27, (JInt 1201)); (s31, (JString s45)); (s46, (JInt (-1)))]);
 (JObject [(s43, (JInt 5)); (s30, (JString s11)); (s33, (JInt 0)); (s35, (JString s36)); (s19, (JString s20)); (s38, (JInt 7)); (s39, (JInt 0)); (s44, (JInt 5)); (s21, (JInt 1)); (s22, (JInt 1)); (s27, (JInt 1259)); (s31, (JString s49)); (s46, (JInt (-1)))]);
 (JObject [(s43, (JInt 2)); (s30, (JString s11)); (s33, (JInt 0)); (s35, (JString s36)); (s19, (JString s20)); (s38, (JInt 6)); (s39, (JInt 0)); (s44, (JInt 2)); (s21, (JInt 1)); (s22, (JInt 1)); (s27, (JInt 1266)); (s31, (JString s49)); (s46, (JInt (-1)))]);
 (JObject [(s43, (JInt 3)); (s30, (JString s11)); (s33, (JInt 0)); (s35, (JString s36)); (s19, (JString s20)); (s38, (JInt 1)); (s39, (JInt 0)); (s44, (JInt 3)); (s21, (JInt 1)); (s22, (JInt 1)); (s27, (JInt 1273)); (s31, (JString s49)); (s46, (JInt (-1)))]);
 (JObject [(s43, (JInt 4)); (s30, (JString s11)); (s33, (JInt 0)); (s35, (JString s36)); (s19, (JString s20)); (s38, (JInt 8)); (s39, (JInt 0)); (s44, (JInt 4)); (s21, (JInt 1)); (s22, (JInt 1)); (s27, (JInt 1273)); (s31, (JString s49)); (s46, (JInt (-1)))]);
 (JObject [(s43, (JInt 2)); (s28, (JInt 9)); (s29, (JInt 6)); (s30, (JString s14)); (s33, (JInt 32)); (s35, (JString s36)); (s19, (JString s37)); (s38, (JInt 6)); (s39, (JInt 0)); (s44, (JInt 2)); (s21, (JInt 1)); (s22, (JInt 1)); (s27, (JInt 1280)); (s31, (JString s45)); (s46, (JInt (-1)))]);
 (JObject [(s43, (JInt 7)); (s28, (JInt 9)); (s29, (JInt 0)); (s30, (JString s14)); (s33, (JInt 32)); (s35, (JString s36)); (s19, (JString s37)); (s38, (JInt 4)); (s39, (JInt 0)); (s44, (JInt 7)); (s21, (JInt 1)); (s22, (JInt 2)); (s27, (JInt 1280)); (s31, (JString s45)); (s46, (JInt (-1)))]);
 (JObject [(s43, (JInt 6)); (s30, (JString s11)); (s33, (JInt 0)); (s35, (JString s36)); (s19, (JString s20)); (s38, (JInt 5)); (s39, (JInt 0)); (s44, (JInt 6)); (s21, (JInt 1)); (s22, (JInt 1)); (s27, (JInt 1284)); (s31, (JString s49)); (s46, (JInt (-1)))]);
 (JObject [(s43, (JInt 6)); (s28, (JInt 4)); (s29, (JInt 0)); (s30, (JString s14)); (s33, (JInt 32)); (s35, (JString s36)); (s19, (JString s37)); (s38, (JInt 5)); (s39, (JInt 0)); (s44, (JInt 6)); (s21, (JInt 1)); (s22, (JInt 1)); (s27, (JInt 1288)); (s31, (JString s45)); (s46, (JInt (-1)))]);
 (JObject [(s43, (JInt 1)); (s28, (JInt 4)); (s29, (JInt 0)); (s30, (JString s14)); (s33, (JInt 32)); (s35, (JString s36)); (s19, (JString s37)); (s38, (JInt 3)); (s39, (JInt 0)); (s44, (JInt 1)); (s21, (JInt 1)); (s22, (JInt 2)); (s27, (JInt 1290)); (s31, (JString s45)); (s46, (JInt (-1)))]);
 (JObject [(s43, (JInt 3)); (s28, (JInt 1)); (s29, (JInt 0)); (s30, (JString s14)); (s33, (JInt 32)); (s35, (JString s36)); (s19, (JString s37)); (s38, (JInt 1)); (s39, (JInt 0)); (s44, (JInt 3)); (s21, (JInt 1)); (s22, (JInt 1)); (s27, (JInt 1292)); (s31, (JString s45)); (s46, (JInt (-1)))]);
 (JObject [(s43, (JInt 0)); (s28, (JInt 9)); (s29, (JInt 6)); (s30, (JString s14)); (s33, (JInt 32)); (s35, (JString s36)); (s19, (JString s37)); (s38, (JInt 2)); (s39, (JInt 0)); (s44, (JInt 0)); (s21, (JInt 1)); (s22, (JInt 2)); (s27, (JInt 1295)); (s31, (JString s45)); (s46, (JInt (-1)))]);
 (JObject [(s35, (JString s36)); (s19, (JString s20)); (s38, (JInt 6)); (s39, (JInt 0)); (s21, (JInt 1)); (s22, (JInt 1)); (s27, (JInt 1318)); (s23, (JString s42)); (s25, (JString s50))]);
 (JObject [(s35, (JString s36)); (s19, (JString s20)); (s38, (JInt 1)); (s39, (JInt 0)); (s21, (JInt 1)); (s22, (JInt 1)); (s27, (JInt 1321)); (s23, (JString s42)); (s25, (JString s50))]);
 (JObject [(s35, (JString s36)); (s19, (JString s20)); (s38, (JInt 8)); (s39, (JInt 0)); (s21, (JInt 1)); (s22, (JInt 1)); (s27, (JInt 1321)); (s23, (JString s42)); (s25, (JString s50))]);
 (JObject [(s35, (JString s36)); (s19, (JString s20)); (s38, (JInt 7)); (s39, (JInt 0)); (s21, (JInt 1)); (s22, (JInt 1)); (s27, (JInt 1322)); (s23, (JString s42)); (s25, (JString s50))]);
 (JObject [(s35, (JString s36)); (s19, (JString s20)); (s38, (JInt 5)); (s39, (JInt 0)); (s21, (JInt 1)); (s22, (JInt 1)); (s27, (JInt 1332)); (s23, (JString s42)); (s25, (JString s50))]);
 (JObject [(s43, (JInt 5)); (s28, (JInt 4)); (s29, (JInt 4)); (s30, (JString s14)); (s33, (JInt 1088)); (s35, (JString s36)); (s19, (JString s37)); (s38, (JInt 7)); (s39, (JInt 0)); (s44, (JInt 5)); (s21, (JInt 1)); (s22, (JInt 1)); (s27, (JInt 1380)); (s31, (JString s51)); (s46, (JInt 1))]);
 (JObject [(s43, (JInt 7)); (s30, (JString s11)); (s33, (JInt 0)); (s35, (JString s36)); (s19, (JString s20)); (s38, (JInt 4)); (s39, (JInt 0)); (s44, (JInt 7)); (s21, (JInt 1)); (s22, (JInt 2)); (s27, (JInt 1382)); (s31, (JString s49)); (s46, (JInt (-1)))]);
 (JObject [(s43, (JInt 0)); (s30, (JString s11)); (s33, (JInt 0)); (s35, (JString s36)); (s19, (JString s20)); (s38, (JInt 2)); (s39, (JInt 0)); (s44, (JInt 0)); (s21, (JInt 1)); (s22, (JInt 2)); (s27, (JInt 1386)); (s31, (JString s49)); (s46, (JInt (-1)))]);
 (JObject [(s43, (JInt 1)); (s30, (JString s11)); (s33, (JInt 0)); (s35, (JString s36)); (s19, (JString s20)); (s38, (JInt 3)); (s39, (JInt 0)); (s44, (JInt 1)); (s21, (JInt 1)); (s22, (JInt 2)); (s27, (JInt 1388)); (s31, (JString s49)); (s46, (JInt (-1)))]);
 (JObject [(s43, (JInt 4)); (s28, (JInt 9)); (s29, (JInt 0)); (s30, (JString s14)); (s33, (JInt 1088)); (s35, (JString s36)); (s19, (JString s37)); (s38, (JInt 8)); (s39, (JInt 0)); (s44, (JInt 4)); (s21, (JInt 1)); (s22, (JInt 1)); (s27, (JInt 1403)); (s31, (JString s51)); (s46, (JInt 1))]);
 (JObject [(s35, (JString s36)); (s19, (JString s20)); (s38, (JInt 4)); (s39, (JInt 0)); (s21, (JInt 1)); (s22, (JInt 2)); (s27, (JInt 1431)); (s23, (JString s42)); (s25, (JString s50))]);
 (JObject [(s35, (JString s36)); (s19, (JString s20)); (s38, (JInt 2)); (s39, (JInt 0)); (s21, (JInt 1)); (s22, (JInt 2)); (s27, (JInt 1435)); (s23, (JString s42)); (s25, (JString s50))]);
 (JObject [(s35, (JString s36)); (s19, (JString s20)); (s38, (JInt 3)); (s39, (JInt 0)); (s21, (JInt 1)); (s22, (JInt 2)); (s27, (JInt 1436)); (s23, (JString s42)); (s25, (JString s50))]);
 (JObject [(s43, (JInt 2)); (s30, (JString s14)); (s33, (JInt 0)); (s35, (JString s36)); (s19, (JString s37)); (s38, (JInt 6)); (s39, (JInt 0)); (s44, (JInt 2)); (s21, (JInt 1)); (s22, (JInt 1)); (s27, (JInt 1506)); (s31, (JString s48)); (s46, (JInt (-1)))]);
 (JObject [(s43, (JInt 7)); (s30, (JString s14)); (s33, (JInt 0)); (s35, (JString s36)); (s19, (JString s37)); (s38, (JInt 4)); (s39, (JInt 0)); (s44, (JInt 7)); (s21, (JInt 1)); (s22, (JInt 2)); (s27, (JInt 1513)); (s31, (JString s48)); (s46, (JInt (-1)))]);
 (JObject [(s43, (JInt 6)); (s30, (JString s14)); (s33, (JInt 0)); (s35, (JString s36)); (s19, (JString s37)); (s38, (JInt 5)); (s39, (JInt 0)); (s44, (JInt 6)); (s21, (JInt 1)); (s22, (JInt 1)); (s27, (JInt 1516)); (s31, (JString s48)); (s46, (JInt (-1)))]);
 (JObject [(s43, (JInt 3)); (s30, (JString s14)); (s33, (JInt 0)); (s35, (JString s36)); (s19, (JString s37)); (s38, (JInt 1)); (s39, (JInt 0)); (s44, (JInt 3)); (s21, (JInt 1)); (s22, (JInt 1)); (s27, (JInt 1517)); (s31, (JString s48)); (s46, (JInt (-1)))]);
 (JObject [(s43, (JInt 1)); (s30, (JString s14)); (s33, (JInt 0)); (s35, (JString s36)); (s19, (JString s37)); (s38, (JInt 3)); (s39, (JInt 0)); (s44, (JInt 1)); (s21, (JInt 1)); (s22, (JInt 2)); (s27, (JInt 1520)); (s31, (JString s48)); (s46, (JInt (-1)))]);
 (JObject [(s43, (JInt 0)); (s30, (JString s14)); (s33, (JInt 0)); (s35, (JString s36)); (s19, (JString s37)); (s38, (JInt 2)); (s39, (JInt 0)); (s44, (JInt 0)); (s21, (JInt 1)); (s22, (JInt 2)); (s27, (JInt 1526)); (s31, (JString s48)); (s46, (JInt (-1)))]);
 (JObject [(s43, (JInt 3)); (s30, (JString s14)); (s33, (JInt 0)); (s35, (JString s36)); (s19, (JString s37)); (s38, (JInt 1)); (s39, (JInt 0)); (s44, (JInt 3)); (s21, (JInt 1)); (s22, (JInt 1)); (s27, (JInt 1576)); (s31, (JString s49)); (s46, (JInt (-1)))]);
 (JObject [(s43, (JInt 2)); (s30, (JString s14)); (s33, (JInt 0)); (s35, (JString s36)); (s19, (JString s37)); (s38, (JInt 6)); (s39, (JInt 0)); (s44, (JInt 2)); (s21, (JInt 1)); (s22, (JInt 1)); (s27, (JInt 1594)); (s31, (JString s49)); (s46, (JInt (-1)))]);
 (JObject [(s43, (JInt 7)); (s30, (JString s14)); (s33, (JInt 0)); (s35, (JString s36)); (s19, (JString s37)); (s38, (JInt 4)); (s39, (JInt 0)); (s44, (JInt 7)); (s21, (JInt 1)); (s22, (JInt 2)); (s27, (JInt 1601)); (s31, (JString s49)); (s46, (JInt (-1)))]);
 (JObject [(s43, (JInt 6)); (s30, (JString s14)); (s33, (JInt 0)); (s35, (JString s36)); (s19, (JString s37)); (s38, (JInt 5)); (s39, (JInt 0)); (s44, (JInt 6)); (s21, (JInt 1)); (s22, (JInt 1)); (s27, (JInt 1604)); (s31, (JString s49)); (s46, (JInt (-1)))]);
 (JObject [(s43, (JInt 1)); (s30, (JString s14)); (s33, (JInt 0)); (s35, (JString s36)); (s19, (JString s37)); (s38, (JInt 3)); (s39, (JInt 0)); (s44, (JInt 1)); (s21, (JInt 1)); (s22, (JInt 2)); (s27, (JInt 1608)); (s31, (JString s49)); (s46, (JInt (-1)))]);
 (JObject [(s43, (JInt 4)); (s28, (JInt 4)); (s29, (JInt 4)); (s52, (JObject [(s53, (JInt 0)); (s54, (JInt 7)); (s55, (JArray [(JObject [(s56, (JInt 5)); (s30, (JString s14)); (s57, (JInt 1)); (s58, (JInt 1)); (s59, (JInt 9)); (s60, (JInt 0))]);
 (JObject [(s56, (JInt 1)); (s30, (JString s11)); (s57, (JInt 9)); (s58, (JInt 6)); (s59, (JInt 4)); (s60, (JInt 0))]);
 (JObject [(s56, (JInt 2)); (s30, (JString s11)); (s57, (JInt 4)); (s58, (JInt 0)); (s59, (JInt 9)); (s60, (JInt 6))]);
 (JObject [(s56, (JInt 6)); (s30, (JString s11)); (s57, (JInt 9)); (s58, (JInt 0)); (s59, (JInt 4)); (s60, (JInt 0))]);
 (JObject [(s56, (JInt 7)); (s30, (JString s11)); (s57, (JInt 4)); (s58, (JInt 0)); (s59, (JInt 9)); (s60, (JInt 0))]);
 (JObject [(s56, (JInt 3)); (s30, (JString s11)); (s57, (JInt 9)); (s58, (JInt 6)); (s59, (JInt 1)); (s60, (JInt 0))]);
 (JObject [(s56, (JInt 0)); (s30, (JString s11)); (s57, (JInt 1)); (s58, (JInt 0)); (s59, (JInt 9)); (s60, (JInt 6))]);
 (JObject [(s56, (JInt 4)); (s30, (JString s11)); (s57, (JInt 9)); (s58, (JInt 0)); (s59, (JInt 4)); (s60, (JInt 4))])]))])); (s30, (JString s14)); (s33, (JInt 1088)); (s35, (JString s36)); (s19, (JString s37)); (s38, (JInt 7)); (s39, (JInt 0)); (s44, (JInt 5)); (s21, (JInt 1)); (s22, (JInt 1)); (s27, (JInt 1608)); (s31, (JString s61)); (s46, (JInt 1))]);
 (JObject [(s43, (JInt 0)); (s30, (JString s14)); (s33, (JInt 0)); (s35, (JString s36)); (s19, (JString s37)); (s38, (JInt 2)); (s39, (JInt 0)); (s44, (JInt 0)); (s21, (JInt 1)); (s22, (JInt 2)); (s27, (JInt 1612)); (s31, (JString s49)); (s46, (JInt (-1)))]);
 (JObject [(s43, (JInt 5)); (s28, (JInt 9)); (s29, (JInt 0)); (s52, (JObject [(s53, (JInt 0)); (s54, (JInt 7)); (s55, (JArray [(JObject [(s56, (JInt 4)); (s30, (JString s14)); (s57, (JInt 1)); (s58, (JInt 1)); (s59, (JInt 9)); (s60, (JInt 0))]);
 (JObject [(s56, (JInt 0)); (s30, (JString s11)); (s57, (JInt 9)); (s58, (JInt 6)); (s59, (JInt 1)); (s60, (JInt 0))]);
 (JObject [(s56, (JInt 3)); (s30, (JString s11)); (s57, (JInt 1)); (s58, (JInt 0)); (s59, (JInt 9)); (s60, (JInt 6))]);
 (JObject [(s56, (JInt 7)); (s30, (JString s11)); (s57, (JInt 9)); (s58, (JInt 0)); (s59, (JInt 4)); (s60, (JInt 0))]);
 (JObject [(s56, (JInt 6)); (s30, (JString s11)); (s57, (JInt 4)); (s58, (JInt 0)); (s59, (JInt 9)); (s60, (JInt 0))]);
 (JObject [(s56, (JInt 2)); (s30, (JString s11)); (s57, (JInt 9)); (s58, (JInt 6)); (s59, (JInt 4)); (s60, (JInt 0))]);
 (JObject [(s56, (JInt 1)); (s30, (JString s11)); (s57, (JInt 4)); (s58, (JInt 0)); (s59, (JInt 9)); (s60, (JInt 6))]);
 (JObject [(s56, (JInt 5)); (s30, (JString s11)); (s57, (JInt 9)); (s58, (JInt 0)); (s59, (JInt 9)); (s60, (JInt 0))])]))])); (s30, (JString s14)); (s33, (JInt 1088)); (s35, (JString s36)); (s19, (JString s37)); (s38, (JInt 8)); (s39, (JInt 0)); (s44, (JInt 4)); (s21, (JInt 1)); (s22, (JInt 1)); (s27, (JInt 1616)); (s31, (JString s61)); (s46, (JInt 1))]);
 (JObject [(s43, (JInt 3)); (s30, (JString s14)); (s33, (JInt 0)); (s35, (JString s36)); (s19, (JString s37)); (s38, (JInt 1)); (s39, (JInt 0)); (s44, (JInt 3)); (s21, (JInt 1)); (s22, (JInt 1)); (s27, (JInt 1690)); (s31, (JString s48)); (s46, (JInt (-1)))]);
 (JObject [(s43, (JInt 2)); (s30, (JString s14)); (s33, (JInt 0)); (s35, (JString s36)); (s19, (JString s37)); (s38, (JInt 6)); (s39, (JInt 0)); (s44, (JInt 2)); (s21, (JInt 1)); (s22, (JInt 1)); (s27, (JInt 1709)); (s31, (JString s48)); (s46, (JInt (-1)))]);
 (JObject [(s43, (JInt 7)); (s30, (JString s14)); (s33, (JInt 0)); (s35, (JString s36)); (s19, (JString s37)); (s38, (JInt 4)); (s39, (JInt 0)); (s44, (JInt 7)); (s21, (JInt 1)); (s22, (JInt 2)); (s27, (JInt 1715)); (s31, (JString s48)); (s46, (JInt (-1)))]);
 (JObject [(s43, (JInt 6)); (s30, (JString s14)); (s33, (JInt 0)); (s35, (JString s36)); (s19, (JString s37)); (s38, (JInt 5)); (s39, (JInt 0)); (s44, (JInt 6)); (s21, (JInt 1)); (s22, (JInt 1)); (s27, (JInt 1717)); (s31, (JString s48)); (s46, (JInt (-1)))]);
 (JObject [(s43, (JInt 1)); (s30, (JString s14)); (s33, (JInt 0)); (s35, (JString s36)); (s19, (JString s37)); (s38, (JInt 3)); (s39, (JInt 0)); (s44, (JInt 1)); (s21, (JInt 1)); (s22, (JInt 2)); (s27, (JInt 1722)); (s31, (JString s48)); (s46, (JInt (-1)))]);
 (JObject [(s43, (JInt 0)); (s30, (JString s14)); (s33, (JInt 0)); (s35, (JString s36)); (s19, (JString s37)); (s38, (JInt 2)); (s39, (JInt 0)); (s44, (JInt 0)); (s21, (JInt 1)); (s22, (JInt 2)); (s27, (JInt 1727)); (s31, (JString s48)); (s46, (JInt (-1)))]);
 (JObject [(s43, (JInt 3)); (s30, (JString s14)); (s33, (JInt 0)); (s35, (JString s36)); (s19, (JString s37)); (s38, (JInt 1)); (s39, (JInt 0)); (s44, (JInt 3)); (s21, (JInt 1)); (s22, (JInt 1)); (s27, (JInt 1740)); (s31, (JString s49)); (s46, (JInt (-1)))]);
 (JObject [(s43, (JInt 2)); (s30, (JString s14)); (s33, (JInt 0)); (s35, (JString s36)); (s19, (JString s37)); (s38, (JInt 6)); (s39, (JInt 0)); (s44, (JInt 2)); (s21, (JInt 1)); (s22, (JInt 1)); (s27, (JInt 1759)); (s31, (JString s49)); (s46, (JInt (-1)))]);
 (JObject [(s43, (JInt 6)); (s30, (JString s14)); (s33, (JInt 0)); (s35, (JString s36)); (s19, (JString s37)); (s38, (JInt 5)); (s39, (JInt 0)); (s44, (JInt 6)); (s21, (JInt 1)); (s22, (JInt 1)); (s27, (JInt 1767)); (s31, (JString s49)); (s46, (JInt (-1)))]);
 (JObject [(s43, (JInt 7)); (s30, (JString s14)); (s33, (JInt 0)); (s35, (JString s36)); (s19, (JString s37)); (s38, (JInt 4)); (s39, (JInt 0)); (s44, (JInt 7)); (s21, (JInt 1)); (s22, (JInt 2)); (s27, (JInt 1769)); (s31, (JString s49)); (s46, (JInt (-1)))]);
 (JObject [(s43, (JInt 1)); (s30, (JString s14)); (s33, (JInt 0)); (s35, (JString s36)); (s19, (JString s37)); (s38, (JInt 3)); (s39, (JInt 0)); (s44, (JInt 1)); (s21, (JInt 1)); (s22, (JInt 2)); (s27, (JInt 1770)); (s31, (JString s49)); (s46, (JInt (-1)))]);
 (JObject [(s43, (JInt 0)); (s30, (JString s14)); (s33, (JInt 0)); (s35, (JString s36)); (s19, (JString s37)); (s38, (JInt 2)); (s39, (JInt 0)); (s44, (JInt 0)); (s21, (JInt 1)); (s22, (JInt 2)); (s27, (JInt 1777)); (s31, (JString s49)); (s46, (JInt (-1)))]);
 (JObject [(s43, (JInt 4)); (s28, (JInt 9)); (s29, (JInt 0)); (s30, (JString s14)); (s33, (JInt 32)); (s35, (JString s36)); (s19, (JString s37)); (s38, (JInt 8)); (s39, (JInt 0)); (s44, (JInt 4)); (s21, (JInt 1)); (s22, (JInt 1)); (s27, (JInt 1815)); (s31, (JString s51)); (s46, (JInt 1))]);
 (JObject [(s43, (JInt 5)); (s28, (JInt 9)); (s29, (JInt 0)); (s30, (JString s14)); (s33, (JInt 32)); (s35, (JString s36)); (s19, (JString s37)); (s38, (JInt 7)); (s39, (JInt 0)); (s44, (JInt 5)); (s21, (JInt 1)); (s22, (JInt 1)); (s27, (JInt 1823)); (s31, (JString s51)); (s46, (JInt 1))]);
 (JObject [(s43, (JInt 5)); (s30, (JString s14)); (s33, (JInt 0)); (s35, (JString s36)); (s19, (JString s37)); (s38, (JInt 7)); (s39, (JInt 0)); (s44, (JInt 5)); (s21, (JInt 1)); (s22, (JInt 1)); (s27, (JInt 1965)); (s31, (JString s62)); (s46, (JInt (-1)))]);
 (JObject [(s43, (JInt 4)); (s30, (JString s14)); (s33, (JInt 0)); (s35, (JString s36)); (s19, (JString s37)); (s38, (JInt 8)); (s39, (JInt 0)); (s44, (JInt 4)); (s21, (JInt 1)); (s22, (JInt 1)); (s27, (JInt 1970)); (s31, (JString s62)); (s46, (JInt (-1)))]);
 (JObject [(s43, (JInt 3)); (s28, (JInt 4)); (s29, (JInt 6)); (s30, (JString s14)); (s33, (JInt 1088)); (s35, (JString s36)); (s19, (JString s37)); (s38, (JInt 1)); (s39, (JInt 0)); (s44, (JInt 3)); (s21, (JInt 1)); (s22, (JInt 1)); (s27, (JInt 2065)); (s31, (JString s51)); (s46, (JInt 1))]);
 (JObject [(s43, (JInt 2)); (s28, (JInt 9)); (s29, (JInt 10)); (s30, (JString s14)); (s33, (JInt 1088)); (s35, (JString s36)); (s19, (JString s37)); (s38, (JInt 6)); (s39, (JInt 0)); (s44, (JInt 2)); (s21, (JInt 1)); (s22, (JInt 1)); (s27, (JInt 2083)); (s31, (JString s51)); (s46, (JInt 1))]);
 (JObject [(s43, (JInt 6)); (s28, (JInt 4)); (s29, (JInt 3)); (s30, (JString s14)); (s33, (JInt 1088)); (s35, (JString s36)); (s19, (JString s37)); (s38, (JInt 5)); (s39, (JInt 0)); (s44, (JInt 6)); (s21, (JInt 1)); (s22, (JInt 1)); (s27, (JInt 2091)); (s31, (JString s51)); (s46, (JInt 1))]);
 (JObject [(s43, (JInt 7)); (s28, (JInt 9)); (s29, (JInt 4)); (s30, (JString s14)); (s33, (JInt 1088)); (s35, (JString s36)); (s19, (JString s37)); (s38, (JInt 4)); (s39, (JInt 0)); (s44, (JInt 7)); (s21, (JInt 1)); (s22, (JInt 2)); (s27, (JInt 2092)); (s31, (JString s51)); (s46, (JInt 1))]);
 (JObject [(s43, (JInt 0)); (s28, (JInt 4)); (s29, (JInt 0)); (s30, (JString s14)); (s33, (JInt 1088)); (s35, (JString s36)); (s19, (JString s37)); (s38, (JInt 2)); (s39, (JInt 0)); (s44, (JInt 0)); (s21, (JInt 1)); (s22, (JInt 2)); (s27, (JInt 2096)); (s31, (JString s51)); (s46, (JInt 1))]);
 (JObject [(s43, (JInt 1)); (s28, (JInt 4)); (s29, (JInt 9)); (s30, (JString s14)); (s33, (JInt 1088)); (s35, (JString s36)); (s19, (JString s37)); (s38, (JInt 3)); (s39, (JInt 0)); (s44, (JInt 1)); (s21, (JInt 1)); (s22, (JInt 2)); (s27, (JInt 2096)); (s31, (JString s51)); (s46, (JInt 1))]);
 (JObject [(s43, (JInt 4)); (s28, (JInt 9)); (s29, (JInt 10)); (s30, (JString s14)); (s33, (JInt 1088)); (s35, (JString s36)); (s19, (JString s37)); (s38, (JInt 8)); (s39, (JInt 0)); (s44, (JInt 4)); (s21, (JInt 1)); (s22, (JInt 1)); (s27, (JInt 2171)); (s31, (JString s51)); (s46, (JInt 1))]);
 (JObject [(s43, (JInt 5)); (s28, (JInt 9)); (s29, (JInt 0)); (s30, (JString s14)); (s33, (JInt 1088)); (s35, (JString s36)); (s19, (JString s37)); (s38, (JInt 7)); (s39, (JInt 0)); (s44, (JInt 5)); (s21, (JInt 1)); (s22, (JInt 1)); (s27, (JInt 2176)); (s31, (JString s51)); (s46, (JInt 1))]);
 (JObject [(s43, (JInt 5)); (s28, (JInt 4)); (s29, (JInt 6)); (s52, (JObject [(s53, (JInt 8)); (s54, (JInt 5)); (s55, (JArray [(JObject [(s56, (JInt 3)); (s30, (JString s14)); (s57, (JInt 1)); (s58, (JInt 1)); (s59, (JInt 9)); (s60, (JInt 6))]);
 (JObject [(s56, (JInt 7)); (s30, (JString s11)); (s57, (JInt 9)); (s58, (JInt 0)); (s59, (JInt 4)); (s60, (JInt 0))]);
 (JObject [(s56, (JInt 6)); (s30, (JString s11)); (s57, (JInt 4)); (s58, (JInt 0)); (s59, (JInt 9)); (s60, (JInt 0))]);
 (JObject [(s56, (JInt 2)); (s30, (JString s11)); (s57, (JInt 9)); (s58, (JInt 6)); (s59, (JInt 4)); (s60, (JInt 0))]);
 (JObject [(s56, (JInt 1)); (s30, (JString s11)); (s57, (JInt 4)); (s58, (JInt 0)); (s59, (JInt 9)); (s60, (JInt 6))]);
 (JObject [(s56, (JInt 5)); (s30, (JString s11)); (s57, (JInt 9)); (s58, (JInt 0)); (s59, (JInt 4)); (s60, (JInt 6))])]))])); (s30, (JString s14)); (s33, (JInt 1088)); (s35, (JString s36)); (s19, (JString s37)); (s38, (JInt 1)); (s39, (JInt 0)); (s44, (JInt 3)); (s21, (JInt 1)); (s22, (JInt 1)); (s27, (JInt 2275)); (s31, (JString s61)); (s46, (JInt 1))]);
 (JObject [(s43, (JInt 5)); (s28, (JInt 9)); (s29, (JInt 10)); (s52, (JObject [(s53, (JInt 7)); (s54, (JInt 2)); (s55, (JArray [(JObject [(s56, (JInt 2)); (s30, (JString s14)); (s57, (JInt 1)); (s58, (JInt 1)); (s59, (JInt 4)); (s60, (JInt 0))]);
 (JObject [(s56, (JInt 1)); (s30, (JString s11)); (s57, (JInt 4)); (s58, (JInt 0)); (s59, (JInt 9)); (s60, (JInt 6))]);
 (JObject [(s56, (JInt 5)); (s30, (JString s11)); (s57, (JInt 9)); (s58, (JInt 0)); (s59, (JInt 9)); (s60, (JInt 10))])]))])); (s30, (JString s14)); (s33, (JInt 1088)); (s35, (JString s36)); (s19, (JString s37)); (s38, (JInt 6)); (s39, (JInt 0)); (s44, (JInt 2)); (s21, (JInt 1)); (s22, (JInt 1)); (s27, (JInt 2282)); (s31, (JString s61)); (s46, (JInt 1))]);
 (JObject [(s43, (JInt 5)); (s28, (JInt 4)); (s29, (JInt 9)); (s52, (JObject [(s53, (JInt 8)); (s54, (JInt 1)); (s55, (JArray [(JObject [(s56, (JInt 1)); (s30, (JString s14)); (s57, (JInt 1)); (s58, (JInt 2)); (s59, (JInt 9)); (s60, (JInt 6))]);
 (JObject [(s56, (JInt 5)); (s30, (JString s11)); (s57, (JInt 9)); (s58, (JInt 0)); (s59, (JInt 4)); (s60, (JInt 9))])]))])); (s30, (JString s14)); (s33, (JInt 1088)); (s35, (JString s36)); (s19, (JString s37)); (s38, (JInt 3)); (s39, (JInt 0)); (s44, (JInt 1)); (s21, (JInt 1)); (s22, (JInt 2)); (s27, (JInt 2291)); (s31, (JString s61)); (s46, (JInt 1))]);
 (JObject [(s43, (JInt 5)); (s28, (JInt 4)); (s29, (JInt 3)); (s52, (JObject [(s53, (JInt 0)); (s54, (JInt 3)); (s55, (JArray [(JObject [(s56, (JInt 6)); (s30, (JString s14)); (s57, (JInt 1)); (s58, (JInt 1)); (s59, (JInt 9)); (s60, (JInt 0))]);
 (JObject [(s56, (JInt 2)); (s30, (JString s11)); (s57, (JInt 9)); (s58, (JInt 6)); (s59, (JInt 4)); (s60, (JInt 0))]);
 (JObject [(s56, (JInt 1)); (s30, (JString s11)); (s57, (JInt 4)); (s58, (JInt 0)); (s59, (JInt 9)); (s60, (JInt 6))]);
 (JObject [(s56, (JInt 5)); (s30, (JString s11)); (s57, (JInt 9)); (s58, (JInt 0)); (s59, (JInt 4)); (s60, (JInt 3))])]))])); (s30, (JString s14)); (s33, (JInt 1088)); (s35, (JString s36)); (s19, (JString s37)); (s38, (JInt 5)); (s39, (JInt 0)); (s44, (JInt 6)); (s21, (JInt 1)); (s22, (JInt 1)); (s27, (JInt 2292)); (s31, (JString s61)); (s46, (JInt 1))]);
 (JObject [(s43, (JInt 5)); (s28, (JInt 9)); (s29, (JInt 4)); (s52, (JObject [(s53, (JInt 7)); (s54, (JInt 4)); (s55, (JArray [(JObject [(s56, (JInt 7)); (s30, (JString s14)); (s57, (JInt 1)); (s58, (JInt 2)); (s59, (JInt 4)); (s60, (JInt 0))]);
 (JObject [(s56, (JInt 6)); (s30, (JString s11)); (s57, (JInt 4)); (s58, (JInt 0)); (s59, (JInt 9)); (s60, (JInt 0))]);
 (JObject [(s56, (JInt 2)); (s30, (JString s11)); (s57, (JInt 9)); (s58, (JInt 6)); (s59, (JInt 4)); (s60, (JInt 0))]);
 (JObject [(s56, (JInt 1)); (s30, (JString s11)); (s57, (JInt 4)); (s58, (JInt 0)); (s59, (JInt 9)); (s60, (JInt 6))]);
 (JObject [(s56, (JInt 5)); (s30, (JString s11)); (s57, (JInt 9)); (s58, (JInt 0)); (s59, (JInt 9)); (s60, (JInt 4))])]))])); (s30, (JString s14)); (s33, (JInt 1088)); (s35, (JString s36)); (s19, (JString s37)); (s38, (JInt 4)); (s39, (JInt 0)); (s44, (JInt 7)); (s21, (JInt 1)); (s22, (JInt 2)); (s27, (JInt 2297)); (s31, (JString s61)); (s46, (JInt 1))]);
 (JObject [(s43, (JInt 5)); (s28, (JInt 4)); (s29, (JInt 0)); (s52, (JObject [(s53, (JInt 1)); (s54, (JInt 6)); (s55, (JArray [(JObject [(s56, (JInt 0)); (s30, (JString s14)); (s57, (JInt 1)); (s58, (JInt 2)); (s59, (JInt 1)); (s60, (JInt 0))]);
 (JObject [(s56, (JInt 3)); (s30, (JString s11)); (s57, (JInt 1)); (s58, (JInt 0)); (s59, (JInt 9)); (s60, (JInt 6))]);
 (JObject [(s56, (JInt 7)); (s30, (JString s11)); (s57, (JInt 9)); (s58, (JInt 0)); (s59, (JInt 4)); (s60, (JInt 0))]);
 (JObject [(s56, (JInt 6)); (s30, (JString s11)); (s57, (JInt 4)); (s58, (JInt 0)); (s59, (JInt 9)); (s60, (JInt 0))]);
 (JObject [(s56, (JInt 2)); (s30, (JString s11)); (s57, (JInt 9)); (s58, (JInt 6)); (s59, (JInt 4)); (s60, (JInt 0))]);
 (JObject [(s56, (JInt 1)); (s30, (JString s11)); (s57, (JInt 4)); (s58, (JInt 0)); (s59, (JInt 9)); (s60, (JInt 6))]);
 (JObject [(s56, (JInt 5)); (s30, (JString s11)); (s57, (JInt 9)); (s58, (JInt 0)); (s59, (JInt 4)); (s60, (JInt 0))])]))])); (s30, (JString s14)); (s33, (JInt 1088)); (s35, (JString s36)); (s19, (JString s37)); (s38, (JInt 2)); (s39, (JInt 0)); (s44, (JInt 0)); (s21, (JInt 1)); (s22, (JInt 2)); (s27, (JInt 2310)); (s31, (JString s61)); (s46, (JInt 1))]);
 (JObject [(s43, (JInt 5)); (s28, (JInt 9)); (s29, (JInt 10)); (s52, (JObject [(s53, (JInt 0)); (s54, (JInt 7)); (s55, (JArray [(JObject [(s56, (JInt 4)); (s30, (JString s14)); (s57, (JInt 1)); (s58, (JInt 1)); (s59, (JInt 9)); (s60, (JInt 0))]);
 (JObject [(s56, (JInt 0)); (s30, (JString s11)); (s57, (JInt 9)); (s58, (JInt 6)); (s59, (JInt 1)); (s60, (JInt 0))]);
 (JObject [(s56, (JInt 3)); (s30, (JString s11)); (s57, (JInt 1)); (s58, (JInt 0)); (s59, (JInt 9)); (s60, (JInt 6))]);
 (JObject [(s56, (JInt 7)); (s30, (JString s11)); (s57, (JInt 9)); (s58, (JInt 0)); (s59, (JInt 4)); (s60, (JInt 0))]);
 (JObject [(s56, (JInt 6)); (s30, (JString s11)); (s57, (JInt 4)); (s58, (JInt 0)); (s59, (JInt 9)); (s60, (JInt 0))]);
 (JObject [(s56, (JInt 2)); (s30, (JString s11)); (s57, (JInt 9)); (s58, (JInt 6)); (s59, (JInt 4)); (s60, (JInt 0))]);
 (JObject [(s56, (JInt 1)); (s30, (JString s11)); (s57, (JInt 4)); (s58, (JInt 0)); (s59, (JInt 9)); (s60, (JInt 6))]);
 (JObject [(s56, (JInt 5)); (s30, (JString s11)); (s57, (JInt 9)); (s58, (JInt 0)); (s59, (JInt 9)); (s60, (JInt 10))])]))])); (s30, (JString s14)); (s33, (JInt 1088)); (s35, (JString s36)); (s19, (JString s37)); (s38, (JInt 8)); (s39, (JInt 0)); (s44, (JInt 4)); (s21, (JInt 1)); (s22, (JInt 1)); (s27, (JInt 2382)); (s31, (JString s61)); (s46, (JInt 1))]);
 (JObject [(s43, (JInt 4)); (s28, (JInt 9)); (s29, (JInt 0)); (s52, (JObject [(s53, (JInt 0)); (s54, (JInt 7)); (s55, (JArray [(JObject [(s56, (JInt 5)); (s30, (JString s14)); (s57, (JInt 1)); (s58, (JInt 1)); (s59, (JInt 9)); (s60, (JInt 0))]);
 (JObject [(s56, (JInt 1)); (s30, (JString s11)); (s57, (JInt 9)); (s58, (JInt 6)); (s59, (JInt 4)); (s60, (JInt 0))]);
 (JObject [(s56, (JInt 2)); (s30, (JString s11)); (s57, (JInt 4)); (s58, (JInt 0)); (s59, (JInt 9)); (s60, (JInt 6))]);
 (JObject [(s56, (JInt 6)); (s30, (JString s11)); (s57, (JInt 9)); (s58, (JInt 0)); (s59, (JInt 4)); (s60, (JInt 0))]);
 (JObject [(s56, (JInt 7)); (s30, (JString s11)); (s57, (JInt 4)); (s58, (JInt 0)); (s59, (JInt 9)); (s60, (JInt 0))]);
 (JObject [(s56, (JInt 3)); (s30, (JString s11)); (s57, (JInt 9)); (s58, (JInt 6)); (s59, (JInt 1)); (s60, (JInt 0))]);
 (JObject [(s56, (JInt 0)); (s30, (JString s11)); (s57, (JInt 1)); (s58, (JInt 0)); (s59, (JInt 9)); (s60, (JInt 6))]);
 (JObject [(s56, (JInt 4)); (s30, (JString s11)); (s57, (JInt 9)); (s58, (JInt 0)); (s59, (JInt 9)); (s60, (JInt 0))])]))])); (s30, (JString s14)); (s33, (JInt 1088)); (s35, (JString s36)); (s19, (JString s37)); (s38, (JInt 7)); (s39, (JInt 0)); (s44, (JInt 5)); (s21, (JInt 1)); (s22, (JInt 1)); (s27, (JInt 2391)); (s31, (JString s61)); (s46, (JInt 1))]);
 (JObject [(s43, (JInt 3)); (s28, (JInt 9)); (s29, (JInt 6)); (s30, (JString s14)); (s33, (JInt 32)); (s35, (JString s36)); (s19, (JString s37)); (s38, (JInt 1)); (s39, (JInt 0)); (s44, (JInt 3)); (s21, (JInt 1)); (s22, (JInt 1)); (s27, (JInt 2476)); (s31, (JString s51)); (s46, (JInt 1))]);
 (JObject [(s43, (JInt 2)); (s28, (JInt 4)); (s29, (JInt 0)); (s30, (JString s14)); (s33, (JInt 32)); (s35, (JString s36)); (s19, (JString s37)); (s38, (JInt 6)); (s39, (JInt 0)); (s44, (JInt 2)); (s21, (JInt 1)); (s22, (JInt 1)); (s27, (JInt 2481)); (s31, (JString s51)); (s46, (JInt 1))]);
 (JObject [(s43, (JInt 1)); (s28, (JInt 9)); (s29, (JInt 6)); (s30, (JString s14)); (s33, (JInt 32)); (s35, (JString s36)); (s19, (JString s37)); (s38, (JInt 3)); (s39, (JInt 0)); (s44, (JInt 1)); (s21, (JInt 1)); (s22, (JInt 2)); (s27, (JInt 2490)); (s31, (JString s51)); (s46, (JInt 1))]);
 (JObject [(s43, (JInt 6)); (s28, (JInt 9)); (s29, (JInt 0)); (s30, (JString s14)); (s33, (JInt 32)); (s35, (JString s36)); (s19, (JString s37)); (s38, (JInt 5)); (s39, (JInt 0)); (s44, (JInt 6)); (s21, (JInt 1)); (s22, (JInt 1)); (s27, (JInt 2491)); (s31, (JString s51)); (s46, (JInt 1))]);
 (JObject [(s43, (JInt 7)); (s28, (JInt 4)); (s29, (JInt 0)); (s30, (JString s14)); (s33, (JInt 32)); (s35, (JString s36)); (s19, (JString s37)); (s38, (JInt 4)); (s39, (JInt 0)); (s44, (JInt 7)); (s21, (JInt 1)); (s22, (JInt 2)); (s27, (JInt 2498)); (s31, (JString s51)); (s46, (JInt 1))]);
 (JObject [(s43, (JInt 0)); (s28, (JInt 1)); (s29, (JInt 0)); (s30, (JString s14)); (s33, (JInt 32)); (s35, (JString s36)); (s19, (JString s37)); (s38, (JInt 2)); (s39, (JInt 0)); (s44, (JInt 0)); (s21, (JInt 1)); (s22, (JInt 2)); (s27, (JInt 2509)); (s31, (JString s51)); (s46, (JInt 1))]);
 (JObject [(s43, (JInt 5)); (s28, (JInt 9)); (s29, (JInt 0)); (s30, (JString s14)); (s33, (JInt 32)); (s35, (JString s36)); (s19, (JString s37)); (s38, (JInt 7)); (s39, (JInt 0)); (s44, (JInt 5)); (s21, (JInt 1)); (s22, (JInt 1)); (s27, (JInt 2581)); (s31, (JString s51)); (s46, (JInt 1))]);
 (JObject [(s43, (JInt 4)); (s28, (JInt 9)); (s29, (JInt 0)); (s30, (JString s14)); (s33, (JInt 32)); (s35, (JString s36)); (s19, (JString s37)); (s38, (JInt 8)); (s39, (JInt 0)); (s44, (JInt 4)); (s21, (JInt 1)); (s22, (JInt 1)); (s27, (JInt 2585)); (s31, (JString s51)); (s46, (JInt 1))]);
 (JObject [(s43, (JInt 4)); (s28, (JInt 4)); (s29, (JInt 6)); (s52, (JObject [(s53, (JInt 1)); (s54, (JInt 2)); (s55, (JArray [(JObject [(s56, (JInt 3)); (s30, (JString s14)); (s57, (JInt 1)); (s58, (JInt 1)); (s59, (JInt 1)); (s60, (JInt 0))]);
 (JObject [(s56, (JInt 0)); (s30, (JString s11)); (s57, (JInt 1)); (s58, (JInt 0)); (s59, (JInt 9)); (s60, (JInt 6))]);
 (JObject [(s56, (JInt 4)); (s30, (JString s11)); (s57, (JInt 9)); (s58, (JInt 0)); (s59, (JInt 4)); (s60, (JInt 6))])]))])); (s30, (JString s14)); (s33, (JInt 1088)); (s35, (JString s36)); (s19, (JString s37)); (s38, (JInt 1)); (s39, (JInt 0)); (s44, (JInt 3)); (s21, (JInt 1)); (s22, (JInt 1)); (s27, (JInt 2709)); (s31, (JString s61)); (s46, (JInt 1))]);
 (JObject [(s43, (JInt 5)); (s30, (JString s14)); (s33, (JInt 0)); (s35, (JString s36)); (s19, (JString s37)); (s38, (JInt 7)); (s39, (JInt 0)); (s44, (JInt 5)); (s21, (JInt 1)); (s22, (JInt 1)); (s27, (JInt 2719)); (s31, (JString s62)); (s46, (JInt (-1)))]);
 (JObject [(s43, (JInt 4)); (s28, (JInt 9)); (s29, (JInt 10)); (s52, (JObject [(s53, (JInt 8)); (s54, (JInt 5)); (s55, (JArray [(JObject [(s56, (JInt 2)); (s30, (JString s14)); (s57, (JInt 1)); (s58, (JInt 1)); (s59, (JInt 9)); (s60, (JInt 6))]);
 (JObject [(s56, (JInt 6)); (s30, (JString s11)); (s57, (JInt 9)); (s58, (JInt 0)); (s59, (JInt 4)); (s60, (JInt 0))]);
 (JObject [(s56, (JInt 7)); (s30, (JString s11)); (s57, (JInt 4)); (s58, (JInt 0)); (s59, (JInt 9)); (s60, (JInt 0))]);
 (JObject [(s56, (JInt 3)); (s30, (JString s11)); (s57, (JInt 9)); (s58, (JInt 6)); (s59, (JInt 1)); (s60, (JInt 0))]);
 (JObject [(s56, (JInt 0)); (s30, (JString s11)); (s57, (JInt 1)); (s58, (JInt 0)); (s59, (JInt 9)); (s60, (JInt 6))]);
 (JObject [(s56, (JInt 4)); (s30, (JString s11)); (s57, (JInt 9)); (s58, (JInt 0)); (s59, (JInt 9)); (s60, (JInt 10))])]))])); (s30, (JString s14)); (s33, (JInt 1088)); (s35, (JString s36)); (s19, (JString s37)); (s38, (JInt 6)); (s39, (JInt 0)); (s44, (JInt 2)); (s21, (JInt 1)); (s22, (JInt 1)); (s27, (JInt 2726)); (s31, (JString s61)); (s46, (JInt 1))]);
 (JObject [(s43, (JInt 4)); (s30, (JString s14)); (s33, (JInt 0)); (s35, (JString s36)); (s19, (JString s37)); (s38, (JInt 8)); (s39, (JInt 0)); (s44, (JInt 4)); (s21, (JInt 1)); (s22, (JInt 1)); (s27, (JInt 2727)); (s31, (JString s62)); (s46, (JInt (-1)))]);
 (JObject [(s43, (JInt 4)); (s28, (JInt 4)); (s29, (JInt 3)); (s52, (JObject [(s53, (JInt 7)); (s54, (JInt 4)); (s55, (JArray [(JObject [(s56, (JInt 6)); (s30, (JString s14)); (s57, (JInt 1)); (s58, (JInt 1)); (s59, (JInt 4)); (s60, (JInt 0))]);
 (JObject [(s56, (JInt 7)); (s30, (JString s11)); (s57, (JInt 4)); (s58, (JInt 0)); (s59, (JInt 9)); (s60, (JInt 0))]);
 (JObject [(s56, (JInt 3)); (s30, (JString s11)); (s57, (JInt 9)); (s58, (JInt 6)); (s59, (JInt 1)); (s60, (JInt 0))]);
 (JObject [(s56, (JInt 0)); (s30, (JString s11)); (s57, (JInt 1)); (s58, (JInt 0)); (s59, (JInt 9)); (s60, (JInt 6))]);
 (JObject [(s56, (JInt 4)); (s30, (JString s11)); (s57, (JInt 9)); (s58, (JInt 0)); (s59, (JInt 4)); (s60, (JInt 3))])]))])); (s30, (JString s14)); (s33, (JInt 1088)); (s35, (JString s36)); (s19, (JString s37)); (s38, (JInt 5)); (s39, (JInt 0)); (s44, (JInt 6)); (s21, (JInt 1)); (s22, (JInt 1)); (s27, (JInt 2732)); (s31, (JString s61)); (s46, (JInt 1))]);
 (JObject [(s43, (JInt 4)); (s28, (JInt 4)); (s29, (JInt 9)); (s52, (JObject [(s53, (JInt 7)); (s54, (JInt 6)); (s55, (JArray [(JObject [(s56, (JInt 1)); (s30, (JString s14)); (s57, (JInt 1)); (s58, (JInt 2)); (s59, (JInt 4)); (s60, (JInt 0))]);
 (JObject [(s56, (JInt 2)); (s30, (JString s11)); (s57, (JInt 4)); (s58, (JInt 0)); (s59, (JInt 9)); (s60, (JInt 6))]);
 (JObject [(s56, (JInt 6)); (s30, (JString s11)); (s57, (JInt 9)); (s58, (JInt 0)); (s59, (JInt 4)); (s60, (JInt 0))]);
 (JObject [(s56, (JInt 7)); (s30, (JString s11)); (s57, (JInt 4)); (s58, (JInt 0)); (s59, (JInt 9)); (s60, (JInt 0))]);
 (JObject [(s56, (JInt 3)); (s30, (JString s11)); (s57, (JInt 9)); (s58, (JInt 6)); (s59, (JInt 1)); (s60, (JInt 0))]);
 (JObject [(s56, (JInt 0)); (s30, (JString s11)); (s57, (JInt 1)); (s58, (JInt 0)); (s59, (JInt 9)); (s60, (JInt 6))]);
 (JObject [(s56, (JInt 4)); (s30, (JString s11)); (s57, (JInt 9)); (s58, (JInt 0)); (s59, (JInt 4)); (s60, (JInt 9))])]))])); (s30, (JString s14)); (s33, (JInt 1088)); (s35, (JString s36)); (s19, (JString s37)); (s38, (JInt 3)); (s39, (JInt 0)); (s44, (JInt 1)); (s21, (JInt 1)); (s22, (JInt 2)); (s27, (JInt 2733)); (s31, (JString s61)); (s46, (JInt 1))]);
 (JObject [(s43, (JInt 4)); (s28, (JInt 9)); (s29, (JInt 4)); (s52, (JObject [(s53, (JInt 0)); (s54, (JInt 3)); (s55, (JArray [(JObject [(s56, (JInt 7)); (s30, (JString s14)); (s57, (JInt 1)); (s58, (JInt 2)); (s59, (JInt 9)); (s60, (JInt 0))]);
 (JObject [(s56, (JInt 3)); (s30, (JString s11)); (s57, (JInt 9)); (s58, (JInt 6)); (s59, (JInt 1)); (s60, (JInt 0))]);
 (JObject [(s56, (JInt 0)); (s30, (JString s11)); (s57, (JInt 1)); (s58, (JInt 0)); (s59, (JInt 9)); (s60, (JInt 6))]);
 (JObject [(s56, (JInt 4)); (s30, (JString s11)); (s57, (JInt 9)); (s58, (JInt 0)); (s59, (JInt 9)); (s60, (JInt 4))])]))])); (s30, (JString s14)); (s33, (JInt 1088)); (s35, (JString s36)); (s19, (JString s37)); (s38, (JInt 4)); (s39, (JInt 0)); (s44, (JInt 7)); (s21, (JInt 1)); (s22, (JInt 2)); (s27, (JInt 2733)); (s31, (JString s61)); (s46, (JInt 1))]);
 (JObject [(s43, (JInt 4)); (s28, (JInt 4)); (s29, (JInt 0)); (s52, (JObject [(s53, (JInt 8)); (s54, (JInt 1)); (s55, (JArray [(JObject [(s56, (JInt 0)); (s30, (JString s14)); (s57, (JInt 1)); (s58, (JInt 2)); (s59, (JInt 9)); (s60, (JInt 6))]);
 (JObject [(s56, (JInt 4)); (s30, (JString s11)); (s57, (JInt 9)); (s58, (JInt 0)); (s59, (JInt 4)); (s60, (JInt 0))])]))])); (s30, (JString s14)); (s33, (JInt 1088)); (s35, (JString s36)); (s19, (JString s37)); (s38, (JInt 2)); (s39, (JInt 0)); (s44, (JInt 0)); (s21, (JInt 1)); (s22, (JInt 2)); (s27, (JInt 2737)); (s31, (JString s61)); (s46, (JInt 1))]);
 (JObject [(s43, (JInt 3)); (s28, (JInt 1)); (s29, (JInt 0)); (s30, (JString s14)); (s33, (JInt 32)); (s35, (JString s36)); (s19, (JString s37)); (s38, (JInt 1)); (s39, (JInt 0)); (s44, (JInt 3)); (s21, (JInt 1)); (s22, (JInt 1)); (s27, (JInt 2914)); (s31, (JString s51)); (s46, (JInt 1))]);
 (JObject [(s43, (JInt 5)); (s28, (JInt 9)); (s29, (JInt 10)); (s30, (JString s14)); (s33, (JInt 1088)); (s35, (JString s36)); (s19, (JString s37)); (s38, (JInt 7)); (s39, (JInt 0)); (s44, (JInt 5)); (s21, (JInt 1)); (s22, (JInt 1)); (s27, (JInt 2928)); (s31, (JString s51)); (s46, (JInt 1))]);
 (JObject [(s43, (JInt 2)); (s28, (JInt 9)); (s29, (JInt 6)); (s30, (JString s14)); (s33, (JInt 32)); (s35, (JString s36)); (s19, (JString s37)); (s38, (JInt 6)); (s39, (JInt 0)); (s44, (JInt 2)); (s21, (JInt 1)); (s22, (JInt 1)); (s27, (JInt 2930)); (s31, (JString s51)); (s46, (JInt 1))]);
 (JObject [(s43, (JInt 4)); (s28, (JInt 9)); (s29, (JInt 6)); (s30, (JString s14)); (s33, (JInt 1088)); (s35, (JString s36)); (s19, (JString s37)); (s38, (JInt 8)); (s39, (JInt 0)); (s44, (JInt 4)); (s21, (JInt 1)); (s22, (JInt 1)); (s27, (JInt 2934)); (s31, (JString s51)); (s46, (JInt 1))]);
 (JObject [(s43, (JInt 6)); (s28, (JInt 4)); (s29, (JInt 0)); (s30, (JString s14)); (s33, (JInt 32)); (s35, (JString s36)); (s19, (JString s37)); (s38, (JInt 5)); (s39, (JInt 0)); (s44, (JInt 6)); (s21, (JInt 1)); (s22, (JInt 1)); (s27, (JInt 2936)); (s31, (JString s51)); (s46, (JInt 1))]);
 (JObject [(s43, (JInt 1)); (s28, (JInt 4)); (s29, (JInt 0)); (s30, (JString s14)); (s33, (JInt 32)); (s35, (JString s36)); (s19, (JString s37)); (s38, (JInt 3)); (s39, (JInt 0)); (s44, (JInt 1)); (s21, (JInt 1)); (s22, (JInt 2)); (s27, (JInt 2938)); (s31, (JString s51)); (s46, (JInt 1))]);
 (JObject [(s43, (JInt 7)); (s28, (JInt 9)); (s29, (JInt 0)); (s30, (JString s14)); (s33, (JInt 32)); (s35, (JString s36)); (s19, (JString s37)); (s38, (JInt 4)); (s39, (JInt 0)); (s44, (JInt 7)); (s21, (JInt 1)); (s22, (JInt 2)); (s27, (JInt 2939)); (s31, (JString s51)); (s46, (JInt 1))]);
 (JObject [(s43, (JInt 0)); (s28, (JInt 9)); (s29, (JInt 6)); (s30, (JString s14)); (s33, (JInt 32)); (s35, (JString s36)); (s19, (JString s37)); (s38, (JInt 2)); (s39, (JInt 0)); (s44, (JInt 0)); (s21, (JInt 1)); (s22, (JInt 2)); (s27, (JInt 2941)); (s31, (JString s51)); (s46, (JInt 1))]);
 (JObject [(s43, (JInt 3)); (s30, (JString s14)); (s33, (JInt 0)); (s35, (JString s36)); (s19, (JString s37)); (s38, (JInt 1)); (s39, (JInt 0)); (s44, (JInt 3)); (s21, (JInt 1)); (s22, (JInt 1)); (s27, (JInt 3057)); (s31, (JString s62)); (s46, (JInt (-1)))]);
 (JObject [(s43, (JInt 2)); (s30, (JString s14)); (s33, (JInt 0)); (s35, (JString s36)); (s19, (JString s37)); (s38, (JInt 6)); (s39, (JInt 0)); (s44, (JInt 2)); (s21, (JInt 1)); (s22, (JInt 1)); (s27, (JInt 3075)); (s31, (JString s62)); (s46, (JInt (-1)))]);
 (JObject [(s43, (JInt 6)); (s30, (JString s14)); (s33, (JInt 0)); (s35, (JString s36)); (s19, (JString s37)); (s38, (JInt 5)); (s39, (JInt 0)); (s44, (JInt 6)); (s21, (JInt 1)); (s22, (JInt 1)); (s27, (JInt 3077)); (s31, (JString s62)); (s46, (JInt (-1)))]);
 (JObject [(s43, (JInt 1)); (s30, (JString s14)); (s33, (JInt 0)); (s35, (JString s36)); (s19, (JString s37)); (s38, (JInt 3)); (s39, (JInt 0)); (s44, (JInt 1)); (s21, (JInt 1)); (s22, (JInt 2)); (s27, (JInt 3078)); (s31, (JString s62)); (s46, (JInt (-1)))]);
 (JObject [(s43, (JInt 7)); (s30, (JString s14)); (s33, (JInt 0)); (s35, (JString s36)); (s19, (JString s37)); (s38, (JInt 4)); (s39, (JInt 0)); (s44, (JInt 7)); (s21, (JInt 1)); (s22, (JInt 2)); (s27, (JInt 3082)); (s31, (JString s62)); (s46, (JInt (-1)))]);
 (JObject [(s43, (JInt 0)); (s30, (JString s14)); (s33, (JInt 0)); (s35, (JString s36)); (s19, (JString s37)); (s38, (JInt 2)); (s39, (JInt 0)); (s44, (JInt 0)); (s21, (JInt 1)); (s22, (JInt 2)); (s27, (JInt 3086)); (s31, (JString s62)); (s46, (JInt (-1)))]);
 (JObject [(s43, (JInt 4)); (s28, (JInt 9)); (s29, (JInt 10)); (s52, (JObject [(s53, (JInt 0)); (s54, (JInt 7)); (s55, (JArray [(JObject [(s56, (JInt 5)); (s30, (JString s14)); (s57, (JInt 1)); (s58, (JInt 1)); (s59, (JInt 9)); (s60, (JInt 0))]);
 (JObject [(s56, (JInt 1)); (s30, (JString s11)); (s57, (JInt 9)); (s58, (JInt 6)); (s59, (JInt 4)); (s60, (JInt 0))]);
 (JObject [(s56, (JInt 2)); (s30, (JString s11)); (s57, (JInt 4)); (s58, (JInt 0)); (s59, (JInt 9)); (s60, (JInt 6))]);
 (JObject [(s56, (JInt 6)); (s30, (JString s11)); (s57, (JInt 9)); (s58, (JInt 0)); (s59, (JInt 4)); (s60, (JInt 0))]);
 (JObject [(s56, (JInt 7)); (s30, (JString s11)); (s57, (JInt 4)); (s58, (JInt 0)); (s59, (JInt 9)); (s60, (JInt 0))]);
 (JObject [(s56, (JInt 3)); (s30, (JString s11)); (s57, (JInt 9)); (s58, (JInt 6)); (s59, (JInt 1)); (s60, (JInt 0))]);
 (JObject [(s56, (JInt 0)); (s30, (JString s11)); (s57, (JInt 1)); (s58, (JInt 0)); (s59, (JInt 9)); (s60, (JInt 6))]);
 (JObject [(s56, (JInt 4)); (s30, (JString s11)); (s57, (JInt 9)); (s58, (JInt 0)); (s59, (JInt 9)); (s60, (JInt 10))])]))])); (s30, (JString s14)); (s33, (JInt 1088)); (s35, (JString s36)); (s19, (JString s37)); (s38, (JInt 7)); (s39, (JInt 0)); (s44, (JInt 5)); (s21, (JInt 1)); (s22, (JInt 1)); (s27, (JInt 3140)); (s31, (JString s61)); (s46, (JInt 1))]);
 (JObject [(s43, (JInt 5)); (s28, (JInt 9)); (s29, (JInt 6)); (s52, (JObject [(s53, (JInt 0)); (s54, (JInt 7)); (s55, (JArray [(JObject [(s56, (JInt 4)); (s30, (JString s14)); (s57, (JInt 1)); (s58, (JInt 1)); (s59, (JInt 9)); (s60, (JInt 0))]);
 (JObject [(s56, (JInt 0)); (s30, (JString s11)); (s57, (JInt 9)); (s58, (JInt 6)); (s59, (JInt 1)); (s60, (JInt 0))]);
 (JObject [(s56, (JInt 3)); (s30, (JString s11)); (s57, (JInt 1)); (s58, (JInt 0)); (s59, (JInt 9)); (s60, (JInt 6))]);
 (JObject [(s56, (JInt 7)); (s30, (JString s11)); (s57, (JInt 9)); (s58, (JInt 0)); (s59, (JInt 4)); (s60, (JInt 0))]);
 (JObject [(s56, (JInt 6)); (s30, (JString s11)); (s57, (JInt 4)); (s58, (JInt 0)); (s59, (JInt 9)); (s60, (JInt 0))]);
 (JObject [(s56, (JInt 2)); (s30, (JString s11)); (s57, (JInt 9)); (s58, (JInt 6)); (s59, (JInt 4)); (s60, (JInt 0))]);
 (JObject [(s56, (JInt 1)); (s30, (JString s11)); (s57, (JInt 4)); (s58, (JInt 0)); (s59, (JInt 9)); (s60, (JInt 6))]);
 (JObject [(s56, (JInt 5)); (s30, (JString s11)); (s57, (JInt 9)); (s58, (JInt 0)); (s59, (JInt 9)); (s60, (JInt 6))])]))])); (s30, (JString s14)); (s33, (JInt 1088)); (s35, (JString s36)); (s19, (JString s37)); (s38, (JInt 8)); (s39, (JInt 0)); (s44, (JInt 4)); (s21, (JInt 1)); (s22, (JInt 1)); (s27, (JInt 3143)); (s31, (JString s61)); (s46, (JInt 1))]);
 (JObject [(s43, (JInt 3)); (s28, (JInt 4)); (s29, (JInt 4)); (s30, (JString s14)); (s33, (JInt 1088)); (s35, (JString s36)); (s19, (JString s37)); (s38, (JInt 1)); (s39, (JInt 0)); (s44, (JInt 3)); (s21, (JInt 1)); (s22, (JInt 1)); (s27, (JInt 3284)); (s31, (JString s51)); (s46, (JInt 1))]);
 (JObject [(s43, (JInt 1)); (s28, (JInt 4)); (s29, (JInt 2)); (s30, (JString s14)); (s33, (JInt 1088)); (s35, (JString s36)); (s19, (JString s37)); (s38, (JInt 3)); (s39, (JInt 0)); (s44, (JInt 1)); (s21, (JInt 1)); (s22, (JInt 2)); (s27, (JInt 3293)); (s31, (JString s51)); (s46, (JInt 1))]);
 (JObject [(s43, (JInt 2)); (s28, (JInt 9)); (s29, (JInt 6)); (s30, (JString s14)); (s33, (JInt 1088)); (s35, (JString s36)); (s19, (JString s37)); (s38, (JInt 6)); (s39, (JInt 0)); (s44, (JInt 2)); (s21, (JInt 1)); (s22, (JInt 1)); (s27, (JInt 3293)); (s31, (JString s51)); (s46, (JInt 1))]);
 (JObject [(s43, (JInt 6)); (s28, (JInt 4)); (s29, (JInt 8)); (s30, (JString s14)); (s33, (JInt 1088)); (s35, (JString s36)); (s19, (JString s37)); (s38, (JInt 5)); (s39, (JInt 0)); (s44, (JInt 6)); (s21, (JInt 1)); (s22, (JInt 1)); (s27, (JInt 3295)); (s31, (JString s51)); (s46, (JInt 1))]);
 (JObject [(s43, (JInt 0)); (s28, (JInt 4)); (s29, (JInt 9)); (s30, (JString s14)); (s33, (JInt 1088)); (s35, (JString s36)); (s19, (JString s37)); (s38, (JInt 2)); (s39, (JInt 0)); (s44, (JInt 0)); (s21, (JInt 1)); (s22, (JInt 2)); (s27, (JInt 3298)); (s31, (JString s51)); (s46, (JInt 1))]);
 (JObject [(s43, (JInt 7)); (s28, (JInt 4)); (s29, (JInt 10)); (s30, (JString s14)); (s33, (JInt 1088)); (s35, (JString s36)); (s19, (JString s37)); (s38, (JInt 4)); (s39, (JInt 0)); (s44, (JInt 7)); (s21, (JInt 1)); (s22, (JInt 2)); (s27, (JInt 3299)); (s31, (JString s51)); (s46, (JInt 1))]);
 (JObject [(s43, (JInt 5)); (s28, (JInt 9)); (s29, (JInt 0)); (s30, (JString s14)); (s33, (JInt 32)); (s35, (JString s36)); (s19, (JString s37)); (s38, (JInt 7)); (s39, (JInt 0)); (s44, (JInt 5)); (s21, (JInt 1)); (s22, (JInt 1)); (s27, (JInt 3330)); (s31, (JString s51)); (s46, (JInt 1))]);
 (JObject [(s43, (JInt 4)); (s28, (JInt 9)); (s29, (JInt 0)); (s30, (JString s14)); (s33, (JInt 32)); (s35, (JString s36)); (s19, (JString s37)); (s38, (JInt 8)); (s39, (JInt 0)); (s44, (JInt 4)); (s21, (JInt 1)); (s22, (JInt 1)); (s27, (JInt 3345)); (s31, (JString s51)); (s46, (JInt 1))]);
 (JObject [(s43, (JInt 5)); (s30, (JString s14)); (s33, (JInt 0)); (s35, (JString s36)); (s19, (JString s37)); (s38, (JInt 7)); (s39, (JInt 0)); (s44, (JInt 5)); (s21, (JInt 1)); (s22, (JInt 1)); (s27, (JInt 3468)); (s31, (JString s62)); (s46, (JInt (-1)))]);
 (JObject [(s43, (JInt 5)); (s28, (JInt 4)); (s29, (JInt 2)); (s52, (JObject [(s53, (JInt 8)); (s54, (JInt 1)); (s55, (JArray [(JObject [(s56, (JInt 1)); (s30, (JString s14)); (s57, (JInt 1)); (s58, (JInt 2)); (s59, (JInt 9)); (s60, (JInt 6))]);
 (JObject [(s56, (JInt 5)); (s30, (JString s11)); (s57, (JInt 9)); (s58, (JInt 0)); (s59, (JInt 4)); (s60, (JInt 2))])]))])); (s30, (JString s14)); (s33, (JInt 1088)); (s35, (JString s36)); (s19, (JString s37)); (s38, (JInt 3)); (s39, (JInt 0)); (s44, (JInt 1)); (s21, (JInt 1)); (s22, (JInt 2)); (s27, (JInt 3486)); (s31, (JString s61)); (s46, (JInt 1))]);
 (JObject [(s43, (JInt 5)); (s28, (JInt 4)); (s29, (JInt 4)); (s52, (JObject [(s53, (JInt 8)); (s54, (JInt 5)); (s55, (JArray [(JObject [(s56, (JInt 3)); (s30, (JString s14)); (s57, (JInt 1)); (s58, (JInt 1)); (s59, (JInt 9)); (s60, (JInt 6))]);
 (JObject [(s56, (JInt 7)); (s30, (JString s11)); (s57, (JInt 9)); (s58, (JInt 0)); (s59, (JInt 4)); (s60, (JInt 0))]);
 (JObject [(s56, (JInt 6)); (s30, (JString s11)); (s57, (JInt 4)); (s58, (JInt 0)); (s59, (JInt 9)); (s60, (JInt 0))]);
 (JObject [(s56, (JInt 2)); (s30, (JString s11)); (s57, (JInt 9)); (s58, (JInt 6)); (s59, (JInt 4)); (s60, (JInt 0))]);
 (JObject [(s56, (JInt 1)); (s30, (JString s11)); (s57, (JInt 4)); (s58, (JInt 0)); (s59, (JInt 9)); (s60, (JInt 6))]);
 (JObject [(s56, (JInt 5)); (s30, (JString s11)); (s57, (JInt 9)); (s58, (JInt 0)); (s59, (JInt 4)); (s60, (JInt 4))])]))])); (s30, (JString s14)); (s33, (JInt 1088)); (s35, (JString s36)); (s19, (JString s37)); (s38, (JInt 1)); (s39, (JInt 0)); (s44, (JInt 3)); (s21, (JInt 1)); (s22, (JInt 1)); (s27, (JInt 3487)); (s31, (JString s61)); (s46, (JInt 1))]);
 (JObject [(s43, (JInt 5)); (s28, (JInt 9)); (s29, (JInt 6)); (s52, (JObject [(s53, (JInt 7)); (s54, (JInt 2)); (s55, (JArray [(JObject [(s56, (JInt 2)); (s30, (JString s14)); (s57, (JInt 1)); (s58, (JInt 1)); (s59, (JInt 4)); (s60, (JInt 0))]);
 (JObject [(s56, (JInt 1)); (s30, (JString s11)); (s57, (JInt 4)); (s58, (JInt 0)); (s59, (JInt 9)); (s60, (JInt 6))]);
 (JObject [(s56, (JInt 5)); (s30, (JString s11)); (s57, (JInt 9)); (s58, (JInt 0)); (s59, (JInt 9)); (s60, (JInt 6))])]))])); (s30, (JString s14)); (s33, (JInt 1088)); (s35, (JString s36)); (s19, (JString s37)); (s38, (JInt 6)); (s39, (JInt 0)); (s44, (JInt 2)); (s21, (JInt 1)); (s22, (JInt 1)); (s27, (JInt 3488)); (s31, (JString s61)); (s46, (JInt 1))]);
 (JObject [(s43, (JInt 4)); (s30, (JString s14)); (s33, (JInt 0)); (s35, (JString s36)); (s19, (JString s37)); (s38, (JInt 8)); (s39, (JInt 0)); (s44, (JInt 4)); (s21, (JInt 1)); (s22, (JInt 1)); (s27, (JInt 3489)); (s31, (JString s62)); (s46, (JInt (-1)))]);
 (JObject [(s43, (JInt 5)); (s28, (JInt 4)); (s29, (JInt 8)); (s52, (JObject [(s53, (JInt 0)); (s54, (JInt 3)); (s55, (JArray [(JObject [(s56, (JInt 6)); (s30, (JString s14)); (s57, (JInt 1)); (s58, (JInt 1)); (s59, (JInt 9)); (s60, (JInt 0))]);
 (JObject [(s56, (JInt 2)); (s30, (JString s11)); (s57, (JInt 9)); (s58, (JInt 6)); (s59, (JInt 4)); (s60, (JInt 0))]);
 (JObject [(s56, (JInt 1)); (s30, (JString s11)); (s57, (JInt 4)); (s58, (JInt 0)); (s59, (JInt 9)); (s60, (JInt 6))]);
 (JObject [(s56, (JInt 5)); (s30, (JString s11)); (s57, (JInt 9)); (s58, (JInt 0)); (s59, (JInt 4)); (s60, (JInt 8))])]))])); (s30, (JString s14)); (s33, (JInt 1088)); (s35, (JString s36)); (s19, (JString s37)); (s38, (JInt 5)); (s39, (JInt 0)); (s44, (JInt 6)); (s21, (JInt 1)); (s22, (JInt 1)); (s27, (JInt 3494)); (s31, (JString s61)); (s46, (JInt 1))]);
 (JObject [(s43, (JInt 5)); (s28, (JInt 4)); (s29, (JInt 10)); (s52, (JObject [(s53, (JInt 7)); (s54, (JInt 4)); (s55, (JArray [(JObject [(s56, (JInt 7)); (s30, (JString s14)); (s57, (JInt 1)); (s58, (JInt 2)); (s59, (JInt 4)); (s60, (JInt 0))]);
 (JObject [(s56, (JInt 6)); (s30, (JString s11)); (s57, (JInt 4)); (s58, (JInt 0)); (s59, (JInt 9)); (s60, (JInt 0))]);
 (JObject [(s56, (JInt 2)); (s30, (JString s11)); (s57, (JInt 9)); (s58, (JInt 6)); (s59, (JInt 4)); (s60, (JInt 0))]);
 (JObject [(s56, (JInt 1)); (s30, (JString s11)); (s57, (JInt 4)); (s58, (JInt 0)); (s59, (JInt 9)); (s60, (JInt 6))]);
 (JObject [(s56, (JInt 5)); (s30, (JString s11)); (s57, (JInt 9)); (s58, (JInt 0)); (s59, (JInt 4)); (s60, (JInt 10))])]))])); (s30, (JString s14)); (s33, (JInt 1088)); (s35, (JString s36)); (s19, (JString s37)); (s38, (JInt 4)); (s39, (JInt 0)); (s44, (JInt 7)); (s21, (JInt 1)); (s22, (JInt 2)); (s27, (JInt 3507)); (s31, (JString s61)); (s46, (JInt 1))]);
 (JObject [(s43, (JInt 5)); (s28, (JInt 4)); (s29, (JInt 9)); (s52, (JObject [(s53, (JInt 1)); (s54, (JInt 6)); (s55, (JArray [(JObject [(s56, (JInt 0)); (s30, (JString s14)); (s57, (JInt 1)); (s58, (JInt 2)); (s59, (JInt 1)); (s60, (JInt 0))]);
 (JObject [(s56, (JInt 3)); (s30, (JString s11)); (s57, (JInt 1)); (s58, (JInt 0)); (s59, (JInt 9)); (s60, (JInt 6))]);
 (JObject [(s56, (JInt 7)); (s30, (JString s11)); (s57, (JInt 9)); (s58, (JInt 0)); (s59, (JInt 4)); (s60, (JInt 0))]);
 (JObject [(s56, (JInt 6)); (s30, (JString s11)); (s57, (JInt 4)); (s58, (JInt 0)); (s59, (JInt 9)); (s60, (JInt 0))]);
 (JObject [(s56, (JInt 2)); (s30, (JString s11)); (s57, (JInt 9)); (s58, (JInt 6)); (s59, (JInt 4)); (s60, (JInt 0))]);
 (JObject [(s56, (JInt 1)); (s30, (JString s11)); (s57, (JInt 4)); (s58, (JInt 0)); (s59, (JInt 9)); (s60, (JInt 6))]);
 (JObject [(s56, (JInt 5)); (s30, (JString s11)); (s57, (JInt 9)); (s58, (JInt 0)); (s59, (JInt 4)); (s60, (JInt 9))])]))])); (s30, (JString s14)); (s33, (JInt 1088)); (s35, (JString s36)); (s19, (JString s37)); (s38, (JInt 2)); (s39, (JInt 0)); (s44, (JInt 0)); (s21, (JInt 1)); (s22, (JInt 2)); (s27, (JInt 3510)); (s31, (JString s61)); (s46, (JInt 1))]);
 (JObject [(s43, (JInt 3)); (s28, (JInt 9)); (s29, (JInt 6)); (s30, (JString s14)); (s33, (JInt 32)); (s35, (JString s36)); (s19, (JString s37)); (s38, (JInt 1)); (s39, (JInt 0)); (s44, (JInt 3)); (s21, (JInt 1)); (s22, (JInt 1)); (s27, (JInt 3682)); (s31, (JString s51)); (s46, (JInt 1))]);
 (JObject [(s43, (JInt 5)); (s28, (JInt 9)); (s29, (JInt 6)); (s30, (JString s14)); (s33, (JInt 1088)); (s35, (JString s36)); (s19, (JString s37)); (s38, (JInt 7)); (s39, (JInt 0)); (s44, (JInt 5)); (s21, (JInt 1)); (s22, (JInt 1)); (s27, (JInt 3682)); (s31, (JString s51)); (s46, (JInt 1))]);
 (JObject [(s43, (JInt 1)); (s28, (JInt 9)); (s29, (JInt 6)); (s30, (JString s14)); (s33, (JInt 32)); (s35, (JString s36)); (s19, (JString s37)); (s38, (JInt 3)); (s39, (JInt 0)); (s44, (JInt 1)); (s21, (JInt 1)); (s22, (JInt 2)); (s27, (JInt 3685)); (s31, (JString s51)); (s46, (JInt 1))]);
 (JObject [(s43, (JInt 4)); (s28, (JInt 9)); (s29, (JInt 4)); (s30, (JString s14)); (s33, (JInt 1088)); (s35, (JString s36)); (s19, (JString s37)); (s38, (JInt 8)); (s39, (JInt 0)); (s44, (JInt 4)); (s21, (JInt 1)); (s22, (JInt 1)); (s27, (JInt 3685)); (s31, (JString s51)); (s46, (JInt 1))]);
 (JObject [(s43, (JInt 2)); (s28, (JInt 4)); (s29, (JInt 0)); (s30, (JString s14)); (s33, (JInt 32)); (s35, (JString s36)); (s19, (JString s37)); (s38, (JInt 6)); (s39, (JInt 0)); (s44, (JInt 2)); (s21, (JInt 1)); (s22, (JInt 1)); (s27, (JInt 3687)); (s31, (JString s51)); (s46, (JInt 1))]);
 (JObject [(s43, (JInt 6)); (s28, (JInt 9)); (s29, (JInt 0)); (s30, (JString s14)); (s33, (JInt 32)); (s35, (JString s36)); (s19, (JString s37)); (s38, (JInt 5)); (s39, (JInt 0)); (s44, (JInt 6)); (s21, (JInt 1)); (s22, (JInt 1)); (s27, (JInt 3689)); (s31, (JString s51)); (s46, (JInt 1))]);
 (JObject [(s43, (JInt 7)); (s28, (JInt 4)); (s29, (JInt 0)); (s30, (JString s14)); (s33, (JInt 32)); (s35, (JString s36)); (s19, (JString s37)); (s38, (JInt 4)); (s39, (JInt 0)); (s44, (JInt 7)); (s21, (JInt 1)); (s22, (JInt 2)); (s27, (JInt 3703)); (s31, (JString s51)); (s46, (JInt 1))]);
 (JObject [(s43, (JInt 0)); (s28, (JInt 1)); (s29, (JInt 0)); (s30, (JString s14)); (s33, (JInt 32)); (s35, (JString s36)); (s19, (JString s37)); (s38, (JInt 2)); (s39, (JInt 0)); (s44, (JInt 0)); (s21, (JInt 1)); (s22, (JInt 2)); (s27, (JInt 3706)); (s31, (JString s51)); (s46, (JInt 1))]);
 (JObject [(s43, (JInt 4)); (s28, (JInt 9)); (s29, (JInt 6)); (s52, (JObject [(s53, (JInt 0)); (s54, (JInt 7)); (s55, (JArray [(JObject [(s56, (JInt 5)); (s30, (JString s14)); (s57, (JInt 1)); (s58, (JInt 1)); (s59, (JInt 9)); (s60, (JInt 0))]);
 (JObject [(s56, (JInt 1)); (s30, (JString s11)); (s57, (JInt 9)); (s58, (JInt 6)); (s59, (JInt 4)); (s60, (JInt 0))]);
 (JObject [(s56, (JInt 2)); (s30, (JString s11)); (s57, (JInt 4)); (s58, (JInt 0)); (s59, (JInt 9)); (s60, (JInt 6))]);
 (JObject [(s56, (JInt 6)); (s30, (JString s11)); (s57, (JInt 9)); (s58, (JInt 0)); (s59, (JInt 4)); (s60, (JInt 0))]);
 (JObject [(s56, (JInt 7)); (s30, (JString s11)); (s57, (JInt 4)); (s58, (JInt 0)); (s59, (JInt 9)); (s60, (JInt 0))]);
 (JObject [(s56, (JInt 3)); (s30, (JString s11)); (s57, (JInt 9)); (s58, (JInt 6)); (s59, (JInt 1)); (s60, (JInt 0))]);
 (JObject [(s56, (JInt 0)); (s30, (JString s11)); (s57, (JInt 1)); (s58, (JInt 0)); (s59, (JInt 9)); (s60, (JInt 6))]);
 (JObject [(s56, (JInt 4)); (s30, (JString s11)); (s57, (JInt 9)); (s58, (JInt 0)); (s59, (JInt 9)); (s60, (JInt 6))])]))])); (s30, (JString s14)); (s33, (JInt 1088)); (s35, (JString s36)); (s19, (JString s37)); (s38, (JInt 7)); (s39, (JInt 0)); (s44, (JInt 5)); (s21, (JInt 1)); (s22, (JInt 1)); (s27, (JInt 3894)); (s31, (JString s61)); (s46, (JInt 1))]);
 (JObject [(s43, (JInt 5)); (s28, (JInt 9)); (s29, (JInt 4)); (s52, (JObject [(s53, (JInt 0)); (s54, (JInt 7)); (s55, (JArray [(JObject [(s56, (JInt 4)); (s30, (JString s14)); (s57, (JInt 1)); (s58, (JInt 1)); (s59, (JInt 9)); (s60, (JInt 0))]);
 (JObject [(s56, (JInt 0)); (s30, (JString s11)); (s57, (JInt 9)); (s58, (JInt 6)); (s59, (JInt 1)); (s60, (JInt 0))]);
 (JObject [(s56, (JInt 3)); (s30, (JString s11)); (s57, (JInt 1)); (s58, (JInt 0)); (s59, (JInt 9)); (s60, (JInt 6))]);
 (JObject [(s56, (JInt 7)); (s30, (JString s11)); (s57, (JInt 9)); (s58, (JInt 0)); (s59, (JInt 4)); (s60, (JInt 0))]);
 (JObject [(s56, (JInt 6)); (s30, (JString s11)); (s57, (JInt 4)); (s58, (JInt 0)); (s59, (JInt 9)); (s60, (JInt 0))]);
 (JObject [(s56, (JInt 2)); (s30, (JString s11)); (s57, (JInt 9)); (s58, (JInt 6)); (s59, (JInt 4)); (s60, (JInt 0))]);
 (JObject [(s56, (JInt 1)); (s30, (JString s11)); (s57, (JInt 4)); (s58, (JInt 0)); (s59, (JInt 9)); (s60, (JInt 6))]);
 (JObject [(s56, (JInt 5)); (s30, (JString s11)); (s57, (JInt 9)); (s58, (JInt 0)); (s59, (JInt 9)); (s60, (JInt 4))])]))])); (s30, (JString s14)); (s33, (JInt 1088)); (s35, (JString s36)); (s19, (JString s37)); (s38, (JInt 8)); (s39, (JInt 0)); (s44, (JInt 4)); (s21, (JInt 1)); (s22, (JInt 1)); (s27, (JInt 3898)); (s31, (JString s61)); (s46, (JInt 1))]);
 (JObject [(s43, (JInt 4)); (s28, (JInt 4)); (s29, (JInt 4)); (s52, (JObject [(s53, (JInt 1)); (s54, (JInt 2)); (s55, (JArray [(JObject [(s56, (JInt 3)); (s30, (JString s14)); (s57, (JInt 1)); (s58, (JInt 1)); (s59, (JInt 1)); (s60, (JInt 0))]);
 (JObject [(s56, (JInt 0)); (s30, (JString s11)); (s57, (JInt 1)); (s58, (JInt 0)); (s59, (JInt 9)); (s60, (JInt 6))]);
 (JObject [(s56, (JInt 4)); (s30, (JString s11)); (s57, (JInt 9)); (s58, (JInt 0)); (s59, (JInt 4)); (s60, (JInt 4))])]))])); (s30, (JString s14)); (s33, (JInt 1088)); (s35, (JString s36)); (s19, (JString s37)); (s38, (JInt 1)); (s39, (JInt 0)); (s44, (JInt 3)); (s21, (JInt 1)); (s22, (JInt 1)); (s27, (JInt 3906)); (s31, (JString s61)); (s46, (JInt 1))]);
 (JObject [(s43, (JInt 4)); (s28, (JInt 4)); (s29, (JInt 8)); (s52, (JObject [(s53, (JInt 7)); (s54, (JInt 4)); (s55, (JArray [(JObject [(s56, (JInt 6)); (s30, (JString s14)); (s57, (JInt 1)); (s58, (JInt 1)); (s59, (JInt 4)); (s60, (JInt 0))]);
 (JObject [(s56, (JInt 7)); (s30, (JString s11)); (s57, (JInt 4)); (s58, (JInt 0)); (s59, (JInt 9)); (s60, (JInt 0))]);
 (JObject [(s56, (JInt 3)); (s30, (JString s11)); (s57, (JInt 9)); (s58, (JInt 6)); (s59, (JInt 1)); (s60, (JInt 0))]);
 (JObject [(s56, (JInt 0)); (s30, (JString s11)); (s57, (JInt 1)); (s58, (JInt 0)); (s59, (JInt 9)); (s60, (JInt 6))]);
 (JObject [(s56, (JInt 4)); (s30, (JString s11)); (s57, (JInt 9)); (s58, (JInt 0)); (s59, (JInt 4)); (s60, (JInt 8))])]))])); (s30, (JString s14)); (s33, (JInt 1088)); (s35, (JString s36)); (s19, (JString s37)); (s38, (JInt 5)); (s39, (JInt 0)); (s44, (JInt 6)); (s21, (JInt 1)); (s22, (JInt 1)); (s27, (JInt 3916)); (s31, (JString s61)); (s46, (JInt 1))]);
 (JObject [(s43, (JInt 4)); (s28, (JInt 9)); (s29, (JInt 6)); (s52, (JObject [(s53, (JInt 8)); (s54, (JInt 5)); (s55, (JArray [(JObject [(s56, (JInt 2)); (s30, (JString s14)); (s57, (JInt 1)); (s58, (JInt 1)); (s59, (JInt 9)); (s60, (JInt 6))]);
 (JObject [(s56, (JInt 6)); (s30, (JString s11)); (s57, (JInt 9)); (s58, (JInt 0)); (s59, (JInt 4)); (s60, (JInt 0))]);
 (JObject [(s56, (JInt 7)); (s30, (JString s11)); (s57, (JInt 4)); (s58, (JInt 0)); (s59, (JInt 9)); (s60, (JInt 0))]);
 (JObject [(s56, (JInt 3)); (s30, (JString s11)); (s57, (JInt 9)); (s58, (JInt 6)); (s59, (JInt 1)); (s60, (JInt 0))]);
 (JObject [(s56, (JInt 0)); (s30, (JString s11)); (s57, (JInt 1)); (s58, (JInt 0)); (s59, (JInt 9)); (s60, (JInt 6))]);
 (JObject [(s56, (JInt 4)); (s30, (JString s11)); (s57, (JInt 9)); (s58, (JInt 0)); (s59, (JInt 9)); (s60, (JInt 6))])]))])); (s30, (JString s14)); (s33, (JInt 1088)); (s35, (JString s36)); (s19, (JString s37)); (s38, (JInt 6)); (s39, (JInt 0)); (s44, (JInt 2)); (s21, (JInt 1)); (s22, (JInt 1)); (s27, (JInt 3921)); (s31, (JString s61)); (s46, (JInt 1))]);
 (JObject [(s43, (JInt 4)); (s28, (JInt 4)); (s29, (JInt 9)); (s52, (JObject [(s53, (JInt 8)); (s54, (JInt 1)); (s55, (JArray [(JObject [(s56, (JInt 0)); (s30, (JString s14)); (s57, (JInt 1)); (s58, (JInt 2)); (s59, (JInt 9)); (s60, (JInt 6))]);
 (JObject [(s56, (JInt 4)); (s30, (JString s11)); (s57, (JInt 9)); (s58, (JInt 0)); (s59, (JInt 4)); (s60, (JInt 9))])]))])); (s30, (JString s14)); (s33, (JInt 1088)); (s35, (JString s36)); (s19, (JString s37)); (s38, (JInt 2)); (s39, (JInt 0)); (s44, (JInt 0)); (s21, (JInt 1)); (s22, (JInt 2)); (s27, (JInt 3922)); (s31, (JString s61)); (s46, (JInt 1))]);
 (JObject [(s43, (JInt 4)); (s28, (JInt 4)); (s29, (JInt 2)); (s52, (JObject [(s53, (JInt 7)); (s54, (JInt 6)); (s55, (JArray [(JObject [(s56, (JInt 1)); (s30, (JString s14)); (s57, (JInt 1)); (s58, (JInt 2)); (s59, (JInt 4)); (s60, (JInt 0))]);
 (JObject [(s56, (JInt 2)); (s30, (JString s11)); (s57, (JInt 4)); (s58, (JInt 0)); (s59, (JInt 9)); (s60, (JInt 6))]);
 (JObject [(s56, (JInt 6)); (s30, (JString s11)); (s57, (JInt 9)); (s58, (JInt 0)); (s59, (JInt 4)); (s60, (JInt 0))]);
 (JObject [(s56, (JInt 7)); (s30, (JString s11)); (s57, (JInt 4)); (s58, (JInt 0)); (s59, (JInt 9)); (s60, (JInt 0))]);
 (JObject [(s56, (JInt 3)); (s30, (JString s11)); (s57, (JInt 9)); (s58, (JInt 6)); (s59, (JInt 1)); (s60, (JInt 0))]);
 (JObject [(s56, (JInt 0)); (s30, (JString s11)); (s57, (JInt 1)); (s58, (JInt 0)); (s59, (JInt 9)); (s60, (JInt 6))]);
 (JObject [(s56, (JInt 4)); (s30, (JString s11)); (s57, (JInt 9)); (s58, (JInt 0)); (s59, (JInt 4)); (s60, (JInt 2))])]))])); (s30, (JString s14)); (s33, (JInt 1088)); (s35, (JString s36)); (s19, (JString s37)); (s38, (JInt 3)); (s39, (JInt 0)); (s44, (JInt 1)); (s21, (JInt 1)); (s22, (JInt 2)); (s27, (JInt 3922)); (s31, (JString s61)); (s46, (JInt 1))]);
 (JObject [(s43, (JInt 4)); (s28, (JInt 4)); (s29, (JInt 10)); (s52, (JObject [(s53, (JInt 0)); (s54, (JInt 3)); (s55, (JArray [(JObject [(s56, (JInt 7)); (s30, (JString s14)); (s57, (JInt 1)); (s58, (JInt 2)); (s59, (JInt 9)); (s60, (JInt 0))]);
 (JObject [(s56, (JInt 3)); (s30, (JString s11)); (s57, (JInt 9)); (s58, (JInt 6)); (s59, (JInt 1)); (s60, (JInt 0))]);
 (JObject [(s56, (JInt 0)); (s30, (JString s11)); (s57, (JInt 1)); (s58, (JInt 0)); (s59, (JInt 9)); (s60, (JInt 6))]);
 (JObject [(s56, (JInt 4)); (s30, (JString s11)); (s57, (JInt 9)); (s58, (JInt 0)); (s59, (JInt 4)); (s60, (JInt 10))])]))])); (s30, (JString s14)); (s33, (JInt 1088)); (s35, (JString s36)); (s19, (JString s37)); (s38, (JInt 4)); (s39, (JInt 0)); (s44, (JInt 7)); (s21, (JInt 1)); (s22, (JInt 2)); (s27, (JInt 3925)); (s31, (JString s61)); (s46, (JInt 1))]);
 (JObject [(s43, (JInt 5)); (s28, (JInt 9)); (s29, (JInt 0)); (s30, (JString s14)); (s33, (JInt 32)); (s35, (JString s36)); (s19, (JString s37)); (s38, (JInt 7)); (s39, (JInt 0)); (s44, (JInt 5)); (s21, (JInt 1)); (s22, (JInt 1)); (s27, (JInt 4085)); (s31, (JString s51)); (s46, (JInt 1))]);
 (JObject [(s43, (JInt 3)); (s28, (JInt 1)); (s29, (JInt 0)); (s30, (JString s14)); (s33, (JInt 32)); (s35, (JString s36)); (s19, (JString s37)); (s38, (JInt 1)); (s39, (JInt 0)); (s44, (JInt 3)); (s21, (JInt 1)); (s22, (JInt 1)); (s27, (JInt 4095)); (s31, (JString s51)); (s46, (JInt 1))]);
 (JObject [(s43, (JInt 4)); (s28, (JInt 9)); (s29, (JInt 0)); (s30, (JString s14)); (s33, (JInt 32)); (s35, (JString s36)); (s19, (JString s37)); (s38, (JInt 8)); (s39, (JInt 0)); (s44, (JInt 4)); (s21, (JInt 1)); (s22, (JInt 1)); (s27, (JInt 4102)); (s31, (JString s51)); (s46, (JInt 1))]);
 (JObject [(s43, (JInt 6)); (s28, (JInt 4)); (s29, (JInt 0)); (s30, (JString s14)); (s33, (JInt 32)); (s35, (JString s36)); (s19, (JString s37)); (s38, (JInt 5)); (s39, (JInt 0)); (s44, (JInt 6)); (s21, (JInt 1)); (s22, (JInt 1)); (s27, (JInt 4108)); (s31, (JString s51)); (s46, (JInt 1))]);
 (JObject [(s43, (JInt 0)); (s28, (JInt 9)); (s29, (JInt 6)); (s30, (JString s14)); (s33, (JInt 32)); (s35, (JString s36)); (s19, (JString s37)); (s38, (JInt 2)); (s39, (JInt 0)); (s44, (JInt 0)); (s21, (JInt 1)); (s22, (JInt 2)); (s27, (JInt 4110)); (s31, (JString s51)); (s46, (JInt 1))]);
 (JObject [(s43, (JInt 1)); (s28, (JInt 4)); (s29, (JInt 0)); (s30, (JString s14)); (s33, (JInt 32)); (s35, (JString s36)); (s19, (JString s37)); (s38, (JInt 3)); (s39, (JInt 0)); (s44, (JInt 1)); (s21, (JInt 1)); (s22, (JInt 2)); (s27, (JInt 4113)); (s31, (JString s51)); (s46, (JInt 1))]);
 (JObject [(s43, (JInt 2)); (s28, (JInt 9)); (s29, (JInt 6)); (s30, (JString s14)); (s33, (JInt 32)); (s35, (JString s36)); (s19, (JString s37)); (s38, (JInt 6)); (s39, (JInt 0)); (s44, (JInt 2)); (s21, (JInt 1)); (s22, (JInt 1)); (s27, (JInt 4113)); (s31, (JString s51)); (s46, (JInt 1))]);
 (JObject [(s43, (JInt 7)); (s28, (JInt 9)); (s29, (JInt 0)); (s30, (JString s14)); (s33, (JInt 32)); (s35, (JString s36)); (s19, (JString s37)); (s38, (JInt 4)); (s39, (JInt 0)); (s44, (JInt 7)); (s21, (JInt 1)); (s22, (JInt 2)); (s27, (JInt 4114)); (s31, (JString s51)); (s46, (JInt 1))]);
 (JObject [(s43, (JInt 5)); (s30, (JString s14)); (s33, (JInt 0)); (s35, (JString s36)); (s19, (JString s37)); (s38, (JInt 7)); (s39, (JInt 0)); (s44, (JInt 5)); (s21, (JInt 1)); (s22, (JInt 1)); (s27, (JInt 4221)); (s31, (JString s62)); (s46, (JInt (-1)))]);
 (JObject [(s43, (JInt 3)); (s30, (JString s14)); (s33, (JInt 0)); (s35, (JString s36)); (s19, (JString s37)); (s38, (JInt 1)); (s39, (JInt 0)); (s44, (JInt 3)); (s21, (JInt 1)); (s22, (JInt 1)); (s27, (JInt 4232)); (s31, (JString s62)); (s46, (JInt (-1)))]);
 (JObject [(s43, (JInt 6)); (s30, (JString s14)); (s33, (JInt 0)); (s35, (JString s36)); (s19, (JString s37)); (s38, (JInt 5)); (s39, (JInt 0)); (s44, (JInt 6)); (s21, (JInt 1)); (s22, (JInt 1)); (s27, (JInt 4243)); (s31, (JString s62)); (s46, (JInt (-1)))]);
 (JObject [(s43, (JInt 4)); (s30, (JString s14)); (s33, (JInt 0)); (s35, (JString s36)); (s19, (JString s37)); (s38, (JInt 8)); (s39, (JInt 0)); (s44, (JInt 4)); (s21, (JInt 1)); (s22, (JInt 1)); (s27, (JInt 4246)); (s31, (JString s62)); (s46, (JInt (-1)))]);
 (JObject [(s43, (JInt 0)); (s30, (JString s14)); (s33, (JInt 0)); (s35, (JString s36)); (s19, (JString s37)); (s38, (JInt 2)); (s39, (JInt 0)); (s44, (JInt 0)); (s21, (JInt 1)); (s22, (JInt 2)); (s27, (JInt 4248)); (s31, (JString s62)); (s46, (JInt (-1)))]);
 (JObject [(s43, (JInt 1)); (s30, (JString s14)); (s33, (JInt 0)); (s35, (JString s36)); (s19, (JString s37)); (s38, (JInt 3)); (s39, (JInt 0)); (s44, (JInt 1)); (s21, (JInt 1)); (s22, (JInt 2)); (s27, (JInt 4250)); (s31, (JString s62)); (s46, (JInt (-1)))]);
 (JObject [(s43, (JInt 2)); (s30, (JString s14)); (s33, (JInt 0)); (s35, (JString s36)); (s19, (JString s37)); (s38, (JInt 6)); (s39, (JInt 0)); (s44, (JInt 2)); (s21, (JInt 1)); (s22, (JInt 1)); (s27, (JInt 4250)); (s31, (JString s62)); (s46, (JInt (-1)))]);
 (JObject [(s43, (JInt 7)); (s30, (JString s14)); (s33, (JInt 0)); (s35, (JString s36)); (s19, (JString s37)); (s38, (JInt 4)); (s39, (JInt 0)); (s44, (JInt 7)); (s21, (JInt 1)); (s22, (JInt 2)); (s27, (JInt 4250)); (s31, (JString s62)); (s46, (JInt (-1)))]);
 (JObject [(s43, (JInt 3)); (s28, (JInt 9)); (s29, (JInt 0)); (s30, (JString s14)); (s33, (JInt 1088)); (s35, (JString s36)); (s19, (JString s37)); (s38, (JInt 1)); (s39, (JInt 0)); (s44, (JInt 3)); (s21, (JInt 1)); (s22, (JInt 1)); (s27, (JInt 4450)); (s31, (JString s51)); (s46, (JInt 1))]);
 (JObject [(s43, (JInt 6)); (s28, (JInt 4)); (s29, (JInt 6)); (s30, (JString s14)); (s33, (JInt 1088)); (s35, (JString s36)); (s19, (JString s37)); (s38, (JInt 5)); (s39, (JInt 0)); (s44, (JInt 6)); (s21, (JInt 1)); (s22, (JInt 1)); (s27, (JInt 4461)); (s31, (JString s51)); (s46, (JInt 1))]);
 (JObject [(s43, (JInt 1)); (s28, (JInt 4)); (s29, (JInt 3)); (s30, (JString s14)); (s33, (JInt 1088)); (s35, (JString s36)); (s19, (JString s37)); (s38, (JInt 3)); (s39, (JInt 0)); (s44, (JInt 1)); (s21, (JInt 1)); (s22, (JInt 2)); (s27, (JInt 4467)); (s31, (JString s51)); (s46, (JInt 1))]);
 (JObject [(s43, (JInt 2)); (s28, (JInt 9)); (s29, (JInt 4)); (s30, (JString s14)); (s33, (JInt 1088)); (s35, (JString s36)); (s19, (JString s37)); (s38, (JInt 6)); (s39, (JInt 0)); (s44, (JInt 2)); (s21, (JInt 1)); (s22, (JInt 1)); (s27, (JInt 4469)); (s31, (JString s51)); (s46, (JInt 1))]);
 (JObject [(s43, (JInt 7)); (s28, (JInt 4)); (s29, (JInt 0)); (s30, (JString s14)); (s33, (JInt 1088)); (s35, (JString s36)); (s19, (JString s37)); (s38, (JInt 4)); (s39, (JInt 0)); (s44, (JInt 7)); (s21, (JInt 1)); (s22, (JInt 2)); (s27, (JInt 4469)); (s31, (JString s51)); (s46, (JInt 1))]);
 (JObject [(s43, (JInt 0)); (s28, (JInt 4)); (s29, (JInt 2)); (s30, (JString s14)); (s33, (JInt 1088)); (s35, (JString s36)); (s19, (JString s37)); (s38, (JInt 2)); (s39, (JInt 0)); (s44, (JInt 0)); (s21, (JInt 1)); (s22, (JInt 2)); (s27, (JInt 4472)); (s31, (JString s51)); (s46, (JInt 1))]);
 (JObject [(s43, (JInt 4)); (s28, (JInt 4)); (s29, (JInt 10)); (s30, (JString s14)); (s33, (JInt 1088)); (s35, (JString s36)); (s19, (JString s37)); (s38, (JInt 8)); (s39, (JInt 0)); (s44, (JInt 4)); (s21, (JInt 1)); (s22, (JInt 1)); (s27, (JInt 4524)); (s31, (JString s51)); (s46, (JInt 1))]);
 (JObject [(s43, (JInt 5)); (s28, (JInt 9)); (s29, (JInt 4)); (s30, (JString s14)); (s33, (JInt 1088)); (s35, (JString s36)); (s19, (JString s37)); (s38, (JInt 7)); (s39, (JInt 0)); (s44, (JInt 5)); (s21, (JInt 1)); (s22, (JInt 1)); (s27, (JInt 4524)); (s31, (JString s51)); (s46, (JInt 1))]);
 (JObject [(s43, (JInt 5)); (s28, (JInt 9)); (s29, (JInt 0)); (s52, (JObject [(s53, (JInt 8)); (s54, (JInt 5)); (s55, (JArray [(JObject [(s56, (JInt 3)); (s30, (JString s14)); (s57, (JInt 1)); (s58, (JInt 1)); (s59, (JInt 9)); (s60, (JInt 6))]);
 (JObject [(s56, (JInt 7)); (s30, (JString s11)); (s57, (JInt 9)); (s58, (JInt 0)); (s59, (JInt 4)); (s60, (JInt 0))]);
 (JObject [(s56, (JInt 6)); (s30, (JString s11)); (s57, (JInt 4)); (s58, (JInt 0)); (s59, (JInt 9)); (s60, (JInt 0))]);
 (JObject [(s56, (JInt 2)); (s30, (JString s11)); (s57, (JInt 9)); (s58, (JInt 6)); (s59, (JInt 4)); (s60, (JInt 0))]);
 (JObject [(s56, (JInt 1)); (s30, (JString s11)); (s57, (JInt 4)); (s58, (JInt 0)); (s59, (JInt 9)); (s60, (JInt 6))]);
 (JObject [(s56, (JInt 5)); (s30, (JString s11)); (s57, (JInt 9)); (s58, (JInt 0)); (s59, (JInt 9)); (s60, (JInt 0))])]))])); (s30, (JString s14)); (s33, (JInt 1088)); (s35, (JString s36)); (s19, (JString s37)); (s38, (JInt 1)); (s39, (JInt 0)); (s44, (JInt 3)); (s21, (JInt 1)); (s22, (JInt 1)); (s27, (JInt 4656)); (s31, (JString s61)); (s46, (JInt 1))]);
 (JObject [(s43, (JInt 5)); (s28, (JInt 4)); (s29, (JInt 3)); (s52, (JObject [(s53, (JInt 8)); (s54, (JInt 1)); (s55, (JArray [(JObject [(s56, (JInt 1)); (s30, (JString s14)); (s57, (JInt 1)); (s58, (JInt 2)); (s59, (JInt 9)); (s60, (JInt 6))]);
 (JObject [(s56, (JInt 5)); (s30, (JString s11)); (s57, (JInt 9)); (s58, (JInt 0)); (s59, (JInt 4)); (s60, (JInt 3))])]))])); (s30, (JString s14)); (s33, (JInt 1088)); (s35, (JString s36)); (s19, (JString s37)); (s38, (JInt 3)); (s39, (JInt 0)); (s44, (JInt 1)); (s21, (JInt 1)); (s22, (JInt 2)); (s27, (JInt 4657)); (s31, (JString s61)); (s46, (JInt 1))]);
 (JObject [(s43, (JInt 5)); (s28, (JInt 4)); (s29, (JInt 6)); (s52, (JObject [(s53, (JInt 0)); (s54, (JInt 3)); (s55, (JArray [(JObject [(s56, (JInt 6)); (s30, (JString s14)); (s57, (JInt 1)); (s58, (JInt 1)); (s59, (JInt 9)); (s60, (JInt 0))]);
 (JObject [(s56, (JInt 2)); (s30, (JString s11)); (s57, (JInt 9)); (s58, (JInt 6)); (s59, (JInt 4)); (s60, (JInt 0))]);
 (JObject [(s56, (JInt 1)); (s30, (JString s11)); (s57, (JInt 4)); (s58, (JInt 0)); (s59, (JInt 9)); (s60, (JInt 6))]);
 (JObject [(s56, (JInt 5)); (s30, (JString s11)); (s57, (JInt 9)); (s58, (JInt 0)); (s59, (JInt 4)); (s60, (JInt 6))])]))])); (s30, (JString s14)); (s33, (JInt 1088)); (s35, (JString s36)); (s19, (JString s37)); (s38, (JInt 5)); (s39, (JInt 0)); (s44, (JInt 6)); (s21, (JInt 1)); (s22, (JInt 1)); (s27, (JInt 4658)); (s31, (JString s61)); (s46, (JInt 1))]);
 (JObject [(s43, (JInt 5)); (s28, (JInt 9)); (s29, (JInt 4)); (s52, (JObject [(s53, (JInt 7)); (s54, (JInt 2)); (s55, (JArray [(JObject [(s56, (JInt 2)); (s30, (JString s14)); (s57, (JInt 1)); (s58, (JInt 1)); (s59, (JInt 4)); (s60, (JInt 0))]);
 (JObject [(s56, (JInt 1)); (s30, (JString s11)); (s57, (JInt 4)); (s58, (JInt 0)); (s59, (JInt 9)); (s60, (JInt 6))]);
 (JObject [(s56, (JInt 5)); (s30, (JString s11)); (s57, (JInt 9)); (s58, (JInt 0)); (s59, (JInt 9)); (s60, (JInt 4))])]))])); (s30, (JString s14)); (s33, (JInt 1088)); (s35, (JString s36)); (s19, (JString s37)); (s38, (JInt 6)); (s39, (JInt 0)); (s44, (JInt 2)); (s21, (JInt 1)); (s22, (JInt 1)); (s27, (JInt 4663)); (s31, (JString s61)); (s46, (JInt 1))]);
 (JObject [(s43, (JInt 5)); (s28, (JInt 4)); (s29, (JInt 2)); (s52, (JObject [(s53, (JInt 1)); (s54, (JInt 6)); (s55, (JArray [(JObject [(s56, (JInt 0)); (s30, (JString s14)); (s57, (JInt 1)); (s58, (JInt 2)); (s59, (JInt 1)); (s60, (JInt 0))]);
 (JObject [(s56, (JInt 3)); (s30, (JString s11)); (s57, (JInt 1)); (s58, (JInt 0)); (s59, (JInt 9)); (s60, (JInt 6))]);
 (JObject [(s56, (JInt 7)); (s30, (JString s11)); (s57, (JInt 9)); (s58, (JInt 0)); (s59, (JInt 4)); (s60, (JInt 0))]);
 (JObject [(s56, (JInt 6)); (s30, (JString s11)); (s57, (JInt 4)); (s58, (JInt 0)); (s59, (JInt 9)); (s60, (JInt 0))]);
 (JObject [(s56, (JInt 2)); (s30, (JString s11)); (s57, (JInt 9)); (s58, (JInt 6)); (s59, (JInt 4)); (s60, (JInt 0))]);
 (JObject [(s56, (JInt 1)); (s30, (JString s11)); (s57, (JInt 4)); (s58, (JInt 0)); (s59, (JInt 9)); (s60, (JInt 6))]);
 (JObject [(s56, (JInt 5)); (s30, (JString s11)); (s57, (JInt 9)); (s58, (JInt 0)); (s59, (JInt 4)); (s60, (JInt 2))])]))])); (s30, (JString s14)); (s33, (JInt 1088)); (s35, (JString s36)); (s19, (JString s37)); (s38, (JInt 2)); (s39, (JInt 0)); (s44, (JInt 0)); (s21, (JInt 1)); (s22, (JInt 2)); (s27, (JInt 4678)); (s31, (JString s61)); (s46, (JInt 1))]);
 (JObject [(s43, (JInt 5)); (s28, (JInt 4)); (s29, (JInt 0)); (s52, (JObject [(s53, (JInt 7)); (s54, (JInt 4)); (s55, (JArray [(JObject [(s56, (JInt 7)); (s30, (JString s14)); (s57, (JInt 1)); (s58, (JInt 2)); (s59, (JInt 4)); (s60, (JInt 0))]);
 (JObject [(s56, (JInt 6)); (s30, (JString s11)); (s57, (JInt 4)); (s58, (JInt 0)); (s59, (JInt 9)); (s60, (JInt 0))]);
 (JObject [(s56, (JInt 2)); (s30, (JString s11)); (s57, (JInt 9)); (s58, (JInt 6)); (s59, (JInt 4)); (s60, (JInt 0))]);
 (JObject [(s56, (JInt 1)); (s30, (JString s11)); (s57, (JInt 4)); (s58, (JInt 0)); (s59, (JInt 9)); (s60, (JInt 6))]);
 (JObject [(s56, (JInt 5)); (s30, (JString s11)); (s57, (JInt 9)); (s58, (JInt 0)); (s59, (JInt 4)); (s60, (JInt 0))])]))])); (s30, (JString s14)); (s33, (JInt 1088)); (s35, (JString s36)); (s19, (JString s37)); (s38, (JInt 4)); (s39, (JInt 0)); (s44, (JInt 7)); (s21, (JInt 1)); (s22, (JInt 2)); (s27, (JInt 4678)); (s31, (JString s61)); (s46, (JInt 1))]);
 (JObject [(s43, (JInt 5)); (s28, (JInt 4)); (s29, (JInt 10)); (s52, (JObject [(s53, (JInt 0)); (s54, (JInt 7)); (s55, (JArray [(JObject [(s56, (JInt 4)); (s30, (JString s14)); (s57, (JInt 1)); (s58, (JInt 1)); (s59, (JInt 9)); (s60, (JInt 0))]);
 (JObject [(s56, (JInt 0)); (s30, (JString s11)); (s57, (JInt 9)); (s58, (JInt 6)); (s59, (JInt 1)); (s60, (JInt 0))]);
 (JObject [(s56, (JInt 3)); (s30, (JString s11)); (s57, (JInt 1)); (s58, (JInt 0)); (s59, (JInt 9)); (s60, (JInt 6))]);
 (JObject [(s56, (JInt 7)); (s30, (JString s11)); (s57, (JInt 9)); (s58, (JInt 0)); (s59, (JInt 4)); (s60, (JInt 0))]);
 (JObject [(s56, (JInt 6)); (s30, (JString s11)); (s57, (JInt 4)); (s58, (JInt 0)); (s59, (JInt 9)); (s60, (JInt 0))]);
 (JObject [(s56, (JInt 2)); (s30, (JString s11)); (s57, (JInt 9)); (s58, (JInt 6)); (s59, (JInt 4)); (s60, (JInt 0))]);
 (JObject [(s56, (JInt 1)); (s30, (JString s11)); (s57, (JInt 4)); (s58, (JInt 0)); (s59, (JInt 9)); (s60, (JInt 6))]);
 (JObject [(s56, (JInt 5)); (s30, (JString s11)); (s57, (JInt 9)); (s58, (JInt 0)); (s59, (JInt 4)); (s60, (JInt 10))])]))])); (s30, (JString s14)); (s33, (JInt 1088)); (s35, (JString s36)); (s19, (JString s37)); (s38, (JInt 8)); (s39, (JInt 0)); (s44, (JInt 4)); (s21, (JInt 1)); (s22, (JInt 1)); (s27, (JInt 4725)); (s31, (JString s61)); (s46, (JInt 1))]);
 (JObject [(s43, (JInt 4)); (s28, (JInt 9)); (s29, (JInt 4)); (s52, (JObject [(s53, (JInt 0)); (s54, (JInt 7)); (s55, (JArray [(JObject [(s56, (JInt 5)); (s30, (JString s14)); (s57, (JInt 1)); (s58, (JInt 1)); (s59, (JInt 9)); (s60, (JInt 0))]);
 (JObject [(s56, (JInt 1)); (s30, (JString s11)); (s57, (JInt 9)); (s58, (JInt 6)); (s59, (JInt 4)); (s60, (JInt 0))]);
 (JObject [(s56, (JInt 2)); (s30, (JString s11)); (s57, (JInt 4)); (s58, (JInt 0)); (s59, (JInt 9)); (s60, (JInt 6))]);
 (JObject [(s56, (JInt 6)); (s30, (JString s11)); (s57, (JInt 9)); (s58, (JInt 0)); (s59, (JInt 4)); (s60, (JInt 0))]);
 (JObject [(s56, (JInt 7)); (s30, (JString s11)); (s57, (JInt 4)); (s58, (JInt 0)); (s59, (JInt 9)); (s60, (JInt 0))]);
 (JObject [(s56, (JInt 3)); (s30, (JString s11)); (s57, (JInt 9)); (s58, (JInt 6)); (s59, (JInt 1)); (s60, (JInt 0))]);
 (JObject [(s56, (JInt 0)); (s30, (JString s11)); (s57, (JInt 1)); (s58, (JInt 0)); (s59, (JInt 9)); (s60, (JInt 6))]);
 (JObject [(s56, (JInt 4)); (s30, (JString s11)); (s57, (JInt 9)); (s58, (JInt 0)); (s59, (JInt 9)); (s60, (JInt 4))])]))])); (s30, (JString s14)); (s33, (JInt 1088)); (s35, (JString s36)); (s19, (JString s37)); (s38, (JInt 7)); (s39, (JInt 0)); (s44, (JInt 5)); (s21, (JInt 1)); (s22, (JInt 1)); (s27, (JInt 4738)); (s31, (JString s61)); (s46, (JInt 1))]);
 (JObject [(s43, (JInt 3)); (s28, (JInt 9)); (s29, (JInt 6)); (s30, (JString s14)); (s33, (JInt 32)); (s35, (JString s36)); (s19, (JString s37)); (s38, (JInt 1)); (s39, (JInt 0)); (s44, (JInt 3)); (s21, (JInt 1)); (s22, (JInt 1)); (s27, (JInt 4853)); (s31, (JString s51)); (s46, (JInt 1))]);
 (JObject [(s43, (JInt 6)); (s28, (JInt 9)); (s29, (JInt 0)); (s30, (JString s14)); (s33, (JInt 32)); (s35, (JString s36)); (s19, (JString s37)); (s38, (JInt 5)); (s39, (JInt 0)); (s44, (JInt 6)); (s21, (JInt 1)); (s22, (JInt 1)); (s27, (JInt 4853)); (s31, (JString s51)); (s46, (JInt 1))]);
 (JObject [(s43, (JInt 1)); (s28, (JInt 9)); (s29, (JInt 6)); (s30, (JString s14)); (s33, (JInt 32)); (s35, (JString s36)); (s19, (JString s37)); (s38, (JInt 3)); (s39, (JInt 0)); (s44, (JInt 1)); (s21, (JInt 1)); (s22, (JInt 2)); (s27, (JInt 4854)); (s31, (JString s51)); (s46, (JInt 1))]);
 (JObject [(s43, (JInt 2)); (s28, (JInt 4)); (s29, (JInt 0)); (s30, (JString s14)); (s33, (JInt 32)); (s35, (JString s36)); (s19, (JString s37)); (s38, (JInt 6)); (s39, (JInt 0)); (s44, (JInt 2)); (s21, (JInt 1)); (s22, (JInt 1)); (s27, (JInt 4859)); (s31, (JString s51)); (s46, (JInt 1))]);
 (JObject [(s43, (JInt 0)); (s28, (JInt 1)); (s29, (JInt 0)); (s30, (JString s14)); (s33, (JInt 32)); (s35, (JString s36)); (s19, (JString s37)); (s38, (JInt 2)); (s39, (JInt 0)); (s44, (JInt 0)); (s21, (JInt 1)); (s22, (JInt 2)); (s27, (JInt 4873)); (s31, (JString s51)); (s46, (JInt 1))]);
 (JObject [(s43, (JInt 7)); (s28, (JInt 4)); (s29, (JInt 0)); (s30, (JString s14)); (s33, (JInt 32)); (s35, (JString s36)); (s19, (JString s37)); (s38, (JInt 4)); (s39, (JInt 0)); (s44, (JInt 7)); (s21, (JInt 1)); (s22, (JInt 2)); (s27, (JInt 4875)); (s31, (JString s51)); (s46, (JInt 1))]);
 (JObject [(s43, (JInt 4)); (s28, (JInt 9)); (s29, (JInt 0)); (s30, (JString s14)); (s33, (JInt 32)); (s35, (JString s36)); (s19, (JString s37)); (s38, (JInt 8)); (s39, (JInt 0)); (s44, (JInt 4)); (s21, (JInt 1)); (s22, (JInt 1)); (s27, (JInt 4922)); (s31, (JString s51)); (s46, (JInt 1))]);
 (JObject [(s43, (JInt 5)); (s28, (JInt 9)); (s29, (JInt 0)); (s30, (JString s14)); (s33, (JInt 32)); (s35, (JString s36)); (s19, (JString s37)); (s38, (JInt 7)); (s39, (JInt 0)); (s44, (JInt 5)); (s21, (JInt 1)); (s22, (JInt 1)); (s27, (JInt 4950)); (s31, (JString s51)); (s46, (JInt 1))]);
 (JObject [(s43, (JInt 4)); (s30, (JString s14)); (s33, (JInt 0)); (s35, (JString s36)); (s19, (JString s37)); (s38, (JInt 8)); (s39, (JInt 0)); (s44, (JInt 4)); (s21, (JInt 1)); (s22, (JInt 1)); (s27, (JInt 5066)); (s31, (JString s62)); (s46, (JInt (-1)))]);
 (JObject [(s43, (JInt 4)); (s28, (JInt 9)); (s29, (JInt 0)); (s52, (JObject [(s53, (JInt 1)); (s54, (JInt 2)); (s55, (JArray [(JObject [(s56, (JInt 3)); (s30, (JString s14)); (s57, (JInt 1)); (s58, (JInt 1)); (s59, (JInt 1)); (s60, (JInt 0))]);
 (JObject [(s56, (JInt 0)); (s30, (JString s11)); (s57, (JInt 1)); (s58, (JInt 0)); (s59, (JInt 9)); (s60, (JInt 6))]);
 (JObject [(s56, (JInt 4)); (s30, (JString s11)); (s57, (JInt 9)); (s58, (JInt 0)); (s59, (JInt 9)); (s60, (JInt 0))])]))])); (s30, (JString s14)); (s33, (JInt 1088)); (s35, (JString s36)); (s19, (JString s37)); (s38, (JInt 1)); (s39, (JInt 0)); (s44, (JInt 3)); (s21, (JInt 1)); (s22, (JInt 1)); (s27, (JInt 5072)); (s31, (JString s61)); (s46, (JInt 1))]);
 (JObject [(s43, (JInt 4)); (s28, (JInt 4)); (s29, (JInt 6)); (s52, (JObject [(s53, (JInt 7)); (s54, (JInt 4)); (s55, (JArray [(JObject [(s56, (JInt 6)); (s30, (JString s14)); (s57, (JInt 1)); (s58, (JInt 1)); (s59, (JInt 4)); (s60, (JInt 0))]);
 (JObject [(s56, (JInt 7)); (s30, (JString s11)); (s57, (JInt 4)); (s58, (JInt 0)); (s59, (JInt 9)); (s60, (JInt 0))]);
 (JObject [(s56, (JInt 3)); (s30, (JString s11)); (s57, (JInt 9)); (s58, (JInt 6)); (s59, (JInt 1)); (s60, (JInt 0))]);
 (JObject [(s56, (JInt 0)); (s30, (JString s11)); (s57, (JInt 1)); (s58, (JInt 0)); (s59, (JInt 9)); (s60, (JInt 6))]);
 (JObject [(s56, (JInt 4)); (s30, (JString s11)); (s57, (JInt 9)); (s58, (JInt 0)); (s59, (JInt 4)); (s60, (JInt 6))])]))])); (s30, (JString s14)); (s33, (JInt 1088)); (s35, (JString s36)); (s19, (JString s37)); (s38, (JInt 5)); (s39, (JInt 0)); (s44, (JInt 6)); (s21, (JInt 1)); (s22, (JInt 1)); (s27, (JInt 5083)); (s31, (JString s61)); (s46, (JInt 1))]);
 (JObject [(s43, (JInt 5)); (s30, (JString s14)); (s33, (JInt 0)); (s35, (JString s36)); (s19, (JString s37)); (s38, (JInt 7)); (s39, (JInt 0)); (s44, (JInt 5)); (s21, (JInt 1)); (s22, (JInt 1)); (s27, (JInt 5086)); (s31, (JString s62)); (s46, (JInt (-1)))]);
 (JObject [(s43, (JInt 4)); (s28, (JInt 4)); (s29, (JInt 2)); (s52, (JObject [(s53, (JInt 8)); (s54, (JInt 1)); (s55, (JArray [(JObject [(s56, (JInt 0)); (s30, (JString s14)); (s57, (JInt 1)); (s58, (JInt 2)); (s59, (JInt 9)); (s60, (JInt 6))]);
 (JObject [(s56, (JInt 4)); (s30, (JString s11)); (s57, (JInt 9)); (s58, (JInt 0)); (s59, (JInt 4)); (s60, (JInt 2))])]))])); (s30, (JString s14)); (s33, (JInt 1088)); (s35, (JString s36)); (s19, (JString s37)); (s38, (JInt 2)); (s39, (JInt 0)); (s44, (JInt 0)); (s21, (JInt 1)); (s22, (JInt 2)); (s27, (JInt 5087)); (s31, (JString s61)); (s46, (JInt 1))]);
 (JObject [(s43, (JInt 4)); (s28, (JInt 4)); (s29, (JInt 3)); (s52, (JObject [(s53, (JInt 7)); (s54, (JInt 6)); (s55, (JArray [(JObject [(s56, (JInt 1)); (s30, (JString s14)); (s57, (JInt 1)); (s58, (JInt 2)); (s59, (JInt 4)); (s60, (JInt 0))]);
 (JObject [(s56, (JInt 2)); (s30, (JString s11)); (s57, (JInt 4)); (s58, (JInt 0)); (s59, (JInt 9)); (s60, (JInt 6))]);
 (JObject [(s56, (JInt 6)); (s30, (JString s11)); (s57, (JInt 9)); (s58, (JInt 0)); (s59, (JInt 4)); (s60, (JInt 0))]);
 (JObject [(s56, (JInt 7)); (s30, (JString s11)); (s57, (JInt 4)); (s58, (JInt 0)); (s59, (JInt 9)); (s60, (JInt 0))]);
 (JObject [(s56, (JInt 3)); (s30, (JString s11)); (s57, (JInt 9)); (s58, (JInt 6)); (s59, (JInt 1)); (s60, (JInt 0))]);
 (JObject [(s56, (JInt 0)); (s30, (JString s11)); (s57, (JInt 1)); (s58, (JInt 0)); (s59, (JInt 9)); (s60, (JInt 6))]);
 (JObject [(s56, (JInt 4)); (s30, (JString s11)); (s57, (JInt 9)); (s58, (JInt 0)); (s59, (JInt 4)); (s60, (JInt 3))])]))])); (s30, (JString s14)); (s33, (JInt 1088)); (s35, (JString s36)); (s19, (JString s37)); (s38, (JInt 3)); (s39, (JInt 0)); (s44, (JInt 1)); (s21, (JInt 1)); (s22, (JInt 2)); (s27, (JInt 5087)); (s31, (JString s61)); (s46, (JInt 1))]);
 (JObject [(s43, (JInt 4)); (s28, (JInt 9)); (s29, (JInt 4)); (s52, (JObject [(s53, (JInt 8)); (s54, (JInt 5)); (s55, (JArray [(JObject [(s56, (JInt 2)); (s30, (JString s14)); (s57, (JInt 1)); (s58, (JInt 1)); (s59, (JInt 9)); (s60, (JInt 6))]);
 (JObject [(s56, (JInt 6)); (s30, (JString s11)); (s57, (JInt 9)); (s58, (JInt 0)); (s59, (JInt 4)); (s60, (JInt 0))]);
 (JObject [(s56, (JInt 7)); (s30, (JString s11)); (s57, (JInt 4)); (s58, (JInt 0)); (s59, (JInt 9)); (s60, (JInt 0))]);
 (JObject [(s56, (JInt 3)); (s30, (JString s11)); (s57, (JInt 9)); (s58, (JInt 6)); (s59, (JInt 1)); (s60, (JInt 0))]);
 (JObject [(s56, (JInt 0)); (s30, (JString s11)); (s57, (JInt 1)); (s58, (JInt 0)); (s59, (JInt 9)); (s60, (JInt 6))]);
 (JObject [(s56, (JInt 4)); (s30, (JString s11)); (s57, (JInt 9)); (s58, (JInt 0)); (s59, (JInt 9)); (s60, (JInt 4))])]))])); (s30, (JString s14)); (s33, (JInt 1088)); (s35, (JString s36)); (s19, (JString s37)); (s38, (JInt 6)); (s39, (JInt 0)); (s44, (JInt 2)); (s21, (JInt 1)); (s22, (JInt 1)); (s27, (JInt 5091)); (s31, (JString s61)); (s46, (JInt 1))]);
 (JObject [(s43, (JInt 4)); (s28, (JInt 4)); (s29, (JInt 0)); (s52, (JObject [(s53, (JInt 0)); (s54, (JInt 3)); (s55, (JArray [(JObject [(s56, (JInt 7)); (s30, (JString s14)); (s57, (JInt 1)); (s58, (JInt 2)); (s59, (JInt 9)); (s60, (JInt 0))]);
 (JObject [(s56, (JInt 3)); (s30, (JString s11)); (s57, (JInt 9)); (s58, (JInt 6)); (s59, (JInt 1)); (s60, (JInt 0))]);
 (JObject [(s56, (JInt 0)); (s30, (JString s11)); (s57, (JInt 1)); (s58, (JInt 0)); (s59, (JInt 9)); (s60, (JInt 6))]);
 (JObject [(s56, (JInt 4)); (s30, (JString s11)); (s57, (JInt 9)); (s58, (JInt 0)); (s59, (JInt 4)); (s60, (JInt 0))])]))])); (s30, (JString s14)); (s33, (JInt 1088)); (s35, (JString s36)); (s19, (JString s37)); (s38, (JInt 4)); (s39, (JInt 0)); (s44, (JInt 7)); (s21, (JInt 1)); (s22, (JInt 2)); (s27, (JInt 5099)); (s31, (JString s61)); (s46, (JInt 1))]);
 (JObject [(s43, (JInt 3)); (s28, (JInt 1)); (s29, (JInt 0)); (s30, (JString s14)); (s33, (JInt 32)); (s35, (JString s36)); (s19, (JString s37)); (s38, (JInt 1)); (s39, (JInt 0)); (s44, (JInt 3)); (s21, (JInt 1)); (s22, (JInt 1)); (s27, (JInt 5261)); (s31, (JString s51)); (s46, (JInt 1))]);
 (JObject [(s43, (JInt 6)); (s28, (JInt 4)); (s29, (JInt 0)); (s30, (JString s14)); (s33, (JInt 32)); (s35, (JString s36)); (s19, (JString s37)); (s38, (JInt 5)); (s39, (JInt 0)); (s44, (JInt 6)); (s21, (JInt 1)); (s22, (JInt 1)); (s27, (JInt 5274)); (s31, (JString s51)); (s46, (JInt 1))]);
 (JObject [(s43, (JInt 0)); (s28, (JInt 9)); (s29, (JInt 6)); (s30, (JString s14)); (s33, (JInt 32)); (s35, (JString s36)); (s19, (JString s37)); (s38, (JInt 2)); (s39, (JInt 0)); (s44, (JInt 0)); (s21, (JInt 1)); (s22, (JInt 2)); (s27, (JInt 5275)); (s31, (JString s51)); (s46, (JInt 1))]);
 (JObject [(s43, (JInt 1)); (s28, (JInt 4)); (s29, (JInt 0)); (s30, (JString s14)); (s33, (JInt 32)); (s35, (JString s36)); (s19, (JString s37)); (s38, (JInt 3)); (s39, (JInt 0)); (s44, (JInt 1)); (s21, (JInt 1)); (s22, (JInt 2)); (s27, (JInt 5275)); (s31, (JString s51)); (s46, (JInt 1))]);
 (JObject [(s43, (JInt 2)); (s28, (JInt 9)); (s29, (JInt 6)); (s30, (JString s14)); (s33, (JInt 32)); (s35, (JString s36)); (s19, (JString s37)); (s38, (JInt 6)); (s39, (JInt 0)); (s44, (JInt 2)); (s21, (JInt 1)); (s22, (JInt 1)); (s27, (JInt 5281)); (s31, (JString s51)); (s46, (JInt 1))]);
 (JObject [(s43, (JInt 7)); (s28, (JInt 9)); (s29, (JInt 0)); (s30, (JString s14)); (s33, (JInt 32)); (s35, (JString s36)); (s19, (JString s37)); (s38, (JInt 4)); (s39, (JInt 0)); (s44, (JInt 7)); (s21, (JInt 1)); (s22, (JInt 2)); (s27, (JInt 5290)); (s31, (JString s51)); (s46, (JInt 1))]);
 (JObject [(s43, (JInt 4)); (s28, (JInt 9)); (s29, (JInt 0)); (s30, (JString s14)); (s33, (JInt 32)); (s35, (JString s36)); (s19, (JString s37)); (s38, (JInt 8)); (s39, (JInt 0)); (s44, (JInt 4)); (s21, (JInt 1)); (s22, (JInt 1)); (s27, (JInt 5331)); (s31, (JString s51)); (s46, (JInt 1))]);
 (JObject [(s43, (JInt 5)); (s28, (JInt 9)); (s29, (JInt 0)); (s30, (JString s14)); (s33, (JInt 32)); (s35, (JString s36)); (s19, (JString s37)); (s38, (JInt 7)); (s39, (JInt 0)); (s44, (JInt 5)); (s21, (JInt 1)); (s22, (JInt 1)); (s27, (JInt 5354)); (s31, (JString s51)); (s46, (JInt 1))]);
 (JObject [(s43, (JInt 3)); (s30, (JString s14)); (s33, (JInt 0)); (s35, (JString s36)); (s19, (JString s37)); (s38, (JInt 1)); (s39, (JInt 0)); (s44, (JInt 3)); (s21, (JInt 1)); (s22, (JInt 1)); (s27, (JInt 5400)); (s31, (JString s62)); (s46, (JInt (-1)))]);
 (JObject [(s43, (JInt 0)); (s30, (JString s14)); (s33, (JInt 0)); (s35, (JString s36)); (s19, (JString s37)); (s38, (JInt 2)); (s39, (JInt 0)); (s44, (JInt 0)); (s21, (JInt 1)); (s22, (JInt 2)); (s27, (JInt 5409)); (s31, (JString s62)); (s46, (JInt (-1)))]);
 (JObject [(s43, (JInt 1)); (s30, (JString s14)); (s33, (JInt 0)); (s35, (JString s36)); (s19, (JString s37)); (s38, (JInt 3)); (s39, (JInt 0)); (s44, (JInt 1)); (s21, (JInt 1)); (s22, (JInt 2)); (s27, (JInt 5409)); (s31, (JString s62)); (s46, (JInt (-1)))]);
 (JObject [(s43, (JInt 6)); (s30, (JString s14)); (s33, (JInt 0)); (s35, (JString s36)); (s19, (JString s37)); (s38, (JInt 5)); (s39, (JInt 0)); (s44, (JInt 6)); (s21, (JInt 1)); (s22, (JInt 1)); (s27, (JInt 5409)); (s31, (JString s62)); (s46, (JInt (-1)))]);
 (JObject [(s43, (JInt 2)); (s30, (JString s14)); (s33, (JInt 0)); (s35, (JString s36)); (s19, (JString s37)); (s38, (JInt 6)); (s39, (JInt 0)); (s44, (JInt 2)); (s21, (JInt 1)); (s22, (JInt 1)); (s27, (JInt 5418)); (s31, (JString s62)); (s46, (JInt (-1)))]);
 (JObject [(s43, (JInt 4)); (s30, (JString s14)); (s33, (JInt 0)); (s35, (JString s36)); (s19, (JString s37)); (s38, (JInt 8)); (s39, (JInt 0)); (s44, (JInt 4)); (s21, (JInt 1)); (s22, (JInt 1)); (s27, (JInt 5422)); (s31, (JString s62)); (s46, (JInt (-1)))]);
 (JObject [(s43, (JInt 7)); (s30, (JString s14)); (s33, (JInt 0)); (s35, (JString s36)); (s19, (JString s37)); (s38, (JInt 4)); (s39, (JInt 0)); (s44, (JInt 7)); (s21, (JInt 1)); (s22, (JInt 2)); (s27, (JInt 5425)); (s31, (JString s62)); (s46, (JInt (-1)))]);
 (JObject [(s43, (JInt 5)); (s28, (JInt 1)); (s29, (JInt 1)); (s30, (JString s14)); (s33, (JInt 0)); (s35, (JString s36)); (s19, (JString s37)); (s38, (JInt 7)); (s39, (JInt 0)); (s44, (JInt 5)); (s21, (JInt 1)); (s22, (JInt 1)); (s27, (JInt 5527)); (s31, (JString s63)); (s46, (JInt 1))]);
 (JObject [(s43, (JInt 4)); (s28, (JInt 1)); (s29, (JInt 1)); (s30, (JString s14)); (s33, (JInt 0)); (s35, (JString s36)); (s19, (JString s37)); (s38, (JInt 8)); (s39, (JInt 0)); (s44, (JInt 4)); (s21, (JInt 1)); (s22, (JInt 1)); (s27, (JInt 5582)); (s31, (JString s63)); (s46, (JInt 1))]);
 (JObject [(s43, (JInt 3)); (s28, (JInt 9)); (s29, (JInt 10)); (s30, (JString s14)); (s33, (JInt 1088)); (s35, (JString s36)); (s19, (JString s37)); (s38, (JInt 1)); (s39, (JInt 0)); (s44, (JInt 3)); (s21, (JInt 1)); (s22, (JInt 1)); (s27, (JInt 5611)); (s31, (JString s51)); (s46, (JInt 1))]);
 (JObject [(s43, (JInt 1)); (s28, (JInt 4)); (s29, (JInt 8)); (s30, (JString s14)); (s33, (JInt 1088)); (s35, (JString s36)); (s19, (JString s37)); (s38, (JInt 3)); (s39, (JInt 0)); (s44, (JInt 1)); (s21, (JInt 1)); (s22, (JInt 2)); (s27, (JInt 5621)); (s31, (JString s51)); (s46, (JInt 1))]);
 (JObject [(s43, (JInt 0)); (s28, (JInt 4)); (s29, (JInt 3)); (s30, (JString s14)); (s33, (JInt 1088)); (s35, (JString s36)); (s19, (JString s37)); (s38, (JInt 2)); (s39, (JInt 0)); (s44, (JInt 0)); (s21, (JInt 1)); (s22, (JInt 2)); (s27, (JInt 5625)); (s31, (JString s51)); (s46, (JInt 1))]);
 (JObject [(s43, (JInt 6)); (s28, (JInt 4)); (s29, (JInt 4)); (s30, (JString s14)); (s33, (JInt 1088)); (s35, (JString s36)); (s19, (JString s37)); (s38, (JInt 5)); (s39, (JInt 0)); (s44, (JInt 6)); (s21, (JInt 1)); (s22, (JInt 1)); (s27, (JInt 5627)); (s31, (JString s51)); (s46, (JInt 1))]);
 (JObject [(s43, (JInt 2)); (s28, (JInt 4)); (s29, (JInt 10)); (s30, (JString s14)); (s33, (JInt 1088)); (s35, (JString s36)); (s19, (JString s37)); (s38, (JInt 6)); (s39, (JInt 0)); (s44, (JInt 2)); (s21, (JInt 1)); (s22, (JInt 1)); (s27, (JInt 5630)); (s31, (JString s51)); (s46, (JInt 1))]);
 (JObject [(s43, (JInt 7)); (s28, (JInt 4)); (s29, (JInt 9)); (s30, (JString s14)); (s33, (JInt 1088)); (s35, (JString s36)); (s19, (JString s37)); (s38, (JInt 4)); (s39, (JInt 0)); (s44, (JInt 7)); (s21, (JInt 1)); (s22, (JInt 2)); (s27, (JInt 5634)); (s31, (JString s51)); (s46, (JInt 1))]);
 (JObject [(s43, (JInt 5)); (s28, (JInt 4)); (s29, (JInt 8)); (s52, (JObject [(s53, (JInt 8)); (s54, (JInt 1)); (s55, (JArray [(JObject [(s56, (JInt 1)); (s30, (JString s14)); (s57, (JInt 1)); (s58, (JInt 2)); (s59, (JInt 9)); (s60, (JInt 6))]);
 (JObject [(s56, (JInt 5)); (s30, (JString s11)); (s57, (JInt 9)); (s58, (JInt 0)); (s59, (JInt 4)); (s60, (JInt 8))])]))])); (s30, (JString s14)); (s33, (JInt 1088)); (s35, (JString s36)); (s19, (JString s37)); (s38, (JInt 3)); (s39, (JInt 0)); (s44, (JInt 1)); (s21, (JInt 1)); (s22, (JInt 2)); (s27, (JInt 5813)); (s31, (JString s61)); (s46, (JInt 1))]);
 (JObject [(s43, (JInt 5)); (s28, (JInt 9)); (s29, (JInt 10)); (s52, (JObject [(s53, (JInt 8)); (s54, (JInt 5)); (s55, (JArray [(JObject [(s56, (JInt 3)); (s30, (JString s14)); (s57, (JInt 1)); (s58, (JInt 1)); (s59, (JInt 9)); (s60, (JInt 6))]);
 (JObject [(s56, (JInt 7)); (s30, (JString s11)); (s57, (JInt 9)); (s58, (JInt 0)); (s59, (JInt 4)); (s60, (JInt 0))]);
 (JObject [(s56, (JInt 6)); (s30, (JString s11)); (s57, (JInt 4)); (s58, (JInt 0)); (s59, (JInt 9)); (s60, (JInt 0))]);
 (JObject [(s56, (JInt 2)); (s30, (JString s11)); (s57, (JInt 9)); (s58, (JInt 6)); (s59, (JInt 4)); (s60, (JInt 0))]);
 (JObject [(s56, (JInt 1)); (s30, (JString s11)); (s57, (JInt 4)); (s58, (JInt 0)); (s59, (JInt 9)); (s60, (JInt 6))]);
 (JObject [(s56, (JInt 5)); (s30, (JString s11)); (s57, (JInt 9)); (s58, (JInt 0)); (s59, (JInt 9)); (s60, (JInt 10))])]))])); (s30, (JString s14)); (s33, (JInt 1088)); (s35, (JString s36)); (s19, (JString s37)); (s38, (JInt 1)); (s39, (JInt 0)); (s44, (JInt 3)); (s21, (JInt 1)); (s22, (JInt 1)); (s27, (JInt 5814)); (s31, (JString s61)); (s46, (JInt 1))]);
 (JObject [(s43, (JInt 5)); (s28, (JInt 4)); (s29, (JInt 4)); (s52, (JObject [(s53, (JInt 0)); (s54, (JInt 3)); (s55, (JArray [(JObject [(s56, (JInt 6)); (s30, (JString s14)); (s57, (JInt 1)); (s58, (JInt 1)); (s59, (JInt 9)); (s60, (JInt 0))]);
 (JObject [(s56, (JInt 2)); (s30, (JString s11)); (s57, (JInt 9)); (s58, (JInt 6)); (s59, (JInt 4)); (s60, (JInt 0))]);
 (JObject [(s56, (JInt 1)); (s30, (JString s11)); (s57, (JInt 4)); (s58, (JInt 0)); (s59, (JInt 9)); (s60, (JInt 6))]);
 (JObject [(s56, (JInt 5)); (s30, (JString s11)); (s57, (JInt 9)); (s58, (JInt 0)); (s59, (JInt 4)); (s60, (JInt 4))])]))])); (s30, (JString s14)); (s33, (JInt 1088)); (s35, (JString s36)); (s19, (JString s37)); (s38, (JInt 5)); (s39, (JInt 0)); (s44, (JInt 6)); (s21, (JInt 1)); (s22, (JInt 1)); (s27, (JInt 5826)); (s31, (JString s61)); (s46, (JInt 1))]);
 (JObject [(s43, (JInt 5)); (s28, (JInt 4)); (s29, (JInt 3)); (s52, (JObject [(s53, (JInt 1)); (s54, (JInt 6)); (s55, (JArray [(JObject [(s56, (JInt 0)); (s30, (JString s14)); (s57, (JInt 1)); (s58, (JInt 2)); (s59, (JInt 1)); (s60, (JInt 0))]);
 (JObject [(s56, (JInt 3)); (s30, (JString s11)); (s57, (JInt 1)); (s58, (JInt 0)); (s59, (JInt 9)); (s60, (JInt 6))]);
 (JObject [(s56, (JInt 7)); (s30, (JString s11)); (s57, (JInt 9)); (s58, (JInt 0)); (s59, (JInt 4)); (s60, (JInt 0))]);
 (JObject [(s56, (JInt 6)); (s30, (JString s11)); (s57, (JInt 4)); (s58, (JInt 0)); (s59, (JInt 9)); (s60, (JInt 0))]);
 (JObject [(s56, (JInt 2)); (s30, (JString s11)); (s57, (JInt 9)); (s58, (JInt 6)); (s59, (JInt 4)); (s60, (JInt 0))]);
 (JObject [(s56, (JInt 1)); (s30, (JString s11)); (s57, (JInt 4)); (s58, (JInt 0)); (s59, (JInt 9)); (s60, (JInt 6))]);
 (JObject [(s56, (JInt 5)); (s30, (JString s11)); (s57, (JInt 9)); (s58, (JInt 0)); (s59, (JInt 4)); (s60, (JInt 3))])]))])); (s30, (JString s14)); (s33, (JInt 1088)); (s35, (JString s36)); (s19, (JString s37)); (s38, (JInt 2)); (s39, (JInt 0)); (s44, (JInt 0)); (s21, (JInt 1)); (s22, (JInt 2)); (s27, (JInt 5837)); (s31, (JString s61)); (s46, (JInt 1))]);
 (JObject [(s43, (JInt 5)); (s28, (JInt 4)); (s29, (JInt 10)); (s52, (JObject [(s53, (JInt 7)); (s54, (JInt 2)); (s55, (JArray [(JObject [(s56, (JInt 2)); (s30, (JString s14)); (s57, (JInt 1)); (s58, (JInt 1)); (s59, (JInt 4)); (s60, (JInt 0))]);
 (JObject [(s56, (JInt 1)); (s30, (JString s11)); (s57, (JInt 4)); (s58, (JInt 0)); (s59, (JInt 9)); (s60, (JInt 6))]);
 (JObject [(s56, (JInt 5)); (s30, (JString s11)); (s57, (JInt 9)); (s58, (JInt 0)); (s59, (JInt 4)); (s60, (JInt 10))])]))])); (s30, (JString s14)); (s33, (JInt 1088)); (s35, (JString s36)); (s19, (JString s37)); (s38, (JInt 6)); (s39, (JInt 0)); (s44, (JInt 2)); (s21, (JInt 1)); (s22, (JInt 1)); (s27, (JInt 5838)); (s31, (JString s61)); (s46, (JInt 1))]);
 (JObject [(s43, (JInt 5)); (s28, (JInt 4)); (s29, (JInt 9)); (s52, (JObject [(s53, (JInt 7)); (s54, (JInt 4)); (s55, (JArray [(JObject [(s56, (JInt 7)); (s30, (JString s14)); (s57, (JInt 1)); (s58, (JInt 2)); (s59, (JInt 4)); (s60, (JInt 0))]);
 (JObject [(s56, (JInt 6)); (s30, (JString s11)); (s57, (JInt 4)); (s58, (JInt 0)); (s59, (JInt 9)); (s60, (JInt 0))]);
 (JObject [(s56, (JInt 2)); (s30, (JString s11)); (s57, (JInt 9)); (s58, (JInt 6)); (s59, (JInt 4)); (s60, (JInt 0))]);
 (JObject [(s56, (JInt 1)); (s30, (JString s11)); (s57, (JInt 4)); (s58, (JInt 0)); (s59, (JInt 9)); (s60, (JInt 6))]);
 (JObject [(s56, (JInt 5)); (s30, (JString s11)); (s57, (JInt 9)); (s58, (JInt 0)); (s59, (JInt 4)); (s60, (JInt 9))])]))])); (s30, (JString s14)); (s33, (JInt 1088)); (s35, (JString s36)); (s19, (JString s37)); (s38, (JInt 4)); (s39, (JInt 0)); (s44, (JInt 7)); (s21, (JInt 1)); (s22, (JInt 2)); (s27, (JInt 5839)); (s31, (JString s61)); (s46, (JInt 1))]);
 (JObject [(s43, (JInt 1)); (s28, (JInt 9)); (s29, (JInt 6)); (s30, (JString s14)); (s33, (JInt 32)); (s35, (JString s36)); (s19, (JString s37)); (s38, (JInt 3)); (s39, (JInt 0)); (s44, (JInt 1)); (s21, (JInt 1)); (s22, (JInt 2)); (s27, (JInt 6007)); (s31, (JString s51)); (s46, (JInt 1))]);
 (JObject [(s43, (JInt 3)); (s28, (JInt 9)); (s29, (JInt 6)); (s30, (JString s14)); (s33, (JInt 32)); (s35, (JString s36)); (s19, (JString s37)); (s38, (JInt 1)); (s39, (JInt 0)); (s44, (JInt 3)); (s21, (JInt 1)); (s22, (JInt 1)); (s27, (JInt 6008)); (s31, (JString s51)); (s46, (JInt 1))]);
 (JObject [(s43, (JInt 6)); (s28, (JInt 9)); (s29, (JInt 0)); (s30, (JString s14)); (s33, (JInt 32)); (s35, (JString s36)); (s19, (JString s37)); (s38, (JInt 5)); (s39, (JInt 0)); (s44, (JInt 6)); (s21, (JInt 1)); (s22, (JInt 1)); (s27, (JInt 6020)); (s31, (JString s51)); (s46, (JInt 1))]);
 (JObject [(s43, (JInt 0)); (s28, (JInt 1)); (s29, (JInt 0)); (s30, (JString s14)); (s33, (JInt 32)); (s35, (JString s36)); (s19, (JString s37)); (s38, (JInt 2)); (s39, (JInt 0)); (s44, (JInt 0)); (s21, (JInt 1)); (s22, (JInt 2)); (s27, (JInt 6031)); (s31, (JString s51)); (s46, (JInt 1))]);
 (JObject [(s43, (JInt 2)); (s28, (JInt 4)); (s29, (JInt 0)); (s30, (JString s14)); (s33, (JInt 32)); (s35, (JString s36)); (s19, (JString s37)); (s38, (JInt 6)); (s39, (JInt 0)); (s44, (JInt 2)); (s21, (JInt 1)); (s22, (JInt 1)); (s27, (JInt 6032)); (s31, (JString s51)); (s46, (JInt 1))]);
 (JObject [(s43, (JInt 7)); (s28, (JInt 4)); (s29, (JInt 0)); (s30, (JString s14)); (s33, (JInt 32)); (s35, (JString s36)); (s19, (JString s37)); (s38, (JInt 4)); (s39, (JInt 0)); (s44, (JInt 7)); (s21, (JInt 1)); (s22, (JInt 2)); (s27, (JInt 6038)); (s31, (JString s51)); (s46, (JInt 1))]);
 (JObject [(s43, (JInt 4)); (s28, (JInt 9)); (s29, (JInt 10)); (s52, (JObject [(s53, (JInt 1)); (s54, (JInt 2)); (s55, (JArray [(JObject [(s56, (JInt 3)); (s30, (JString s14)); (s57, (JInt 1)); (s58, (JInt 1)); (s59, (JInt 1)); (s60, (JInt 0))]);
 (JObject [(s56, (JInt 0)); (s30, (JString s11)); (s57, (JInt 1)); (s58, (JInt 0)); (s59, (JInt 9)); (s60, (JInt 6))]);
 (JObject [(s56, (JInt 4)); (s30, (JString s11)); (s57, (JInt 9)); (s58, (JInt 0)); (s59, (JInt 9)); (s60, (JInt 10))])]))])); (s30, (JString s14)); (s33, (JInt 1088)); (s35, (JString s36)); (s19, (JString s37)); (s38, (JInt 1)); (s39, (JInt 0)); (s44, (JInt 3)); (s21, (JInt 1)); (s22, (JInt 1)); (s27, (JInt 6230)); (s31, (JString s61)); (s46, (JInt 1))]);
 (JObject [(s43, (JInt 4)); (s28, (JInt 4)); (s29, (JInt 8)); (s52, (JObject [(s53, (JInt 7)); (s54, (JInt 6)); (s55, (JArray [(JObject [(s56, (JInt 1)); (s30, (JString s14)); (s57, (JInt 1)); (s58, (JInt 2)); (s59, (JInt 4)); (s60, (JInt 0))]);
 (JObject [(s56, (JInt 2)); (s30, (JString s11)); (s57, (JInt 4)); (s58, (JInt 0)); (s59, (JInt 9)); (s60, (JInt 6))]);
 (JObject [(s56, (JInt 6)); (s30, (JString s11)); (s57, (JInt 9)); (s58, (JInt 0)); (s59, (JInt 4)); (s60, (JInt 0))]);
 (JObject [(s56, (JInt 7)); (s30, (JString s11)); (s57, (JInt 4)); (s58, (JInt 0)); (s59, (JInt 9)); (s60, (JInt 0))]);
 (JObject [(s56, (JInt 3)); (s30, (JString s11)); (s57, (JInt 9)); (s58, (JInt 6)); (s59, (JInt 1)); (s60, (JInt 0))]);
 (JObject [(s56, (JInt 0)); (s30, (JString s11)); (s57, (JInt 1)); (s58, (JInt 0)); (s59, (JInt 9)); (s60, (JInt 6))]);
 (JObject [(s56, (JInt 4)); (s30, (JString s11)); (s57, (JInt 9)); (s58, (JInt 0)); (s59, (JInt 4)); (s60, (JInt 8))])]))])); (s30, (JString s14)); (s33, (JInt 1088)); (s35, (JString s36)); (s19, (JString s37)); (s38, (JInt 3)); (s39, (JInt 0)); (s44, (JInt 1)); (s21, (JInt 1)); (s22, (JInt 2)); (s27, (JInt 6241)); (s31, (JString s61)); (s46, (JInt 1))]);
 (JObject [(s43, (JInt 4)); (s28, (JInt 4)); (s29, (JInt 3)); (s52, (JObject [(s53, (JInt 8)); (s54, (JInt 1)); (s55, (JArray [(JObject [(s56, (JInt 0)); (s30, (JString s14)); (s57, (JInt 1)); (s58, (JInt 2)); (s59, (JInt 9)); (s60, (JInt 6))]);
 (JObject [(s56, (JInt 4)); (s30, (JString s11)); (s57, (JInt 9)); (s58, (JInt 0)); (s59, (JInt 4)); (s60, (JInt 3))])]))])); (s30, (JString s14)); (s33, (JInt 1088)); (s35, (JString s36)); (s19, (JString s37)); (s38, (JInt 2)); (s39, (JInt 0)); (s44, (JInt 0)); (s21, (JInt 1)); (s22, (JInt 2)); (s27, (JInt 6245)); (s31, (JString s61)); (s46, (JInt 1))]);
 (JObject [(s43, (JInt 4)); (s28, (JInt 4)); (s29, (JInt 4)); (s52, (JObject [(s53, (JInt 7)); (s54, (JInt 4)); (s55, (JArray [(JObject [(s56, (JInt 6)); (s30, (JString s14)); (s57, (JInt 1)); (s58, (JInt 1)); (s59, (JInt 4)); (s60, (JInt 0))]);
 (JObject [(s56, (JInt 7)); (s30, (JString s11)); (s57, (JInt 4)); (s58, (JInt 0)); (s59, (JInt 9)); (s60, (JInt 0))]);
 (JObject [(s56, (JInt 3)); (s30, (JString s11)); (s57, (JInt 9)); (s58, (JInt 6)); (s59, (JInt 1)); (s60, (JInt 0))]);
 (JObject [(s56, (JInt 0)); (s30, (JString s11)); (s57, (JInt 1)); (s58, (JInt 0)); (s59, (JInt 9)); (s60, (JInt 6))]);
 (JObject [(s56, (JInt 4)); (s30, (JString s11)); (s57, (JInt 9)); (s58, (JInt 0)); (s59, (JInt 4)); (s60, (JInt 4))])]))])); (s30, (JString s14)); (s33, (JInt 1088)); (s35, (JString s36)); (s19, (JString s37)); (s38, (JInt 5)); (s39, (JInt 0)); (s44, (JInt 6)); (s21, (JInt 1)); (s22, (JInt 1)); (s27, (JInt 6251)); (s31, (JString s61)); (s46, (JInt 1))]);
 (JObject [(s43, (JInt 4)); (s28, (JInt 4)); (s29, (JInt 10)); (s52, (JObject [(s53, (JInt 8)); (s54, (JInt 5)); (s55, (JArray [(JObject [(s56, (JInt 2)); (s30, (JString s14)); (s57, (JInt 1)); (s58, (JInt 1)); (s59, (JInt 9)); (s60, (JInt 6))]);
 (JObject [(s56, (JInt 6)); (s30, (JString s11)); (s57, (JInt 9)); (s58, (JInt 0)); (s59, (JInt 4)); (s60, (JInt 0))]);
 (JObject [(s56, (JInt 7)); (s30, (JString s11)); (s57, (JInt 4)); (s58, (JInt 0)); (s59, (JInt 9)); (s60, (JInt 0))]);
 (JObject [(s56, (JInt 3)); (s30, (JString s11)); (s57, (JInt 9)); (s58, (JInt 6)); (s59, (JInt 1)); (s60, (JInt 0))]);
 (JObject [(s56, (JInt 0)); (s30, (JString s11)); (s57, (JInt 1)); (s58, (JInt 0)); (s59, (JInt 9)); (s60, (JInt 6))]);
 (JObject [(s56, (JInt 4)); (s30, (JString s11)); (s57, (JInt 9)); (s58, (JInt 0)); (s59, (JInt 4)); (s60, (JInt 10))])]))])); (s30, (JString s14)); (s33, (JInt 1088)); (s35, (JString s36)); (s19, (JString s37)); (s38, (JInt 6)); (s39, (JInt 0)); (s44, (JInt 2)); (s21, (JInt 1)); (s22, (JInt 1)); (s27, (JInt 6262)); (s31, (JString s61)); (s46, (JInt 1))]);
 (JObject [(s43, (JInt 4)); (s28, (JInt 4)); (s29, (JInt 9)); (s52, (JObject [(s53, (JInt 0)); (s54, (JInt 3)); (s55, (JArray [(JObject [(s56, (JInt 7)); (s30, (JString s14)); (s57, (JInt 1)); (s58, (JInt 2)); (s59, (JInt 9)); (s60, (JInt 0))]);
 (JObject [(s56, (JInt 3)); (s30, (JString s11)); (s57, (JInt 9)); (s58, (JInt 6)); (s59, (JInt 1)); (s60, (JInt 0))]);
 (JObject [(s56, (JInt 0)); (s30, (JString s11)); (s57, (JInt 1)); (s58, (JInt 0)); (s59, (JInt 9)); (s60, (JInt 6))]);
 (JObject [(s56, (JInt 4)); (s30, (JString s11)); (s57, (JInt 9)); (s58, (JInt 0)); (s59, (JInt 4)); (s60, (JInt 9))])]))])); (s30, (JString s14)); (s33, (JInt 1088)); (s35, (JString s36)); (s19, (JString s37)); (s38, (JInt 4)); (s39, (JInt 0)); (s44, (JInt 7)); (s21, (JInt 1)); (s22, (JInt 2)); (s27, (JInt 6264)); (s31, (JString s61)); (s46, (JInt 1))]);
 (JObject [(s43, (JInt 3)); (s28, (JInt 1)); (s29, (JInt 0)); (s30, (JString s14)); (s33, (JInt 32)); (s35, (JString s36)); (s19, (JString s37)); (s38, (JInt 1)); (s39, (JInt 0)); (s44, (JInt 3)); (s21, (JInt 1)); (s22, (JInt 1)); (s27, (JInt 6419)); (s31, (JString s51)); (s46, (JInt 1))]);
 (JObject [(s43, (JInt 1)); (s28, (JInt 4)); (s29, (JInt 0)); (s30, (JString s14)); (s33, (JInt 32)); (s35, (JString s36)); (s19, (JString s37)); (s38, (JInt 3)); (s39, (JInt 0)); (s44, (JInt 1)); (s21, (JInt 1)); (s22, (JInt 2)); (s27, (JInt 6432)); (s31, (JString s51)); (s46, (JInt 1))]);
 (JObject [(s43, (JInt 0)); (s28, (JInt 9)); (s29, (JInt 6)); (s30, (JString s14)); (s33, (JInt 32)); (s35, (JString s36)); (s19, (JString s37)); (s38, (JInt 2)); (s39, (JInt 0)); (s44, (JInt 0)); (s21, (JInt 1)); (s22, (JInt 2)); (s27, (JInt 6435)); (s31, (JString s51)); (s46, (JInt 1))]);
 (JObject [(s43, (JInt 6)); (s28, (JInt 4)); (s29, (JInt 0)); (s30, (JString s14)); (s33, (JInt 32)); (s35, (JString s36)); (s19, (JString s37)); (s38, (JInt 5)); (s39, (JInt 0)); (s44, (JInt 6)); (s21, (JInt 1)); (s22, (JInt 1)); (s27, (JInt 6439)); (s31, (JString s51)); (s46, (JInt 1))]);
 (JObject [(s43, (JInt 7)); (s28, (JInt 9)); (s29, (JInt 0)); (s30, (JString s14)); (s33, (JInt 32)); (s35, (JString s36)); (s19, (JString s37)); (s38, (JInt 4)); (s39, (JInt 0)); (s44, (JInt 7)); (s21, (JInt 1)); (s22, (JInt 2)); (s27, (JInt 6453)); (s31, (JString s51)); (s46, (JInt 1))]);
 (JObject [(s43, (JInt 2)); (s28, (JInt 9)); (s29, (JInt 6)); (s30, (JString s14)); (s33, (JInt 32)); (s35, (JString s36)); (s19, (JString s37)); (s38, (JInt 6)); (s39, (JInt 0)); (s44, (JInt 2)); (s21, (JInt 1)); (s22, (JInt 1)); (s27, (JInt 6455)); (s31, (JString s51)); (s46, (JInt 1))]);
 (JObject [(s43, (JInt 3)); (s30, (JString s14)); (s33, (JInt 0)); (s35, (JString s36)); (s19, (JString s37)); (s38, (JInt 1)); (s39, (JInt 0)); (s44, (JInt 3)); (s21, (JInt 1)); (s22, (JInt 1)); (s27, (JInt 6556)); (s31, (JString s62)); (s46, (JInt (-1)))]);
 (JObject [(s43, (JInt 1)); (s30, (JString s14)); (s33, (JInt 0)); (s35, (JString s36)); (s19, (JString s37)); (s38, (JInt 3)); (s39, (JInt 0)); (s44, (JInt 1)); (s21, (JInt 1)); (s22, (JInt 2)); (s27, (JInt 6569)); (s31, (JString s62)); (s46, (JInt (-1)))]);
 (JObject [(s43, (JInt 0)); (s30, (JString s14)); (s33, (JInt 0)); (s35, (JString s36)); (s19, (JString s37)); (s38, (JInt 2)); (s39, (JInt 0)); (s44, (JInt 0)); (s21, (JInt 1)); (s22, (JInt 2)); (s27, (JInt 6571)); (s31, (JString s62)); (s46, (JInt (-1)))]);
 (JObject [(s43, (JInt 6)); (s30, (JString s14)); (s33, (JInt 0)); (s35, (JString s36)); (s19, (JString s37)); (s38, (JInt 5)); (s39, (JInt 0)); (s44, (JInt 6)); (s21, (JInt 1)); (s22, (JInt 1)); (s27, (JInt 6576)); (s31, (JString s62)); (s46, (JInt (-1)))]);
 (JObject [(s43, (JInt 7)); (s30, (JString s14)); (s33, (JInt 0)); (s35, (JString s36)); (s19, (JString s37)); (s38, (JInt 4)); (s39, (JInt 0)); (s44, (JInt 7)); (s21, (JInt 1)); (s22, (JInt 2)); (s27, (JInt 6588)); (s31, (JString s62)); (s46, (JInt (-1)))]);
 (JObject [(s43, (JInt 2)); (s30, (JString s14)); (s33, (JInt 0)); (s35, (JString s36)); (s19, (JString s37)); (s38, (JInt 6)); (s39, (JInt 0)); (s44, (JInt 2)); (s21, (JInt 1)); (s22, (JInt 1)); (s27, (JInt 6590)); (s31, (JString s62)); (s46, (JInt (-1)))]);
 (JObject [(s43, (JInt 3)); (s28, (JInt 9)); (s29, (JInt 6)); (s30, (JString s14)); (s33, (JInt 1088)); (s35, (JString s36)); (s19, (JString s37)); (s38, (JInt 1)); (s39, (JInt 0)); (s44, (JInt 3)); (s21, (JInt 1)); (s22, (JInt 1)); (s27, (JInt 6857)); (s31, (JString s51)); (s46, (JInt 1))]);
 (JObject [(s43, (JInt 1)); (s28, (JInt 4)); (s29, (JInt 6)); (s30, (JString s14)); (s33, (JInt 1088)); (s35, (JString s36)); (s19, (JString s37)); (s38, (JInt 3)); (s39, (JInt 0)); (s44, (JInt 1)); (s21, (JInt 1)); (s22, (JInt 2)); (s27, (JInt 6873)); (s31, (JString s51)); (s46, (JInt 1))]);
 (JObject [(s43, (JInt 0)); (s28, (JInt 4)); (s29, (JInt 8)); (s30, (JString s14)); (s33, (JInt 1088)); (s35, (JString s36)); (s19, (JString s37)); (s38, (JInt 2)); (s39, (JInt 0)); (s44, (JInt 0)); (s21, (JInt 1)); (s22, (JInt 2)); (s27, (JInt 6874)); (s31, (JString s51)); (s46, (JInt 1))]);
 (JObject [(s43, (JInt 6)); (s28, (JInt 9)); (s29, (JInt 0)); (s30, (JString s14)); (s33, (JInt 1088)); (s35, (JString s36)); (s19, (JString s37)); (s38, (JInt 5)); (s39, (JInt 0)); (s44, (JInt 6)); (s21, (JInt 1)); (s22, (JInt 1)); (s27, (JInt 6884)); (s31, (JString s51)); (s46, (JInt 1))]);
 (JObject [(s43, (JInt 2)); (s28, (JInt 4)); (s29, (JInt 0)); (s30, (JString s14)); (s33, (JInt 1088)); (s35, (JString s36)); (s19, (JString s37)); (s38, (JInt 6)); (s39, (JInt 0)); (s44, (JInt 2)); (s21, (JInt 1)); (s22, (JInt 1)); (s27, (JInt 6898)); (s31, (JString s51)); (s46, (JInt 1))]);
 (JObject [(s43, (JInt 7)); (s28, (JInt 4)); (s29, (JInt 2)); (s30, (JString s14)); (s33, (JInt 1088)); (s35, (JString s36)); (s19, (JString s37)); (s38, (JInt 4)); (s39, (JInt 0)); (s44, (JInt 7)); (s21, (JInt 1)); (s22, (JInt 2)); (s27, (JInt 6899)); (s31, (JString s51)); (s46, (JInt 1))]);
 (JObject [(s43, (JInt 5)); (s28, (JInt 4)); (s29, (JInt 6)); (s52, (JObject [(s53, (JInt 8)); (s54, (JInt 1)); (s55, (JArray [(JObject [(s56, (JInt 1)); (s30, (JString s14)); (s57, (JInt 1)); (s58, (JInt 2)); (s59, (JInt 9)); (s60, (JInt 6))]);
 (JObject [(s56, (JInt 5)); (s30, (JString s11)); (s57, (JInt 9)); (s58, (JInt 0)); (s59, (JInt 4)); (s60, (JInt 6))])]))])); (s30, (JString s14)); (s33, (JInt 1088)); (s35, (JString s36)); (s19, (JString s37)); (s38, (JInt 3)); (s39, (JInt 0)); (s44, (JInt 1)); (s21, (JInt 1)); (s22, (JInt 2)); (s27, (JInt 7052)); (s31, (JString s61)); (s46, (JInt 1))]);
 (JObject [(s43, (JInt 5)); (s28, (JInt 9)); (s29, (JInt 6)); (s52, (JObject [(s53, (JInt 8)); (s54, (JInt 5)); (s55, (JArray [(JObject [(s56, (JInt 3)); (s30, (JString s14)); (s57, (JInt 1)); (s58, (JInt 1)); (s59, (JInt 9)); (s60, (JInt 6))]);
 (JObject [(s56, (JInt 7)); (s30, (JString s11)); (s57, (JInt 9)); (s58, (JInt 0)); (s59, (JInt 4)); (s60, (JInt 0))]);
 (JObject [(s56, (JInt 6)); (s30, (JString s11)); (s57, (JInt 4)); (s58, (JInt 0)); (s59, (JInt 9)); (s60, (JInt 0))]);
 (JObject [(s56, (JInt 2)); (s30, (JString s11)); (s57, (JInt 9)); (s58, (JInt 6)); (s59, (JInt 4)); (s60, (JInt 0))]);
 (JObject [(s56, (JInt 1)); (s30, (JString s11)); (s57, (JInt 4)); (s58, (JInt 0)); (s59, (JInt 9)); (s60, (JInt 6))]);
 (JObject [(s56, (JInt 5)); (s30, (JString s11)); (s57, (JInt 9)); (s58, (JInt 0)); (s59, (JInt 9)); (s60, (JInt 6))])]))])); (s30, (JString s14)); (s33, (JInt 1088)); (s35, (JString s36)); (s19, (JString s37)); (s38, (JInt 1)); (s39, (JInt 0)); (s44, (JInt 3)); (s21, (JInt 1)); (s22, (JInt 1)); (s27, (JInt 7052)); (s31, (JString s61)); (s46, (JInt 1))]);
 (JObject [(s43, (JInt 5)); (s28, (JInt 4)); (s29, (JInt 8)); (s52, (JObject [(s53, (JInt 1)); (s54, (JInt 6)); (s55, (JArray [(JObject [(s56, (JInt 0)); (s30, (JString s14)); (s57, (JInt 1)); (s58, (JInt 2)); (s59, (JInt 1)); (s60, (JInt 0))]);
 (JObject [(s56, (JInt 3)); (s30, (JString s11)); (s57, (JInt 1)); (s58, (JInt 0)); (s59, (JInt 9)); (s60, (JInt 6))]);
 (JObject [(s56, (JInt 7)); (s30, (JString s11)); (s57, (JInt 9)); (s58, (JInt 0)); (s59, (JInt 4)); (s60, (JInt 0))]);
 (JObject [(s56, (JInt 6)); (s30, (JString s11)); (s57, (JInt 4)); (s58, (JInt 0)); (s59, (JInt 9)); (s60, (JInt 0))]);
 (JObject [(s56, (JInt 2)); (s30, (JString s11)); (s57, (JInt 9)); (s58, (JInt 6)); (s59, (JInt 4)); (s60, (JInt 0))]);
 (JObject [(s56, (JInt 1)); (s30, (JString s11)); (s57, (JInt 4)); (s58, (JInt 0)); (s59, (JInt 9)); (s60, (JInt 6))]);
 (JObject [(s56, (JInt 5)); (s30, (JString s11)); (s57, (JInt 9)); (s58, (JInt 0)); (s59, (JInt 4)); (s60, (JInt 8))])]))])); (s30, (JString s14)); (s33, (JInt 1088)); (s35, (JString s36)); (s19, (JString s37)); (s38, (JInt 2)); (s39, (JInt 0)); (s44, (JInt 0)); (s21, (JInt 1)); (s22, (JInt 2)); (s27, (JInt 7080)); (s31, (JString s61)); (s46, (JInt 1))]);
 (JObject [(s43, (JInt 5)); (s28, (JInt 9)); (s29, (JInt 0)); (s52, (JObject [(s53, (JInt 0)); (s54, (JInt 3)); (s55, (JArray [(JObject [(s56, (JInt 6)); (s30, (JString s14)); (s57, (JInt 1)); (s58, (JInt 1)); (s59, (JInt 9)); (s60, (JInt 0))]);
 (JObject [(s56, (JInt 2)); (s30, (JString s11)); (s57, (JInt 9)); (s58, (JInt 6)); (s59, (JInt 4)); (s60, (JInt 0))]);
 (JObject [(s56, (JInt 1)); (s30, (JString s11)); (s57, (JInt 4)); (s58, (JInt 0)); (s59, (JInt 9)); (s60, (JInt 6))]);
 (JObject [(s56, (JInt 5)); (s30, (JString s11)); (s57, (JInt 9)); (s58, (JInt 0)); (s59, (JInt 9)); (s60, (JInt 0))])]))])); (s30, (JString s14)); (s33, (JInt 1088)); (s35, (JString s36)); (s19, (JString s37)); (s38, (JInt 5)); (s39, (JInt 0)); (s44, (JInt 6)); (s21, (JInt 1)); (s22, (JInt 1)); (s27, (JInt 7085)); (s31, (JString s61)); (s46, (JInt 1))]);
 (JObject [(s43, (JInt 5)); (s28, (JInt 4)); (s29, (JInt 0)); (s52, (JObject [(s53, (JInt 7)); (s54, (JInt 2)); (s55, (JArray [(JObject [(s56, (JInt 2)); (s30, (JString s14)); (s57, (JInt 1)); (s58, (JInt 1)); (s59, (JInt 4)); (s60, (JInt 0))]);
 (JObject [(s56, (JInt 1)); (s30, (JString s11)); (s57, (JInt 4)); (s58, (JInt 0)); (s59, (JInt 9)); (s60, (JInt 6))]);
 (JObject [(s56, (JInt 5)); (s30, (JString s11)); (s57, (JInt 9)); (s58, (JInt 0)); (s59, (JInt 4)); (s60, (JInt 0))])]))])); (s30, (JString s14)); (s33, (JInt 1088)); (s35, (JString s36)); (s19, (JString s37)); (s38, (JInt 6)); (s39, (JInt 0)); (s44, (JInt 2)); (s21, (JInt 1)); (s22, (JInt 1)); (s27, (JInt 7091)); (s31, (JString s61)); (s46, (JInt 1))]);
 (JObject [(s43, (JInt 5)); (s28, (JInt 4)); (s29, (JInt 2)); (s52, (JObject [(s53, (JInt 7)); (s54, (JInt 4)); (s55, (JArray [(JObject [(s56, (JInt 7)); (s30, (JString s14)); (s57, (JInt 1)); (s58, (JInt 2)); (s59, (JInt 4)); (s60, (JInt 0))]);
 (JObject [(s56, (JInt 6)); (s30, (JString s11)); (s57, (JInt 4)); (s58, (JInt 0)); (s59, (JInt 9)); (s60, (JInt 0))]);
 (JObject [(s56, (JInt 2)); (s30, (JString s11)); (s57, (JInt 9)); (s58, (JInt 6)); (s59, (JInt 4)); (s60, (JInt 0))]);
 (JObject [(s56, (JInt 1)); (s30, (JString s11)); (s57, (JInt 4)); (s58, (JInt 0)); (s59, (JInt 9)); (s60, (JInt 6))]);
 (JObject [(s56, (JInt 5)); (s30, (JString s11)); (s57, (JInt 9)); (s58, (JInt 0)); (s59, (JInt 4)); (s60, (JInt 2))])]))])); (s30, (JString s14)); (s33, (JInt 1088)); (s35, (JString s36)); (s19, (JString s37)); (s38, (JInt 4)); (s39, (JInt 0)); (s44, (JInt 7)); (s21, (JInt 1)); (s22, (JInt 2)); (s27, (JInt 7102)); (s31, (JString s61)); (s46, (JInt 1))]);
 (JObject [(s43, (JInt 3)); (s28, (JInt 9)); (s29, (JInt 6)); (s30, (JString s14)); (s33, (JInt 32)); (s35, (JString s36)); (s19, (JString s37)); (s38, (JInt 1)); (s39, (JInt 0)); (s44, (JInt 3)); (s21, (JInt 1)); (s22, (JInt 1)); (s27, (JInt 7248)); (s31, (JString s51)); (s46, (JInt 1))]);
 (JObject [(s43, (JInt 1)); (s28, (JInt 9)); (s29, (JInt 6)); (s30, (JString s14)); (s33, (JInt 32)); (s35, (JString s36)); (s19, (JString s37)); (s38, (JInt 3)); (s39, (JInt 0)); (s44, (JInt 1)); (s21, (JInt 1)); (s22, (JInt 2)); (s27, (JInt 7249)); (s31, (JString s51)); (s46, (JInt 1))]);
 (JObject [(s43, (JInt 6)); (s28, (JInt 9)); (s29, (JInt 0)); (s30, (JString s14)); (s33, (JInt 32)); (s35, (JString s36)); (s19, (JString s37)); (s38, (JInt 5)); (s39, (JInt 0)); (s44, (JInt 6)); (s21, (JInt 1)); (s22, (JInt 1)); (s27, (JInt 7281)); (s31, (JString s51)); (s46, (JInt 1))]);
 (JObject [(s43, (JInt 0)); (s28, (JInt 1)); (s29, (JInt 0)); (s30, (JString s14)); (s33, (JInt 32)); (s35, (JString s36)); (s19, (JString s37)); (s38, (JInt 2)); (s39, (JInt 0)); (s44, (JInt 0)); (s21, (JInt 1)); (s22, (JInt 2)); (s27, (JInt 7282)); (s31, (JString s51)); (s46, (JInt 1))]);
 (JObject [(s43, (JInt 2)); (s28, (JInt 4)); (s29, (JInt 0)); (s30, (JString s14)); (s33, (JInt 32)); (s35, (JString s36)); (s19, (JString s37)); (s38, (JInt 6)); (s39, (JInt 0)); (s44, (JInt 2)); (s21, (JInt 1)); (s22, (JInt 1)); (s27, (JInt 7286)); (s31, (JString s51)); (s46, (JInt 1))]);
 (JObject [(s43, (JInt 7)); (s28, (JInt 4)); (s29, (JInt 0)); (s30, (JString s14)); (s33, (JInt 32)); (s35, (JString s36)); (s19, (JString s37)); (s38, (JInt 4)); (s39, (JInt 0)); (s44, (JInt 7)); (s21, (JInt 1)); (s22, (JInt 2)); (s27, (JInt 7303)); (s31, (JString s51)); (s46, (JInt 1))]);
 (JObject [(s43, (JInt 4)); (s28, (JInt 9)); (s29, (JInt 6)); (s52, (JObject [(s53, (JInt 1)); (s54, (JInt 2)); (s55, (JArray [(JObject [(s56, (JInt 3)); (s30, (JString s14)); (s57, (JInt 1)); (s58, (JInt 1)); (s59, (JInt 1)); (s60, (JInt 0))]);
 (JObject [(s56, (JInt 0)); (s30, (JString s11)); (s57, (JInt 1)); (s58, (JInt 0)); (s59, (JInt 9)); (s60, (JInt 6))]);
 (JObject [(s56, (JInt 4)); (s30, (JString s11)); (s57, (JInt 9)); (s58, (JInt 0)); (s59, (JInt 9)); (s60, (JInt 6))])]))])); (s30, (JString s14)); (s33, (JInt 1088)); (s35, (JString s36)); (s19, (JString s37)); (s38, (JInt 1)); (s39, (JInt 0)); (s44, (JInt 3)); (s21, (JInt 1)); (s22, (JInt 1)); (s27, (JInt 7477)); (s31, (JString s61)); (s46, (JInt 1))]);
 (JObject [(s43, (JInt 4)); (s28, (JInt 4)); (s29, (JInt 6)); (s52, (JObject [(s53, (JInt 7)); (s54, (JInt 6)); (s55, (JArray [(JObject [(s56, (JInt 1)); (s30, (JString s14)); (s57, (JInt 1)); (s58, (JInt 2)); (s59, (JInt 4)); (s60, (JInt 0))]);
 (JObject [(s56, (JInt 2)); (s30, (JString s11)); (s57, (JInt 4)); (s58, (JInt 0)); (s59, (JInt 9)); (s60, (JInt 6))]);
 (JObject [(s56, (JInt 6)); (s30, (JString s11)); (s57, (JInt 9)); (s58, (JInt 0)); (s59, (JInt 4)); (s60, (JInt 0))]);
 (JObject [(s56, (JInt 7)); (s30, (JString s11)); (s57, (JInt 4)); (s58, (JInt 0)); (s59, (JInt 9)); (s60, (JInt 0))]);
 (JObject [(s56, (JInt 3)); (s30, (JString s11)); (s57, (JInt 9)); (s58, (JInt 6)); (s59, (JInt 1)); (s60, (JInt 0))]);
 (JObject [(s56, (JInt 0)); (s30, (JString s11)); (s57, (JInt 1)); (s58, (JInt 0)); (s59, (JInt 9)); (s60, (JInt 6))]);
 (JObject [(s56, (JInt 4)); (s30, (JString s11)); (s57, (JInt 9)); (s58, (JInt 0)); (s59, (JInt 4)); (s60, (JInt 6))])]))])); (s30, (JString s14)); (s33, (JInt 1088)); (s35, (JString s36)); (s19, (JString s37)); (s38, (JInt 3)); (s39, (JInt 0)); (s44, (JInt 1)); (s21, (JInt 1)); (s22, (JInt 2)); (s27, (JInt 7489)); (s31, (JString s61)); (s46, (JInt 1))]);
 (JObject [(s43, (JInt 4)); (s28, (JInt 4)); (s29, (JInt 8)); (s52, (JObject [(s53, (JInt 8)); (s54, (JInt 1)); (s55, (JArray [(JObject [(s56, (JInt 0)); (s30, (JString s14)); (s57, (JInt 1)); (s58, (JInt 2)); (s59, (JInt 9)); (s60, (JInt 6))]);
 (JObject [(s56, (JInt 4)); (s30, (JString s11)); (s57, (JInt 9)); (s58, (JInt 0)); (s59, (JInt 4)); (s60, (JInt 8))])]))])); (s30, (JString s14)); (s33, (JInt 1088)); (s35, (JString s36)); (s19, (JString s37)); (s38, (JInt 2)); (s39, (JInt 0)); (s44, (JInt 0)); (s21, (JInt 1)); (s22, (JInt 2)); (s27, (JInt 7506)); (s31, (JString s61)); (s46, (JInt 1))]);
 (JObject [(s43, (JInt 4)); (s28, (JInt 9)); (s29, (JInt 0)); (s52, (JObject [(s53, (JInt 7)); (s54, (JInt 4)); (s55, (JArray [(JObject [(s56, (JInt 6)); (s30, (JString s14)); (s57, (JInt 1)); (s58, (JInt 1)); (s59, (JInt 4)); (s60, (JInt 0))]);
 (JObject [(s56, (JInt 7)); (s30, (JString s11)); (s57, (JInt 4)); (s58, (JInt 0)); (s59, (JInt 9)); (s60, (JInt 0))]);
 (JObject [(s56, (JInt 3)); (s30, (JString s11)); (s57, (JInt 9)); (s58, (JInt 6)); (s59, (JInt 1)); (s60, (JInt 0))]);
 (JObject [(s56, (JInt 0)); (s30, (JString s11)); (s57, (JInt 1)); (s58, (JInt 0)); (s59, (JInt 9)); (s60, (JInt 6))]);
 (JObject [(s56, (JInt 4)); (s30, (JString s11)); (s57, (JInt 9)); (s58, (JInt 0)); (s59, (JInt 9)); (s60, (JInt 0))])]))])); (s30, (JString s14)); (s33, (JInt 1088)); (s35, (JString s36)); (s19, (JString s37)); (s38, (JInt 5)); (s39, (JInt 0)); (s44, (JInt 6)); (s21, (JInt 1)); (s22, (JInt 1)); (s27, (JInt 7517)); (s31, (JString s61)); (s46, (JInt 1))]);
 (JObject [(s43, (JInt 4)); (s28, (JInt 4)); (s29, (JInt 0)); (s52, (JObject [(s53, (JInt 8)); (s54, (JInt 5)); (s55, (JArray [(JObject [(s56, (JInt 2)); (s30, (JString s14)); (s57, (JInt 1)); (s58, (JInt 1)); (s59, (JInt 9)); (s60, (JInt 6))]);
 (JObject [(s56, (JInt 6)); (s30, (JString s11)); (s57, (JInt 9)); (s58, (JInt 0)); (s59, (JInt 4)); (s60, (JInt 0))]);
 (JObject [(s56, (JInt 7)); (s30, (JString s11)); (s57, (JInt 4)); (s58, (JInt 0)); (s59, (JInt 9)); (s60, (JInt 0))]);
 (JObject [(s56, (JInt 3)); (s30, (JString s11)); (s57, (JInt 9)); (s58, (JInt 6)); (s59, (JInt 1)); (s60, (JInt 0))]);
 (JObject [(s56, (JInt 0)); (s30, (JString s11)); (s57, (JInt 1)); (s58, (JInt 0)); (s59, (JInt 9)); (s60, (JInt 6))]);
 (JObject [(s56, (JInt 4)); (s30, (JString s11)); (s57, (JInt 9)); (s58, (JInt 0)); (s59, (JInt 4)); (s60, (JInt 0))])]))])); (s30, (JString s14)); (s33, (JInt 1088)); (s35, (JString s36)); (s19, (JString s37)); (s38, (JInt 6)); (s39, (JInt 0)); (s44, (JInt 2)); (s21, (JInt 1)); (s22, (JInt 1)); (s27, (JInt 7524)); (s31, (JString s61)); (s46, (JInt 1))]);
 (JObject [(s43, (JInt 4)); (s28, (JInt 4)); (s29, (JInt 2)); (s52, (JObject [(s53, (JInt 0)); (s54, (JInt 3)); (s55, (JArray [(JObject [(s56, (JInt 7)); (s30, (JString s14)); (s57, (JInt 1)); (s58, (JInt 2)); (s59, (JInt 9)); (s60, (JInt 0))]);
 (JObject [(s56, (JInt 3)); (s30, (JString s11)); (s57, (JInt 9)); (s58, (JInt 6)); (s59, (JInt 1)); (s60, (JInt 0))]);
 (JObject [(s56, (JInt 0)); (s30, (JString s11)); (s57, (JInt 1)); (s58, (JInt 0)); (s59, (JInt 9)); (s60, (JInt 6))]);
 (JObject [(s56, (JInt 4)); (s30, (JString s11)); (s57, (JInt 9)); (s58, (JInt 0)); (s59, (JInt 4)); (s60, (JInt 2))])]))])); (s30, (JString s14)); (s33, (JInt 1088)); (s35, (JString s36)); (s19, (JString s37)); (s38, (JInt 4)); (s39, (JInt 0)); (s44, (JInt 7)); (s21, (JInt 1)); (s22, (JInt 2)); (s27, (JInt 7534)); (s31, (JString s61)); (s46, (JInt 1))]);
 (JObject [(s43, (JInt 3)); (s28, (JInt 1)); (s29, (JInt 0)); (s30, (JString s14)); (s33, (JInt 32)); (s35, (JString s36)); (s19, (JString s37)); (s38, (JInt 1)); (s39, (JInt 0)); (s44, (JInt 3)); (s21, (JInt 1)); (s22, (JInt 1)); (s27, (JInt 7681)); (s31, (JString s51)); (s46, (JInt 1))]);
 (JObject [(s43, (JInt 1)); (s28, (JInt 4)); (s29, (JInt 0)); (s30, (JString s14)); (s33, (JInt 32)); (s35, (JString s36)); (s19, (JString s37)); (s38, (JInt 3)); (s39, (JInt 0)); (s44, (JInt 1)); (s21, (JInt 1)); (s22, (JInt 2)); (s27, (JInt 7694)); (s31, (JString s51)); (s46, (JInt 1))]);
 (JObject [(s43, (JInt 0)); (s28, (JInt 9)); (s29, (JInt 6)); (s30, (JString s14)); (s33, (JInt 32)); (s35, (JString s36)); (s19, (JString s37)); (s38, (JInt 2)); (s39, (JInt 0)); (s44, (JInt 0)); (s21, (JInt 1)); (s22, (JInt 2)); (s27, (JInt 7710)); (s31, (JString s51)); (s46, (JInt 1))]);
 (JObject [(s43, (JInt 6)); (s28, (JInt 4)); (s29, (JInt 0)); (s30, (JString s14)); (s33, (JInt 32)); (s35, (JString s36)); (s19, (JString s37)); (s38, (JInt 5)); (s39, (JInt 0)); (s44, (JInt 6)); (s21, (JInt 1)); (s22, (JInt 1)); (s27, (JInt 7723)); (s31, (JString s51)); (s46, (JInt 1))]);
 (JObject [(s43, (JInt 2)); (s28, (JInt 9)); (s29, (JInt 6)); (s30, (JString s14)); (s33, (JInt 32)); (s35, (JString s36)); (s19, (JString s37)); (s38, (JInt 6)); (s39, (JInt 0)); (s44, (JInt 2)); (s21, (JInt 1)); (s22, (JInt 1)); (s27, (JInt 7727)); (s31, (JString s51)); (s46, (JInt 1))]);
 (JObject [(s43, (JInt 7)); (s28, (JInt 9)); (s29, (JInt 0)); (s30, (JString s14)); (s33, (JInt 32)); (s35, (JString s36)); (s19, (JString s37)); (s38, (JInt 4)); (s39, (JInt 0)); (s44, (JInt 7)); (s21, (JInt 1)); (s22, (JInt 2)); (s27, (JInt 7737)); (s31, (JString s51)); (s46, (JInt 1))]);
 (JObject [(s43, (JInt 3)); (s30, (JString s14)); (s33, (JInt 0)); (s35, (JString s36)); (s19, (JString s37)); (s38, (JInt 1)); (s39, (JInt 0)); (s44, (JInt 3)); (s21, (JInt 1)); (s22, (JInt 1)); (s27, (JInt 7816)); (s31, (JString s62)); (s46, (JInt (-1)))]);
 (JObject [(s43, (JInt 1)); (s30, (JString s14)); (s33, (JInt 0)); (s35, (JString s36)); (s19, (JString s37)); (s38, (JInt 3)); (s39, (JInt 0)); (s44, (JInt 1)); (s21, (JInt 1)); (s22, (JInt 2)); (s27, (JInt 7830)); (s31, (JString s62)); (s46, (JInt (-1)))]);
 (JObject [(s43, (JInt 0)); (s30, (JString s14)); (s33, (JInt 0)); (s35, (JString s36)); (s19, (JString s37)); (s38, (JInt 2)); (s39, (JInt 0)); (s44, (JInt 0)); (s21, (JInt 1)); (s22, (JInt 2)); (s27, (JInt 7844)); (s31, (JString s62)); (s46, (JInt (-1)))]);
 (JObject [(s43, (JInt 6)); (s30, (JString s14)); (s33, (JInt 0)); (s35, (JString s36)); (s19, (JString s37)); (s38, (JInt 5)); (s39, (JInt 0)); (s44, (JInt 6)); (s21, (JInt 1)); (s22, (JInt 1)); (s27, (JInt 7859)); (s31, (JString s62)); (s46, (JInt (-1)))]);
 (JObject [(s43, (JInt 2)); (s30, (JString s14)); (s33, (JInt 0)); (s35, (JString s36)); (s19, (JString s37)); (s38, (JInt 6)); (s39, (JInt 0)); (s44, (JInt 2)); (s21, (JInt 1)); (s22, (JInt 1)); (s27, (JInt 7862)); (s31, (JString s62)); (s46, (JInt (-1)))]);
 (JObject [(s43, (JInt 7)); (s30, (JString s14)); (s33, (JInt 0)); (s35, (JString s36)); (s19, (JString s37)); (s38, (JInt 4)); (s39, (JInt 0)); (s44, (JInt 7)); (s21, (JInt 1)); (s22, (JInt 2)); (s27, (JInt 7874)); (s31, (JString s62)); (s46, (JInt (-1)))]);
 (JObject [(s43, (JInt 3)); (s28, (JInt 9)); (s29, (JInt 6)); (s30, (JString s14)); (s33, (JInt 32)); (s35, (JString s36)); (s19, (JString s37)); (s38, (JInt 1)); (s39, (JInt 0)); (s44, (JInt 3)); (s21, (JInt 1)); (s22, (JInt 1)); (s27, (JInt 8071)); (s31, (JString s51)); (s46, (JInt 1))]);
 (JObject [(s43, (JInt 1)); (s28, (JInt 9)); (s29, (JInt 6)); (s30, (JString s14)); (s33, (JInt 32)); (s35, (JString s36)); (s19, (JString s37)); (s38, (JInt 3)); (s39, (JInt 0)); (s44, (JInt 1)); (s21, (JInt 1)); (s22, (JInt 2)); (s27, (JInt 8087)); (s31, (JString s51)); (s46, (JInt 1))]);
 (JObject [(s43, (JInt 0)); (s28, (JInt 1)); (s29, (JInt 0)); (s30, (JString s14)); (s33, (JInt 32)); (s35, (JString s36)); (s19, (JString s37)); (s38, (JInt 2)); (s39, (JInt 0)); (s44, (JInt 0)); (s21, (JInt 1)); (s22, (JInt 2)); (s27, (JInt 8101)); (s31, (JString s51)); (s46, (JInt 1))]);
 (JObject [(s43, (JInt 6)); (s28, (JInt 9)); (s29, (JInt 0)); (s30, (JString s14)); (s33, (JInt 32)); (s35, (JString s36)); (s19, (JString s37)); (s38, (JInt 5)); (s39, (JInt 0)); (s44, (JInt 6)); (s21, (JInt 1)); (s22, (JInt 1)); (s27, (JInt 8115)); (s31, (JString s51)); (s46, (JInt 1))]);
 (JObject [(s43, (JInt 7)); (s28, (JInt 4)); (s29, (JInt 0)); (s30, (JString s14)); (s33, (JInt 32)); (s35, (JString s36)); (s19, (JString s37)); (s38, (JInt 4)); (s39, (JInt 0)); (s44, (JInt 7)); (s21, (JInt 1)); (s22, (JInt 2)); (s27, (JInt 8133)); (s31, (JString s51)); (s46, (JInt 1))]);
 (JObject [(s43, (JInt 2)); (s28, (JInt 4)); (s29, (JInt 0)); (s30, (JString s14)); (s33, (JInt 32)); (s35, (JString s36)); (s19, (JString s37)); (s38, (JInt 6)); (s39, (JInt 0)); (s44, (JInt 2)); (s21, (JInt 1)); (s22, (JInt 1)); (s27, (JInt 8135)); (s31, (JString s51)); (s46, (JInt 1))]);
 (JObject [(s43, (JInt 3)); (s30, (JString s14)); (s33, (JInt 0)); (s35, (JString s36)); (s19, (JString s37)); (s38, (JInt 1)); (s39, (JInt 0)); (s44, (JInt 3)); (s21, (JInt 1)); (s22, (JInt 1)); (s27, (JInt 8163)); (s31, (JString s62)); (s46, (JInt (-1)))]);
 (JObject [(s43, (JInt 1)); (s30, (JString s14)); (s33, (JInt 0)); (s35, (JString s36)); (s19, (JString s37)); (s38, (JInt 3)); (s39, (JInt 0)); (s44, (JInt 1)); (s21, (JInt 1)); (s22, (JInt 2)); (s27, (JInt 8179)); (s31, (JString s62)); (s46, (JInt (-1)))]);
 (JObject [(s43, (JInt 0)); (s30, (JString s14)); (s33, (JInt 0)); (s35, (JString s36)); (s19, (JString s37)); (s38, (JInt 2)); (s39, (JInt 0)); (s44, (JInt 0)); (s21, (JInt 1)); (s22, (JInt 2)); (s27, (JInt 8192)); (s31, (JString s62)); (s46, (JInt (-1)))]);
 (JObject [(s43, (JInt 6)); (s30, (JString s14)); (s33, (JInt 0)); (s35, (JString s36)); (s19, (JString s37)); (s38, (JInt 5)); (s39, (JInt 0)); (s44, (JInt 6)); (s21, (JInt 1)); (s22, (JInt 1)); (s27, (JInt 8204)); (s31, (JString s62)); (s46, (JInt (-1)))]);
 (JObject [(s43, (JInt 7)); (s30, (JString s14)); (s33, (JInt 0)); (s35, (JString s36)); (s19, (JString s37)); (s38, (JInt 4)); (s39, (JInt 0)); (s44, (JInt 7)); (s21, (JInt 1)); (s22, (JInt 2)); (s27, (JInt 8223)); (s31, (JString s62)); (s46, (JInt (-1)))]);
 (JObject [(s43, (JInt 2)); (s30, (JString s14)); (s33, (JInt 0)); (s35, (JString s36)); (s19, (JString s37)); (s38, (JInt 6)); (s39, (JInt 0)); (s44, (JInt 2)); (s21, (JInt 1)); (s22, (JInt 1)); (s27, (JInt 8227)); (s31, (JString s62)); (s46, (JInt (-1)))]);
 (JObject [(s43, (JInt 3)); (s28, (JInt 1)); (s29, (JInt 0)); (s30, (JString s14)); (s33, (JInt 32)); (s35, (JString s36)); (s19, (JString s37)); (s38, (JInt 1)); (s39, (JInt 0)); (s44, (JInt 3)); (s21, (JInt 1)); (s22, (JInt 1)); (s27, (JInt 8341)); (s31, (JString s51)); (s46, (JInt 1))]);
 (JObject [(s43, (JInt 1)); (s28, (JInt 4)); (s29, (JInt 0)); (s30, (JString s14)); (s33, (JInt 32)); (s35, (JString s36)); (s19, (JString s37)); (s38, (JInt 3)); (s39, (JInt 0)); (s44, (JInt 1)); (s21, (JInt 1)); (s22, (JInt 2)); (s27, (JInt 8349)); (s31, (JString s51)); (s46, (JInt 1))]);
 (JObject [(s43, (JInt 0)); (s28, (JInt 9)); (s29, (JInt 6)); (s30, (JString s14)); (s33, (JInt 32)); (s35, (JString s36)); (s19, (JString s37)); (s38, (JInt 2)); (s39, (JInt 0)); (s44, (JInt 0)); (s21, (JInt 1)); (s22, (JInt 2)); (s27, (JInt 8372)); (s31, (JString s51)); (s46, (JInt 1))]);
 (JObject [(s43, (JInt 6)); (s28, (JInt 4)); (s29, (JInt 0)); (s30, (JString s14)); (s33, (JInt 32)); (s35, (JString s36)); (s19, (JString s37)); (s38, (JInt 5)); (s39, (JInt 0)); (s44, (JInt 6)); (s21, (JInt 1)); (s22, (JInt 1)); (s27, (JInt 8379)); (s31, (JString s51)); (s46, (JInt 1))]);
 (JObject [(s43, (JInt 7)); (s28, (JInt 9)); (s29, (JInt 0)); (s30, (JString s14)); (s33, (JInt 32)); (s35, (JString s36)); (s19, (JString s37)); (s38, (JInt 4)); (s39, (JInt 0)); (s44, (JInt 7)); (s21, (JInt 1)); (s22, (JInt 2)); (s27, (JInt 8392)); (s31, (JString s51)); (s46, (JInt 1))]);
 (JObject [(s43, (JInt 2)); (s28, (JInt 9)); (s29, (JInt 6)); (s30, (JString s14)); (s33, (JInt 32)); (s35, (JString s36)); (s19, (JString s37)); (s38, (JInt 6)); (s39, (JInt 0)); (s44, (JInt 2)); (s21, (JInt 1)); (s22, (JInt 1)); (s27, (JInt 8397)); (s31, (JString s51)); (s46, (JInt 1))]);
 (JObject [(s43, (JInt 3)); (s28, (JInt 1)); (s29, (JInt 1)); (s30, (JString s14)); (s33, (JInt 0)); (s35, (JString s36)); (s19, (JString s37)); (s38, (JInt 1)); (s39, (JInt 0)); (s44, (JInt 3)); (s21, (JInt 1)); (s22, (JInt 1)); (s27, (JInt 8520)); (s31, (JString s63)); (s46, (JInt 1))]);
 (JObject [(s43, (JInt 1)); (s28, (JInt 1)); (s29, (JInt 2)); (s30, (JString s14)); (s33, (JInt 0)); (s35, (JString s36)); (s19, (JString s37)); (s38, (JInt 3)); (s39, (JInt 0)); (s44, (JInt 1)); (s21, (JInt 1)); (s22, (JInt 2)); (s27, (JInt 8526)); (s31, (JString s63)); (s46, (JInt 1))]);
 (JObject [(s43, (JInt 0)); (s28, (JInt 1)); (s29, (JInt 2)); (s30, (JString s14)); (s33, (JInt 0)); (s35, (JString s36)); (s19, (JString s37)); (s38, (JInt 2)); (s39, (JInt 0)); (s44, (JInt 0)); (s21, (JInt 1)); (s22, (JInt 2)); (s27, (JInt 8550)); (s31, (JString s63)); (s46, (JInt 1))]);
 (JObject [(s43, (JInt 6)); (s28, (JInt 1)); (s29, (JInt 1)); (s30, (JString s14)); (s33, (JInt 0)); (s35, (JString s36)); (s19, (JString s37)); (s38, (JInt 5)); (s39, (JInt 0)); (s44, (JInt 6)); (s21, (JInt 1)); (s22, (JInt 1)); (s27, (JInt 8556)); (s31, (JString s63)); (s46, (JInt 1))]);
 (JObject [(s43, (JInt 2)); (s28, (JInt 1)); (s29, (JInt 1)); (s30, (JString s14)); (s33, (JInt 0)); (s35, (JString s36)); (s19, (JString s37)); (s38, (JInt 6)); (s39, (JInt 0)); (s44, (JInt 2)); (s21, (JInt 1)); (s22, (JInt 1)); (s27, (JInt 8570)); (s31, (JString s63)); (s46, (JInt 1))]);
 (JObject [(s43, (JInt 7)); (s28, (JInt 1)); (s29, (JInt 2)); (s30, (JString s14)); (s33, (JInt 0)); (s35, (JString s36)); (s19, (JString s37)); (s38, (JInt 4)); (s39, (JInt 0)); (s44, (JInt 7)); (s21, (JInt 1)); (s22, (JInt 2)); (s27, (JInt 8570)); (s31, (JString s63)); (s46, (JInt 1))]);
 (JObject [(s43, (JInt 1)); (s30, (JString s14)); (s33, (JInt 0)); (s35, (JString s36)); (s19, (JString s37)); (s38, (JInt 3)); (s39, (JInt 0)); (s44, (JInt 1)); (s21, (JInt 1)); (s22, (JInt 2)); (s27, (JInt 8832)); (s31, (JString s64)); (s46, (JInt (-1)))]);
 (JObject [(s43, (JInt 1)); (s30, (JString s14)); (s33, (JInt 0)); (s35, (JString s36)); (s19, (JString s37)); (s38, (JInt 3)); (s39, (JInt 0)); (s44, (JInt 1)); (s21, (JInt 1)); (s22, (JInt 2)); (s27, (JInt 9098)); (s31, (JString s65)); (s46, (JInt (-1)))]);
 (JObject [(s43, (JInt 1)); (s30, (JString s14)); (s33, (JInt 0)); (s35, (JString s36)); (s19, (JString s37)); (s38, (JInt 3)); (s39, (JInt 0)); (s44, (JInt 1)); (s21, (JInt 1)); (s22, (JInt 2)); (s27, (JInt 9155)); (s31, (JString s66)); (s46, (JInt (-1)))]);
 (JObject [(s43, (JInt 1)); (s30, (JString s14)); (s33, (JInt 0)); (s35, (JString s36)); (s19, (JString s37)); (s38, (JInt 3)); (s39, (JInt 0)); (s44, (JInt 1)); (s21, (JInt 1)); (s22, (JInt 2)); (s27, (JInt 9224)); (s31, (JString s64)); (s46, (JInt (-1)))]);
 (JObject [(s43, (JInt 1)); (s30, (JString s14)); (s33, (JInt 0)); (s35, (JString s36)); (s19, (JString s37)); (s38, (JInt 3)); (s39, (JInt 0)); (s44, (JInt 1)); (s21, (JInt 1)); (s22, (JInt 2)); (s27, (JInt 9292)); (s31, (JString s65)); (s46, (JInt (-1)))]);
 (JObject [(s43, (JInt 1)); (s30, (JString s14)); (s33, (JInt 0)); (s35, (JString s36)); (s19, (JString s37)); (s38, (JInt 3)); (s39, (JInt 0)); (s44, (JInt 1)); (s21, (JInt 1)); (s22, (JInt 2)); (s27, (JInt 9340)); (s31, (JString s66)); (s46, (JInt (-1)))]);
 (JObject [(s43, (JInt 1)); (s30, (JString s14)); (s33, (JInt 0)); (s35, (JString s36)); (s19, (JString s37)); (s38, (JInt 3)); (s39, (JInt 0)); (s44, (JInt 1)); (s21, (JInt 1)); (s22, (JInt 2)); (s27, (JInt 9404)); (s31, (JString s65)); (s46, (JInt (-1)))]);
 (JObject [(s43, (JInt 1)); (s30, (JString s14)); (s33, (JInt 0)); (s35, (JString s36)); (s19, (JString s37)); (s38, (JInt 3)); (s39, (JInt 0)); (s44, (JInt 1)); (s21, (JInt 1)); (s22, (JInt 2)); (s27, (JInt 9459)); (s31, (JString s66)); (s46, (JInt (-1)))]);
 (JObject [(s35, (JString s36)); (s19, (JString s37)); (s38, (JInt 3)); (s39, (JInt 0)); (s21, (JInt 1)); (s22, (JInt 2)); (s27, (JInt 9489)); (s23, (JString s40)); (s25, (JString s50))])]).
