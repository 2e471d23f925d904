(* Specifications for the Python bindings (C61-C63). *)
From Coq Require Import ZArith String List Bool Sorting.Permutation.
From Verif Require Import Base Arith Util Device SpecDevice Workload Stats Bindings.
Import ListNotations.
Open Scope Z_scope.

(** * C61 *)
Definition int16 (z : Z) : Prop := - 2 ^ 15 <= z < 2 ^ 15.
Definition int32 (z : Z) : Prop := - 2 ^ 31 <= z < 2 ^ 31.
Definition uint32 (z : Z) : Prop := 0 <= z < 2 ^ 32.
Definition uint64 (z : Z) : Prop := 0 <= z < 2 ^ 64.
Definition int16_coord (c : coord) : Prop := int16 (c_dev c) /\ int16 (c_row c) /\ int16 (c_col c).
(* the fields hold values of their C++ types; one entry for each core *)
Definition typed_stats {A} (ds : dstats A) : Prop :=
  uint64 (ds_est A ds) /\ uint64 (ds_congfree A ds) /\ uint64 (ds_golden A ds) /\
  Forall (fun e => int16_coord (fst e)) (ds_eth A ds) /\ NoDup (map fst (ds_eth A ds)).
(* the fields that can be read from Python *)
Definition counts_of {A} (ds : dstats A) : bool * list Z := (ds_completed A ds, [ds_est A ds; ds_congfree A ds; ds_golden A ds]).
Definition numbers_of {A} (ds : dstats A) : list (D A) :=
  [ds_err A ds; ds_avg_ld A ds; ds_max_ld A ds; ds_avg_nd A ds; ds_max_nd A ds; ds_avg_lu A ds; ds_max_lu A ds;
   ds_avg_ld0 A ds; ds_avg_lu0 A ds; ds_max_ld0 A ds; ds_avg_ld1 A ds; ds_avg_lu1 A ds; ds_max_ld1 A ds; ds_avg_mc A ds; ds_dram A ds; ds_dram_sim A ds].
Definition same_to_python {A} (ds ds' : dstats A) : Prop :=
  counts_of ds' = counts_of ds /\ numbers_of ds' = numbers_of ds /\ Permutation (ds_eth A ds') (ds_eth A ds).
(* entries: device, wall clock time, statistics, and the Ethernet map in the order of iteration; and what comes back *)
Definition kept {A} (e : Z * (Z * dstats A * list (coord * D A))) (e' : Z * (Z * dstats A)) : Prop :=
  fst e' = fst e /\ fst (snd e') = fst (fst (snd e)) /\ same_to_python (snd (fst (snd e))) (snd (snd e')).

(** * C63 *)
(* a Python dict of golden windows *)
Definition golden_dict A (m : list (Z * (Z * Z))) : list (pyval A * pyval A) :=
  map (fun e => (PyInt A (fst e), PyTuple A [PyInt A (fst (snd e)); PyInt A (snd (snd e))])) m.

(** * What unpickling accepts (C61) *)
Section Accepted.
  Context (A : arith).
  Definition is_bool (v : pyval A) : Prop := exists b, v = PyBool A b.
  Definition is_int (ok : Z -> Prop) (v : pyval A) : Prop := exists z, v = PyInt A z /\ ok z.
  Definition is_number (v : pyval A) : Prop := (exists x, v = PyFloat A x) \/ (exists z, v = PyInt A z).
  (* an Ethernet core: chip, row, column, utilisation *)
  Definition is_core (v : pyval A) : Prop :=
    exists a b c u rest, v = PyTuple A (a :: b :: c :: u :: rest) /\ is_int int32 a /\ is_int int32 b /\ is_int int32 c /\ is_number u.
  Definition is_state (v : pyval A) : Prop :=
    exists c e f g r u xs eth, v = PyTuple A ([c; e; f; g; r; u] ++ xs ++ [PyList A eth])%list /\ List.length xs = 15%nat /\
      is_bool c /\ is_int uint64 e /\ is_int uint64 f /\ is_int uint64 g /\ is_number r /\ is_int uint64 u /\ Forall is_number xs /\ Forall is_core eth.
End Accepted.
(* a Python exception *)
Definition raises {T} (x : outcome T) : Prop := exists e, x = StdThrow e.
(* what npe_analyze_noc_trace_dir.py reads: 66-117, 247-250 of the statistics of a device, 428 of the result *)
Definition read_from_device : list string :=
  ["golden_cycles"; "overall_avg_link_util"; "dram_bw_util"; "getAggregateEthBwUtil"; "cycle_prediction_error"; "overall_avg_mcast_write_link_util"; "getCongestionImpact"; "getEthBwUtilPerCoreStr"]%string.
Definition read_from_result : list string := ["per_device_stats"]%string.
