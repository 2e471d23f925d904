(* C61-C63: the Python bindings. *)
From Coq Require Import ZArith String List Bool Sorting.Permutation Floats.SpecFloat.
From Verif Require Import Base Arith Util Device SpecDevice Workload SpecWorkload Stats Engine Api SpecApi Bindings SpecBindings BindingsProofs BindingsErrors BindingsWitness.
Import ListNotations.
Local Open Scope list_scope.
Local Open Scope string_scope.
Open Scope Z_scope.

(** * C61: Pickling statistics and loading them again preserves everything that Python can read *)
(* [eth] is the Ethernet map of [ds] in any order of iteration *)
Theorem C61_device : forall A us (ds : dstats A) eth, uint64 us -> typed_stats ds -> Permutation eth (ds_eth A ds) ->
  exists ds', unpickle_device A (pickle_device A us ds eth) = Ok (us, ds') /\ same_to_python ds ds'.
Proof. exact device_roundtrip. Qed.
Print Assumptions C61_device.
Theorem C61_stats : forall A (st : list (Z * (Z * dstats A * list (coord * D A)))), NoDup (map fst st) ->
  Forall (fun e => int16 (fst e) /\ uint64 (fst (fst (snd e))) /\ typed_stats (snd (fst (snd e))) /\ Permutation (snd (snd e)) (ds_eth A (snd (fst (snd e))))) st ->
  exists st', unpickle_stats A (pickle_stats A st) = Ok st' /\ Forall2 kept st st'.
Proof. exact stats_roundtrip. Qed.
Print Assumptions C61_stats.
(* loading accepts exactly the values with the right types and ranges; everything else is a Python exception *)
Theorem C61_accepts : forall A v, ((exists r, unpickle_device A v = Ok r) <-> is_state A v) /\ (~ is_state A v -> raises (unpickle_device A v)).
Proof. intros A v. split; [exact (device_iff A v)|]. intros N. destruct (device_either A v) as [H|H]; [contradict N; apply device_iff; exact H|exact H]. Qed.
Print Assumptions C61_accepts.
Theorem C61_total : forall A v, (exists r, unpickle_stats A v = Ok r) \/ raises (unpickle_stats A v).
Proof. exact stats_either. Qed.
Print Assumptions C61_total.
Example C61_rejects : raises (unpickle_device f32A (PyTuple f32A [])) /\ raises (unpickle_stats f32A (PyTuple f32A [PyDict f32A [(PyInt f32A 40000, PyBool f32A true)]])) /\
  exists v, is_state f32A v /\ v = pickle_device f32A 17 two_cores (ds_eth f32A two_cores).
Proof.
  split; [exists "Invalid deviceStats pickle state!"; reflexivity|]. split; [exists "cast_error"; reflexivity|]. eexists. split; [|reflexivity]. apply (C61_accepts f32A).
  destruct two_cores_case as (U & T & _). destruct (C61_device f32A 17 two_cores (ds_eth f32A two_cores) U T (Permutation_refl _)) as (ds' & E & _). exists (17, ds'). exact E.
Qed.
(* everything the analysis reads from a result and from the statistics of a device has a name there *)
Theorem C61_names : Forall (fun n => bound_name DeviceStats_names n = true) read_from_device /\ Forall (fun n => bound_name Stats_names n = true) read_from_result.
Proof. exact names_bound. Qed.
Print Assumptions C61_names.
(* two Ethernet cores, listed in the other order *)
Example C61_example : uint64 17 /\ typed_stats two_cores /\ Permutation (rev (ds_eth f32A two_cores)) (ds_eth f32A two_cores) /\
  match unpickle_device f32A (pickle_device f32A 17 two_cores (rev (ds_eth f32A two_cores))) with
  | Ok (us, ds) => us = 17 /\ ds_est f32A ds = 353 /\ ds_max_nd f32A ds = S754_finite false 5 0 /\ ds_max_lu f32A ds = S754_finite false 7 0 /\ List.length (ds_eth f32A ds) = 2%nat
  | _ => False
  end.
Proof. exact two_cores_case. Qed.

(** * C62: InitAPI gives a handle for every configuration that is documented as valid, and None otherwise *)
Theorem C62_init : forall A (cfg : config (F A)),
  (forall d, InitAPI A cfg = Ok (Some d) <-> In (cf_device cfg, d) documented_devices /\ good_config cfg) /\
  (InitAPI A cfg = Ok None <-> ~ exists d, In (cf_device cfg, d) documented_devices /\ good_config cfg).
Proof. exact init_iff. Qed.
Print Assumptions C62_init.
Example C62_example : InitAPI f32A (mkCfg "blackhole" "fast" 0 false false false (f_one f32A)) = Ok None /\
  InitAPI f32A (mkCfg "wormhole_b0" "fast" 100 false false false (f_one f32A)) = Ok (Some wormhole_b0).
Proof. split; reflexivity. Qed.

(** * C63: Objects built from Python hold the numbers they were built from *)
(* a coordinate holds them if and only if they fit into 16 bits *)
Theorem C63_coord : forall A dev row col,
  ((exists c, py_Coord A (PyInt A dev) (PyInt A row) (PyInt A col) = Ok c) <-> int32 dev /\ int32 row /\ int32 col) /\
  forall c, py_Coord A (PyInt A dev) (PyInt A row) (PyInt A col) = Ok c -> (c = mkCoord dev row col <-> int16 dev /\ int16 row /\ int16 col).
Proof. exact coord_iff. Qed.
Print Assumptions C63_coord.
Theorem C63_transfer : forall A psize npkts src dst rate off noc,
  ((exists t, py_Transfer A (PyInt A psize) (PyInt A npkts) src dst (PyFloat A rate) (PyInt A off) noc = Ok t) <-> uint32 psize /\ uint32 npkts /\ int32 off) /\
  forall t, py_Transfer A (PyInt A psize) (PyInt A npkts) src dst (PyFloat A rate) (PyInt A off) noc = Ok t ->
    t_psize t = psize /\ t_npkts t = npkts /\ t_src t = src /\ t_dst t = dst /\ t_noc t = noc /\ t_rate t = f_of_d A rate /\ t_gid t = -1 /\ t_gpar t = -1 /\
    (t_off t = off <-> 0 <= off) /\ (t_bytes t = psize * npkts <-> psize * npkts < 2 ^ 32).
Proof. exact transfer_iff. Qed.
Print Assumptions C63_transfer.
Theorem C63_golden : forall A (wl : workload (F A)) m, m <> [] -> NoDup (map fst m) ->
  Forall (fun e => int16 (fst e) /\ uint32 (fst (snd e)) /\ uint32 (snd (snd e))) m ->
  exists wl', py_setGolden A wl (golden_dict A m) = Ok wl' /\ wl_phases wl' = wl_phases wl /\
    (forall k w, k <> MESH_DEVICE -> In (k, w) m -> getGoldenResultCycles wl' k = Ok w) /\
    exists w, getGoldenResultCycles wl' MESH_DEVICE = Ok w /\ smallest_window w (map snd m).
Proof. exact golden_given. Qed.
Print Assumptions C63_golden.
(* arguments that do not fit are a TypeError, never anything else *)
Theorem C63_errors : forall A, (forall a b c, (exists x, py_Coord A a b c = Ok x) \/ py_Coord A a b c = StdThrow "TypeError") /\
  (forall p n src dst r o noc, (exists t, py_Transfer A p n src dst r o noc = Ok t) \/ py_Transfer A p n src dst r o noc = StdThrow "TypeError").
Proof. intros A. split; [exact (coord_cases A)|exact (transfer_cases A)]. Qed.
Print Assumptions C63_errors.
Example C63_errors_ex : py_Coord f32A (PyInt f32A 0) (PyInt f32A 5000000000) (PyInt f32A 0) = StdThrow "TypeError".
Proof. reflexivity. Qed.
(* row 65541 is accepted, and is row 5 of the grid *)
Theorem C63_coord_refuted : exists dev row col c, py_Coord f32A (PyInt f32A dev) (PyInt f32A row) (PyInt f32A col) = Ok c /\ c_row c <> row /\ is_valid_coord wormhole_b0 c = true.
Proof. exact wrapped_coord. Qed.
Print Assumptions C63_coord_refuted.
(* an offset of -1 is accepted, and the transfer starts at the end of the clock; it passes validation *)
Theorem C63_offset_refuted : exists off t, py_Transfer f32A (PyInt f32A 32) (PyInt f32A 1) (mkCoord 0 1 1) (Unicast (mkCoord 0 2 2)) (PyFloat f32A (d_ofZ f32A 1)) (PyInt f32A off) NOC0 = Ok t /\
  off < 0 /\ t_off t = 2 ^ 32 - 1 /\ transfer_validate wormhole_b0 t = Ok true.
Proof. exact negative_offset. Qed.
Print Assumptions C63_offset_refuted.
Example C63_example : py_Coord f32A (PyInt f32A 0) (PyInt f32A 11) (PyInt f32A 9) = Ok (mkCoord 0 11 9) /\
  match py_setGolden f32A (@empty_workload (F f32A)) (golden_dict f32A [(0, (10, 50)); (1, (5, 40))]) with
  | Ok wl => getGoldenResultCycles wl 1 = Ok (5, 40) /\ getGoldenResultCycles wl (-1) = Ok (5, 50)
  | _ => False
  end.
Proof. split; [reflexivity|split; reflexivity]. Qed.
