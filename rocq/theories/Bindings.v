(* Model of the Python bindings (tt_npe/cpp/pybind/bindings.cpp): creation of the API, pickling of statistics, constructors of
   coordinates and transfers, golden cycles. Python values are trees. Conversions by pybind11 are modelled for values of the natural
   Python type (int for integer types, float for float and double, int also for float and double); any other value is a failed
   conversion. No proofs in this file. *)
From Coq Require Import ZArith String List Bool.
From Verif Require Import Base Arith Util Device Workload Stats Engine Api.
Import ListNotations.
Local Open Scope string_scope.
Local Open Scope list_scope.
Open Scope Z_scope.

Section Bindings.
  Context (A : arith).

  (* The Python values that occur. [PyState l]: an object of a bound class with pickle support, inside a pickled value; the pickle
     module stores it as the value returned by its first function. *)
  Inductive pyval : Type :=
  | PyBool : bool -> pyval
  | PyInt : Z -> pyval
  | PyFloat : D A -> pyval
  | PyTuple : list pyval -> pyval
  | PyList : list pyval -> pyval
  | PyDict : list (pyval * pyval) -> pyval
  | PyState : pyval -> pyval.

  (* handle::cast<T>: throws py::cast_error *)
  Definition bad_cast {T : Type} : outcome T := StdThrow "cast_error".
  Definition cast_bool (v : pyval) : outcome bool := match v with PyBool b => Ok b | _ => bad_cast end.
  (* integer types: a number out of the range of the type is a failed conversion *)
  Definition cast_int (lo hi : Z) (v : pyval) : outcome Z :=
    match v with PyInt z => if (lo <=? z) && (z <? hi) then Ok z else bad_cast | _ => bad_cast end.
  Definition cast_size : pyval -> outcome Z := cast_int 0 (2 ^ 64).              (* size_t *)
  Definition cast_int32 : pyval -> outcome Z := cast_int (- 2 ^ 31) (2 ^ 31).    (* int *)
  Definition cast_uint32 : pyval -> outcome Z := cast_int 0 (2 ^ 32).            (* uint32_t, CycleCount *)
  Definition cast_int16 : pyval -> outcome Z := cast_int (- 2 ^ 15) (2 ^ 15).    (* DeviceID *)
  Definition cast_double (v : pyval) : outcome (D A) :=
    match v with PyFloat x => Ok x | PyInt z => Ok (d_ofZ A z) | _ => bad_cast end.
  Definition cast_float (v : pyval) : outcome (F A) := let! x := cast_double v in Ok (f_of_d A x).
  Definition cast_tuple (v : pyval) : outcome (list pyval) := match v with PyTuple l => Ok l | _ => bad_cast end.
  Definition cast_list (v : pyval) : outcome (list pyval) := match v with PyList l => Ok l | _ => bad_cast end.
  (* tuple[i]: throws py::error_already_set (IndexError) *)
  Definition item (l : list pyval) (i : nat) : outcome pyval :=
    match nth_error l i with Some v => Ok v | None => StdThrow "IndexError" end.

  (* 27-37: an npeException becomes None *)
  Definition InitAPI (cfg : config (F A)) : outcome (option device) :=
    match npeAPI_make A cfg with
    | Ok d => Ok (Some d)
    | Throw _ => Ok None
    | StdThrow e => StdThrow e
    | UB e => UB e
    | Abort => Abort
    | Exit => Exit
    | Diverge => Diverge
    end.

  (* 45-83 and 158-170: the names bound to the classes DeviceStats and Stats, besides __repr__, __str__ and the pickle support. An
     attribute that is not bound raises AttributeError. *)
  Definition DeviceStats_names : list string :=
    ["completed"; "estimated_cycles"; "estimated_cong_free_cycles"; "golden_cycles"; "cycle_prediction_error"; "wallclock_runtime_us";
     "overall_avg_link_demand"; "overall_max_link_demand"; "overall_avg_niu_demand"; "overall_max_niu_demand"; "overall_avg_link_util";
     "overall_max_link_util"; "overall_avg_noc0_link_demand"; "overall_avg_noc0_link_util"; "overall_max_noc0_link_demand";
     "overall_avg_noc1_link_demand"; "overall_avg_noc1_link_util"; "overall_max_noc1_link_demand"; "overall_avg_mcast_write_link_util";
     "dram_bw_util"; "dram_bw_util_sim"; "eth_bw_util_per_core"; "getCongestionImpact"; "getEthBwUtilPerCoreStr"; "getAggregateEthBwUtil"].
  Definition Stats_names : list string := ["per_device_stats"].
  Definition bound_name (names : list string) (n : string) : bool := existsb (String.eqb n) names.

  (* 87-117: [us] is wallclock_runtime_us, which the records of Stats.v do not have; [eth] is eth_bw_util_per_core in the order of
     iteration *)
  Definition pickle_device (us : Z) (ds : dstats A) (eth : list (coord * D A)) : pyval :=
    PyTuple
      [PyBool (ds_completed A ds);
       PyInt (ds_est A ds);
       PyInt (ds_congfree A ds);
       PyInt (ds_golden A ds);
       PyFloat (ds_err A ds);
       PyInt us;
       PyFloat (ds_avg_ld A ds);
       PyFloat (ds_max_ld A ds);
       PyFloat (ds_avg_nd A ds);
       PyFloat (ds_max_nd A ds);
       PyFloat (ds_avg_lu A ds);
       PyFloat (ds_max_lu A ds);
       PyFloat (ds_avg_ld0 A ds);
       PyFloat (ds_avg_lu0 A ds);
       PyFloat (ds_max_ld0 A ds);
       PyFloat (ds_avg_ld1 A ds);
       PyFloat (ds_avg_lu1 A ds);
       PyFloat (ds_max_ld1 A ds);
       PyFloat (ds_avg_mc A ds);
       PyFloat (ds_dram A ds);
       PyFloat (ds_dram_sim A ds);
       PyList (map (fun e : coord * D A =>
         PyTuple [PyInt (c_dev (fst e)); PyInt (c_row (fst e)); PyInt (c_col (fst e)); PyFloat (snd e)]) eth)].

  (* eth_bw_util_per_core[coord] = v *)
  Fixpoint eth_set (m : list (coord * D A)) (c : coord) (v : D A) : list (coord * D A) :=
    match m with
    | [] => [(c, v)]
    | (c', v') :: m' => if coord_eqb c' c then (c', v) :: m' else (c', v') :: eth_set m' c v
    end.
  (* 146-153 *)
  Definition unpickle_eth (m : list (coord * D A)) (v : pyval) : outcome (list (coord * D A)) :=
    let! t := cast_tuple v in
    let! v0 := item t 0 in let! dev := cast_int32 v0 in
    let! v1 := item t 1 in let! row := cast_int32 v1 in
    let! v2 := item t 2 in let! col := cast_int32 v2 in
    let! v3 := item t 3 in let! u := cast_double v3 in
    Ok (eth_set m (Coord_make dev row col) u).
  (* 118-155; fields that are not set keep the initial values of the class (npeStats.hpp:51-99) *)
  Definition unpickle_device (v : pyval) : outcome (Z * dstats A) :=
    let! t := cast_tuple v in
    if negb (Nat.eqb (List.length t) 22) then StdThrow "Invalid deviceStats pickle state!" else
    let! v := item t 0 in let! completed := cast_bool v in
    let! v := item t 1 in let! est := cast_size v in
    let! v := item t 2 in let! congfree := cast_size v in
    let! v := item t 3 in let! golden := cast_size v in
    let! v := item t 4 in let! err := cast_double v in
    let! v := item t 5 in let! us := cast_size v in
    let! v := item t 6 in let! avg_ld := cast_double v in
    let! v := item t 7 in let! max_ld := cast_double v in
    let! v := item t 8 in let! avg_nd := cast_double v in
    let! v := item t 9 in let! max_nd := cast_double v in
    let! v := item t 10 in let! avg_lu := cast_double v in
    let! v := item t 11 in let! max_lu := cast_double v in
    let! v := item t 12 in let! avg_ld0 := cast_double v in
    let! v := item t 13 in let! avg_lu0 := cast_double v in
    let! v := item t 14 in let! max_ld0 := cast_double v in
    let! v := item t 15 in let! avg_ld1 := cast_double v in
    let! v := item t 16 in let! avg_lu1 := cast_double v in
    let! v := item t 17 in let! max_ld1 := cast_double v in
    let! v := item t 18 in let! avg_mc := cast_double v in
    let! v := item t 19 in let! dram := cast_double v in
    let! v := item t 20 in let! dram_sim := cast_double v in
    let! v := item t 21 in let! l := cast_list v in
    let! eth := foldM unpickle_eth l [] in
    Ok (us, mkDs A completed est congfree golden err avg_ld max_ld avg_lu max_lu avg_nd max_nd
              avg_ld0 avg_lu0 max_ld0 avg_ld1 avg_lu1 max_ld1 avg_mc dram dram_sim eth [] 0).

  (* 172-176: per_device_stats becomes a dict. [st]: the entries in the order of iteration, each with its wall clock time and its
     Ethernet map in the order of iteration *)
  Definition pickle_stats (st : list (Z * (Z * dstats A * list (coord * D A)))) : pyval :=
    PyTuple [PyDict (map (fun e => (PyInt (fst e), PyState (pickle_device (fst (fst (snd e))) (snd (fst (snd e))) (snd (snd e))))) st)].
  (* 177-184: the dict becomes a map again (pybind11 inserts the entries one after the other; an entry with a known key is dropped) *)
  Definition unpickle_stats (v : pyval) : outcome (list (Z * (Z * dstats A))) :=
    let! t := cast_tuple v in
    if negb (Nat.eqb (List.length t) 1) then StdThrow "Invalid npeStats pickle state!" else
    let! v := item t 0 in
    match v with
    | PyDict l =>
        foldM (fun m e =>
          let! k := cast_int16 (fst e) in
          let! ds := match snd e with PyState s => unpickle_device s | _ => bad_cast end in
          Ok (if existsb (fun x => fst x =? k) m then m else m ++ [(k, ds)])) l []
    | _ => bad_cast
    end.

  (* 226-229: arguments that do not convert are a Python TypeError *)
  Definition py_arg {T : Type} (x : outcome T) : outcome T :=
    match x with StdThrow _ => StdThrow "TypeError" | _ => x end.
  (* py::init<int, int, int>, npeUtil.hpp:164 *)
  Definition py_Coord (dev row col : pyval) : outcome coord :=
    let! d := py_arg (cast_int32 dev) in
    let! r := py_arg (cast_int32 row) in
    let! c := py_arg (cast_int32 col) in
    Ok (Coord_make d r c).
  (* 253-275: py::init<uint32_t, uint32_t, Coord, NocDestination, float, int, nocType>; phase_cycle_offset is passed as an int to a
     parameter of type CycleCount (npeWorkload.hpp:29-56) *)
  Definition py_Transfer (psize npkts : pyval) (src : coord) (dst : noc_dest) (rate off : pyval) (noc : noc_type) : outcome (transfer (F A)) :=
    let! p := py_arg (cast_uint32 psize) in
    let! n := py_arg (cast_uint32 npkts) in
    let! r := py_arg (cast_float rate) in
    let! o := py_arg (cast_int32 off) in
    Ok (tr_make p n src dst r (u32 o) noc "" "" (-1) (-1) (-1)).
  (* 300-308 *)
  Definition py_setGolden (wl : workload (F A)) (dict : list (pyval * pyval)) : outcome (workload (F A)) :=
    let! m := foldM (fun m e =>
      let! k := cast_int16 (fst e) in
      let! t := cast_tuple (snd e) in
      if negb (Nat.eqb (List.length t) 2) then bad_cast else
      let! v0 := item t 0 in let! s := cast_uint32 v0 in
      let! v1 := item t 1 in let! f := cast_uint32 v1 in
      Ok (golden_put m k (s, f))) dict [] in
    Ok (setGoldenResultCycles wl m).
End Bindings.
