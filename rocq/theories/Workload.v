(* Model of workloads: tt_npe/cpp/include/npeWorkload.hpp and tt_npe/cpp/src/npeWorkload.cpp. Integer
   fields are unbounded integers that hold values of their C++ type; conversions are written where the
   code converts. [Fl] is the type of float. Strings used only for display are kept. No proofs here. *)
From Coq Require Import ZArith String List Bool.
From Verif Require Import Base Arith Util Device.
Import ListNotations.
Local Open Scope string_scope.
Open Scope Z_scope.

(* npeWorkload.hpp:58-82 *)
Record transfer (Fl : Type) : Type := mkTr {
  t_psize : Z;          (* packet_size, uint32_t *)
  t_npkts : Z;          (* num_packets, uint32_t *)
  t_src : coord;
  t_dst : noc_dest;
  t_rate : Fl;          (* injection_rate *)
  t_off : Z;            (* phase_cycle_offset, uint32_t *)
  t_noc : noc_type;
  t_event : string;     (* noc_event_type *)
  t_bytes : Z;          (* total_bytes, uint32_t *)
  t_zone : string;      (* enclosing_zone_path *)
  t_gid : Z;            (* transfer_group_id *)
  t_gix : Z;            (* transfer_group_index *)
  t_gpar : Z;           (* transfer_group_parent *)
  t_phase : Z;          (* phase_id *)
  t_id : Z }.           (* id *)
Arguments mkTr {Fl}. Arguments t_psize {Fl}. Arguments t_npkts {Fl}. Arguments t_src {Fl}.
Arguments t_dst {Fl}. Arguments t_rate {Fl}. Arguments t_off {Fl}. Arguments t_noc {Fl}.
Arguments t_event {Fl}. Arguments t_bytes {Fl}. Arguments t_zone {Fl}. Arguments t_gid {Fl}.
Arguments t_gix {Fl}. Arguments t_gpar {Fl}. Arguments t_phase {Fl}. Arguments t_id {Fl}.

(* npeWorkload.hpp:85-95 *)
Record phase (Fl : Type) : Type := mkPhase { ph_id : Z; ph_trs : list (transfer Fl) }.
Arguments mkPhase {Fl}. Arguments ph_id {Fl}. Arguments ph_trs {Fl}.

Definition golden_map : Type := list (Z * (Z * Z)).             (* DeviceID -> (start, end) *)
Definition zone_map : Type := list ((coord * risc_type) * list zone).

(* npeWorkload.hpp:142-147. The two flat maps are association lists with distinct keys. *)
Record workload (Fl : Type) : Type := mkWl {
  wl_path : option string;
  wl_phases : list (phase Fl);
  wl_next : Z;                (* gbl_transfer_id *)
  wl_groups : Z;              (* num_transfer_groups *)
  wl_golden : golden_map;
  wl_zones : zone_map }.
Arguments mkWl {Fl}. Arguments wl_path {Fl}. Arguments wl_phases {Fl}. Arguments wl_next {Fl}.
Arguments wl_groups {Fl}. Arguments wl_golden {Fl}. Arguments wl_zones {Fl}.

Section Workload.
  Context {Fl : Type}.
  (* npeWorkload.hpp:29-56: total_bytes is computed in uint32_t *)
  Definition tr_make (psize npkts : Z) (src : coord) (dst : noc_dest) (rate : Fl) (off : Z)
      (noc : noc_type) (event zone : string) (gid gix gpar : Z) : transfer Fl :=
    mkTr psize npkts src dst rate off noc event (u32 (psize * npkts)) zone gid gix gpar (-1) (-1).

  Definition empty_workload : workload Fl := mkWl None [] 0 0 [] [].

  Definition set_ids (ph id : Z) (t : transfer Fl) : transfer Fl :=
    mkTr (t_psize t) (t_npkts t) (t_src t) (t_dst t) (t_rate t) (t_off t) (t_noc t) (t_event t)
         (t_bytes t) (t_zone t) (t_gid t) (t_gix t) (t_gpar t) ph id.
  Definition set_rate (r : Fl) (t : transfer Fl) : transfer Fl :=
    mkTr (t_psize t) (t_npkts t) (t_src t) (t_dst t) r (t_off t) (t_noc t) (t_event t)
         (t_bytes t) (t_zone t) (t_gid t) (t_gix t) (t_gpar t) (t_phase t) (t_id t).
  Definition set_off (o : Z) (t : transfer Fl) : transfer Fl :=
    mkTr (t_psize t) (t_npkts t) (t_src t) (t_dst t) (t_rate t) o (t_noc t) (t_event t)
         (t_bytes t) (t_zone t) (t_gid t) (t_gix t) (t_gpar t) (t_phase t) (t_id t).

  Definition with_phases (wl : workload Fl) (ps : list (phase Fl)) : workload Fl :=
    mkWl (wl_path wl) ps (wl_next wl) (wl_groups wl) (wl_golden wl) (wl_zones wl).

  (* npeWorkload.cpp:81-84 *)
  Fixpoint number_transfers (ph id : Z) (ts : list (transfer Fl)) : list (transfer Fl) :=
    match ts with
    | [] => []
    | t :: ts' => set_ids ph id t :: number_transfers ph (id + 1) ts'
    end.
  (* npeWorkload.cpp:78-87. [ts] are the transfers of the argument; its id is private and overwritten.
     gbl_transfer_id is an int: incrementing past 2^31-1 is undefined. Returns the workload and the id. *)
  Definition addPhase (wl : workload Fl) (ts : list (transfer Fl)) : outcome (workload Fl * Z) :=
    let new_id := i32 (Z.of_nat (List.length (wl_phases wl))) in
    let next := wl_next wl + Z.of_nat (List.length ts) in
    if next <? 2 ^ 31 then
      Ok (mkWl (wl_path wl)
               (wl_phases wl ++ [mkPhase new_id (number_transfers new_id (wl_next wl) ts)])
               next (wl_groups wl) (wl_golden wl) (wl_zones wl), new_id)
    else UB "signed overflow".

  (* npeWorkload.hpp:129-131 *)
  Definition registerTransferGroupID (wl : workload Fl) : outcome (workload Fl * Z) :=
    if wl_groups wl + 1 <? 2 ^ 31 then
      Ok (mkWl (wl_path wl) (wl_phases wl) (wl_next wl) (wl_groups wl + 1) (wl_golden wl) (wl_zones wl),
          wl_groups wl)
    else UB "signed overflow".

  Definition setSourceFilePath (wl : workload Fl) (p : string) : workload Fl :=     (* 135 *)
    mkWl (Some p) (wl_phases wl) (wl_next wl) (wl_groups wl) (wl_golden wl) (wl_zones wl).
  Definition setZones (wl : workload Fl) (z : zone_map) : workload Fl :=            (* 139 *)
    mkWl (wl_path wl) (wl_phases wl) (wl_next wl) (wl_groups wl) (wl_golden wl) z.

  Definition MESH_DEVICE : Z := -1.                                                (* npeCommon.hpp:16 *)
  Fixpoint golden_get (m : golden_map) (k : Z) : option (Z * Z) :=
    match m with
    | [] => None
    | (k', v) :: m' => if k' =? k then Some v else golden_get m' k
    end.
  (* operator[] = v *)
  Fixpoint golden_put (m : golden_map) (k : Z) (v : Z * Z) : golden_map :=
    match m with
    | [] => [(k, v)]
    | (k', v') :: m' => if k' =? k then (k, v) :: m' else (k', v') :: golden_put m' k v
    end.
  (* npeWorkload.hpp:113-125: size_t accumulators, stored as uint32_t *)
  Definition golden_window (m : golden_map) : Z * Z :=
    fold_left (fun acc e => (Z.min (fst acc) (fst (snd e)), Z.max (snd acc) (snd (snd e)))) m (2 ^ 63 - 1, 0).
  Definition setGoldenResultCycles (wl : workload Fl) (m : golden_map) : workload Fl :=
    let w := golden_window m in
    mkWl (wl_path wl) (wl_phases wl) (wl_next wl) (wl_groups wl)
         (golden_put m MESH_DEVICE (u32 (fst w), u32 (snd w))) (wl_zones wl).
  (* npeWorkload.hpp:111: map.at() *)
  Definition getGoldenResultCycles (wl : workload Fl) (dev : Z) : outcome (Z * Z) :=
    match golden_get (wl_golden wl) dev with
    | Some w => Ok w
    | None => StdThrow "out_of_range"
    end.

  (** * Validation *)
  (* npeWorkload.cpp:21-23 *)
  Definition is_valid_coord (d : device) (c : coord) : bool :=
    (0 <=? c_row c) && (c_row c <? Z.of_nat (dv_rows d)) &&
    (0 <=? c_col c) && (c_col c <? Z.of_nat (dv_cols d)).
  (* npeWorkload.cpp:15-76, without the messages. phase_cycle_offset is unsigned. *)
  Definition transfer_validate (d : device) (t : transfer Fl) : outcome bool :=
    let! front := match dest_device_ids (t_dst t) with
                  | [] => UB "front() of an empty vector"
                  | i :: _ => Ok i
                  end in
    let ids_match := c_dev (t_src t) =? front in
    let valid_device := dv_valid_device d (c_dev (t_src t)) in
    let valid_src := is_valid_coord d (t_src t) in
    let valid_dst :=
      match t_dst t with
      | Unicast c => is_valid_coord d c
      | Multicast m =>
          fold_left (fun v g => v || (is_valid_coord d (g_start g) && is_valid_coord d (g_end g))) m false
      end in
    Ok ((0 <? t_npkts t) && (0 <? t_psize t) && valid_src && valid_dst && (0 <=? t_off t) &&
        ids_match && valid_device).

  (* vector<bool> access: npeWorkload.cpp:100,105,113,118 *)
  Definition bit_test (l : list bool) (i : Z) : outcome bool :=
    if i <? 0 then UB "vector index" else vec_get l (Z.to_nat i).
  Definition bit_set (l : list bool) (i : Z) : outcome (list bool) :=
    if i <? 0 then UB "vector index" else vec_mod l (Z.to_nat i) (fun _ => true).

  (* npeWorkload.cpp:108-127; state = (bitmap, errors) *)
  Definition validate_transfer_step (d : device) (gbl : Z) (st : list bool * Z) (t : transfer Fl)
    : outcome (list bool * Z) :=
    let '(bm, err) := st in
    if gbl <? t_id t then Ok (bm, err + 1)
    else
      let! seen := bit_test bm (t_id t) in
      if seen then Ok (bm, err + 1)
      else
        let! bm' := bit_set bm (t_id t) in
        let! ok := transfer_validate d t in
        Ok (bm', if ok then err else err + 1).
  (* npeWorkload.cpp:95-128; ph.id (int) is converted to size_t in the comparison *)
  Definition validate_phase_step (d : device) (nph gbl : Z) (st : list bool * (list bool * Z)) (p : phase Fl)
    : outcome (list bool * (list bool * Z)) :=
    let '(pbm, (tbm, err)) := st in
    if nph <? u64 (ph_id p) then Ok (pbm, (tbm, err + 1))
    else
      let! seen := bit_test pbm (ph_id p) in
      if seen then Ok (pbm, (tbm, err + 1))
      else
        let! pbm' := bit_set pbm (ph_id p) in
        let! r := foldM (validate_transfer_step d gbl) (ph_trs p) (tbm, err) in
        Ok (pbm', r).
  (* npeWorkload.cpp:89-131 *)
  Definition validate (d : device) (wl : workload Fl) : outcome bool :=
    let nph := Z.of_nat (List.length (wl_phases wl)) in
    let! r := foldM (validate_phase_step d nph (wl_next wl)) (wl_phases wl)
      (repeat false (List.length (wl_phases wl)), (repeat false (Z.to_nat (wl_next wl)), 0)) in
    Ok (snd (snd r) =? 0).

  (** * Removal of local unicasts: npeWorkload.cpp:156-185 *)
  Definition keeps (t : transfer Fl) : bool :=
    match t_dst t with
    | Unicast c =>
        negb ((Z.quot (c_row (t_src t)) 2 =? Z.quot (c_row c) 2) &&
              (Z.quot (c_col (t_src t)) 2 =? Z.quot (c_col c) 2))
    | Multicast _ => false
    end.
  Definition removeLocalUnicastTransfers (wl : workload Fl) : outcome (workload Fl) :=
    foldM (fun acc p => let! r := addPhase acc (filter keeps (ph_trs p)) in Ok (fst r))
          (wl_phases wl) (setGoldenResultCycles empty_workload (wl_golden wl)).
End Workload.

Section WorkloadFloat.
  Context (A : arith).
  (* npeWorkload.cpp:133-143 *)
  Definition scale_offset (s : F A) (off : Z) : outcome Z := f_to_uint A 32 (f_mul A (f_ofZ A off) s).
  Definition scaleWorkloadSchedule (s : F A) (wl : workload (F A)) : outcome (workload (F A)) :=
    let! ps := mapM (fun p =>
      let! ts := mapM (fun t => let! o := scale_offset s (t_off t) in Ok (set_off o t)) (ph_trs p) in
      Ok (mkPhase (ph_id p) ts)) (wl_phases wl) in
    Ok (with_phases wl ps).
  (* npeWorkload.cpp:145-154 *)
  Definition inferInjectionRates (d : device) (wl : workload (F A)) : outcome (workload (F A)) :=
    let! ps := mapM (fun p =>
      let! ts := mapM (fun t => let! r := getSrcInjectionRate A d (t_src t) in Ok (set_rate r t)) (ph_trs p) in
      Ok (mkPhase (ph_id p) ts)) (wl_phases wl) in
    Ok (with_phases wl ps).
End WorkloadFloat.
