(* Model of the rate computation: interpolateBW and updateTransferBandwidth of
   tt_npe/cpp/include/npeDeviceModelUtils.hpp and modelCongestion/computeCurrentTransferRate of
   tt_npe/cpp/include/device_models/{wormhole_b0,wormhole_multichip,blackhole}.hpp; the state of a
   transfer (npeTransferState.hpp). Generic in the arithmetic. No proofs in this file. *)
From Coq Require Import ZArith String List Bool.
From Verif Require Import Base Arith Util Device Workload.
Import ListNotations.
Local Open Scope string_scope.
Local Open Scope list_scope.
Open Scope Z_scope.

(* npeTransferState.hpp:19-37 *)
Record tstate (Fl : Type) : Type := mkTs {
  s_tr : transfer Fl;           (* params *)
  s_req : list nat;             (* required_by *)
  s_dep : option nat;           (* depends_on; None = UNDEFINED_CHECKPOINT *)
  s_route : list Z;
  s_start : Z;                  (* start_cycle, uint32_t *)
  s_end : Z;                    (* end_cycle, uint32_t *)
  s_bw : Fl;                    (* curr_bandwidth *)
  s_done : Z }.                 (* total_bytes_transferred, size_t *)
Arguments mkTs {Fl}. Arguments s_tr {Fl}. Arguments s_req {Fl}. Arguments s_dep {Fl}.
Arguments s_route {Fl}. Arguments s_start {Fl}. Arguments s_end {Fl}. Arguments s_bw {Fl}.
Arguments s_done {Fl}.

Definition with_bw {Fl} (s : tstate Fl) (b : Fl) : tstate Fl :=
  mkTs (s_tr s) (s_req s) (s_dep s) (s_route s) (s_start s) (s_end s) b (s_done s).

(* npeDeviceState.hpp *)
Record grids (Fl : Type) : Type := mkGrids { g_niu : list Fl; g_link : list Fl; g_mc : list Fl }.
Arguments mkGrids {Fl}. Arguments g_niu {Fl}. Arguments g_link {Fl}. Arguments g_mc {Fl}.

(* grid[id] with an int16_t id converted to size_t *)
Definition grid_get {X} (l : list X) (id : Z) : outcome X :=
  if id <? 0 then UB "vector index" else vec_get l (Z.to_nat id).
Definition grid_mod {X} (l : list X) (id : Z) (f : X -> X) : outcome (list X) :=
  if id <? 0 then UB "vector index" else vec_mod l (Z.to_nat id) f.

Section Rates.
  Context (A : arith).

  (** * Interpolation: npeDeviceModelUtils.hpp:16-50 *)
  (* 26-42: bandwidth for a packet size in the interval of two table entries *)
  Definition interp_pair (lo hi : Z * F A) (max_bw : F A) (psize npkts : Z) : outcome (F A) :=
    let delta := f_ofZ A (u64 (fst hi - fst lo)) in
    let pct := f_div A (f_ofZ A (u64 (psize - fst lo))) delta in
    let val_delta := f_sub A (snd hi) (snd lo) in
    let steady_bw := f_add A (f_mul A val_delta pct) (snd lo) in
    let steady := f_div A (f_ofZ A (u64 (npkts - 1))) (f_ofZ A npkts) in
    let first := f_of_d A (d_sub A (d_lit A 1 1) (d_of_f A steady)) in
    let sum := d_of_f A (f_add A steady first) in
    let! _ := tt_assert (d_lt A sum (d_lit A 10001 10000)) in
    let! _ := tt_assert (d_lt A (d_lit A 999 1000) sum) in
    Ok (f_add A (f_mul A first max_bw) (f_mul A steady steady_bw)).
  (* 22-49: the loop over consecutive entries, then the last entry *)
  Fixpoint interp_loop (tbt : list (Z * F A)) (max_bw : F A) (psize npkts : Z) : outcome (F A) :=
    match tbt with
    | [] => UB "back() of an empty vector"
    | lo :: rest =>
        match rest with
        | [] => if fst lo <=? psize then Ok (snd lo) else Throw UNDEF_ERR
        | hi :: _ =>
            if (fst lo <=? psize) && (psize <=? fst hi) then interp_pair lo hi max_bw psize npkts
            else interp_loop rest max_bw psize npkts
        end
    end.
  Definition interpolateBW (tbt : list (Z * F A)) (max_bw : F A) (psize npkts : Z) : outcome (F A) :=
    let! _ := tt_assert (0 <? psize) in
    interp_loop tbt max_bw psize npkts.

  (* 51-65. For the multi-chip class the table is the one of the single-chip model
     (wormhole_multichip.hpp:228-232), which [tbt d] gives. *)
  Definition uncongested_bw (d : device) (t : transfer (F A)) : outcome (F A) :=
    let! noc := interpolateBW (tbt A d) (max_noc_bandwidth A d) (t_psize t) (t_npkts t) in
    Ok (f_fmin A (t_rate t) noc).
  Definition updateTransferBandwidth (d : device) (sts : list (tstate (F A))) (live : list nat)
    : outcome (list (tstate (F A))) :=
    foldM (fun sts id =>
      let! s := vec_get sts id in
      let! b := uncongested_bw d (s_tr s) in
      Ok (upd sts id (with_bw s b))) live sts.

  (** * Congestion: wormhole_b0.hpp:55-189, blackhole.hpp:67-201 (identical), wormhole_multichip.hpp:90-216 *)
  Definition src_niu_type (n : noc_type) : niu_type := match n with NOC0 => NOC0_SRC | NOC1 => NOC1_SRC end.
  Definition sink_niu_type (n : noc_type) : niu_type := match n with NOC0 => NOC0_SINK | NOC1 => NOC1_SINK end.
  (* single-chip classes: getNIUID(row, col, type) with _device_id = 0 (wormhole_b0.hpp:272-274); multi-chip
     class: the chip of the coordinate (wormhole_multichip.hpp:290-292) *)
  Definition niu_of (d : device) (c : coord) (t : niu_type) : outcome Z :=
    match dv_class d with
    | ClsMultichip => getNIUID d (mkNiu (Coord_make (c_dev c) (c_row c) (c_col c)) t)
    | _ => getNIUID d (mkNiu (Coord_make 0 (c_row c) (c_col c)) t)
    end.

  (* wormhole_b0.hpp:86-91: uint32_t cycle counts *)
  Definition effective_demand (start_ts end_ts : Z) (s : tstate (F A)) : F A :=
    let predicted := Z.max start_ts (s_start s) in
    f_mul A (f_div A (f_ofZ A (u32 (end_ts - predicted))) (f_ofZ A (u32 (end_ts - start_ts)))) (s_bw s).

  (* wormhole_b0.hpp:93-116 *)
  Definition add_niu_demand (d : device) (eff : F A) (s : tstate (F A)) (niu : list (F A)) : outcome (list (F A)) :=
    let t := s_tr s in
    let bump c ty g :=
      let! id := niu_of d c ty in grid_mod g id (fun x => f_add A x eff) in
    let! niu := bump (t_src t) (src_niu_type (t_noc t)) niu in
    match t_dst t with
    | Unicast c => bump c (sink_niu_type (t_noc t)) niu
    | Multicast m =>
        let! cs := mcast_coords m in
        foldM (fun g c =>
          let! ty := getCoreType d c in
          match ty with WORKER => bump c (sink_niu_type (t_noc t)) g | _ => Ok g end) cs niu
    end.
  (* wormhole_b0.hpp:118-128 *)
  Definition add_link_demand (eff : F A) (route : list Z) (g : list (F A)) : outcome (list (F A)) :=
    foldM (fun g id => grid_mod g id (fun x => f_add A x eff)) route g.

  (* wormhole_b0.hpp:83-129: one transfer *)
  Definition add_demand (d : device) (start_ts end_ts : Z) (sts : list (tstate (F A))) (g : grids (F A)) (id : nat)
    : outcome (grids (F A)) :=
    let! s := vec_get sts id in
    let eff := effective_demand start_ts end_ts s in
    let! niu := add_niu_demand d eff s (g_niu g) in
    let! link := add_link_demand eff (s_route s) (g_link g) in
    let! mc := if String.eqb (t_event (s_tr s)) "WRITE_MULTICAST"
               then add_link_demand eff (s_route s) (g_mc g) else Ok (g_mc g) in
    Ok (mkGrids niu link mc).

  (* wormhole_b0.hpp:135-147 *)
  Definition max_link_demand (g : list (F A)) (route : list Z) : outcome (F A) :=
    foldM (fun m id => let! x := grid_get g id in Ok (if f_lt A m x then x else m)) route (f_zero A).
  (* wormhole_b0.hpp:157-178 *)
  Definition sink_derate (d : device) (t : transfer (F A)) (niu : list (F A)) : outcome (F A) :=
    match t_dst t with
    | Unicast c =>
        let! id := niu_of d c (sink_niu_type (t_noc t)) in
        let! dem := grid_get niu id in
        let! r := getSinkAbsorptionRate A d c in
        Ok (f_div A r dem)
    | Multicast m =>
        let! cs := mcast_coords m in
        let! dem := foldM (fun acc c =>
          let! ty := getCoreType d c in
          match ty with
          | WORKER =>
              let! id := niu_of d c (sink_niu_type (t_noc t)) in
              let! x := grid_get niu id in
              Ok (f_min A acc x)
          | _ => Ok acc
          end) cs (f_zero A) in
        Ok (f_div A (abs_rate A d WORKER) dem)
    end.
  (* wormhole_b0.hpp:180-186 (grad_fac = 1), wormhole_multichip.hpp:209-214; the comparisons with the
     double 1.0 are comparisons of floats, the conversion of a float to double being exact *)
  Definition apply_derate (d : device) (bw overall : F A) : F A :=
    match dv_class d with
    | ClsMultichip => f_mul A bw overall
    | _ => f_of_d A (d_mul A (d_of_f A bw)
             (d_sub A (d_lit A 1 1) (d_of_f A (f_mul A (f_one A) (f_sub A (f_one A) overall)))))
    end.
  (* wormhole_b0.hpp:132-187: one transfer *)
  Definition derate (d : device) (g : grids (F A)) (sts : list (tstate (F A))) (id : nat)
    : outcome (list (tstate (F A))) :=
    let! s := vec_get sts id in
    let t := s_tr s in
    let! m := max_link_demand (g_link g) (s_route s) in
    let link_derate := f_div A (link_bandwidth A d) m in
    let! sid := niu_of d (t_src t) (src_niu_type (t_noc t)) in
    let! sdem := grid_get (g_niu g) sid in
    let src_derate := f_div A (t_rate t) sdem in
    let! snk_derate := sink_derate d t (g_niu g) in
    let niu_derate := f_min A src_derate snk_derate in
    if f_lt A link_derate (f_one A) || f_lt A niu_derate (f_one A) then
      Ok (upd sts id (with_bw s (apply_derate d (s_bw s) (f_min A link_derate niu_derate))))
    else Ok sts.

  Definition zero_grids (d : device) : grids (F A) :=
    mkGrids (map (fun _ => f_zero A) (niu_table d)) (map (fun _ => f_zero A) (link_table d))
            (map (fun _ => f_zero A) (link_table d)).
  Definition modelCongestion (d : device) (start_ts end_ts : Z) (sts : list (tstate (F A))) (live : list nat)
    : outcome (list (tstate (F A)) * grids (F A)) :=
    let! g := foldM (add_demand d start_ts end_ts sts) live (zero_grids d) in
    let! sts := foldM (derate d g) live sts in
    Ok (sts, g).

  (* wormhole_b0.hpp:197-222, blackhole.hpp:209-234, wormhole_multichip.hpp:219-246 *)
  Definition computeCurrentTransferRate (d : device) (start_ts end_ts : Z) (sts : list (tstate (F A)))
      (live : list nat) (g : grids (F A)) (congestion : bool) : outcome (list (tstate (F A)) * grids (F A)) :=
    let! sts := updateTransferBandwidth d sts live in
    if congestion then modelCongestion d start_ts end_ts sts live else Ok (sts, g).
End Rates.
