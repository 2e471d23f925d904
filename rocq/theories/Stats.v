(* Model of the statistics: npeStats (tt_npe/cpp/include/npeStats.hpp, src/npeStats.cpp:24-201,878-918) and
   updateSimulationStats (npeDeviceModelUtils.hpp:67-140). The wall clock time is not modelled. The hash
   map per_device_stats is an association list; the code only uses it entry by entry, so its iteration
   order has no effect. Generic in the arithmetic. No proofs in this file. *)
From Coq Require Import ZArith String List Bool.
From Verif Require Import Base Arith Util Device Workload Rates.
Import ListNotations.
Local Open Scope string_scope.
Local Open Scope list_scope.
Open Scope Z_scope.

Section Stats.
  Context (A : arith).

  (* npeStats.hpp:20-48 *)
  Record tstats : Type := mkTst {
    ts_start : Z; ts_end : Z;                           (* size_t *)
    ts_avg_ld : D A; ts_max_ld : D A; ts_avg_lu : D A;    (* link demand, link util *)
    ts_avg_nd : D A; ts_max_nd : D A;                     (* niu demand *)
    ts_avg_ld0 : D A; ts_avg_lu0 : D A; ts_max_ld0 : D A; (* noc0 *)
    ts_avg_ld1 : D A; ts_avg_lu1 : D A; ts_max_ld1 : D A; (* noc1 *)
    ts_avg_mc : D A;
    ts_link : list (F A); ts_niu : list (F A); ts_live : list nat }.
  Definition dz : D A := d_ofZ A 0.
  Definition fresh_ts (s e : Z) : tstats := mkTst s e dz dz dz dz dz dz dz dz dz dz dz dz [] [] [].

  (* npeStats.hpp:51-99 *)
  Record dstats : Type := mkDs {
    ds_completed : bool;
    ds_est : Z; ds_congfree : Z; ds_golden : Z;             (* size_t *)
    ds_err : D A;                                           (* cycle_prediction_error *)
    ds_avg_ld : D A; ds_max_ld : D A; ds_avg_lu : D A; ds_max_lu : D A; ds_avg_nd : D A; ds_max_nd : D A;
    ds_avg_ld0 : D A; ds_avg_lu0 : D A; ds_max_ld0 : D A;
    ds_avg_ld1 : D A; ds_avg_lu1 : D A; ds_max_ld1 : D A;
    ds_avg_mc : D A;
    ds_dram : D A; ds_dram_sim : D A;
    ds_eth : list (coord * D A);
    ds_ts : list tstats;
    ds_worst : Z }.                                         (* worst_case_transfer_end_cycle *)
  Definition empty_ds : dstats :=
    mkDs false 0 0 0 dz dz dz dz dz dz dz dz dz dz dz dz dz dz dz dz [] [] 0.

  Definition stats : Type := list (Z * dstats).
  Definition with_ts (ds : dstats) (l : list tstats) : dstats :=
    mkDs (ds_completed ds) (ds_est ds) (ds_congfree ds) (ds_golden ds) (ds_err ds) (ds_avg_ld ds) (ds_max_ld ds)
         (ds_avg_lu ds) (ds_max_lu ds) (ds_avg_nd ds) (ds_max_nd ds) (ds_avg_ld0 ds) (ds_avg_lu0 ds)
         (ds_max_ld0 ds) (ds_avg_ld1 ds) (ds_avg_lu1 ds) (ds_max_ld1 ds) (ds_avg_mc ds) (ds_dram ds)
         (ds_dram_sim ds) (ds_eth ds) l (ds_worst ds).
  Definition with_worst (ds : dstats) (w : Z) : dstats :=
    mkDs (ds_completed ds) (ds_est ds) (ds_congfree ds) (ds_golden ds) (ds_err ds) (ds_avg_ld ds) (ds_max_ld ds)
         (ds_avg_lu ds) (ds_max_lu ds) (ds_avg_nd ds) (ds_max_nd ds) (ds_avg_ld0 ds) (ds_avg_lu0 ds)
         (ds_max_ld0 ds) (ds_avg_ld1 ds) (ds_avg_lu1 ds) (ds_max_ld1 ds) (ds_avg_mc ds) (ds_dram ds)
         (ds_dram_sim ds) (ds_eth ds) (ds_ts ds) w.
  Definition with_congfree (ds : dstats) (c : Z) : dstats :=
    mkDs (ds_completed ds) (ds_est ds) c (ds_golden ds) (ds_err ds) (ds_avg_ld ds) (ds_max_ld ds)
         (ds_avg_lu ds) (ds_max_lu ds) (ds_avg_nd ds) (ds_max_nd ds) (ds_avg_ld0 ds) (ds_avg_lu0 ds)
         (ds_max_ld0 ds) (ds_avg_ld1 ds) (ds_avg_lu1 ds) (ds_max_ld1 ds) (ds_avg_mc ds) (ds_dram ds)
         (ds_dram_sim ds) (ds_eth ds) (ds_ts ds) (ds_worst ds).

  (* npeStats.cpp:24-30 *)
  Definition stats_make (d : device) : stats :=
    map (fun id => (id, empty_ds)) (dv_device_ids d) ++ [(MESH_DEVICE, empty_ds)].

  (* for (auto& [device_id, deviceStats] : per_device_stats) deviceStats = f(device_id, deviceStats) *)
  Definition stats_map (f : Z -> dstats -> outcome dstats) (st : stats) : outcome stats :=
    mapM (fun e => let! ds := f (fst e) (snd e) in Ok (fst e, ds)) st.
  (* per_device_stats[id] = f(per_device_stats[id]): a missing entry is created *)
  Fixpoint stats_mod (st : stats) (id : Z) (f : dstats -> dstats) : stats :=
    match st with
    | [] => [(id, f empty_ds)]
    | (k, ds) :: st' => if k =? id then (k, f ds) :: st' else (k, ds) :: stats_mod st' id f
    end.
  Fixpoint stats_get (st : stats) (id : Z) : option dstats :=
    match st with
    | [] => None
    | (k, ds) :: st' => if k =? id then Some ds else stats_get st' id
    end.

  Section Wl.
    Context {Fl : Type} (wl : workload Fl).
    (* npeStats.cpp:42-53 *)
    Definition insertTimestep (s e : Z) (st : stats) : outcome stats :=
      stats_map (fun id ds =>
        let! g := getGoldenResultCycles wl id in
        Ok (if fst g <=? e then with_ts ds (ds_ts ds ++ [fresh_ts s e]) else ds)) st.

    (* npeStats.cpp:55-60 *)
    Definition updateWorstCase (id : Z) (off end_ : Z) (golden : Z * Z) (st : stats) : stats :=
      if (fst golden <=? off) && (off <=? snd golden)
      then stats_mod st id (fun ds => with_worst ds (Z.max (ds_worst ds) end_))
      else st.

    (* vector::resize *)
    Definition resize {X} (n : nat) (dflt : X) (l : list X) : list X :=
      firstn n l ++ repeat dflt (n - List.length l).

    (* npeStats.cpp:62-85: golden cycles and cpt are uint32_t, the rest size_t *)
    Definition finish_device (cpt : Z) (id : Z) (ds : dstats) : outcome dstats :=
      let! g := getGoldenResultCycles wl id in
      let golden := u32 (snd g - fst g) in
      let base est ts :=
        mkDs true est (ds_congfree ds) golden (ds_err ds) (ds_avg_ld ds) (ds_max_ld ds)
           (ds_avg_lu ds) (ds_max_lu ds) (ds_avg_nd ds) (ds_max_nd ds) (ds_avg_ld0 ds) (ds_avg_lu0 ds)
           (ds_max_ld0 ds) (ds_avg_ld1 ds) (ds_avg_lu1 ds) (ds_max_ld1 ds) (ds_avg_mc ds) (ds_dram ds)
           (ds_dram_sim ds) (ds_eth ds) ts (ds_worst ds) in
      if ds_worst ds <=? fst g then Ok (base 0 [])
      else if cpt =? 0 then UB "division by zero"
      else
        let start_idx := fst g / cpt in
        let end_idx := u64 (u64 (ds_worst ds + cpt) - 1) / cpt in
        let n := u64 (u64 (end_idx - start_idx) + 1) in
        Ok (base (u64 (ds_worst ds - fst g)) (resize (Z.to_nat n) (fresh_ts 0 0) (ds_ts ds))).
    Definition finishSimulation (cpt : Z) (st : stats) : outcome stats := stats_map (finish_device cpt) st.
  End Wl.

  (** * Per-timestep statistics: npeDeviceModelUtils.hpp:67-140 *)
  Definition noc0_link (t : link_type) : bool := match t with NOC0_EAST | NOC0_SOUTH => true | _ => false end.
  Definition on_device (id : Z) (c : coord) : bool := (id =? MESH_DEVICE) || (id =? c_dev c).
  (* 83-101: body of the loop over the links; [x] = (attributes, (demand, multicast write demand)) *)
  Definition link_acc (id : Z) (maxbw : F A) (t : tstats) (x : link_attr * (F A * F A)) : tstats :=
    let '(a, (dem, mc)) := x in
    if on_device id (l_coord a) then
      let util := d_of_f A (f_fmin A dem maxbw) in
      let dd := d_of_f A dem in
      let n0 := noc0_link (l_type a) in
      mkTst (ts_start t) (ts_end t)
        (d_add A (ts_avg_ld t) dd) (d_fmax A (ts_max_ld t) dd) (d_add A (ts_avg_lu t) util)
        (ts_avg_nd t) (ts_max_nd t)
        (if n0 then d_add A (ts_avg_ld0 t) dd else ts_avg_ld0 t)
        (if n0 then d_add A (ts_avg_lu0 t) util else ts_avg_lu0 t)
        (if n0 then d_fmax A (ts_max_ld0 t) dd else ts_max_ld0 t)
        (if n0 then ts_avg_ld1 t else d_add A (ts_avg_ld1 t) dd)
        (if n0 then ts_avg_lu1 t else d_add A (ts_avg_lu1 t) util)
        (if n0 then ts_max_ld1 t else d_fmax A (ts_max_ld1 t) dd)
        (d_add A (ts_avg_mc t) (d_of_f A (f_fmin A mc maxbw)))
        (ts_link t) (ts_niu t) (ts_live t)
    else t.
  (* 121-127 *)
  Definition niu_acc (id : Z) (t : tstats) (x : niu_attr * F A) : tstats :=
    let '(a, dem) := x in
    if on_device id (n_coord a) then
      let dd := d_of_f A dem in
      mkTst (ts_start t) (ts_end t) (ts_avg_ld t) (ts_max_ld t) (ts_avg_lu t)
        (d_add A (ts_avg_nd t) dd) (d_fmax A (ts_max_nd t) dd)
        (ts_avg_ld0 t) (ts_avg_lu0 t) (ts_max_ld0 t) (ts_avg_ld1 t) (ts_avg_lu1 t) (ts_max_ld1 t)
        (ts_avg_mc t) (ts_link t) (ts_niu t) (ts_live t)
    else t.
  (* 100. / (max_link_bandwidth * n): float product, double quotient *)
  Definition pct_over (maxbw : F A) (n : Z) : D A := d_div A (d_lit A 100 1) (d_of_f A (f_mul A maxbw (f_ofZ A n))).
  Definition pct (maxbw : F A) : D A := d_div A (d_lit A 100 1) (d_of_f A maxbw).
  (* 83-139 for one device; enumerate(grid) pairs the i-th element with identifier i, whose attributes are
     the i-th table entry *)
  Definition device_timestep (d : device) (g : grids (F A)) (live : list nat) (id : Z) (t : tstats) : tstats :=
    let maxbw := link_bandwidth A d in
    let t := fold_left (link_acc id maxbw) (combine (link_table d) (combine (g_link g) (g_mc g))) t in
    let nl := Z.of_nat (List.length (g_link g)) in
    let size := if id =? MESH_DEVICE then nl else nl / Z.of_nat (dv_chips d) in
    let half := size / 2 in
    let t := mkTst (ts_start t) (ts_end t)
      (d_mul A (ts_avg_ld t) (pct_over maxbw size)) (d_mul A (ts_max_ld t) (pct maxbw))
      (d_mul A (ts_avg_lu t) (pct_over maxbw size))
      (ts_avg_nd t) (ts_max_nd t)
      (d_mul A (ts_avg_ld0 t) (pct_over maxbw half)) (d_mul A (ts_avg_lu0 t) (pct_over maxbw half))
      (d_mul A (ts_max_ld0 t) (pct maxbw))
      (d_mul A (ts_avg_ld1 t) (pct_over maxbw half)) (d_mul A (ts_avg_lu1 t) (pct_over maxbw half))
      (d_mul A (ts_max_ld1 t) (pct maxbw))
      (d_mul A (ts_avg_mc t) (pct_over maxbw size))
      (ts_link t) (ts_niu t) (ts_live t) in
    let t := fold_left (niu_acc id) (combine (niu_table d) (g_niu g)) t in
    let mesh := id =? MESH_DEVICE in
    mkTst (ts_start t) (ts_end t) (ts_avg_ld t) (ts_max_ld t) (ts_avg_lu t)
      (d_mul A (ts_avg_nd t) (pct_over maxbw (Z.of_nat (List.length (g_niu g)))))    (* 130 *)
      (d_mul A (ts_max_nd t) (pct maxbw))
      (ts_avg_ld0 t) (ts_avg_lu0 t) (ts_max_ld0 t) (ts_avg_ld1 t) (ts_avg_lu1 t) (ts_max_ld1 t)
      (ts_avg_mc t)
      (if mesh then g_link g else ts_link t) (if mesh then g_niu g else ts_niu t)
      (if mesh then live else ts_live t).
  (* 76-81: only the last timestep of a device is touched, devices without timesteps are skipped *)
  Definition updateSimulationStats (d : device) (g : grids (F A)) (live : list nat) (st : stats) : stats :=
    map (fun e =>
      match rev (ds_ts (snd e)) with
      | [] => e
      | t :: before => (fst e, with_ts (snd e) (rev before ++ [device_timestep d g live (fst e) t]))
      end) st.

  (** * Summary: npeStats.cpp:122-201 *)
  (* std::max(a,b): (a < b) ? b : a *)
  Definition d_max (a b : D A) : D A := if d_lt A a b then b else a.
  Definition sum_ts (f : tstats -> D A) (ds : dstats) (x0 : D A) : D A :=
    fold_left (fun x t => d_add A x (f t)) (ds_ts ds) x0.
  Definition max_ts (f : tstats -> D A) (ds : dstats) (x0 : D A) : D A :=
    fold_left (fun x t => d_max x (f t)) (ds_ts ds) x0.

  (* 160-178: bytes read from and written to DRAM; size_t sums *)
  Definition counts_for (id : Z) (t : transfer (F A)) : bool := (id =? MESH_DEVICE) || (id =? c_dev (t_src t)).
  Definition dram_bytes (d : device) (id : Z) (ts : list (transfer (F A))) : outcome (Z * Z) :=
    foldM (fun acc t =>
      if counts_for id t then
        let! ty := getCoreType d (t_src t) in
        match ty with
        | DRAM => Ok (u64 (fst acc + t_bytes t), snd acc)
        | _ =>
            match t_dst t with
            | Unicast c =>
                let! ty' := getCoreType d c in
                match ty' with DRAM => Ok (fst acc, u64 (snd acc + t_bytes t)) | _ => Ok acc end
            | Multicast _ => Ok acc
            end
        end
      else Ok acc) ts (0, 0).
  (* 186-196 *)
  Fixpoint eth_put (m : list (coord * Z)) (c : coord) (b : Z) : list (coord * Z) :=
    match m with
    | [] => [(c, u64 b)]
    | (c', b') :: m' => if coord_eqb c' c then (c', u64 (b' + b)) :: m' else (c', b') :: eth_put m' c b
    end.
  Definition eth_bytes (d : device) (id : Z) (ts : list (transfer (F A))) : outcome (list (coord * Z)) :=
    foldM (fun m t =>
      if counts_for id t then
        match t_dst t with
        | Unicast c =>
            let! ty := getCoreType d c in
            match ty with ETH => Ok (eth_put m c (t_bytes t)) | _ => Ok m end
        | Multicast _ => Ok m
        end
      else Ok m) ts [].
  (* operator[] = v on eth_bw_util_per_core, empty before *)
  Definition summary_device (d : device) (wl : workload (F A)) (id : Z) (ds : dstats) : outcome dstats :=
    let n := d_ofZ A (Z.of_nat (List.length (ds_ts ds))) in
    let avg f x := d_div A (sum_ts f ds x) n in
    let trs := flat_map ph_trs (wl_phases wl) in
    let! rw := dram_bytes d id trs in
    let total := u64 (fst rw + snd rw) in
    let dram cycles := d_mul A (d_div A (d_ofZ A total)
        (d_of_f A (f_mul A (f_ofZ A cycles) (dram_bandwidth A d)))) (d_lit A 100 1) in
    let! eth := eth_bytes d id trs in
    let ethu b := d_mul A (d_div A (d_ofZ A b)
        (d_of_f A (f_mul A (f_ofZ A (ds_golden ds)) (eth_bandwidth A d)))) (d_lit A 100 1) in
    Ok (mkDs (ds_completed ds) (ds_est ds) (ds_congfree ds) (ds_golden ds)
      (d_div A (d_mul A (d_lit A 100 1) (d_of_f A (f_ofZ A (ds_est ds - ds_golden ds)))) (d_ofZ A (ds_golden ds)))
      (avg ts_avg_ld (ds_avg_ld ds)) (max_ts ts_avg_ld ds (ds_max_ld ds))
      (avg ts_avg_lu (ds_avg_lu ds)) (max_ts ts_avg_lu ds (ds_max_lu ds))
      (avg ts_avg_nd (ds_avg_nd ds)) (max_ts ts_avg_nd ds (ds_max_nd ds))
      (avg ts_avg_ld0 (ds_avg_ld0 ds)) (avg ts_avg_lu0 (ds_avg_lu0 ds)) (max_ts ts_avg_ld0 ds (ds_max_ld0 ds))
      (avg ts_avg_ld1 (ds_avg_ld1 ds)) (avg ts_avg_lu1 (ds_avg_lu1 ds)) (max_ts ts_avg_ld1 ds (ds_max_ld1 ds))
      (avg ts_avg_mc (ds_avg_mc ds))
      (dram (ds_golden ds)) (dram (ds_est ds))
      (map (fun e => (fst e, ethu (snd e))) eth)
      (ds_ts ds) (ds_worst ds)).
  (* npeStats.cpp:36-40 *)
  Definition computeSummaryStats (d : device) (wl : workload (F A)) (st : stats) : outcome stats :=
    stats_map (summary_device d wl) st.

  (* npeStats.cpp:878-885 *)
  Definition getCongestionImpact (ds : dstats) : D A :=
    if (ds_est ds =? 0) || (ds_congfree ds =? 0) then d_lit A 0 1
    else d_div A (d_mul A (d_lit A 100 1) (d_sub A (d_ofZ A (ds_est ds)) (d_ofZ A (ds_congfree ds))))
                 (d_ofZ A (ds_est ds)).
  (* npeStats.cpp:909-918; the sum is over a hash map, here in insertion order *)
  Definition getAggregateEthBwUtil (ds : dstats) : D A :=
    match ds_eth ds with
    | [] => d_lit A 0 1
    | l => d_div A (fold_left (fun x e => d_add A x (snd e)) l (d_lit A 0 1)) (d_ofZ A (Z.of_nat (List.length l)))
    end.
End Stats.
