(* Model of tt_npe/cpp/src/npeEngine.cpp: transfer state, transfer queue, dependencies and the timestep loop.
   Transfer identifiers are int in the code; inside the engine they index transfer_state and are [nat] here.
   Two iteration orders are left open by the code and are arguments of the model:
   - [ord id r]: order of the links of the multicast route of transfer [id] (hash set, wormhole_b0.hpp:351-374);
   - [bord bs]: order of the dependency buckets (hash map, npeEngine.cpp:71,89).
   Generic in the arithmetic. No proofs in this file. *)
From Coq Require Import ZArith String List Bool.
From Verif Require Import Base Arith Util Device Workload DepTracker Rates Stats.
Import ListNotations.
Local Open Scope string_scope.
Local Open Scope list_scope.
Open Scope Z_scope.

(* npeEngine.hpp:86 *)
Definition MAX_CYCLE_LIMIT : Z := 50000000.

(* the fields of npeConfig (npeConfig.hpp) used by the simulation *)
Record config (Fl : Type) : Type := mkCfg {
  cf_device : string;       (* device_name *)
  cf_model : string;        (* congestion_model_name *)
  cf_cpt : Z;               (* cycles_per_timestep, uint32_t *)
  cf_infer : bool;          (* infer_injection_rate_from_src *)
  cf_impact : bool;         (* estimate_cong_impact *)
  cf_remove_local : bool;   (* remove_localized_unicast_transfers *)
  cf_scale : Fl }.          (* scale_workload_schedule *)
Arguments mkCfg {Fl}. Arguments cf_device {Fl}. Arguments cf_model {Fl}. Arguments cf_cpt {Fl}.
Arguments cf_infer {Fl}. Arguments cf_impact {Fl}. Arguments cf_remove_local {Fl}. Arguments cf_scale {Fl}.

(* key of a dependency bucket: (noc, source row, source column, direction) *)
Definition bkey : Type := (noc_type * Z * Z * Z)%type.
Definition bkey_eqb (a b : bkey) : bool :=
  let '(n, r, c, l) := a in let '(n', r', c', l') := b in
  noc_type_eqb n n' && (r =? r') && (c =? c') && (l =? l').
Definition bucket : Type := (bkey * list nat)%type.
(* bucketed_transfers[key].push_back(id) *)
Fixpoint bucket_push (bs : list bucket) (k : bkey) (id : nat) : list bucket :=
  match bs with
  | [] => [(k, [id])]
  | (k', ids) :: bs' => if bkey_eqb k' k then (k', ids ++ [id]) :: bs' else (k', ids) :: bucket_push bs' k id
  end.

Section Engine.
  Context (A : arith).
  Notation state := (tstate (F A)).
  Context (ord : Z -> list Z -> list Z) (bord : list bucket -> list bucket).

  Definition with_start (s : state) (c : Z) : state :=
    mkTs (s_tr s) (s_req s) (s_dep s) (s_route s) c (s_end s) (s_bw s) (s_done s).
  Definition with_dep (s : state) (k : nat) : state :=
    mkTs (s_tr s) (s_req s) (Some k) (s_route s) (s_start s) (s_end s) (s_bw s) (s_done s).
  Definition with_req (s : state) (k : nat) : state :=
    mkTs (s_tr s) (s_req s ++ [k]) (s_dep s) (s_route s) (s_start s) (s_end s) (s_bw s) (s_done s).
  Definition with_done (s : state) (b : Z) : state :=
    mkTs (s_tr s) (s_req s) (s_dep s) (s_route s) (s_start s) (s_end s) (s_bw s) b.
  Definition with_end (s : state) (e : Z) : state :=
    mkTs (s_tr s) (s_req s) (s_dep s) (s_route s) (s_start s) e (s_bw s) (s_done s).
  (* the identifier of a transfer as an index *)
  Definition idx (s : state) : nat := Z.to_nat (t_id (s_tr s)).

  (** * Transfer state: 25-47 *)
  Definition make_state (d : device) (t : transfer (F A)) : outcome state :=
    let! r := route d (t_noc t) (t_src t) (t_dst t) in
    let r := match t_dst t with Unicast _ => r | Multicast _ => ord (t_id t) r end in
    Ok (mkTs t [] None r (t_off t) 0 (f_zero A) 0).
  (* slots that are never written would be default-constructed states; identifiers are assigned by addPhase
     and fill all slots, anything else is given no meaning here *)
  Fixpoint all_written (l : list (option state)) : outcome (list state) :=
    match l with
    | [] => Ok []
    | Some s :: l' => let! r := all_written l' in Ok (s :: r)
    | None :: _ => UB "default-constructed transfer"
    end.
  Definition initTransferState (d : device) (wl : workload (F A)) : outcome (list state) :=
    let ts := flat_map ph_trs (wl_phases wl) in
    let n := List.length ts in
    let! slots := foldM (fun slots t =>
      let! _ := tt_assert ((0 <=? t_id t) && (t_id t <? Z.of_nat n)) in
      let! s := make_state d t in
      vec_mod slots (Z.to_nat (t_id t)) (fun _ => Some s)) ts (repeat None n) in
    all_written slots.

  (** * Transfer queue: 49-65 *)
  Definition qpair : Type := (Z * nat)%type.        (* start_cycle, id *)
  Definition qgt (a b : qpair) : bool :=
    (fst b <? fst a) || ((fst a =? fst b) && Nat.ltb (snd b) (snd a)).
  (* std::stable_sort as a stable insertion sort *)
  Definition createTransferQueue (sts : list state) : list qpair :=
    sort qgt (map (fun s => (t_off (s_tr s), idx s)) sts).

  (** * Dependencies: 67-170 *)
  Definition LOCAL_NOC0 : Z := 1000.
  Definition LOCAL_NOC1 : Z := 2000.
  (* 80-87 *)
  Definition bucket_key (d : device) (s : state) : outcome bkey :=
    let! lt := match s_route s with
               | id :: _ => let! a := getLinkAttributes d id in Ok (link_type_code (l_type a))
               | [] => Ok (match t_noc (s_tr s) with NOC0 => LOCAL_NOC0 | NOC1 => LOCAL_NOC1 end)
               end in
    Ok (t_noc (s_tr s), c_row (t_src (s_tr s)), c_col (t_src (s_tr s)), lt).
  Definition make_buckets (d : device) (sts : list state) : outcome (list bucket) :=
    foldM (fun bs s => let! k := bucket_key d s in Ok (bucket_push bs k (idx s))) sts [].

  Definition dep_state : Type := (list state * tracker)%type.
  (* createCheckpoint(1, delay); child.depends_on = id; parent.required_by.push_back(id) *)
  Definition add_dependency (st : dep_state) (child parent : nat) (delay : Z) : outcome dep_state :=
    let '(sts, tk) := st in
    let '(tk', k) := createCheckpoint tk 1 delay in
    let! sts := vec_mod sts child (fun s => with_dep s k) in
    let! sts := vec_mod sts parent (fun s => with_req s k) in
    Ok (sts, tk').
  Definition start_of (sts : list state) (id : nat) : Z :=
    match nth_error sts id with Some s => s_start s | None => 0 end.
  (* 95-111: sorted by start cycle (stable), each transfer depends on the one two places before *)
  Fixpoint chain (ids : list nat) (st : dep_state) : outcome dep_state :=
    match ids with
    | a :: ((_ :: c :: _) as rest) =>
        let! st := add_dependency st c a 0 in chain rest st
    | _ => Ok st
    end.
  Definition niu_dependencies (st : dep_state) (b : bucket) : outcome dep_state :=
    chain (sort (fun x y => start_of (fst st) x <? start_of (fst st) y) (snd b)) st.

  (* 119-125: (group, index) -> id; a later transfer replaces an earlier one *)
  Definition group_map (sts : list state) : list ((Z * Z) * nat) :=
    fold_left (fun m s =>
      let t := s_tr s in
      if negb (t_gid t =? -1) && negb (t_gix t =? -1) then ((t_gid t, t_gix t), idx s) :: m else m) sts [].
  (* operator[]: a missing key gives 0 *)
  Fixpoint group_get (m : list ((Z * Z) * nat)) (g x : Z) : nat :=
    match m with
    | [] => O
    | ((g', x'), id) :: m' => if (g' =? g) && (x' =? x) then id else group_get m' g x
    end.
  Definition noc_name (n : noc_type) : string := match n with NOC0 => "NOC_0" | NOC1 => "NOC_1" end.
  (* 115-116, 127-150 *)
  Definition group_delay (d : device) (sts : list state) (t : transfer (F A)) (parent : nat) : outcome Z :=
    match t_dst t with
    | Multicast _ => StdThrow "bad_variant_access"
    | Unicast c =>
        let! lat := write_latency d (c_col (t_src t)) (c_row (t_src t)) (c_col c) (c_row c) (noc_name (t_noc t)) in
        match dv_arch d with
        | Blackhole => Throw DEPENDENCY_GEN_FAILED
        | WormholeB0 =>
            let! p := vec_get sts parent in
            if c_dev (t_src t) =? c_dev (t_src (s_tr p)) then Ok (u32 lat)
            else f_to_uint A 32 (f_add A (f_ofZ A (u32 lat))
                   (f_add A (f_ofZ A 600) (f_mul A (f_lit A 1055 10000) (f_ofZ A (t_psize t)))))
        end
    end.
  Definition group_dependency (d : device) (m : list ((Z * Z) * nat)) (st : dep_state) (s : state) : outcome dep_state :=
    let t := s_tr s in
    if negb (t_gid t =? -1) && negb (t_gpar t =? -1) then
      let parent := group_get m (t_gid t) (t_gpar t) in
      let! delay := group_delay d (fst st) t parent in
      add_dependency st (idx s) parent delay
    else Ok st.

  (* 157-161: updateCheckpoint for every required_by *)
  Definition fulfil_all (tk : tracker) (sts : list state) : outcome tracker :=
    foldM (fun tk s => foldM (fun tk k => updateCheckpoint tk (Some k) 0) (s_req s) tk) sts tk.

  Definition genDependencies (d : device) (sts : list state) : outcome dep_state :=
    let! bs := make_buckets d sts in
    let! st := foldM niu_dependencies (bord bs) (sts, []) in
    let! st := foldM (group_dependency d (group_map sts)) (fst st) st in
    let! tk := fulfil_all (snd st) (fst st) in
    if sanityCheck tk && allComplete tk then Ok (fst st, reset tk) else Exit.

  (** * Simulation: 202-361 *)
  Record sim : Type := mkSim {
    sm_curr : Z;                    (* curr_cycle, uint32_t *)
    sm_sts : list state;            (* transfer_state *)
    sm_queue : list qpair;          (* transfer_queue *)
    sm_live : list nat;             (* live_transfer_ids *)
    sm_trk : tracker;               (* dep_tracker *)
    sm_grids : grids (F A);         (* device_state *)
    sm_stats : stats A }.

  (* 203-224 *)
  Definition sim_init (d : device) (cpt : Z) (wl : workload (F A)) : outcome sim :=
    let! sts := initTransferState d wl in
    let q := createTransferQueue sts in
    let! st := genDependencies d sts in
    Ok (mkSim cpt (fst st) q [] (snd st) (zero_grids A d) (stats_make A d)).

  (* std::swap(v[i], v[j]) *)
  Definition swap {X} (l : list X) (i j : nat) : outcome (list X) :=
    let! a := vec_get l i in
    let! b := vec_get l j in
    Ok (upd (upd l i b) j a).
  (* 235-253: [n] = i + 1; [sp] = swap_pos; [acts] = transfers_activated *)
  Fixpoint activate (n : nat) (curr : Z) (tk : tracker) (sp : nat) (acts : nat)
      (sts : list state) (live : list nat) (q : list qpair)
    : outcome (list state * list nat * list qpair * nat) :=
    match n with
    | O => Ok (sts, live, q, acts)
    | S i =>
        let! p := vec_get q i in
        if fst p <=? curr then
          let! s := vec_get sts (snd p) in
          let! ready := done tk (s_dep s) curr in
          if ready then
            let! sts := match s_dep s with
                        | None => Ok sts
                        | Some _ =>
                            let! e := end_cycle_plus_delay tk (s_dep s) in
                            Ok (upd sts (snd p) (with_start s (Z.max (s_start s) e)))
                        end in
            let! q := swap q sp i in
            activate i curr tk (Nat.pred sp) (S acts) sts (live ++ [snd p]) q
          else activate i curr tk sp acts sts live q
        else Ok (sts, live, q, acts)
    end.

  (* 277-319: one live transfer; [sot] = start_of_timestep *)
  Definition credited_cycles (cpt curr sot : Z) (tk : tracker) (s : state) : outcome Z :=
    let base := Z.min cpt (u32 (curr - s_start s)) in
    match s_dep s with
    | None => Ok base
    | Some _ =>
        let! e := end_cycle tk (s_dep s) in
        let prev := u64 (sot - cpt) in
        if (s_start s <? sot) && ((prev <=? e) && (e <? sot)) then
          let c := u32 (curr - Z.max (s_start s) e) in
          let! _ := tt_assert (cpt <=? c) in
          let! _ := tt_assert (c <=? u32 (2 * cpt)) in
          Ok c
        else Ok base
    end.
  Definition live_state : Type := (list state * tracker * stats A)%type.
  Definition live_step (wl : workload (F A)) (cpt curr sot : Z) (st : live_state) (id : nat) : outcome live_state :=
    let '(sts, tk, stt) := st in
    let! s := vec_get sts id in
    let! dn := done tk (s_dep s) curr in
    let! _ := tt_assert dn in
    let remaining := u64 (t_bytes (s_tr s) - s_done s) in
    let! cycles := credited_cycles cpt curr sot tk s in
    let! max_bytes := f_to_uint A 64 (f_mul A (f_ofZ A cycles) (s_bw s)) in
    let bytes := Z.min remaining max_bytes in
    let s := with_done s (u64 (s_done s + bytes)) in
    if t_bytes (s_tr s) =? s_done s then
      let cyc := f_ceil A (f_div A (f_ofZ A bytes) (s_bw s)) in
      let first := Z.max (s_start s) sot in
      let! e := f_to_uint A 64 (f_add A (f_ofZ A first) cyc) in
      let s := with_end s (u32 e) in
      let! tk := foldM (fun tk k => updateCheckpoint tk (Some k) (u32 e)) (s_req s) tk in
      let dev := c_dev (t_src (s_tr s)) in
      let! g := getGoldenResultCycles wl dev in
      let stt := updateWorstCase A dev (t_off (s_tr s)) (s_end s) g stt in
      let! gm := getGoldenResultCycles wl MESH_DEVICE in
      let stt := updateWorstCase A MESH_DEVICE (t_off (s_tr s)) (s_end s) gm stt in
      Ok (upd sts id s, tk, stt)
    else Ok (upd sts id s, tk, stt).

  (* 322-328 *)
  Definition complete (sts : list state) (id : nat) : bool :=
    match nth_error sts id with
    | Some s => s_done s =? t_bytes (s_tr s)
    | None => false
    end.

  (* 226-328: the body of the loop for one timestep *)
  Definition timestep (d : device) (congestion : bool) (cpt : Z) (wl : workload (F A)) (s : sim) : outcome sim :=
    let curr := sm_curr s in
    let sot := u32 (curr - cpt) in
    let! stt := insertTimestep A wl sot curr (sm_stats s) in
    let n := List.length (sm_queue s) in
    let! r := activate n curr (sm_trk s) (Nat.pred n) 0 (sm_sts s) (sm_live s) (sm_queue s) in
    let '(sts, live, q, acts) := r in
    let q := firstn (List.length q - acts) q in
    let! r := computeCurrentTransferRate A d sot curr sts live (sm_grids s) congestion in
    let '(sts, g) := r in
    let stt := updateSimulationStats A d g live stt in
    let! r := foldM (live_step wl cpt curr sot) live (sts, sm_trk s, stt) in
    let '(sts, tk, stt) := r in
    let live := filter (fun id => negb (complete sts id)) live in
    Ok (mkSim curr sts q live tk g stt).

  Definition finished (s : sim) : bool :=
    match sm_live s, sm_queue s with [], [] => true | _, _ => false end.
  (* 351 *)
  Definition advance (cpt : Z) (s : sim) : sim :=
    mkSim (u32 (sm_curr s + cpt)) (sm_sts s) (sm_queue s) (sm_live s) (sm_trk s) (sm_grids s) (sm_stats s).

  (* 225-353. inr: EXCEEDED_SIM_CYCLE_LIMIT is returned (345-347) *)
  Fixpoint sim_loop (fuel : nat) (d : device) (congestion : bool) (cpt : Z) (wl : workload (F A)) (s : sim)
    : outcome (sim + npe_error) :=
    match fuel with
    | O => Diverge
    | S fuel' =>
        let! s := timestep d congestion cpt wl s in
        if finished s then Ok (inl s)
        else if MAX_CYCLE_LIMIT <? sm_curr s then Ok (inr EXCEEDED_SIM_CYCLE_LIMIT)
        else sim_loop fuel' d congestion cpt wl (advance cpt s)
    end.
  Definition sim_fuel (cpt : Z) : nat := Z.to_nat (MAX_CYCLE_LIMIT / cpt + 2).

  Definition simulate (d : device) (congestion : bool) (cpt : Z) (wl : workload (F A)) : outcome (sim + npe_error) :=
    let! s := sim_init d cpt wl in
    sim_loop (sim_fuel cpt) d congestion cpt wl s.

  (* npeResult *)
  Inductive npe_result : Type :=
  | Stats : stats A -> npe_result
  | Failure : npe_error -> npe_result.

  (* 202-361, without the timeline file *)
  Definition runSinglePerfSim (d : device) (model : string) (cpt : Z) (wl : workload (F A)) : outcome npe_result :=
    let! r := simulate d (negb (String.eqb model "none")) cpt wl in
    match r with
    | inl s =>
        let! stt := finishSimulation A wl cpt (sm_stats s) in
        let! stt := computeSummaryStats A d wl stt in
        Ok (Stats stt)
    | inr e => Ok (Failure e)
    end.

  (* 172-200 *)
  Definition runPerfEstimation (d : device) (cfg : config (F A)) (wl : workload (F A)) : outcome npe_result :=
    if cf_impact cfg then
      let! r := runSinglePerfSim d (cf_model cfg) (cf_cpt cfg) wl in
      match r with
      | Failure e => Ok (Failure e)
      | Stats stt =>
          let! r0 := runSinglePerfSim d "none" (cf_cpt cfg) wl in
          match r0 with
          | Failure _ => Ok r
          | Stats _ =>                                            (* 191-195 *)
              Ok (Stats (map (fun e => (fst e, with_congfree A (snd e) (ds_est A (snd e)))) stt))
          end
      end
    else runSinglePerfSim d (cf_model cfg) (cf_cpt cfg) wl.
End Engine.
Arguments Stats {A}. Arguments Failure {A}.
