(* Model of the timeline output: tt_npe/cpp/src/npeStats.cpp:203-876 (v0TimelineSerialization, TimelineRegion,
   v1TimelineSerialization, emitSimTimelineToFile). The result is the content of the files; names of files,
   common_info, formatting of JSON, compression and I/O errors are not modelled. Cycles are compared as integers;
   the code compares doubles, which hold them exactly below 2^53. No proofs in this file. *)
From Coq Require Import ZArith String List Bool Ascii.
From Verif Require Import Base Arith Util Device Workload Rates Stats Engine Json.
Import ListNotations.
Local Open Scope string_scope.
Local Open Scope list_scope.
Open Scope Z_scope.

(** * Regions: 338-357 *)
Record region : Type := mkRegion { rg_first : Z; rg_last : Z;    (* timestep indices, [rg_last] exclusive *)
                                   rg_start : Z; rg_end : Z }.   (* cycles *)
Definition partially_contained (r : region) (s e : Z) : bool :=
  ((rg_start r <=? s) && (s <? rg_end r)) || ((rg_start r <? e) && (e <=? rg_end r)).
Definition fully_contained (r : region) (s e : Z) : bool := (rg_start r <=? s) && (e <=? rg_end r).

(** * Transfer groups: 446-507. Hash maps are association lists in the order of insertion. *)
Definition gmap : Type := list (Z * list Z).      (* transfer_groups *)
Definition imap : Type := list (Z * Z).           (* transfer_id_to_transfer_group *)
Fixpoint g_push (m : gmap) (g id : Z) : gmap :=
  match m with
  | [] => [(g, [id])]
  | (g', ids) :: m' => if g' =? g then (g', ids ++ [id]) :: m' else (g', ids) :: g_push m' g id
  end.
Fixpoint g_get (m : gmap) (g : Z) : option (list Z) :=
  match m with [] => None | (g', ids) :: m' => if g' =? g then Some ids else g_get m' g end.
Fixpoint i_set (m : imap) (id g : Z) : imap :=
  match m with
  | [] => [(id, g)]
  | (id', g') :: m' => if id' =? id then (id', g) :: m' else (id', g') :: i_set m' id g
  end.
Fixpoint i_get (m : imap) (id : Z) : option Z :=
  match m with [] => None | (id', g) :: m' => if id' =? id then Some g else i_get m' id end.

Section Groups.
  Context {Fl : Type}.
  Record gstate : Type := mkGs { gs_groups : gmap; gs_ids : imap; gs_dummy : Z }.
  (* 454-464 *)
  Definition assign (st : gstate) (t : transfer Fl) : outcome gstate :=
    let join g dummy := Ok (mkGs (g_push (gs_groups st) g (t_id t)) (i_set (gs_ids st) (t_id t) g) dummy) in
    if negb (t_gid t =? -1) && negb (t_gix t =? -1) then join (t_gid t) (gs_dummy st)
    else if gs_dummy st + 1 <? 2 ^ 31 then join (gs_dummy st) (gs_dummy st + 1)
    else UB "int overflow".
  (* 452-466 *)
  Definition group_transfers (wl : workload Fl) (sts : list (tstate Fl)) : outcome gstate :=
    foldM (fun st s => assign st (s_tr s)) sts (mkGs [] [] (wl_groups wl)).

  Definition mem (x : Z) (l : list Z) : bool := existsb (Z.eqb x) l.
  (* 474-480 *)
  Definition check_distinct (ids : list Z) : outcome unit :=
    let! _ := foldM (fun seen id => let! _ := tt_assert (negb (mem id seen)) in Ok (id :: seen)) ids [] in Ok tt.
  (* 470-500, one group; [all] = all_transfers *)
  Definition check_group (ngroups : Z) (ids : imap) (all : list Z) (e : Z * list Z) : outcome (list Z) :=
    let! _ := check_distinct (snd e) in
    let! all := foldM (fun all id =>
      let! _ := tt_assert (match i_get ids id with Some _ => true | None => false end) in
      let! _ := tt_assert (match i_get ids id with Some g => g =? fst e | None => false end) in
      let! _ := tt_assert (negb (mem id all)) in
      Ok (id :: all)) (snd e) all in
    let! _ := if ngroups <=? fst e then tt_assert (Nat.eqb (List.length (snd e)) 1) else Ok tt in
    Ok all.
  (* 468-509; [gs] = transfer_groups in the order of iteration *)
  Definition check_groups (ngroups : Z) (gs : gmap) (ids : imap) : outcome unit :=
    let! _ := foldM (check_group ngroups ids) gs [] in
    let! _ := mapM (fun e : Z * Z =>
      let! _ := tt_assert (match g_get gs (snd e) with Some _ => true | None => false end) in
      tt_assert (match g_get gs (snd e) with Some l => mem (fst e) l | None => false end)) ids in
    Ok tt.
End Groups.

(** * Zones: 610-675. A pointer into the JSON document is a path of child indices; a path that does not exist is a
   dangling pointer. (A pointer to an element of an array that has been reallocated since is not distinguished from a valid
   one; the code keeps one only for a zone that has the name and the timestamp of an enclosing zone.) *)
Inductive zjson : Type := ZJ { zj_start : Z; zj_id : option (string * Z); zj_end : option Z; zj_zones : list zjson }.
Definition zpath : Type := list nat.
Definition zone_eqb (a b : zone) : bool :=
  (z_ts a =? z_ts b) && String.eqb (z_name a) (z_name b) &&
  match z_phase a, z_phase b with ZONE_START, ZONE_START => true | ZONE_END, ZONE_END => true | _, _ => false end.
Definition zptrs : Type := list (zone * zpath).            (* zone_jsons *)
Fixpoint zp_get (m : zptrs) (z : zone) : option zpath :=
  match m with [] => None | (z', p) :: m' => if zone_eqb z' z then Some p else zp_get m' z end.
Fixpoint zp_set (m : zptrs) (z : zone) (p : zpath) : zptrs :=
  match m with
  | [] => [(z, p)]
  | (z', p') :: m' => if zone_eqb z' z then (z', p) :: m' else (z', p') :: zp_set m' z p
  end.
(* apply [f] to the array of zones at a path *)
Fixpoint at_path (p : zpath) (f : list zjson -> outcome (list zjson)) (l : list zjson) : outcome (list zjson) :=
  match p with
  | [] => f l
  | i :: p' => match nth_error l i with
               | None => UB "dangling pointer"
               | Some z => let! c := at_path p' f (zj_zones z) in Ok (upd l i (ZJ (zj_start z) (zj_id z) (zj_end z) c))
               end
  end.
(* apply [f] to the zone at a path *)
Definition at_zone (p : zpath) (f : zjson -> zjson) (l : list zjson) : outcome (list zjson) :=
  match rev p with
  | [] => UB "dangling pointer"
  | i :: q => at_path (rev q) (fun c => match nth_error c i with None => UB "dangling pointer" | Some z => Ok (upd c i (f z)) end) l
  end.
Definition path_length (p : zpath) (l : list zjson) : outcome nat :=
  let fix go p l := match p with [] => Ok (List.length l) | i :: p' => match nth_error l i with None => UB "dangling pointer" | Some z => go p' (zj_zones z) end end in go p l.
Record zstate : Type := mkZs { zs_it : zone_iter; zs_root : list zjson; zs_ptrs : zptrs }.
Definition zptr (m : zptrs) (z : zone) : outcome zpath :=
  match zp_get m z with Some p => Ok p | None => UB "null pointer" end.
(* 619-671, one zone *)
Definition zone_step (r : option region) (st : zstate) (z : zone) : outcome zstate :=
  let enc := zi_enclosing (zs_it st) in
  let! st' :=
    match z_phase z with
    | ZONE_START =>
        let! parent := match last_enclosing (zs_it st) with None => Ok [] | Some (p, _) => zptr (zs_ptrs st) p end in
        let! n := path_length parent (zs_root st) in
        let! root := at_path parent (fun c => Ok (c ++ [ZJ (z_ts z) None None []])) (zs_root st) in
        Ok (mkZs (zs_it st) root (zp_set (zs_ptrs st) z (parent ++ [n])))
    | ZONE_END =>
        match last_enclosing (zs_it st) with
        | None => UB "back() of an empty vector"
        | Some (top, count) =>
            let! p := zptr (zs_ptrs st) top in
            let! root := at_zone p (fun j => ZJ (zj_start j) (Some (z_name top, count)) (Some (z_ts z)) (zj_zones j)) (zs_root st) in
            let start := match rev p with
                         | [] => 0
                         | i :: q => let fix go q l := match q with [] => match nth_error l i with Some j => zj_start j | None => 0 end
                                                       | k :: q' => match nth_error l k with Some j => go q' (zj_zones j) | None => 0 end end in go (rev q) root
                         end in
            match r with
            | Some rg =>
                if fully_contained rg start (z_ts z) then Ok (mkZs (zs_it st) root (zs_ptrs st))
                else
                  let! parent := match rev enc with
                                 | _ :: (pz, _) :: _ => zptr (zs_ptrs st) pz
                                 | _ => Ok []
                                 end in
                  let! root := at_path parent (fun c => match c with [] => StdThrow "nlohmann out_of_range" | _ => Ok (removelast c) end) root in
                  Ok (mkZs (zs_it st) root (zs_ptrs st))
            | None => Ok (mkZs (zs_it st) root (zs_ptrs st))
            end
        end
    end in
  let! it := zi_next (zs_it st) in
  Ok (mkZs it (zs_root st') (zs_ptrs st')).
Definition zone_forest (r : option region) (zs : list zone) : outcome (list zjson) :=
  let! st := foldM (zone_step r) zs (mkZs (zi_make zs) [] []) in Ok (zs_root st).

(** * Topology: 398-444 *)
Inductive topology : Type :=
| TopoUnset | TopoUnreadable | TopoUnparsable
| TopoJson : json -> topology.
Definition chip_map : Type := list (string * list Z).
(* 423-436: one entry; None = "Invalid entry" *)
Definition chip_entry (ew_dim : Z) (e : string * json) : outcome (option (string * list Z)) :=
  match snd e with
  | JArray [JInt _; JInt y] =>
      let y := i32 y in
      if ew_dim =? 0 then UB "division by zero"
      else if (y =? - 2 ^ 31) && (ew_dim =? -1) then UB "int overflow"
      else Ok (Some (fst e, [Z.rem y ew_dim; Z.quot y ew_dim; 0; 0]))
  | _ => Ok None
  end.
Fixpoint chip_entries (ew_dim : Z) (es : list (string * json)) : outcome (option chip_map) :=
  match es with
  | [] => Ok (Some [])
  | e :: es' =>
      let! c := chip_entry ew_dim e in
      match c with
      | None => Ok None
      | Some c => let! cs := chip_entries ew_dim es' in Ok (option_map (cons c) cs)
      end
  end.
(* None = an empty document is returned *)
Definition chips_of (d : device) (topo : topology) : outcome (option chip_map) :=
  if Nat.ltb 1 (dv_chips d) then
    match topo with
    | TopoUnset | TopoUnreadable | TopoUnparsable => Ok None
    | TopoJson j =>
        match get_field j "device_id_to_fabric_node_id", get_field j "mesh_shapes" with
        | Some (JObject coords), Some (JArray [m]) =>
            match get_field m "shape" with
            | Some (JArray [a; b]) => let! _ := get_int a in let! ew := get_int b in chip_entries ew coords
            | _ => Ok (Some [])
            end
        | _, _ => Ok (Some [])
        end
    end
  else Ok (Some [("0", [0; 0; 0; 0])]).

(** * The document *)
(* names of the elements of a route *)
Inductive hop_name : Type := HopIn : noc_type -> hop_name | HopOut : noc_type -> hop_name | HopLink : link_type -> hop_name.
Section Doc.
  Context (A : arith).
  Record segment : Type := mkSeg {
    sg_src : coord; sg_dst : list coord; sg_noc : noc_type; sg_rate : F A; sg_start : Z; sg_end : Z;
    sg_links : list (coord * hop_name) }.
  Record tgroup : Type := mkTg {
    tg_id : Z; tg_src : coord; tg_bytes : Z; tg_start : Z; tg_event : string; tg_fabric : bool; tg_zone : string;
    tg_end : Z; tg_dst : list coord; tg_route : list segment }.
  Record tstep : Type := mkStep {
    tp_start : Z; tp_end : Z; tp_active : list Z; tp_demand : list (coord * hop_name * F A); tp_avgs : list (D A) }.
  Record timeline : Type := mkTl {
    tl_chips : chip_map; tl_groups : list tgroup; tl_zones : list ((coord * risc_type) * list zjson); tl_steps : list tstep }.

  (* 511-527 *)
  Definition destination_list (d : device) (dst : noc_dest) : outcome (list coord) :=
    match dst with
    | Unicast c => Ok [c]
    | Multicast m =>
        let! cs := mcast_coords m in
        foldM (fun l c => let! ty := getCoreType d c in Ok (match ty with WORKER => l ++ [c] | _ => l end)) cs []
    end.
  (* transfer_state[id] *)
  Definition state_of (sts : list (tstate (F A))) (id : Z) : outcome (tstate (F A)) := grid_get sts id.
  (* 570-604 *)
  Definition segment_of (d : device) (s : tstate (F A)) : outcome segment :=
    let t := s_tr s in
    let! dst := destination_list d (t_dst t) in
    let! links := mapM (fun l => let! a := getLinkAttributes d l in Ok (l_coord a, HopLink (l_type a))) (s_route s) in
    Ok (mkSeg (t_src t) dst (t_noc t) (t_rate t) (s_start s) (s_end s)
          ((t_src t, HopIn (t_noc t)) :: links ++ map (fun c => (c, HopOut (t_noc t))) dst)).
  (* 333-335 *)
  Definition is_fabric (e : string) : bool := String.prefix "FABRIC_" e.
  (* 531-607: one group; None = left out *)
  Definition group_of (d : device) (sts : list (tstate (F A))) (r : option region) (e : Z * list Z) : outcome (option tgroup) :=
    let! _ := tt_assert (Nat.leb 1 (List.length (snd e))) in
    let! keyed := mapM (fun id => let! s := state_of sts id in Ok (t_gix (s_tr s), s)) (snd e) in
    let sorted := map snd (sort (fun a b => fst a <? fst b) keyed) in
    match sorted, rev sorted with
    | first :: _, last :: _ =>
        let keep := match r with None => true | Some rg => partially_contained rg (s_start first) (s_end last) end in
        if keep then
          let! dst := destination_list d (t_dst (s_tr last)) in
          let! segs := mapM (segment_of d) sorted in
          let t := s_tr first in
          Ok (Some (mkTg (fst e) (t_src t) (t_bytes t) (s_start first) (t_event t) (is_fabric (t_event t)) (t_zone t)
                      (s_end last) dst segs))
        else Ok None
    | _, _ => UB "front() of an empty vector"
    end.
  (* 701-733: demands above the threshold, with the attributes of the element *)
  Definition demands (d : device) (t : tstats A) : outcome (list (coord * hop_name * F A)) :=
    let thr := f_lit A 1 1000 in
    let big g := filter (fun x => f_lt A thr (snd x)) (combine (map Z.of_nat (seq 0 (List.length g))) g) in
    let! nius := mapM (fun x => let! a := getNIUAttributes d (fst x) in
      Ok (n_coord a, match n_type a with NOC0_SRC => HopIn NOC0 | NOC0_SINK => HopOut NOC0
                                         | NOC1_SRC => HopIn NOC1 | NOC1_SINK => HopOut NOC1 end, snd x)) (big (ts_niu A t)) in
    let! links := mapM (fun x => let! a := getLinkAttributes d (fst x) in Ok (l_coord a, HopLink (l_type a), snd x)) (big (ts_link A t)) in
    Ok (nius ++ links).
  (* transfer_id_to_transfer_group[id]: a missing entry is created with value 0 *)
  Definition group_id (ids : imap) (id : Z) : Z := match i_get ids id with Some g => g | None => 0 end.
  (* 677-745: one timestep *)
  Definition step_of (d : device) (ids : imap) (t : tstats A) : outcome tstep :=
    let active := uniquify Z.ltb Z.eqb (map (fun i => group_id ids (Z.of_nat i)) (ts_live A t)) in
    let! dem := demands d t in
    Ok (mkStep (ts_start A t) (ts_end A t) active dem
      [ts_avg_ld A t; ts_avg_lu A t; ts_avg_mc A t; ts_avg_ld0 A t; ts_avg_lu0 A t; ts_max_ld0 A t; ts_avg_ld1 A t; ts_avg_lu1 A t; ts_max_ld1 A t]).
  Definition in_region (r : option region) (s e : Z) : bool :=
    match r with None => true | Some rg => fully_contained rg s e end.

  (* 359-775: [gord], [zord]: iteration orders of the hash maps transfer_groups and zones. None: the empty
     document. The consistency check 747-773 only logs. *)
  Definition v1 (gord : gmap -> gmap) (zord : zone_map -> zone_map) (d : device) (topo : topology) (wl : workload (F A))
      (ds : dstats A) (sts : list (tstate (F A))) (r : option region) : outcome (option timeline) :=
    let! chips := chips_of d topo in
    match chips with
    | None => Ok None
    | Some chips =>
        let! gs := group_transfers wl sts in
        let groups := gord (gs_groups gs) in
        let! _ := check_groups (wl_groups wl) groups (gs_ids gs) in
        let! tgs := mapM (group_of d sts r) groups in
        let! zones := mapM (fun e => let! f := zone_forest r (snd e) in Ok (fst e, f)) (zord (wl_zones wl)) in
        let! steps := mapM (step_of d (gs_ids gs)) (filter (fun t => in_region r (ts_start A t) (ts_end A t)) (ds_ts A ds)) in
        Ok (Some (mkTl chips (flat_map (fun o => match o with Some g => [g] | None => [] end) tgs) zones steps))
    end.

  (** * Legacy format: 203-331 *)
  Record v0_transfer : Type := mkV0 {
    v0_id : Z; v0_dst : list coord; v0_state : tstate (F A); v0_route : list (coord * hop_name) }.
  Record v0_doc : Type := mkV0d { v0_transfers : list v0_transfer; v0_steps : list tstep }.
  Definition v0_transfer_of (d : device) (s : tstate (F A)) : outcome v0_transfer :=
    let! g := segment_of d s in
    Ok (mkV0 (t_id (s_tr s)) (sg_dst g) s (sg_links g)).
  Definition v0_step_of (d : device) (t : tstats A) : outcome tstep :=
    let! dem := demands d t in
    Ok (mkStep (ts_start A t) (ts_end A t) (sort Z.ltb (map Z.of_nat (ts_live A t))) dem [ts_avg_ld A t; ts_avg_lu A t; ts_avg_mc A t]).
  Definition v0 (d : device) (ds : dstats A) (sts : list (tstate (F A))) : outcome v0_doc :=
    let! trs := mapM (v0_transfer_of d) sts in
    let! steps := mapM (v0_step_of d) (ds_ts A ds) in
    Ok (mkV0d trs steps).

  (** * Files: 799-876 *)
  Inductive content : Type := FullV0 : v0_doc -> content | FullV1 : option timeline -> content | Split : Z -> region -> option timeline -> content.
  (* 836-858: the regions; [num] = num_timesteps, [thr] = split_threshold *)
  Definition split_range (num thr : Z) (i : Z) : Z * Z := (u64 (i * thr), Z.min (u64 (u64 (i + 1) * thr)) num).
  Definition num_splits (num thr : Z) : Z := u64 (u64 (num + thr) - 1) / thr.
  Definition split_region (ts : list (tstats A)) (num thr : Z) (i : Z) : outcome region :=
    let '(first, last) := split_range num thr i in
    let! a := grid_get ts first in
    let! b := grid_get ts (last - 1) in
    Ok (mkRegion first last (ts_start A a) (ts_end A b)).
  Definition emitSimTimelineToFile (gord : gmap -> gmap) (zord : zone_map -> zone_map) (d : device) (topo : topology)
      (legacy : bool) (thr : Z) (wl : workload (F A)) (stt : stats A) (sts : list (tstate (F A))) : outcome (list content) :=
    match stats_get A stt MESH_DEVICE with
    | None => StdThrow "std::out_of_range"
    | Some ds =>
        if legacy then let! doc := v0 d ds sts in Ok [FullV0 doc]
        else
          let! full := v1 gord zord d topo wl ds sts None in
          let num := Z.of_nat (List.length (ds_ts A ds)) in
          if thr <? num then
            if thr =? 0 then UB "division by zero"
            else
              let! splits := mapM (fun i =>
                let! rg := split_region (ds_ts A ds) num thr (Z.of_nat i) in
                let! doc := v1 gord zord d topo wl ds sts (Some rg) in
                Ok (Split (Z.of_nat i) rg doc)) (seq 0 (Z.to_nat (num_splits num thr))) in
              Ok (FullV1 full :: splits)
          else Ok [FullV1 full]
    end.

  (* npeEngine.cpp:202-361 with emit_timeline_file set: the result and the files *)
  Definition runWithTimeline (ord : Z -> list Z -> list Z) (bord : list bucket -> list bucket) (gord : gmap -> gmap) (zord : zone_map -> zone_map)
      (topo : topology) (legacy : bool) (thr : Z) (d : device) (model : string) (cpt : Z) (wl : workload (F A))
      : outcome (npe_result A * list content) :=
    let! r := simulate A ord bord d (negb (String.eqb model "none")) cpt wl in
    match r with
    | inl s =>
        let! stt := finishSimulation A wl cpt (sm_stats A s) in
        let! stt := computeSummaryStats A d wl stt in
        let! files := emitSimTimelineToFile gord zord d topo legacy thr wl stt (sm_sts A s) in
        Ok (Stats stt, files)
    | inr e => Ok (Failure e, [])
    end.
End Doc.
