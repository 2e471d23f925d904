(* Model of the JSON documents in the timeline files: tt_npe/cpp/src/npeStats.cpp:203-331 (v0TimelineSerialization), 359-775
   (v1TimelineSerialization), 799-876 (emitSimTimelineToFile), npeStats.hpp:124. [Timeline.v] computes what the serialisers select; here it
   is put under the keys they use. A document is the value that a reader of the file parses: a double that is not finite is written as null
   (nlohmann dump), the order of the fields has no meaning. The text format and the JSON library are not modelled. No proofs in this file. *)
From Coq Require Import ZArith String List Bool Floats.SpecFloat.
From Verif Require Import Base Arith Util Json Device Workload Rates Stats Engine Timeline Files.
Import ListNotations.
Local Open Scope string_scope.
Local Open Scope list_scope.
Open Scope Z_scope.

(* a double in the file *)
Definition j_num (x : spec_float) : json :=
  match x with
  | S754_zero _ | S754_finite _ _ _ => JDouble x
  | S754_infinity _ | S754_nan => JNull
  end.
(* a float in the file: converted to double *)
Definition j_float (x : F f32A) : json := j_num (d_of_f f32A x).
(* magic_enum::enum_name *)
Definition noc_name (n : noc_type) : string := match n with NOC0 => "NOC0" | NOC1 => "NOC1" end.
Definition link_name (t : link_type) : string :=
  match t with NOC1_NORTH => "NOC1_NORTH" | NOC1_WEST => "NOC1_WEST" | NOC0_EAST => "NOC0_EAST" | NOC0_SOUTH => "NOC0_SOUTH" end.
Definition risc_name (r : risc_type) : string :=
  match r with
  | BRISC => "BRISC" | NCRISC => "NCRISC" | TRISC_0 => "TRISC_0" | TRISC_1 => "TRISC_1" | TRISC_2 => "TRISC_2" | ERISC => "ERISC" | CORE_AGG => "CORE_AGG"
  end.
(* 579-582, 711-717 *)
Definition hop_text (h : hop_name) : string :=
  match h with
  | HopIn NOC0 => "NOC0_IN" | HopIn NOC1 => "NOC1_IN" | HopOut NOC0 => "NOC0_OUT" | HopOut NOC1 => "NOC1_OUT"
  | HopLink t => link_name t
  end.
(* {device_id, row, col} and, in the legacy format, {row, col} *)
Definition j_coord (c : coord) : list json := [JInt (c_dev c); JInt (c_row c); JInt (c_col c)].
Definition j_cell (c : coord) : list json := [JInt (c_row c); JInt (c_col c)].
(* npeStats.hpp:124 *)
Definition schema_version : string := "1.0.0".

Section Layout.
  (* npeConfig: device_name, congestion_model_name, cycles_per_timestep *)
  Context (name model : string) (cpt : Z) (d : device).
  (* {"NOC0", {...}}, {"NOC1", {...}}: 383-392, 734-742 *)
  Definition j_nocs (ld0 lu0 mx0 ld1 lu1 mx1 : D f32A) : json :=
    JObject [("NOC0", JObject [("avg_link_demand", j_num ld0); ("avg_link_util", j_num lu0); ("max_link_demand", j_num mx0)]);
             ("NOC1", JObject [("avg_link_demand", j_num ld1); ("avg_link_util", j_num lu1); ("max_link_demand", j_num mx1)])].
  (* 368-392 *)
  Definition j_info (ds : dstats f32A) : list (string * json) :=
    [("version", JString schema_version); ("mesh_device", JString name);
     ("arch", JString (match dv_arch d with WormholeB0 => "wormhole_b0" | Blackhole => "blackhole" end));
     ("cycles_per_timestep", JInt cpt); ("congestion_model_name", JString model);
     ("num_rows", JInt (Z.of_nat (dv_rows d))); ("num_cols", JInt (Z.of_nat (dv_cols d)));
     ("dram_bw_util", j_num (ds_dram f32A ds)); ("link_util", j_num (ds_avg_lu f32A ds)); ("mcast_write_link_util", j_num (ds_avg_mc f32A ds));
     ("link_demand", j_num (ds_avg_ld f32A ds)); ("max_link_demand", j_num (ds_max_ld f32A ds));
     ("noc", j_nocs (ds_avg_ld0 f32A ds) (ds_avg_lu0 f32A ds) (ds_max_ld0 f32A ds) (ds_avg_ld1 f32A ds) (ds_avg_lu1 f32A ds) (ds_max_ld1 f32A ds))].
  (* 394-448 *)
  Definition j_chips (m : chip_map) : json := JObject (map (fun e => (fst e, JArray (map JInt (snd e)))) m).
  (* 570-604 *)
  Definition j_segment (s : segment f32A) : json :=
    JObject [("device_id", JInt (c_dev (sg_src _ s))); ("src", JArray (j_coord (sg_src _ s)));
             ("dst", JArray (map (fun c => JArray (j_coord c)) (sg_dst _ s))); ("noc_type", JString (noc_name (sg_noc _ s)));
             ("injection_rate", j_float (sg_rate _ s)); ("start_cycle", JInt (sg_start _ s)); ("end_cycle", JInt (sg_end _ s));
             ("links", JArray (map (fun x => JArray (j_coord (fst x) ++ [JString (hop_text (snd x))])) (sg_links _ s)))].
  (* 553-607 *)
  Definition j_group (g : tgroup f32A) : json :=
    JObject [("id", JInt (tg_id _ g)); ("src", JArray (j_coord (tg_src _ g))); ("total_bytes", JInt (tg_bytes _ g));
             ("start_cycle", JInt (tg_start _ g)); ("noc_event_type", JString (tg_event _ g)); ("fabric_event_type", JBool (tg_fabric _ g));
             ("zones", JString (tg_zone _ g)); ("end_cycle", JInt (tg_end _ g));
             ("dst", JArray (map (fun c => JArray (j_coord c)) (tg_dst _ g))); ("route", JArray (map j_segment (tg_route _ g)))].
  (* 624-651: the fields of a zone; "id" and "end" are added when the zone ends. A timestamp is a double. *)
  Definition zone_label (x : string * Z) : string := (fst x ++ "[" ++ decimal (snd x) ++ "]")%string.
  Fixpoint j_zone (z : zjson) : json :=
    JObject ([("start", j_num (d_ofZ f32A (zj_start z))); ("zones", JArray (map j_zone (zj_zones z)))]
             ++ match zj_id z with Some x => [("id", JString (zone_label x))] | None => [] end
             ++ match zj_end z with Some t => [("end", j_num (d_ofZ f32A t))] | None => [] end).
  (* 610-673: the root of a core and a processor; "zones" is created by the first zone that begins *)
  Definition some_zone (m : zone_map) (k : coord * risc_type) : bool :=
    existsb (fun e => coord_eqb (fst (fst e)) (fst k) && String.eqb (risc_name (snd (fst e))) (risc_name (snd k))
                      && match snd e with [] => false | _ => true end) m.
  Definition j_root (wl : workload (F f32A)) (e : (coord * risc_type) * list zjson) : json :=
    JObject ([("core", JArray (j_coord (fst (fst e)))); ("proc", JString (risc_name (snd (fst e))))]
             ++ if some_zone (wl_zones wl) (fst e) then [("zones", JArray (map j_zone (snd e)))] else []).
  (* 688-744 *)
  Definition j_demand (x : coord * hop_name * F f32A) : json :=
    JArray (j_coord (fst (fst x)) ++ [JString (hop_text (snd (fst x))); j_float (snd x)]).
  Definition j_step (t : tstep f32A) : json :=
    let a := nth_error (tp_avgs _ t) in
    let num i := match a i with Some x => x | None => S754_nan end in
    JObject [("start_cycle", JInt (tp_start _ t)); ("end_cycle", JInt (tp_end _ t)); ("active_transfers", JArray (map JInt (tp_active _ t)));
             ("link_demand", JArray (map j_demand (tp_demand _ t)));
             ("avg_link_demand", j_num (num 0%nat)); ("avg_link_util", j_num (num 1%nat)); ("mcast_write_link_util", j_num (num 2%nat));
             ("noc", j_nocs (num 3%nat) (num 4%nat) (num 5%nat) (num 6%nat) (num 7%nat) (num 8%nat))].
  Definition j_timeline (wl : workload (F f32A)) (info : list (string * json)) (t : timeline f32A) : json :=
    JObject [("common_info", JObject info); ("chips", j_chips (tl_chips _ t)); ("noc_transfers", JArray (map j_group (tl_groups _ t)));
             ("zones", JArray (map (j_root wl) (tl_zones _ t))); ("timestep_data", JArray (map j_step (tl_steps _ t)))].
  (* 862-870; [total] = num_splits *)
  Definition j_split_info (total k : Z) (r : region) : json :=
    JObject [("split_index", JInt k); ("total_splits", JInt total); ("start_timestep_idx", JInt (rg_first r)); ("end_timestep_idx", JInt (rg_last r));
             ("start_cycle", JInt (rg_start r)); ("end_cycle", JInt (rg_end r))].

  (** * Legacy format: 203-331 *)
  Definition j_info0 (ds : dstats f32A) : list (string * json) :=
    [("device_name", JString name); ("cycles_per_timestep", JInt cpt); ("congestion_model_name", JString model);
     ("num_rows", JInt (Z.of_nat (dv_rows d))); ("num_cols", JInt (Z.of_nat (dv_cols d)));
     ("dram_bw_util", j_num (ds_dram f32A ds)); ("link_util", j_num (ds_avg_lu f32A ds)); ("mcast_write_link_util", j_num (ds_avg_mc f32A ds));
     ("link_demand", j_num (ds_avg_ld f32A ds)); ("max_link_demand", j_num (ds_max_ld f32A ds))].
  Definition j_transfer0 (t : v0_transfer f32A) : json :=
    let s := v0_state _ t in
    JObject [("id", JInt (v0_id _ t)); ("src", JArray (j_cell (t_src (s_tr s)))); ("dst", JArray (map (fun c => JArray (j_cell c)) (v0_dst _ t)));
             ("total_bytes", JInt (t_bytes (s_tr s))); ("noc_type", JString (noc_name (t_noc (s_tr s)))); ("injection_rate", j_float (t_rate (s_tr s)));
             ("start_cycle", JInt (s_start s)); ("end_cycle", JInt (s_end s)); ("noc_event_type", JString (t_event (s_tr s)));
             ("route", JArray (map (fun x => JArray (j_cell (fst x) ++ [JString (hop_text (snd x))])) (v0_route _ t)))].
  Definition j_step0 (t : tstep f32A) : json :=
    let a := nth_error (tp_avgs _ t) in
    let num i := match a i with Some x => x | None => S754_nan end in
    JObject [("start_cycle", JInt (tp_start _ t)); ("end_cycle", JInt (tp_end _ t)); ("active_transfers", JArray (map JInt (tp_active _ t)));
             ("link_demand", JArray (map (fun x => JArray (j_cell (fst (fst x)) ++ [JString (hop_text (snd (fst x))); j_float (snd x)])) (tp_demand _ t)));
             ("avg_link_demand", j_num (num 0%nat)); ("avg_link_util", j_num (num 1%nat)); ("mcast_write_link_util", j_num (num 2%nat))].
  Definition j_legacy (ds : dstats f32A) (t : v0_doc f32A) : json :=
    JObject [("common_info", JObject (j_info0 ds)); ("noc_transfers", JArray (map j_transfer0 (v0_transfers _ t)));
             ("timestep_data", JArray (map j_step0 (v0_steps _ t)))].

  (** * The document of a file: 818-876 *)
  (* An empty document is null; operator[] turns it into an object, so a split file without document holds its split_info only. *)
  Definition file_json (wl : workload (F f32A)) (ds : dstats f32A) (thr : Z) (c : content f32A) : json :=
    match c with
    | FullV0 _ t => j_legacy ds t
    | FullV1 _ None => JNull
    | FullV1 _ (Some t) => j_timeline wl (j_info ds) t
    | Split _ k r o =>
        let si := ("split_info", j_split_info (num_splits (Z.of_nat (List.length (ds_ts f32A ds))) thr) k r) in
        match o with
        | None => JObject [("common_info", JObject [si])]
        | Some t => j_timeline wl (j_info ds ++ [si]) t
        end
    end.
End Layout.
