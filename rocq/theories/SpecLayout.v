(* Specifications for the layout of the timeline files (C81): the schema in tt_npe/scripts/timeline_schema_v1.json and
   tt_npe/scripts/stats_schema.json, and a reader of the files. *)
From Coq Require Import ZArith String List Bool Floats.SpecFloat.
From Verif Require Import Base Arith Util Json Device Workload Rates Stats Engine Timeline Files.
Import ListNotations.
Local Open Scope string_scope.
Local Open Scope list_scope.
Open Scope Z_scope.

(** * Schemas *)
Inductive shape : Type :=
| SInt | SNum | SNull | SText | SFlag
| SOne : list string -> shape                   (* one of these texts *)
| SOr : shape -> shape -> shape
| SList : shape -> shape
| STuple : list shape -> shape
| SDict : shape -> shape                        (* an object with any keys *)
| SObj : list (string * shape) -> shape.        (* an object with at least these keys *)
Inductive fits : shape -> json -> Prop :=
| fits_int z : fits SInt (JInt z)
| fits_num_i z : fits SNum (JInt z)
| fits_num x : fits SNum (JDouble x)
| fits_null : fits SNull JNull
| fits_text s : fits SText (JString s)
| fits_flag b : fits SFlag (JBool b)
| fits_one l s : In s l -> fits (SOne l) (JString s)
| fits_or_l a b j : fits a j -> fits (SOr a b) j
| fits_or_r a b j : fits b j -> fits (SOr a b) j
| fits_list s l : Forall (fits s) l -> fits (SList s) (JArray l)
| fits_tuple ss l : Forall2 fits ss l -> fits (STuple ss) (JArray l)
| fits_dict s fs : Forall (fun e => fits s (snd e)) fs -> fits (SDict s) (JObject fs)
| fits_obj ss fs : NoDup (map fst fs) -> (forall k s, In (k, s) ss -> exists v, In (k, v) fs /\ fits s v) -> fits (SObj ss) (JObject fs).

(* timeline_schema_v1.json. The keys and names that the file and the program write differently, and what a number may be, are arguments. *)
Definition s_coord : shape := STuple [SInt; SInt; SInt].
Definition s_nocs (noc0 noc1 : string) (num : shape) : shape :=
  let one := SObj [("avg_link_demand", num); ("avg_link_util", num); ("max_link_demand", num)] in SObj [(noc0, one); (noc1, one)].
Definition s_segment (noc0 noc1 : string) (num : shape) : shape :=
  SObj [("device_id", SInt); ("src", s_coord); ("dst", SList s_coord); ("noc_type", SOne [noc0; noc1]); ("injection_rate", num);
        ("start_cycle", SInt); ("end_cycle", SInt); ("links", SList (STuple [SInt; SInt; SInt; SText]))].
Definition s_transfer (noc0 noc1 id : string) (num : shape) : shape :=
  SObj [(id, SInt); ("noc_event_type", SText); ("total_bytes", SInt); ("src", s_coord); ("dst", SList s_coord);
        ("start_cycle", SInt); ("end_cycle", SInt); ("route", SList (s_segment noc0 noc1 num))].
Definition s_step (demand util : string) (num : shape) : shape :=
  SObj [("start_cycle", SInt); ("end_cycle", SInt); ("active_transfers", SList SInt); (demand, num); (util, num);
        ("link_demand", SList (STuple [SInt; SInt; SInt; SText; num]))].
Definition s_info (noc0 noc1 : string) (num : shape) : shape :=
  SObj [("version", SOne ["1.0.0"]); ("cycles_per_timestep", SInt); ("congestion_model_name", SText); ("mesh_device", SText);
        ("arch", SOne ["wormhole_b0"; "blackhole"]); ("dram_bw_util", num); ("link_util", num); ("link_demand", num); ("max_link_demand", num);
        ("noc", s_nocs noc0 noc1 num)].
Definition timeline_schema (noc0 noc1 id demand util : string) (num : shape) : shape :=
  SObj [("common_info", s_info noc0 noc1 num); ("chips", SDict (STuple [SInt; SInt; SInt; SInt]));
        ("noc_transfers", SList (s_transfer noc0 noc1 id num)); ("timestep_data", SList (s_step demand util num))].
Definition documented_schema : shape := timeline_schema "NOC_0" "NOC_1" "transfer_id" "avg_demand" "avg_util" SNum.
Definition emitted_schema (num : shape) : shape := timeline_schema "NOC0" "NOC1" "id" "avg_link_demand" "avg_link_util" num.
(* stats_schema.json; [route]: the shape of a route *)
Definition legacy_schema (noc0 noc1 : string) (route num : shape) : shape :=
  SObj [("common_info", SObj [("cycles_per_timestep", SInt); ("congestion_model_name", SText); ("device_name", SText); ("num_rows", SInt);
                              ("num_cols", SInt); ("dram_bw_util", num); ("link_util", num); ("link_demand", num); ("max_link_demand", num)]);
        ("noc_transfers", SList (SObj [("id", SInt); ("total_bytes", SInt); ("src", STuple [SInt; SInt]); ("dst", SList (STuple [SInt; SInt]));
                              ("route", route); ("noc_type", SOne [noc0; noc1]); ("injection_rate", num); ("start_cycle", SInt); ("end_cycle", SInt);
                              ("noc_event_type", SText)]));
        ("timestep_data", SList (SObj [("start_cycle", SInt); ("end_cycle", SInt); ("active_transfers", SList SInt);
                              ("link_demand", SList (STuple [SInt; SInt; SText; num])); ("avg_link_demand", num); ("avg_link_util", num)]))].
Definition hop_shape : shape := STuple [SInt; SInt; SText].
Definition documented_legacy : shape := legacy_schema "NOC_0" "NOC_1" (SList (SList hop_shape)) SNum.
Definition emitted_legacy (num : shape) : shape := legacy_schema "NOC0" "NOC1" (SList hop_shape) num.

(** * A reader *)
(* a number; None: the file says null *)
Definition num : Type := option spec_float.
Definition obind {X Y} (m : option X) (f : X -> option Y) : option Y := match m with Some x => f x | None => None end.
Local Notation "x <- m ;; f" := (obind m (fun x => f)) (at level 61, m at next level, right associativity).
Fixpoint all {X} (f : json -> option X) (l : list json) : option (list X) :=
  match l with [] => Some [] | j :: l' => x <- f j ;; xs <- all f l' ;; Some (x :: xs) end.
Definition r_int (j : json) : option Z := match j with JInt z => Some z | _ => None end.
Definition r_text (j : json) : option string := match j with JString s => Some s | _ => None end.
Definition r_flag (j : json) : option bool := match j with JBool b => Some b | _ => None end.
Definition r_num (j : json) : option num := match j with JDouble x => Some (Some x) | JNull => Some None | _ => None end.
Definition r_list {X} (f : json -> option X) (j : json) : option (list X) := match j with JArray l => all f l | _ => None end.
Definition at_key {X} (k : string) (f : json -> option X) (j : json) : option X := v <- get_field j k ;; f v.
Definition r_coord (j : json) : option coord :=
  match j with JArray [JInt a; JInt r; JInt c] => Some (mkCoord a r c) | _ => None end.
Definition r_noc (j : json) : option noc_type :=
  s <- r_text j ;; if String.eqb s "NOC0" then Some NOC0 else if String.eqb s "NOC1" then Some NOC1 else None.
Definition hops : list (string * hop_name) :=
  [("NOC0_IN", HopIn NOC0); ("NOC1_IN", HopIn NOC1); ("NOC0_OUT", HopOut NOC0); ("NOC1_OUT", HopOut NOC1);
   ("NOC0_EAST", HopLink NOC0_EAST); ("NOC0_SOUTH", HopLink NOC0_SOUTH); ("NOC1_NORTH", HopLink NOC1_NORTH); ("NOC1_WEST", HopLink NOC1_WEST)].
Definition r_hop (j : json) : option hop_name := s <- r_text j ;; option_map snd (find (fun e => String.eqb (fst e) s) hops).
Definition riscs : list (string * risc_type) :=
  [("BRISC", BRISC); ("NCRISC", NCRISC); ("TRISC_0", TRISC_0); ("TRISC_1", TRISC_1); ("TRISC_2", TRISC_2); ("ERISC", ERISC); ("CORE_AGG", CORE_AGG)].
Definition r_risc (j : json) : option risc_type := s <- r_text j ;; option_map snd (find (fun e => String.eqb (fst e) s) riscs).
(* [chip, row, column, name] and [chip, row, column, name, demand] *)
Definition r_link (j : json) : option (coord * hop_name) :=
  match j with JArray [a; b; c; n] => x <- r_coord (JArray [a; b; c]) ;; h <- r_hop n ;; Some (x, h) | _ => None end.
Definition r_demand (j : json) : option (coord * hop_name * num) :=
  match j with JArray [a; b; c; n; v] => x <- r_coord (JArray [a; b; c]) ;; h <- r_hop n ;; q <- r_num v ;; Some (x, h, q) | _ => None end.

(* what the reader finds *)
Record seg_view : Type := mkSv {
  sv_chip : Z; sv_src : coord; sv_dst : list coord; sv_noc : noc_type; sv_rate : num; sv_start : Z; sv_end : Z; sv_links : list (coord * hop_name) }.
Record group_view : Type := mkGv {
  gv_id : Z; gv_src : coord; gv_bytes : Z; gv_start : Z; gv_event : string; gv_fabric : bool; gv_zone : string; gv_end : Z; gv_dst : list coord;
  gv_route : list seg_view }.
Inductive zone_view : Type := ZV : num -> option string -> option num -> list zone_view -> zone_view.
Record nocs_view : Type := mkNv { nv_demand0 : num; nv_util0 : num; nv_max0 : num; nv_demand1 : num; nv_util1 : num; nv_max1 : num }.
Record step_view : Type := mkTv {
  tv_start : Z; tv_end : Z; tv_active : list Z; tv_demand : list (coord * hop_name * num); tv_avg_demand : num; tv_avg_util : num; tv_mcast : num;
  tv_nocs : nocs_view }.
Record info_view : Type := mkIv {
  iv_version : string; iv_device : string; iv_arch : string; iv_cpt : Z; iv_model : string; iv_rows : Z; iv_cols : Z;
  iv_dram : num; iv_util : num; iv_mcast : num; iv_demand : num; iv_max : num; iv_nocs : nocs_view }.
Record split_view : Type := mkPv { pv_index : Z; pv_total : Z; pv_first : Z; pv_last : Z; pv_start : Z; pv_end : Z }.
Record file_view : Type := mkFv {
  fv_info : info_view; fv_split : option split_view; fv_chips : list (string * list Z); fv_groups : list group_view;
  fv_zones : list ((coord * risc_type) * list zone_view); fv_steps : list step_view }.

Definition r_nocs (j : json) : option nocs_view :=
  a <- at_key "NOC0" (at_key "avg_link_demand" r_num) j ;; b <- at_key "NOC0" (at_key "avg_link_util" r_num) j ;;
  c <- at_key "NOC0" (at_key "max_link_demand" r_num) j ;; d <- at_key "NOC1" (at_key "avg_link_demand" r_num) j ;;
  e <- at_key "NOC1" (at_key "avg_link_util" r_num) j ;; f <- at_key "NOC1" (at_key "max_link_demand" r_num) j ;; Some (mkNv a b c d e f).
Definition r_segment (j : json) : option seg_view :=
  chip <- at_key "device_id" r_int j ;; src <- at_key "src" r_coord j ;; dst <- at_key "dst" (r_list r_coord) j ;; noc <- at_key "noc_type" r_noc j ;;
  rate <- at_key "injection_rate" r_num j ;; s <- at_key "start_cycle" r_int j ;; e <- at_key "end_cycle" r_int j ;;
  links <- at_key "links" (r_list r_link) j ;; Some (mkSv chip src dst noc rate s e links).
Definition r_group (j : json) : option group_view :=
  id <- at_key "id" r_int j ;; src <- at_key "src" r_coord j ;; bytes <- at_key "total_bytes" r_int j ;; s <- at_key "start_cycle" r_int j ;;
  ev <- at_key "noc_event_type" r_text j ;; fab <- at_key "fabric_event_type" r_flag j ;; z <- at_key "zones" r_text j ;; e <- at_key "end_cycle" r_int j ;;
  dst <- at_key "dst" (r_list r_coord) j ;; route <- at_key "route" (r_list r_segment) j ;; Some (mkGv id src bytes s ev fab z e dst route).
(* an optional field *)
Definition maybe {X} (k : string) (f : json -> option X) (j : json) : option (option X) :=
  match get_field j k with None => Some None | Some v => option_map Some (f v) end.
Fixpoint r_zone (j : json) : option zone_view :=
  match j with
  | JObject fs =>
      a <- at_key "start" r_num j ;; id <- maybe "id" r_text j ;; e <- maybe "end" r_num j ;;
      zs <- (fix look (fs : list (string * json)) : option (list zone_view) :=
               match fs with
               | [] => None
               | (k, v) :: fs' =>
                   if String.eqb k "zones" then
                     match v with
                     | JArray l => (fix each (l : list json) : option (list zone_view) :=
                                      match l with [] => Some [] | x :: l' => z <- r_zone x ;; zs <- each l' ;; Some (z :: zs) end) l
                     | _ => None
                     end
                   else look fs'
               end) fs ;;
      Some (ZV a id e zs)
  | _ => None
  end.
(* the zones of a core and a processor; no list: none *)
Definition r_root (j : json) : option ((coord * risc_type) * list zone_view) :=
  c <- at_key "core" r_coord j ;; p <- at_key "proc" r_risc j ;; zs <- maybe "zones" (r_list r_zone) j ;;
  Some ((c, p), match zs with Some l => l | None => [] end).
Definition r_step (j : json) : option step_view :=
  s <- at_key "start_cycle" r_int j ;; e <- at_key "end_cycle" r_int j ;; act <- at_key "active_transfers" (r_list r_int) j ;;
  dem <- at_key "link_demand" (r_list r_demand) j ;; ad <- at_key "avg_link_demand" r_num j ;; au <- at_key "avg_link_util" r_num j ;;
  mc <- at_key "mcast_write_link_util" r_num j ;; n <- at_key "noc" r_nocs j ;; Some (mkTv s e act dem ad au mc n).
Definition r_info (j : json) : option info_view :=
  ver <- at_key "version" r_text j ;; dev <- at_key "mesh_device" r_text j ;; arch <- at_key "arch" r_text j ;; cpt <- at_key "cycles_per_timestep" r_int j ;;
  model <- at_key "congestion_model_name" r_text j ;; rows <- at_key "num_rows" r_int j ;; cols <- at_key "num_cols" r_int j ;;
  dram <- at_key "dram_bw_util" r_num j ;; util <- at_key "link_util" r_num j ;; mc <- at_key "mcast_write_link_util" r_num j ;;
  dem <- at_key "link_demand" r_num j ;; mx <- at_key "max_link_demand" r_num j ;; n <- at_key "noc" r_nocs j ;;
  Some (mkIv ver dev arch cpt model rows cols dram util mc dem mx n).
Definition r_split (j : json) : option split_view :=
  k <- at_key "split_index" r_int j ;; t <- at_key "total_splits" r_int j ;; a <- at_key "start_timestep_idx" r_int j ;;
  b <- at_key "end_timestep_idx" r_int j ;; s <- at_key "start_cycle" r_int j ;; e <- at_key "end_cycle" r_int j ;; Some (mkPv k t a b s e).
Definition r_chips (j : json) : option (list (string * list Z)) :=
  match j with
  | JObject fs => (fix each (fs : list (string * json)) := match fs with [] => Some [] | (k, v) :: fs' => x <- r_list r_int v ;; xs <- each fs' ;; Some ((k, x) :: xs) end) fs
  | _ => None
  end.
Definition read_file (j : json) : option file_view :=
  info <- at_key "common_info" r_info j ;; sp <- at_key "common_info" (maybe "split_info" r_split) j ;; chips <- at_key "chips" r_chips j ;;
  gs <- at_key "noc_transfers" (r_list r_group) j ;; zs <- at_key "zones" (r_list r_root) j ;; ts <- at_key "timestep_data" (r_list r_step) j ;;
  Some (mkFv info sp chips gs zs ts).

(** * What was simulated, as a reader should find it *)
Definition finite (x : spec_float) : bool := match x with S754_zero _ | S754_finite _ _ _ => true | _ => false end.
Definition v_num (x : spec_float) : num := if finite x then Some x else None.
Definition v_float (x : F f32A) : num := v_num (d_of_f f32A x).
Definition v_segment (s : segment f32A) : seg_view :=
  mkSv (c_dev (sg_src _ s)) (sg_src _ s) (sg_dst _ s) (sg_noc _ s) (v_float (sg_rate _ s)) (sg_start _ s) (sg_end _ s) (sg_links _ s).
Definition v_group (g : tgroup f32A) : group_view :=
  mkGv (tg_id _ g) (tg_src _ g) (tg_bytes _ g) (tg_start _ g) (tg_event _ g) (tg_fabric _ g) (tg_zone _ g) (tg_end _ g) (tg_dst _ g) (map v_segment (tg_route _ g)).
Fixpoint v_zone (z : zjson) : zone_view :=
  match z with
  | ZJ a id e zs => ZV (v_num (d_ofZ f32A a)) (option_map (fun x => (fst x ++ "[" ++ decimal (snd x) ++ "]")%string) id)
                       (option_map (fun t => v_num (d_ofZ f32A t)) e) (map v_zone zs)
  end.
Definition v_demand (x : coord * hop_name * F f32A) : coord * hop_name * num := (fst x, v_float (snd x)).
(* a timestep of the statistics: its averages *)
Definition v_step (t : tstats f32A) (p : tstep f32A) : step_view :=
  mkTv (ts_start _ t) (ts_end _ t) (tp_active _ p) (map v_demand (tp_demand _ p)) (v_num (ts_avg_ld _ t)) (v_num (ts_avg_lu _ t)) (v_num (ts_avg_mc _ t))
    (mkNv (v_num (ts_avg_ld0 _ t)) (v_num (ts_avg_lu0 _ t)) (v_num (ts_max_ld0 _ t)) (v_num (ts_avg_ld1 _ t)) (v_num (ts_avg_lu1 _ t)) (v_num (ts_max_ld1 _ t))).
(* the header, from the configuration, the device and the statistics of the mesh *)
Definition v_info (name model : string) (cpt : Z) (d : device) (ds : dstats f32A) : info_view :=
  mkIv "1.0.0" name (match dv_arch d with WormholeB0 => "wormhole_b0" | Blackhole => "blackhole" end) cpt model (Z.of_nat (dv_rows d)) (Z.of_nat (dv_cols d))
    (v_num (ds_dram _ ds)) (v_num (ds_avg_lu _ ds)) (v_num (ds_avg_mc _ ds)) (v_num (ds_avg_ld _ ds)) (v_num (ds_max_ld _ ds))
    (mkNv (v_num (ds_avg_ld0 _ ds)) (v_num (ds_avg_lu0 _ ds)) (v_num (ds_max_ld0 _ ds)) (v_num (ds_avg_ld1 _ ds)) (v_num (ds_avg_lu1 _ ds)) (v_num (ds_max_ld1 _ ds))).
(* the timesteps shown in the file of a region (none: in the full file) *)
Definition shown (r : option region) (ts : list (tstats f32A)) : list (tstats f32A) :=
  filter (fun t => match r with None => true | Some rg => (rg_start rg <=? ts_start _ t) && (ts_end _ t <=? rg_end rg) end) ts.
Definition v_file (name model : string) (cpt : Z) (d : device) (ds : dstats f32A) (total : Z) (at_region : option (Z * region)) (t : timeline f32A) : file_view :=
  mkFv (v_info name model cpt d ds) (option_map (fun x => mkPv (fst x) total (rg_first (snd x)) (rg_last (snd x)) (rg_start (snd x)) (rg_end (snd x))) at_region)
    (tl_chips _ t) (map v_group (tl_groups _ t)) (map (fun e => (fst e, map v_zone (snd e))) (tl_zones _ t))
    (map (fun x => v_step (fst x) (snd x)) (combine (shown (option_map snd at_region) (ds_ts _ ds)) (tl_steps _ t))).

(** * The legacy format *)
Definition cell : Type := Z * Z.
Definition r_cell (j : json) : option cell := match j with JArray [JInt r; JInt c] => Some (r, c) | _ => None end.
Definition r_hop0 (j : json) : option (cell * hop_name) :=
  match j with JArray [a; b; n] => x <- r_cell (JArray [a; b]) ;; h <- r_hop n ;; Some (x, h) | _ => None end.
Definition r_demand0 (j : json) : option (cell * hop_name * num) :=
  match j with JArray [a; b; n; v] => x <- r_cell (JArray [a; b]) ;; h <- r_hop n ;; q <- r_num v ;; Some (x, h, q) | _ => None end.
Record transfer0_view : Type := mkT0 {
  t0_id : Z; t0_src : cell; t0_dst : list cell; t0_bytes : Z; t0_noc : noc_type; t0_rate : num; t0_start : Z; t0_end : Z; t0_event : string;
  t0_route : list (cell * hop_name) }.
Record step0_view : Type := mkS0 {
  s0_start : Z; s0_end : Z; s0_active : list Z; s0_demand : list (cell * hop_name * num); s0_avg_demand : num; s0_avg_util : num; s0_mcast : num }.
Record info0_view : Type := mkI0 {
  i0_device : string; i0_cpt : Z; i0_model : string; i0_rows : Z; i0_cols : Z; i0_dram : num; i0_util : num; i0_mcast : num; i0_demand : num; i0_max : num }.
Record legacy_view : Type := mkLv { lv_info : info0_view; lv_transfers : list transfer0_view; lv_steps : list step0_view }.
Definition r_transfer0 (j : json) : option transfer0_view :=
  id <- at_key "id" r_int j ;; src <- at_key "src" r_cell j ;; dst <- at_key "dst" (r_list r_cell) j ;; bytes <- at_key "total_bytes" r_int j ;;
  noc <- at_key "noc_type" r_noc j ;; rate <- at_key "injection_rate" r_num j ;; s <- at_key "start_cycle" r_int j ;; e <- at_key "end_cycle" r_int j ;;
  ev <- at_key "noc_event_type" r_text j ;; route <- at_key "route" (r_list r_hop0) j ;; Some (mkT0 id src dst bytes noc rate s e ev route).
Definition r_step0 (j : json) : option step0_view :=
  s <- at_key "start_cycle" r_int j ;; e <- at_key "end_cycle" r_int j ;; act <- at_key "active_transfers" (r_list r_int) j ;;
  dem <- at_key "link_demand" (r_list r_demand0) j ;; ad <- at_key "avg_link_demand" r_num j ;; au <- at_key "avg_link_util" r_num j ;;
  mc <- at_key "mcast_write_link_util" r_num j ;; Some (mkS0 s e act dem ad au mc).
Definition r_info0 (j : json) : option info0_view :=
  dev <- at_key "device_name" r_text j ;; cpt <- at_key "cycles_per_timestep" r_int j ;; model <- at_key "congestion_model_name" r_text j ;;
  rows <- at_key "num_rows" r_int j ;; cols <- at_key "num_cols" r_int j ;; dram <- at_key "dram_bw_util" r_num j ;; util <- at_key "link_util" r_num j ;;
  mc <- at_key "mcast_write_link_util" r_num j ;; dem <- at_key "link_demand" r_num j ;; mx <- at_key "max_link_demand" r_num j ;;
  Some (mkI0 dev cpt model rows cols dram util mc dem mx).
Definition read_legacy (j : json) : option legacy_view :=
  i <- at_key "common_info" r_info0 j ;; ts <- at_key "noc_transfers" (r_list r_transfer0) j ;; ss <- at_key "timestep_data" (r_list r_step0) j ;; Some (mkLv i ts ss).
(* the legacy file leaves the chip out of every coordinate *)
Definition at_cell (c : coord) : cell := (c_row c, c_col c).
Definition v_transfer0 (s : tstate spec_float) (v : v0_transfer f32A) : transfer0_view :=
  mkT0 (t_id (s_tr s)) (at_cell (t_src (s_tr s))) (map at_cell (v0_dst _ v)) (t_bytes (s_tr s)) (t_noc (s_tr s)) (v_float (t_rate (s_tr s))) (s_start s) (s_end s)
    (t_event (s_tr s)) (map (fun x => (at_cell (fst x), snd x)) (v0_route _ v)).
Definition v_step0 (t : tstats f32A) (p : tstep f32A) : step0_view :=
  mkS0 (ts_start _ t) (ts_end _ t) (tp_active _ p) (map (fun x => (at_cell (fst (fst x)), snd (fst x), v_float (snd x))) (tp_demand _ p))
    (v_num (ts_avg_ld _ t)) (v_num (ts_avg_lu _ t)) (v_num (ts_avg_mc _ t)).
Definition v_legacy (name model : string) (cpt : Z) (d : device) (ds : dstats f32A) (sts : list (tstate spec_float)) (t : v0_doc f32A) : legacy_view :=
  mkLv (mkI0 name cpt model (Z.of_nat (dv_rows d)) (Z.of_nat (dv_cols d)) (v_num (ds_dram _ ds)) (v_num (ds_avg_lu _ ds)) (v_num (ds_avg_mc _ ds))
          (v_num (ds_avg_ld _ ds)) (v_num (ds_max_ld _ ds)))
    (map (fun x => v_transfer0 (fst x) (snd x)) (combine sts (v0_transfers _ t)))
    (map (fun x => v_step0 (fst x) (snd x)) (combine (ds_ts _ ds) (v0_steps _ t))).

(** * Files without null *)
Definition info_numbers (ds : dstats f32A) : list spec_float :=
  [ds_dram _ ds; ds_avg_lu _ ds; ds_avg_mc _ ds; ds_avg_ld _ ds; ds_max_ld _ ds; ds_avg_ld0 _ ds; ds_avg_lu0 _ ds; ds_max_ld0 _ ds; ds_avg_ld1 _ ds; ds_avg_lu1 _ ds; ds_max_ld1 _ ds].
Definition step_numbers (t : tstats f32A) : list spec_float :=
  [ts_avg_ld _ t; ts_avg_lu _ t; ts_avg_mc _ t; ts_avg_ld0 _ t; ts_avg_lu0 _ t; ts_max_ld0 _ t; ts_avg_ld1 _ t; ts_avg_lu1 _ t; ts_max_ld1 _ t].
Definition file_numbers (ds : dstats f32A) (t : timeline f32A) : list spec_float :=
  info_numbers ds ++ flat_map step_numbers (ds_ts _ ds) ++ map (fun x => d_of_f f32A (snd x)) (flat_map (tp_demand _) (tl_steps _ t))
  ++ map (fun s => d_of_f f32A (sg_rate _ s)) (flat_map (tg_route _) (tl_groups _ t)).
Definition legacy_numbers (ds : dstats f32A) (t : v0_doc f32A) : list spec_float :=
  info_numbers ds ++ flat_map step_numbers (ds_ts _ ds) ++ map (fun x => d_of_f f32A (snd x)) (flat_map (tp_demand _) (v0_steps _ t))
  ++ map (fun s => d_of_f f32A (t_rate (s_tr (v0_state _ s)))) (v0_transfers _ t).
(* what a number of the file may be: a number, and null if some of the numbers is not finite *)
Definition number_of (l : list spec_float) : shape := if forallb finite l then SNum else SOr SNum SNull.
