(* Model of tt_npe/cpp/src/npeWorkloadIngest.cpp: workloads in JSON and noc traces. The parsers, the messages and the timers are
   not modelled: a file is a JSON document, missing or unparsable. No proofs in this file. *)
From Coq Require Import ZArith Bool String List Floats.SpecFloat DecimalString.
From Verif Require Import Base Arith Util Device Workload Json.
Import ListNotations.
Local Open Scope string_scope.
Local Open Scope list_scope.
Open Scope Z_scope.

Notation trans := (transfer spec_float).
Notation work := (workload spec_float).

(** * simdjson: an accessor fails (None) when the value is not an object, has no such key or another type *)
Definition as_int (j : json) : option Z := match j with JInt z => if in_i64 z then Some z else None | _ => None end.          (* get_int64 *)
Definition as_uint (j : json) : option Z := match j with JInt z => if 0 <=? z then Some z else None | _ => None end.        (* get_uint64 *)
Definition as_double (j : json) : option spec_float :=                                                                 (* get_double *)
  match j with JDouble x => Some x | JInt z => Some (sf_ofZ prec64 emax64 z) | _ => None end.
Definition as_string (j : json) : option string := match j with JString s => Some s | _ => None end.
Definition as_array (j : json) : option (list json) := match j with JArray l => Some l | _ => None end.
Definition as_object (j : json) : option json := match j with JObject _ => Some j | _ => None end.
Definition at_key {X} (get : json -> option X) (j : json) (k : string) : option X :=
  match get_field j k with Some v => get v | None => None end.
(* 22-29 *)
Definition with_default {X} (o : option X) (x : X) : X := match o with Some y => y | None => x end.
Definition int_at (j : json) (k : string) (d : Z) : Z := with_default (at_key as_int j k) d.
Definition string_at (j : json) (k : string) : string := with_default (at_key as_string j k) "".
(* a simdjson_result with an error is converted to a value *)
Definition or_throw {X} (o : option X) : outcome X := match o with Some x => Ok x | None => StdThrow "simdjson_error" end.

(* std::string_view *)
Definition starts_with (s p : string) : bool := String.prefix p s.
Fixpoint ends_with (s p : string) : bool := String.eqb s p || match s with EmptyString => false | String _ s' => ends_with s' p end.
Definition contains (s p : string) : bool := match String.index 0 p s with Some _ => true | None => false end.

(* double to int64_t, size_t *)
Definition to_i64 (z : Z) : outcome Z := if in_i64 z then Ok z else UB "float to integer".
Definition to_size (z : Z) : outcome Z := if (0 <=? z) && (z <? 2 ^ 64) then Ok z else UB "float to integer".
(* Every double below is the result of converting or subtracting integers, hence an integer: it is represented by this integer.
   [r53]: rounding of an integer to a double *)
Definition r53 (z : Z) : Z := match sf_trunc (sf_ofZ prec64 emax64 z) with Some x => x | None => 0 end.

(** * Workload files *)
(* 126-164; None: the entry is skipped *)
Definition json_destination (t : json) (dev : Z) : outcome (option noc_dest) :=
  let dx := int_at t "dst_x" (-1) in
  let dy := int_at t "dst_y" (-1) in
  if (dx =? -1) && (dy =? -1) then
    match at_key as_int t "mcast_start_x", at_key as_int t "mcast_start_y", at_key as_int t "mcast_end_x", at_key as_int t "mcast_end_y" with
    | Some sx, Some sy, Some ex, Some ey => let! m := mcast_make (Coord_make dev sy sx) (Coord_make dev ey ex) in Ok (Some (Multicast m))
    | _, _, _, _ => Ok None
    end
  else Ok (Some (Unicast (Coord_make dev dy dx))).
(* 91-202 *)
Definition json_transfer (t : json) : outcome (option trans) :=
  match at_key as_int t "packet_size", at_key as_int t "num_packets", at_key as_int t "src_x", at_key as_int t "src_y" with
  | Some ps, Some np, Some sx, Some sy =>
      let dev := int_at t "device_id" 0 in
      let! dst := json_destination t dev in
      match dst, at_key as_string t "noc_type" with
      | Some dst, Some noc =>
          let rate := with_default (at_key as_double t "injection_rate") (S754_zero false) in
          Ok (Some (tr_make (u32 ps) (u32 np) (Coord_make dev sy sx) dst (f_of_d f32A rate) (u32 (int_at t "phase_cycle_offset" 0))
                (if String.eqb noc "NOC_0" then NOC0 else NOC1) (string_at t "noc_event_type") "" (-1) (-1) (-1)))
      | _, _ => Ok None
      end
  | _, _, _, _ => Ok None
  end.
Definition somes {X} (l : list (option X)) : list X := flat_map (fun o => match o with Some x => [x] | None => [] end) l.
(* 60-205, 214 *)
Definition json_workload (path : string) (j : json) : outcome (option work) :=
  match as_object j with
  | None => Ok None
  | Some _ =>
      let! wl := match get_field j "golden_result" with
                 | Some g => match get_field g "cycles" with
                             | Some c => let! n := or_throw (as_uint c) in Ok (setGoldenResultCycles empty_workload [(0, (0, u32 n))])
                             | None => Ok empty_workload
                             end
                 | None => Ok empty_workload
                 end in
      match at_key as_array j "phases" with
      | None => Ok None
      | Some phases =>
          let! wl := foldM (fun wl p =>
            let! ts := or_throw (at_key as_array p "transfers") in
            let! trs := mapM json_transfer ts in
            let! r := addPhase wl (somes trs) in
            Ok (fst r)) phases wl in
          Ok (Some (setSourceFilePath wl path))
      end
  end.
Inductive file : Type := Missing | Unparsable | Parsed : json -> file.
(* 31-219; [accept]: the name ends in .json, or the user confirms. catch (std::exception) does not catch an npeException, which
   inherits from it privately (npeCommon.hpp:38) *)
Definition loadJSONWorkloadFormat (path : string) (accept : bool) (f : file) : outcome (option work) :=
  match f with
  | Missing => Ok None
  | Unparsable => Ok None
  | Parsed j =>
      if accept then match json_workload path j with StdThrow _ => Ok None | r => r end
      else Ok None
  end.

(** * Traces *)
(* magic_enum::enum_cast, dereferenced *)
Definition risc_of (s : string) : outcome risc_type :=
  if String.eqb s "BRISC" then Ok BRISC else if String.eqb s "NCRISC" then Ok NCRISC else if String.eqb s "TRISC_0" then Ok TRISC_0
  else if String.eqb s "TRISC_1" then Ok TRISC_1 else if String.eqb s "TRISC_2" then Ok TRISC_2 else if String.eqb s "ERISC" then Ok ERISC
  else if String.eqb s "CORE_AGG" then Ok CORE_AGG else UB "empty optional".
Definition zone_phase_of (s : string) : outcome zone_phase :=
  if String.eqb s "ZONE_START" then Ok ZONE_START else if String.eqb s "ZONE_END" then Ok ZONE_END else UB "empty optional".
Definition timestamp (ev : json) : Z := r53 (int_at ev "timestamp" 0).

(* 223-247: first and last timestamp of each (processor, x, y, chip) *)
Definition core_key : Type := string * Z * Z * Z.
Definition core_key_eqb (a b : core_key) : bool :=
  let '(p, x, y, c) := a in let '(p', x', y', c') := b in String.eqb p p' && (x =? x') && (y =? y') && (c =? c').
Fixpoint core_ts (m : list (core_key * (Z * Z))) (k : core_key) (ts : Z) : list (core_key * (Z * Z)) :=
  match m with
  | [] => [(k, (ts, ts))]
  | (k', w) :: m' => if core_key_eqb k' k then (k', (Z.min (fst w) ts, Z.max (snd w) ts)) :: m' else (k', w) :: core_ts m' k ts
  end.
(* 222, 230 *)
Definition t0_of (evs : list json) : Z := fold_left (fun t0 ev => Z.min t0 (timestamp ev)) evs (r53 (2 * 10 ^ 30)).
Definition core_windows (evs : list json) : list (core_key * (Z * Z)) :=
  fold_left (fun m ev =>
    let p := string_at ev "proc" in let sx := int_at ev "sx" (-1) in let sy := int_at ev "sy" (-1) in
    if negb (String.eqb p "") && negb (sx =? -1) && negb (sy =? -1)
    then core_ts m (p, sx, sy, int_at ev "src_device_id" (-1)) (timestamp ev) else m) evs [].
(* 251-266, one chip. The order of iteration over per_core_ts has no influence on minimum and maximum. *)
Definition chip_window (ws : list (core_key * (Z * Z))) (t0 dev : Z) : outcome (Z * Z) :=
  let! w := foldM (fun acc e =>
    if snd (fst e) =? dev then
      let! a := to_size (fst (snd e)) in
      let! b := to_size (snd (snd e)) in
      Ok (Z.min (fst acc) a, Z.max (snd acc) b)
    else Ok acc) ws (2 ^ 63 - 1, 0) in
  let! a := to_size (r53 (r53 (fst w) - t0)) in
  let! b := to_size (r53 (r53 (snd w) - t0)) in
  Ok (u32 a, u32 (b - 20)).
(* 221-269 *)
Definition computeGoldenCyclesAndT0 (d : device) (evs : list json) : outcome (golden_map * Z) :=
  let t0 := t0_of evs in
  let! m := mapM (fun dev => let! w := chip_window (core_windows evs) t0 dev in Ok (dev, w)) (dv_device_ids d) in
  Ok (m, t0).

(* the map of zones *)
Definition risc_eqb (a b : risc_type) : bool :=
  match a, b with
  | BRISC, BRISC | NCRISC, NCRISC | TRISC_0, TRISC_0 | TRISC_1, TRISC_1 | TRISC_2, TRISC_2 | ERISC, ERISC | CORE_AGG, CORE_AGG => true
  | _, _ => false
  end.
Definition proc_eqb (a b : coord * risc_type) : bool := coord_eqb (fst a) (fst b) && risc_eqb (snd a) (snd b).
Fixpoint zones_push (m : zone_map) (k : coord * risc_type) (z : zone) : zone_map :=
  match m with
  | [] => [(k, [z])]
  | (k', l) :: m' => if proc_eqb k' k then (k', l ++ [z]) :: m' else (k', l) :: zones_push m' k z
  end.
Fixpoint zones_get (m : zone_map) (k : coord * risc_type) : option (list zone) :=
  match m with [] => None | (k', l) :: m' => if proc_eqb k' k then Some l else zones_get m' k end.
(* 271-289 *)
Definition extractZones (evs : list json) (t0 : Z) : outcome zone_map :=
  foldM (fun m ev =>
    let p := string_at ev "proc" in let sx := int_at ev "sx" (-1) in let sy := int_at ev "sy" (-1) in
    let z := string_at ev "zone" in let zp := string_at ev "zone_phase" in
    if negb (String.eqb p "") && negb (sx =? -1) && negb (sy =? -1) && negb (String.eqb z "") && negb (String.eqb zp "") then
      let! r := risc_of p in
      let! ph := zone_phase_of zp in
      Ok (zones_push m (Coord_make (int_at ev "src_device_id" 0) sy sx, r) (mkZone (r53 (timestamp ev - t0)) z ph))
    else Ok m) evs [].

(* 291-301 *)
Definition int_string (z : Z) : string := NilZero.string_of_int (Z.to_int z).
Definition zone_entry (e : zone * Z) : string := (z_name (fst e) ++ "[" ++ int_string (snd e) ++ "]")%string.
Fixpoint flattenEnclosingZones (l : list (zone * Z)) : string :=
  match l with
  | [] => ""
  | [e] => zone_entry e
  | e :: l' => (zone_entry e ++ "/" ++ flattenEnclosingZones l')%string
  end.

(* 314-330 *)
Definition SUPPORTED_NOC_EVENTS : list string :=
  ["READ"; "READ_SET_STATE"; "READ_WITH_STATE"; "READ_WITH_STATE_AND_TRID"; "READ_DRAM_SHARDED_SET_STATE"; "READ_DRAM_SHARDED_WITH_STATE";
   "WRITE_"; "WRITE_MULTICAST"; "WRITE_SET_STATE"; "WRITE_WITH_STATE"; "FABRIC_UNICAST_WRITE"; "FABRIC_UNICAST_INLINE_WRITE";
   "FABRIC_UNICAST_ATOMIC_INC"; "FABRIC_FUSED_UNICAST_ATOMIC_INC"; "FABRIC_UNICAST_SCATTER_WRITE"].
Definition supported_event (s : string) : bool := existsb (String.eqb s) SUPPORTED_NOC_EVENTS.

(* 393; one unit of fuel per zone *)
Fixpoint advance (fuel : nat) (it : zone_iter) (limit : Z) : outcome zone_iter :=
  match fuel with
  | O => Diverge
  | S fuel' =>
      if zi_is_end it then Ok it
      else let! z := vec_get (zi_list it) (zi_index it) in
           if z_ts z <=? limit then let! it' := zi_next it in advance fuel' it' limit else Ok it
  end.

Record saved : Type := mkSaved { sv_sx : Z; sv_sy : Z; sv_dx : Z; sv_dy : Z; sv_bytes : Z }.           (* 355-361 *)
Record istate : Type := mkIs {
  is_groups : Z;                            (* num_transfer_groups of wl *)
  is_trs : list trans;                      (* phase.transfers *)
  is_read : saved;
  is_write : saved;
  is_prev : coord * risc_type;              (* prev_core_proc *)
  is_it : option zone_iter }.               (* zone_iterator *)
Definition no_state : saved := mkSaved 0 0 0 0 0.
Definition init_state : istate := mkIs 0 [] no_state no_state (mkCoord (-1) (-1) (-1), BRISC) None.

(* int64_t arithmetic *)
Definition add64 (a b : Z) : outcome Z := if in_i64 (a + b) then Ok (a + b) else UB "signed overflow".
Definition sub64 (a b : Z) : outcome Z := if in_i64 (a - b) then Ok (a - b) else UB "signed overflow".
(* get_write_latency on unchecked coordinates *)
Definition event_write_latency (d : device) (sx sy dx dy : Z) (noc : string) : outcome Z :=
  if String.eqb noc "NOC_0" then let! _ := sub64 dx sx in let! _ := sub64 dy sy in write_latency d sx sy dx dy noc
  else if String.eqb noc "NOC_1" then let! _ := sub64 sx dx in let! _ := sub64 sy dy in write_latency d sx sy dx dy noc
  else write_latency d sx sy dx dy noc.

(* 386-400: the iterator and the path of the enclosing zones *)
Definition zone_of (zones : zone_map) (t0 : Z) (prev : coord * risc_type) (it : option zone_iter) (ev : json)
    : outcome ((coord * risc_type) * option zone_iter * string) :=
  let! r := risc_of (string_at ev "proc") in
  let core := (Coord_make (int_at ev "src_device_id" 0) (int_at ev "sy" (-1)) (int_at ev "sx" (-1)), r) in
  let! s := match zones_get zones core with
            | Some l =>
                let '(prev, it) := if proc_eqb core prev then (prev, it) else (core, Some (zi_make l)) in
                match it with
                | None => UB "null pointer"
                | Some it =>
                    match advance (S (List.length (zi_list it))) it (r53 (timestamp ev - t0)) with
                    | Ok it => Ok (prev, Some it)
                    | Throw _ => Throw TRACE_INGEST_FAILED
                    | StdThrow s => StdThrow s | UB s => UB s | Abort => Abort | Exit => Exit | Diverge => Diverge
                    end
                end
            | None => Ok (prev, it)
            end in
  match snd s with
  | None => UB "null pointer"
  | Some it => Ok (fst s, Some it, flattenEnclosingZones (zi_enclosing it))
  end.

(* 594-620 *)
Definition local_write (dev sy sx off : Z) (noc : noc_type) (ty path : string) (gid parent : Z) (acc : list trans * Z) (w : json) : list trans * Z :=
  let x := int_at w "dx" (-1) in let y := int_at w "dy" (-1) in let b := int_at w "num_bytes" (-1) in
  if negb (x =? -1) && negb (y =? -1) && negb (b =? -1) then
    (fst acc ++ [tr_make (u32 b) 1 (Coord_make dev sy sx) (Unicast (Coord_make dev y x)) (f_zero f32A) (u32 off) noc ty path gid (snd acc) (i32 parent)], snd acc + 1)
  else acc.
(* 536-638, one segment; state: transfers, phase_cycle_offset, transfer_group_index. transfer_group_index is an int below the number
   of transfers of the phase; addPhase fails before it overflows (more than 2^31 - 1 transfers). *)
Definition fabric_segment (d : device) (ty path : string) (bytes gid : Z) (st : list trans * Z * Z) (route : json) : outcome (list trans * Z * Z) :=
  let '(trs, off, gix) := st in
  let noc_s := string_at route "noc" in
  let noc := if String.eqb noc_s "NOC_0" then NOC0 else NOC1 in
  let dev := i16 (int_at route "device" (-1)) in
  let sx := int_at route "segment_start_x" (-1) in let sy := int_at route "segment_start_y" (-1) in
  let fx := int_at route "forward_x" (-1) in let fy := int_at route "forward_y" (-1) in
  let parent := int_at route "parent_id" (-1) in
  let locals := at_key as_array route "local_writes" in
  let! off := if gix =? 0 then
                match dv_arch d with
                | WormholeB0 => let! l := event_write_latency d sx sy fx fy noc_s in add64 off l
                | Blackhole => let! l := event_write_latency d sx sy fx fy noc_s in let! _ := add64 off l in Throw TRACE_INGEST_FAILED    (* 563-568: no break *)
                end
              else Ok off in
  if (dev =? -1) || (sx =? -1) || (sy =? -1) || (match locals with None => (fx =? -1) || (fy =? -1) | Some _ => false end) then Ok (trs, off, gix)
  else
    let acc := match locals with
               | Some ws => fold_left (local_write dev sy sx off noc ty path gid parent) ws (trs, gix)
               | None => (trs, gix)
               end in
    let acc := if negb (fx =? -1) && negb (fy =? -1)
               then (fst acc ++ [tr_make (u32 bytes) 1 (Coord_make dev sy sx) (Unicast (Coord_make dev fy fx)) (f_zero f32A) (u32 off) noc ty path gid (snd acc) (i32 parent)], snd acc + 1)
               else acc in
    Ok (fst acc, off, snd acc).

(* 454-651: an event that moves data, after the state has been applied *)
Definition data_event (d : device) (t0 : Z) (path : string) (ev : json) (sx sy dx dy bytes : Z) (groups : Z) (trs : list trans) : outcome (Z * list trans) :=
  let ty := string_at ev "type" in
  let noc := string_at ev "noc" in
  if String.eqb noc "" then Ok (groups, trs)
  else
    let! off := to_i64 (r53 (timestamp ev - t0)) in
    let! off := if starts_with ty "READ" then add64 off (read_latency (dv_arch d) sx sy dx dy)
                else if starts_with ty "WRITE" then let! l := event_write_latency d sx sy dx dy noc in add64 off l
                else Ok off in
    let src_dev := int_at ev "src_device_id" 0 in
    let dst_dev := int_at ev "dst_device_id" src_dev in
    let! dst := if String.eqb ty "WRITE_MULTICAST" then
                  let ax := int_at ev "mcast_start_x" (-1) in let ay := int_at ev "mcast_start_y" (-1) in
                  let bx := int_at ev "mcast_end_x" (-1) in let b_y := int_at ev "mcast_end_y" (-1) in
                  if (ax =? -1) || (ay =? -1) || (bx =? -1) || (b_y =? -1) then Ok None
                  else if String.eqb noc "NOC_0" then let! m := mcast_make (Coord_make dst_dev ay ax) (Coord_make dst_dev b_y bx) in Ok (Some (Multicast m))
                  else if String.eqb noc "NOC_1" then let! m := mcast_make (Coord_make dst_dev b_y bx) (Coord_make dst_dev ay ax) in Ok (Some (Multicast m))
                  else Ok (Some (Unicast (mkCoord (-1) (-1) (-1))))
                else Ok (Some (Unicast (Coord_make dst_dev dy dx))) in
    match dst with
    | None => Ok (groups, trs)
    | Some dst =>
        match at_key as_object ev "fabric_send" with
        | Some f =>
            if groups + 1 <? 2 ^ 31 then
              match at_key as_array f "path" with
              | Some segs => let! r := foldM (fabric_segment d ty path bytes groups) segs (trs, off, 0) in Ok (groups + 1, fst (fst r))
              | None => Ok (groups + 1, trs)
              end
            else UB "signed overflow"
        | None =>
            Ok (groups, trs ++ [tr_make (u32 bytes) 1 (Coord_make src_dev sy sx) dst (f_zero f32A) (u32 off) (if String.eqb noc "NOC_0" then NOC0 else NOC1) ty path (-1) (-1) (-1)])
        end
    end.

(* 369-652, one event *)
Definition convert_event (d : device) (zones : zone_map) (t0 : Z) (st : istate) (ev : json) : outcome istate :=
  let ty := string_at ev "type" in
  let bytes := int_at ev "num_bytes" 0 in
  let sx := int_at ev "sx" (-1) in let sy := int_at ev "sy" (-1) in
  let dx := int_at ev "dx" (-1) in let dy := int_at ev "dy" (-1) in
  let! z := zone_of zones t0 (is_prev st) (is_it st) ev in
  let '(prev, it, path) := z in
  let keep := mkIs (is_groups st) (is_trs st) (is_read st) (is_write st) prev it in
  if negb (supported_event ty) then Ok keep
  else if String.eqb (string_at ev "proc") "" then Ok keep
  else if (String.eqb ty "WRITE_" || String.eqb ty "READ") && (bytes =? 0) then Ok keep
  else if ends_with ty "SET_STATE" then
    let s := mkSaved sx sy dx dy bytes in
    Ok (if starts_with ty "READ" then mkIs (is_groups st) (is_trs st) s (is_write st) prev it
        else if starts_with ty "WRITE" then mkIs (is_groups st) (is_trs st) (is_read st) s prev it else keep)
  else
    let '(sx, sy, dx, dy, bytes) :=
      if contains ty "WITH_STATE" then
        let use s := (sv_sx s, sv_sy s, sv_dx s, sv_dy s, if 0 <? sv_bytes s then sv_bytes s else bytes) in
        if contains ty "READ" then use (is_read st) else if contains ty "WRITE" then use (is_write st) else (sx, sy, dx, dy, bytes)
      else (sx, sy, dx, dy, bytes) in
    let '(sx, sy, dx, dy) := if starts_with ty "READ" then (dx, dy, sx, sy) else (sx, sy, dx, dy) in
    let! r := data_event d t0 path ev sx sy dx dy bytes (is_groups st) (is_trs st) in
    Ok (mkIs (fst r) (snd r) (is_read st) (is_write st) prev it).

(* 303-660 *)
Definition convert_trace (d : device) (path : string) (j : json) : outcome (option work) :=
  let! evs := or_throw (as_array j) in
  let! g := computeGoldenCyclesAndT0 d evs in
  let wl := setGoldenResultCycles empty_workload (fst g) in
  let! zones := extractZones evs (snd g) in
  let wl := setZones wl zones in
  let! st := foldM (convert_event d zones (snd g)) evs init_state in
  let wl := mkWl (wl_path wl) (wl_phases wl) (wl_next wl) (is_groups st) (wl_golden wl) (wl_zones wl) in
  let! r := addPhase wl (is_trs st) in
  Ok (Some (setSourceFilePath (fst r) path)).
Definition convertNocTracesToNpeWorkload (path name : string) (f : file) : outcome (option work) :=
  let! d := createDeviceModel name in
  match f with
  | Missing => Ok None
  | Unparsable => Ok None
  | Parsed j => convert_trace d path j
  end.
(* 662-681 *)
Definition createWorkloadFromJSON (path name : string) (is_trace accept : bool) (f : file) : outcome (option work) :=
  let r := if is_trace then convertNocTracesToNpeWorkload path name f
           else let! o := loadJSONWorkloadFormat path accept f in
                match o with Some w => Ok (Some w) | None => convertNocTracesToNpeWorkload path name f end in
  match r with Throw _ => Ok None | r => r end.
