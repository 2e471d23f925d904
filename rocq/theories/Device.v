(* Model of tt_npe/cpp/include/device_models/{wormhole_b0,wormhole_multichip,blackhole}.hpp,
   npeDeviceTypes.hpp, grid.hpp and npeDeviceModelFactory.hpp: grids, identifier tables, core types,
   rates, latencies and routing. No proofs in this file. *)
From Coq Require Import ZArith String List Bool.
From Verif Require Import Base Arith Util.
Import ListNotations.
Open Scope Z_scope.

(* npeCommon.hpp:18 *)
Inductive noc_type := NOC0 | NOC1.
Definition noc_type_eqb (a b : noc_type) : bool :=
  match a, b with NOC0, NOC0 | NOC1, NOC1 => true | _, _ => false end.
(* npeDeviceTypes.hpp:20-25 *)
Inductive link_type := NOC1_NORTH | NOC1_WEST | NOC0_EAST | NOC0_SOUTH.
Definition link_type_code (t : link_type) : Z :=
  match t with NOC1_NORTH => 0 | NOC1_WEST => 1 | NOC0_EAST => 2 | NOC0_SOUTH => 3 end.
Definition link_type_eqb (a b : link_type) : bool := link_type_code a =? link_type_code b.
(* npeDeviceTypes.hpp:12-19; the MIMIR types are not used by any device model *)
Inductive niu_type := NOC0_SRC | NOC0_SINK | NOC1_SRC | NOC1_SINK.
Definition niu_type_code (t : niu_type) : Z :=
  match t with NOC0_SRC => 0 | NOC0_SINK => 1 | NOC1_SRC => 2 | NOC1_SINK => 3 end.
Definition niu_type_eqb (a b : niu_type) : bool := niu_type_code a =? niu_type_code b.
(* npeCommon.hpp:31-36 *)
Inductive core_type := UNDEF | WORKER | DRAM | ETH.
Definition core_type_eqb (a b : core_type) : bool :=
  match a, b with
  | UNDEF, UNDEF | WORKER, WORKER | DRAM, DRAM | ETH, ETH => true
  | _, _ => false
  end.
Inductive dev_arch := WormholeB0 | Blackhole.

(* npeDeviceTypes.hpp:32-48 *)
Record link_attr : Type := mkLink { l_coord : coord; l_type : link_type }.
Record niu_attr : Type := mkNiu { n_coord : coord; n_type : niu_type }.
Definition link_attr_eqb (a b : link_attr) : bool :=
  coord_eqb (l_coord a) (l_coord b) && link_type_eqb (l_type a) (l_type b).
Definition niu_attr_eqb (a b : niu_attr) : bool :=
  coord_eqb (n_coord a) (n_coord b) && niu_type_eqb (n_type a) (n_type b).
(* npeDeviceTypes.hpp:58-75 *)
Definition hash_link_attr (a : link_attr) : Z :=
  hash_combine (hash_combine 0 (hash_coord (l_coord a))) (hash_int (link_type_code (l_type a))).
Definition hash_niu_attr (a : niu_attr) : Z :=
  hash_combine (hash_combine 0 (hash_coord (n_coord a))) (hash_int (niu_type_code (n_type a))).

(** * Devices *)
(* Which class of the device models: WormholeB0DeviceModel, WormholeMultichipDeviceModel,
   BlackholeDeviceModel. *)
Inductive dev_class := ClsWormhole | ClsMultichip | ClsBlackhole.
(* Dimensions are fields so that facts can be stated for every grid size; the factory below only
   builds the sizes of the code. *)
Record device : Type := mkDevice {
  dv_class : dev_class;
  dv_rows : nat;       (* wormhole_b0.hpp:434, blackhole.hpp:446 *)
  dv_cols : nat;       (* wormhole_b0.hpp:435, blackhole.hpp:447 *)
  dv_chips : nat;      (* wormhole_b0.hpp:436, blackhole.hpp:448, wormhole_multichip.hpp:19 *)
  dv_banks : Z }.      (* wormhole_b0.hpp:437, blackhole.hpp:31-36 *)

Definition wormhole_b0 : device := mkDevice ClsWormhole 12 10 1 12.
Definition wormhole_multichip (chips : nat) : device := mkDevice ClsMultichip 12 10 chips 12.
Definition blackhole_p100 : device := mkDevice ClsBlackhole 12 17 1 7.
Definition blackhole_p150 : device := mkDevice ClsBlackhole 12 17 1 8.

(* npeDeviceModelFactory.hpp:19-42 *)
Definition createDeviceModel (name : string) : outcome device :=
  if (String.eqb name "wormhole_b0" || String.eqb name "N150")%bool then Ok wormhole_b0
  else if String.eqb name "N300" then Ok (wormhole_multichip 2)
  else if String.eqb name "T3K" then Ok (wormhole_multichip 8)
  else if (String.eqb name "blackhole" || String.eqb name "P100")%bool then Ok blackhole_p100
  else if String.eqb name "P150" then Ok blackhole_p150
  else if String.eqb name "TG" then Ok (wormhole_multichip 36)
  else if String.eqb name "GALAXY" then Ok (wormhole_multichip 32)
  else Throw DEVICE_MODEL_INIT_FAILED.

(* wormhole_b0.hpp:430, blackhole.hpp:442, wormhole_multichip.hpp:320 *)
Definition dv_arch (d : device) : dev_arch :=
  match dv_class d with ClsBlackhole => Blackhole | _ => WormholeB0 end.

(* the set of device ids: wormhole_b0.hpp:451, blackhole.hpp:464, wormhole_multichip.hpp:20-23 *)
Definition dv_device_ids (d : device) : list Z := map Z.of_nat (seq 0 (dv_chips d)).
Definition dv_valid_device (d : device) (id : Z) : bool := existsb (Z.eqb id) (dv_device_ids d).

(** * Identifier tables: wormhole_b0.hpp:27-49, blackhole.hpp:39-61, wormhole_multichip.hpp:29-55 *)
(* wormhole_b0.hpp:444-450, blackhole.hpp:457-463 *)
Definition link_types : list link_type := [NOC0_EAST; NOC0_SOUTH; NOC1_NORTH; NOC1_WEST].
Definition niu_types : list niu_type := [NOC0_SRC; NOC0_SINK; NOC1_SRC; NOC1_SINK].

Definition positions (d : device) : list coord :=
  flat_map (fun dev => flat_map (fun r => map (fun c =>
    Coord_make (Z.of_nat dev) (Z.of_nat r) (Z.of_nat c)) (seq 0 (dv_cols d))) (seq 0 (dv_rows d)))
    (seq 0 (dv_chips d)).
(* link_id_to_attr_lookup / niu_id_to_attr_lookup *)
Definition link_table (d : device) : list link_attr :=
  flat_map (fun p => map (mkLink p) link_types) (positions d).
Definition niu_table (d : device) : list niu_attr :=
  flat_map (fun p => map (mkNiu p) niu_types) (positions d).

(* link_attr_to_id_lookup maps each attribute to its index in the table; the index is stored as
   nocLinkID = int16_t. wormhole_b0.hpp:248-256, blackhole.hpp:260-268, wormhole_multichip.hpp:263-271 *)
Definition getLinkID (d : device) (a : link_attr) : outcome Z :=
  match index_of (link_attr_eqb a) (link_table d) with
  | Some i => Ok (i16 (Z.of_nat i))
  | None => Throw UNDEF_ERR
  end.
(* wormhole_b0.hpp:263-271 *)
Definition getNIUID (d : device) (a : niu_attr) : outcome Z :=
  match index_of (niu_attr_eqb a) (niu_table d) with
  | Some i => Ok (i16 (Z.of_nat i))
  | None => Throw UNDEF_ERR
  end.
(* wormhole_b0.hpp:243-246, 258-261: TT_ASSERT(id < table.size()) compares as size_t, so a negative
   id fails the assertion *)
Definition getLinkAttributes (d : device) (id : Z) : outcome link_attr :=
  if id <? 0 then Throw UNDEF_ERR
  else match nth_error (link_table d) (Z.to_nat id) with
       | Some a => Ok a
       | None => Throw UNDEF_ERR
       end.
Definition getNIUAttributes (d : device) (id : Z) : outcome niu_attr :=
  if id <? 0 then Throw UNDEF_ERR
  else match nth_error (niu_table d) (Z.to_nat id) with
       | Some a => Ok a
       | None => Throw UNDEF_ERR
       end.

(** * Core types *)
(* wormhole_b0.hpp:467-539, row by row *)
Definition wh_core_rows : list (list core_type) :=
  [ [DRAM; ETH; ETH; ETH; ETH; DRAM; ETH; ETH; ETH; ETH];
    [DRAM; WORKER; WORKER; WORKER; WORKER; DRAM; WORKER; WORKER; WORKER; WORKER];
    [UNDEF; WORKER; WORKER; WORKER; WORKER; DRAM; WORKER; WORKER; WORKER; WORKER];
    [UNDEF; WORKER; WORKER; WORKER; WORKER; DRAM; WORKER; WORKER; WORKER; WORKER];
    [UNDEF; WORKER; WORKER; WORKER; WORKER; DRAM; WORKER; WORKER; WORKER; WORKER];
    [DRAM; WORKER; WORKER; WORKER; WORKER; DRAM; WORKER; WORKER; WORKER; WORKER];
    [DRAM; ETH; ETH; ETH; ETH; DRAM; ETH; ETH; ETH; ETH];
    [DRAM; WORKER; WORKER; WORKER; WORKER; DRAM; WORKER; WORKER; WORKER; WORKER];
    [UNDEF; WORKER; WORKER; WORKER; WORKER; DRAM; WORKER; WORKER; WORKER; WORKER];
    [UNDEF; WORKER; WORKER; WORKER; WORKER; DRAM; WORKER; WORKER; WORKER; WORKER];
    [UNDEF; WORKER; WORKER; WORKER; WORKER; DRAM; WORKER; WORKER; WORKER; WORKER];
    [DRAM; WORKER; WORKER; WORKER; WORKER; DRAM; WORKER; WORKER; WORKER; WORKER] ].
(* blackhole.hpp:480-600, row by row *)
Definition bh_core_rows : list (list core_type) :=
  [ [DRAM; UNDEF; UNDEF; UNDEF; UNDEF; UNDEF; UNDEF; UNDEF; UNDEF; DRAM; UNDEF; UNDEF; UNDEF; UNDEF; UNDEF; UNDEF; UNDEF];
    [DRAM; ETH; ETH; ETH; ETH; ETH; ETH; ETH; UNDEF; DRAM; ETH; ETH; ETH; ETH; ETH; ETH; ETH];
    [DRAM; WORKER; WORKER; WORKER; WORKER; WORKER; WORKER; WORKER; UNDEF; DRAM; WORKER; WORKER; WORKER; WORKER; WORKER; WORKER; WORKER];
    [DRAM; WORKER; WORKER; WORKER; WORKER; WORKER; WORKER; WORKER; UNDEF; DRAM; WORKER; WORKER; WORKER; WORKER; WORKER; WORKER; WORKER];
    [DRAM; WORKER; WORKER; WORKER; WORKER; WORKER; WORKER; WORKER; UNDEF; DRAM; WORKER; WORKER; WORKER; WORKER; WORKER; WORKER; WORKER];
    [DRAM; WORKER; WORKER; WORKER; WORKER; WORKER; WORKER; WORKER; UNDEF; DRAM; WORKER; WORKER; WORKER; WORKER; WORKER; WORKER; WORKER];
    [DRAM; WORKER; WORKER; WORKER; WORKER; WORKER; WORKER; WORKER; UNDEF; DRAM; WORKER; WORKER; WORKER; WORKER; WORKER; WORKER; WORKER];
    [DRAM; WORKER; WORKER; WORKER; WORKER; WORKER; WORKER; WORKER; UNDEF; DRAM; WORKER; WORKER; WORKER; WORKER; WORKER; WORKER; WORKER];
    [DRAM; WORKER; WORKER; WORKER; WORKER; WORKER; WORKER; WORKER; UNDEF; DRAM; WORKER; WORKER; WORKER; WORKER; WORKER; WORKER; WORKER];
    [DRAM; WORKER; WORKER; WORKER; WORKER; WORKER; WORKER; WORKER; UNDEF; DRAM; WORKER; WORKER; WORKER; WORKER; WORKER; WORKER; WORKER];
    [DRAM; WORKER; WORKER; WORKER; WORKER; WORKER; WORKER; WORKER; UNDEF; DRAM; WORKER; WORKER; WORKER; WORKER; WORKER; WORKER; WORKER];
    [DRAM; WORKER; WORKER; WORKER; WORKER; WORKER; WORKER; WORKER; UNDEF; DRAM; WORKER; WORKER; WORKER; WORKER; WORKER; WORKER; WORKER] ].
Definition core_rows (d : device) : list (list core_type) :=
  match dv_class d with ClsBlackhole => bh_core_rows | _ => wh_core_rows end.

(* wormhole_b0.hpp:278, blackhole.hpp:290, wormhole_multichip.hpp:300-302; grid.hpp:24-36: the index is
   converted to size_t, a failed bounds check ends the process (assert) *)
Definition getCoreType (d : device) (c : coord) : outcome core_type :=
  if (c_row c <? 0) || (c_col c <? 0) then Abort
  else match nth_error (core_rows d) (Z.to_nat (c_row c)) with
       | Some row => match nth_error row (Z.to_nat (c_col c)) with
                     | Some t => Ok t
                     | None => Abort
                     end
       | None => Abort
       end.

(** * Rates (floats) *)
Section Rates.
  Context (A : arith).
  Definition dlit (n : Z) (d : positive) : F A := f_of_d A (d_lit A n d).
  (* wormhole_b0.hpp:456-460, blackhole.hpp:449,469-473 *)
  Definition inj_rate (d : device) (t : core_type) : F A :=
    match dv_class d with
    | ClsBlackhole =>
        match t with
        | DRAM => f_of_d A (d_div A (d_lit A 54 1) (d_of_f A (f_lit A 135 100)))
        | ETH => dlit 9999 10
        | UNDEF | WORKER => dlit 609 10
        end
    | _ => match t with DRAM => dlit 232 10 | ETH | UNDEF | WORKER => dlit 281 10 end
    end.
  (* wormhole_b0.hpp:461-465, blackhole.hpp:474-478 *)
  Definition abs_rate (d : device) (t : core_type) : F A :=
    match dv_class d with
    | ClsBlackhole =>
        match t with
        | DRAM => f_of_d A (d_div A (d_lit A 54 1) (d_of_f A (f_lit A 135 100)))
        | ETH => dlit 9999 10
        | UNDEF | WORKER => dlit 609 10
        end
    | _ => match t with DRAM | ETH => dlit 24 1 | UNDEF | WORKER => dlit 281 10 end
    end.
  (* wormhole_b0.hpp:280-307, blackhole.hpp:292-319, wormhole_multichip.hpp:303-308. All four core
     types are keys of the rate maps, so the "could not infer" branch is not taken. *)
  Definition getSrcInjectionRate (d : device) (c : coord) : outcome (F A) :=
    let! t := getCoreType d c in Ok (inj_rate d t).
  Definition getSinkAbsorptionRate (d : device) (c : coord) : outcome (F A) :=
    let! t := getCoreType d c in Ok (abs_rate d t).
  (* wormhole_b0.hpp:234, blackhole.hpp:246, wormhole_multichip.hpp:310 *)
  Definition link_bandwidth (d : device) : F A :=
    match dv_class d with ClsBlackhole => dlit 609 10 | _ => f_ofZ A 30 end.
  (* wormhole_b0.hpp:453-454, blackhole.hpp:466-467 *)
  Definition tbt (d : device) : list (Z * F A) :=
    match dv_class d with
    | ClsBlackhole =>
        [(0, f_ofZ A 0); (128, dlit 6 1); (256, dlit 121 10); (512, dlit 242 10); (1024, dlit 48 1);
         (2048, dlit 577 10); (4096, dlit 587 10); (8192, dlit 604 10); (16384, dlit 609 10)]
    | _ =>
        [(0, f_ofZ A 0); (128, dlit 55 10); (256, dlit 101 10); (512, dlit 18 1); (1024, dlit 274 10);
         (2048, dlit 30 1); (8192, dlit 30 1)]
    end.
  (* wormhole_b0.hpp:380-386, blackhole.hpp:392-398 *)
  Definition max_noc_bandwidth (d : device) : F A :=
    fold_left (fun m p => f_fmax A m (snd p)) (tbt d) (f_ofZ A 0).
  (* wormhole_b0.hpp:235-237, blackhole.hpp:247-249, wormhole_multichip.hpp:312-314 *)
  Definition dram_bandwidth (d : device) : F A :=
    let one := f_mul A (f_ofZ A (dv_banks d))
                 (f_div A (f_add A (inj_rate d DRAM) (abs_rate d DRAM)) (f_ofZ A 2)) in
    match dv_class d with
    | ClsMultichip => f_mul A (f_ofZ A (Z.of_nat (dv_chips d))) one
    | _ => one
    end.
  (* wormhole_b0.hpp:239-241,438, blackhole.hpp:251-253,451 *)
  Definition eth_bandwidth (d : device) : F A :=
    match dv_class d with ClsBlackhole => dlit 50 1 | _ => dlit 125 10 end.
End Rates.

(** * Latencies *)
(* route_hops: wormhole_b0.hpp:393-407, blackhole.hpp:405-419. [noc] is the string argument; arithmetic
   in int64_t. *)
Definition route_hops (d : device) (sx sy dx dy : Z) (noc : string) : outcome Z :=
  let cols := Z.of_nat (dv_cols d) in
  let rows := Z.of_nat (dv_rows d) in
  if String.eqb noc "NOC_0" then
    let! a := modulo (dx - sx) cols in
    let! b := modulo (dy - sy) rows in
    Ok (a + b)
  else if String.eqb noc "NOC_1" then
    let! a := modulo (sx - dx) cols in
    let! b := modulo (sy - dy) rows in
    Ok (a + b)
  else Ok (-1).
(* get_read_latency: wormhole_b0.hpp:410-420, blackhole.hpp:422-432 *)
Definition read_latency (a : dev_arch) (sx sy dx dy : Z) : Z :=
  match a with
  | WormholeB0 =>
      if (sx =? dx) && (sy =? dy) then 70
      else if (sx =? dx) && negb (sy =? dy) then 154
      else if (sy =? dy) && negb (sx =? dx) then 170
      else 270
  | Blackhole =>
      if (sx =? dx) && (sy =? dy) then 65
      else if (sx =? dx) && negb (sy =? dy) then 177
      else if (sy =? dy) && negb (sx =? dx) then 217
      else 329
  end.
(* get_write_latency: wormhole_b0.hpp:422-428, blackhole.hpp:434-440; static members, dimensions of the class *)
Definition write_latency (d : device) (sx sy dx dy : Z) (noc : string) : outcome Z :=
  let! hops := route_hops d sx sy dx dy noc in
  Ok (40 + hops * match dv_arch d with WormholeB0 => 10 | Blackhole => 11 end).

(** * Routing *)
(* The tables used by unicastRoute are those of the single-chip model with _device_id = 0: for the
   multi-chip class the member _wormhole_b0_model (wormhole_multichip.hpp:79,323). *)
Definition chip_device (d : device) : device :=
  mkDevice (match dv_class d with ClsMultichip => ClsWormhole | c => c end)
           (dv_rows d) (dv_cols d) 1 (dv_banks d).

(* wormhole_b0.hpp:309-346, blackhole.hpp:321-358. One unit of fuel per loop iteration. *)
Fixpoint unicast_loop (fuel : nat) (d : device) (noc : noc_type) (row col erow ecol : Z)
  : outcome (list Z) :=
  match fuel with
  | O => Diverge
  | S fuel' =>
      match noc with
      | NOC0 =>
          if negb (col =? ecol) then
            let! id := getLinkID d (mkLink (Coord_make 0 row col) NOC0_EAST) in
            let! col' := wrapToRange (col + 1) (Z.of_nat (dv_cols d)) in
            let! rest := unicast_loop fuel' d noc row (i32 col') erow ecol in
            Ok (id :: rest)
          else if negb (row =? erow) then
            let! id := getLinkID d (mkLink (Coord_make 0 row col) NOC0_SOUTH) in
            let! row' := wrapToRange (row + 1) (Z.of_nat (dv_rows d)) in
            let! rest := unicast_loop fuel' d noc (i32 row') col erow ecol in
            Ok (id :: rest)
          else Ok []
      | NOC1 =>
          if negb (row =? erow) then
            let! id := getLinkID d (mkLink (Coord_make 0 row col) NOC1_NORTH) in
            let! row' := wrapToRange (row - 1) (Z.of_nat (dv_rows d)) in
            let! rest := unicast_loop fuel' d noc (i32 row') col erow ecol in
            Ok (id :: rest)
          else if negb (col =? ecol) then
            let! id := getLinkID d (mkLink (Coord_make 0 row col) NOC1_WEST) in
            let! col' := wrapToRange (col - 1) (Z.of_nat (dv_cols d)) in
            let! rest := unicast_loop fuel' d noc row (i32 col') erow ecol in
            Ok (id :: rest)
          else Ok []
      end
  end.
Definition unicastRoute (fuel : nat) (d : device) (noc : noc_type) (s e : coord) : outcome (list Z) :=
  unicast_loop fuel d noc (c_row s) (c_col s) (c_row e) (c_col e).

(* insertion into boost::unordered_flat_set<nocLinkID>; the model keeps insertion order, the order
   used by the code is unspecified (see DESIGN.md) *)
Definition set_insert (s : list Z) (x : Z) : list Z := if existsb (Z.eqb x) s then s else s ++ [x].

(* wormhole_b0.hpp:348-376, blackhole.hpp:360-388 *)
Definition chip_route (fuel : nat) (d : device) (noc : noc_type) (s : coord) (dst : noc_dest)
  : outcome (list Z) :=
  match dst with
  | Unicast e => unicastRoute fuel d noc s e
  | Multicast m =>
      let! _ := tt_assert (Nat.eqb (List.length m) 1) in
      match m with
      | [] => UB "vector index"
      | g :: _ =>
          match noc with
          | NOC0 =>
              foldM (fun acc col =>
                let! r := unicastRoute fuel d noc s (Coord_make 0 (c_row (g_end g)) col) in
                Ok (fold_left set_insert r acc))
                (zrange (c_col (g_start g)) (c_col (g_end g))) []
          | NOC1 =>
              foldM (fun acc row =>
                let! r := unicastRoute fuel d noc s (Coord_make 0 row (c_col (g_end g))) in
                Ok (fold_left set_insert r acc))
                (zrange (c_row (g_start g)) (c_row (g_end g))) []
          end
      end
  end.

(* wormhole_multichip.hpp:58-68 *)
Definition changeRouteDeviceID (d : device) (r : list Z) (dev : Z) : outcome (list Z) :=
  mapM (fun id =>
    let! a := getLinkAttributes d id in
    getLinkID d (mkLink (Coord_make dev (c_row (l_coord a)) (c_col (l_coord a))) (l_type a))) r.

(* virtual route(): wormhole_b0.hpp:348, blackhole.hpp:360, wormhole_multichip.hpp:71-81 *)
Definition route_f (fuel : nat) (d : device) (noc : noc_type) (s : coord) (dst : noc_dest)
  : outcome (list Z) :=
  match dv_class d with
  | ClsMultichip =>
      let ids := dest_device_ids dst in
      let! _ := tt_assert (Nat.eqb (List.length ids) 1) in
      let! _ := tt_assert (match ids with i :: _ => i =? c_dev s | [] => false end) in
      let! r := chip_route fuel (chip_device d) noc s dst in
      changeRouteDeviceID d r (c_dev s)
  | _ => chip_route fuel d noc s dst
  end.
(* A route on a torus has at most rows+cols-2 hops; one more iteration leaves the loop. *)
Definition route_fuel (d : device) : nat := dv_rows d + dv_cols d.
Definition route (d : device) (noc : noc_type) (s : coord) (dst : noc_dest) : outcome (list Z) :=
  route_f (route_fuel d) d noc s dst.
