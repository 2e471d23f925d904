(* Model of tt_npe/cpp/include/grid.hpp: Grid2D and Grid3D, and of the grid of core types that the device models fill
   (wormhole_b0.hpp:18-22,278, blackhole.hpp:23-27,290). Positions are size_t; sums and products wrap at 2^64. The vector is a
   list; a vector too large for the memory is not modelled. The iterators and the dimensions are not modelled. No proofs in this file. *)
From Coq Require Import ZArith String List Bool.
From Verif Require Import Base Util Device Rates.
Import ListNotations.
Local Open Scope list_scope.
Open Scope Z_scope.

(** * Grid2D: 11-49 *)
Record grid2 (T : Type) : Type := mkG2 { g2_data : list T; g2_rows : Z; g2_cols : Z }.
Arguments mkG2 {T}. Arguments g2_data {T}. Arguments g2_rows {T}. Arguments g2_cols {T}.
Section Two.
  Context {T : Type}.
  (* 20-21 *)
  Definition g2_new (rows cols : Z) (v : T) : grid2 T := mkG2 (repeat v (Z.to_nat (u64 (rows * cols)))) rows cols.
  (* 24 *)
  Definition g2_in (g : grid2 T) (r c : Z) : bool := (r <? g2_rows g) && (c <? g2_cols g).
  Definition g2_index (g : grid2 T) (r c : Z) : Z := u64 (r * g2_cols g + c).
  (* 33-36: a failed assert ends the process *)
  Definition g2_get (g : grid2 T) (r c : Z) : outcome T :=
    if g2_in g r c then grid_get (g2_data g) (g2_index g r c) else Abort.
  (* 27-30, assigned to *)
  Definition g2_set (g : grid2 T) (r c : Z) (v : T) : outcome (grid2 T) :=
    if g2_in g r c then
      let! l := grid_mod (g2_data g) (g2_index g r c) (fun _ => v) in Ok (mkG2 l (g2_rows g) (g2_cols g))
    else Abort.
  (* 37 *)
  Definition g2_reset (g : grid2 T) (v : T) : grid2 T := mkG2 (map (fun _ => v) (g2_data g)) (g2_rows g) (g2_cols g).
  (* 42 *)
  Definition g2_size (g : grid2 T) : Z := u64 (g2_rows g * g2_cols g).
End Two.

(** * Grid3D: 51-100 *)
Record grid3 (T : Type) : Type := mkG3 { g3_data : list T; g3_rows : Z; g3_cols : Z; g3_items : Z; g3_rowsize : Z }.
Arguments mkG3 {T}. Arguments g3_data {T}. Arguments g3_rows {T}. Arguments g3_cols {T}. Arguments g3_items {T}. Arguments g3_rowsize {T}.
Section Three.
  Context {T : Type}.
  (* 63-69 *)
  Definition g3_new (rows cols items : Z) (v : T) : grid3 T :=
    mkG3 (repeat v (Z.to_nat (u64 (rows * cols * items)))) rows cols items (u64 (cols * items)).
  (* 72-74 *)
  Definition g3_in (g : grid3 T) (r c i : Z) : bool := (r <? g3_rows g) && (c <? g3_cols g) && (i <? g3_items g).
  Definition g3_index (g : grid3 T) (r c i : Z) : Z := u64 (r * g3_rowsize g + c * g3_items g + i).
  (* 83-86 *)
  Definition g3_get (g : grid3 T) (r c i : Z) : outcome T :=
    if g3_in g r c i then grid_get (g3_data g) (g3_index g r c i) else Abort.
  (* 77-80, assigned to *)
  Definition g3_set (g : grid3 T) (r c i : Z) (v : T) : outcome (grid3 T) :=
    if g3_in g r c i then
      let! l := grid_mod (g3_data g) (g3_index g r c i) (fun _ => v) in
      Ok (mkG3 l (g3_rows g) (g3_cols g) (g3_items g) (g3_rowsize g))
    else Abort.
  (* 87 *)
  Definition g3_reset (g : grid3 T) (v : T) : grid3 T :=
    mkG3 (map (fun _ => v) (g3_data g)) (g3_rows g) (g3_cols g) (g3_items g) (g3_rowsize g).
  (* 93 *)
  Definition g3_size (g : grid3 T) : Z := u64 (g3_rows g * g3_cols g * g3_items g).
End Three.

(** * The grid of core types *)
(* the entries of coord_to_core_type_map (wormhole_b0.hpp:467-539, blackhole.hpp:480-600), row by row; the map is a
   hash map, the loop of the constructor visits its entries in any order *)
Definition core_map (d : device) : list (coord * core_type) :=
  concat (map (fun p => map (fun q => (Coord_make 0 (fst p) (fst q), snd q)) (combine (zseq 0 (List.length (snd p))) (snd p)))
    (combine (zseq 0 (List.length (core_rows d))) (core_rows d))).
(* wormhole_b0.hpp:19-22,434-435, blackhole.hpp:24-27,446-447; the value T() of an enum is 0, UNDEF (npeCommon.hpp:31-36). int16_t
   to size_t wraps. The multi-chip class has a single-chip model (wormhole_multichip.hpp:300-302) *)
Definition core_grid (d : device) (entries : list (coord * core_type)) : outcome (grid2 core_type) :=
  let cols := match dv_class d with ClsBlackhole => 17 | _ => 10 end in
  foldM (fun g e => g2_set g (u64 (c_row (fst e))) (u64 (c_col (fst e))) (snd e)) entries (g2_new 12 cols UNDEF).
(* wormhole_b0.hpp:278, blackhole.hpp:290 *)
Definition grid_core_type (g : grid2 core_type) (c : coord) : outcome core_type := g2_get g (u64 (c_row c)) (u64 (c_col c)).
