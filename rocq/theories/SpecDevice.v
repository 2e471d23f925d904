(* Specifications for the device models (C01-C08), stated on the data types of the model only: grids,
   link attributes, core types. *)
From Coq Require Import ZArith String List Bool Floats.SpecFloat.
From Verif Require Import Base Util Device.
Import ListNotations.
Open Scope Z_scope.

(* a position of the grid of a device *)
Definition in_grid (d : device) (c : coord) : Prop :=
  0 <= c_dev c < Z.of_nat (dv_chips d) /\ 0 <= c_row c < Z.of_nat (dv_rows d) /\
  0 <= c_col c < Z.of_nat (dv_cols d).

(* what is needed of a device: a non-empty grid whose identifiers fit nocLinkID = int16_t, one chip
   unless it is the multi-chip class *)
Definition wf_device (d : device) : Prop :=
  (0 < dv_chips d)%nat /\ (0 < dv_rows d)%nat /\ (0 < dv_cols d)%nat /\
  Z.of_nat (dv_chips d) * Z.of_nat (dv_rows d) * Z.of_nat (dv_cols d) * 4 <= 2 ^ 15 /\
  (dv_class d <> ClsMultichip -> dv_chips d = 1%nat).

(** ** Torus hops *)
(* the position after x in a ring of n positions, and the one before *)
Definition succ_ring (n : nat) (x y : Z) : Prop :=
  (x = Z.of_nat n - 1 /\ y = 0) \/ (x < Z.of_nat n - 1 /\ y = x + 1).
(* link l leads from position a to position b of the same chip *)
Definition hop (d : device) (l : link_attr) (a b : coord) : Prop :=
  l_coord l = a /\ in_grid d a /\ in_grid d b /\ c_dev b = c_dev a /\
  match l_type l with
  | NOC0_EAST => c_row b = c_row a /\ succ_ring (dv_cols d) (c_col a) (c_col b)
  | NOC0_SOUTH => c_col b = c_col a /\ succ_ring (dv_rows d) (c_row a) (c_row b)
  | NOC1_NORTH => c_col b = c_col a /\ succ_ring (dv_rows d) (c_row b) (c_row a)
  | NOC1_WEST => c_row b = c_row a /\ succ_ring (dv_cols d) (c_col b) (c_col a)
  end.
(* contiguous path *)
Inductive path (d : device) : coord -> list link_attr -> coord -> Prop :=
| path_nil a : in_grid d a -> path d a [] a
| path_cons a b c l ls : hop d l a b -> path d b ls c -> path d a (l :: ls) c.
(* the order of directions on each NoC *)
Definition dimension_ordered (noc : noc_type) (ls : list link_attr) : Prop :=
  exists m n, map l_type ls =
    match noc with
    | NOC0 => repeat NOC0_EAST m ++ repeat NOC0_SOUTH n
    | NOC1 => repeat NOC1_NORTH m ++ repeat NOC1_WEST n
    end.
(* reading identifiers through the attribute table *)
Definition reads_as (d : device) (ids : list Z) (ls : list link_attr) : Prop :=
  Forall2 (fun id l => getLinkAttributes d id = Ok l) ids ls.

(** ** Multicast (C04) *)
Definition rect_in_grid (d : device) (g : cgrid) : Prop :=
  in_grid d (g_start g) /\ in_grid d (g_end g) /\ c_dev (g_start g) = c_dev (g_end g) /\
  c_row (g_start g) <= c_row (g_end g) /\ c_col (g_start g) <= c_col (g_end g).
Definition cell_of (g : cgrid) (c : coord) : Prop :=
  c_dev c = c_dev (g_start g) /\
  c_row (g_start g) <= c_row c <= c_row (g_end g) /\ c_col (g_start g) <= c_col c <= c_col (g_end g).
(* the cores a multicast sends a unicast to: the last row on NOC0, the last column on NOC1 *)
Definition far_edge (noc : noc_type) (g : cgrid) (c : coord) : Prop :=
  cell_of g c /\
  match noc with NOC0 => c_row c = c_row (g_end g) | NOC1 => c_col c = c_col (g_end g) end.
(* one of the links (given by identifiers) leads into c *)
Definition entered (d : device) (ids : list Z) (c : coord) : Prop :=
  exists id l a, In id ids /\ getLinkAttributes d id = Ok l /\ hop d l a c.
Definition covers (d : device) (s : coord) (g : cgrid) (ids : list Z) : Prop :=
  forall c, cell_of g c -> c <> s -> entered d ids c.
(* the multicasts whose routes reach every core *)
Definition coverable (d : device) (noc : noc_type) (s : coord) (g : cgrid) : Prop :=
  match noc with
  | NOC0 => ~ (c_row (g_start g) < c_row s <= c_row (g_end g))
  | NOC1 => c_col (g_start g) = c_col (g_end g) \/ succ_ring (dv_cols d) (c_col s) (c_col (g_end g))
  end.

(** ** Factory (C08) *)
(* name, class, rows, columns, chips, DRAM banks *)
Definition documented_devices : list (string * device) :=
  [("wormhole_b0", mkDevice ClsWormhole 12 10 1 12); ("N150", mkDevice ClsWormhole 12 10 1 12);
   ("N300", mkDevice ClsMultichip 12 10 2 12); ("T3K", mkDevice ClsMultichip 12 10 8 12);
   ("TG", mkDevice ClsMultichip 12 10 36 12); ("GALAXY", mkDevice ClsMultichip 12 10 32 12);
   ("blackhole", mkDevice ClsBlackhole 12 17 1 7); ("P100", mkDevice ClsBlackhole 12 17 1 7);
   ("P150", mkDevice ClsBlackhole 12 17 1 8)]%string.
Definition supported (d : device) : Prop := exists name, In (name, d) documented_devices.

(** ** Latency (C06) *)
Definition cycles_per_hop (a : dev_arch) : Z := match a with WormholeB0 => 10 | Blackhole => 11 end.
Definition noc_name (n : noc_type) : string := match n with NOC0 => "NOC_0" | NOC1 => "NOC_1" end.
Definition read_latency_table (a : dev_arch) (same_x same_y : bool) : Z :=
  match a, same_x, same_y with
  | WormholeB0, true, true => 70
  | WormholeB0, true, false => 154
  | WormholeB0, false, true => 170
  | WormholeB0, false, false => 270
  | Blackhole, true, true => 65
  | Blackhole, true, false => 177
  | Blackhole, false, true => 217
  | Blackhole, false, false => 329
  end.

(** ** Core types and rates (C07) *)
(* where the cores are, by row and column: on Wormhole column 5 is DRAM, column 0 is DRAM in rows 0, 1, 5, 6,
   7 and 11 and unused otherwise, the rest of rows 0 and 6 is Ethernet; on Blackhole columns 0 and 9 are
   DRAM, column 8 is unused, and row 1 holds the Ethernet cores *)
Definition layout (a : dev_arch) (r c : Z) : core_type :=
  match a with
  | WormholeB0 =>
      if c =? 5 then DRAM
      else if c =? 0 then (if existsb (Z.eqb r) [0; 1; 5; 6; 7; 11] then DRAM else UNDEF)
      else if (r =? 0) || (r =? 6) then ETH else WORKER
  | Blackhole =>
      if (c =? 0) || (c =? 9) then DRAM
      else if c =? 8 then UNDEF
      else if r =? 0 then UNDEF else if r =? 1 then ETH else WORKER
  end.
(* the fastest documented rate, bytes per cycle, as a decimal fraction *)
Definition fastest_rate (a : dev_arch) : Z * positive :=
  match a with WormholeB0 => (281, 10%positive) | Blackhole => (9999, 10%positive) end.

Definition finite_positive (x : spec_float) : Prop :=
  exists m e, x = S754_finite false m e.
