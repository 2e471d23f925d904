(* Specifications for the emission of the timeline files (C78). *)
From Coq Require Import ZArith String List Bool.
From Verif Require Import Base Arith Util Json Device SpecDevice Workload Rates Stats Engine Timeline SpecZones SpecDemands.
Import ListNotations.
Local Open Scope list_scope.
Open Scope Z_scope.

(* the zones of every processor are properly nested *)
Definition nested_zones {Fl} (wl : workload Fl) : Prop :=
  forall k zs, In (k, zs) (wl_zones wl) -> exists f, zs = flat_map zevents f /\ tail_open f /\ Forall (unshadowed []) f.
(* one chip, or a file that describes one mesh with every chip inside it *)
Definition mesh_known (d : device) (topo : topology) : Prop :=
  dv_chips d = 1%nat \/
  exists j ns ew nodes, topo = TopoJson j /\ mesh_topology ns ew nodes j /\ 0 < ns /\ 0 < ew /\ ns * ew < 2 ^ 31 /\ Forall (fun e => 0 <= snd (snd e) < ns * ew) nodes.
(* several chips and no file, or none that can be read *)
Definition mesh_unknown (d : device) (topo : topology) : Prop := (1 < dv_chips d)%nat /\ forall j, topo <> TopoJson j.
(* one file for all the [n] timesteps, and one for each [thr] of them if there are more than [thr] *)
Definition file_count (n thr k : Z) : Prop :=
  (n <= thr /\ k = 1) \/ (thr < n /\ exists s, k = 1 + s /\ (s - 1) * thr < n <= s * thr).
Definition has_document {A} (c : content A) : Prop :=
  match c with FullV0 _ _ => True | FullV1 _ tl => tl <> None | Split _ _ _ tl => tl <> None end.
(* the golden window of the mesh starts at a cycle *)
Definition window_from {Fl} (wl : workload Fl) : Prop := forall g, getGoldenResultCycles wl MESH_DEVICE = Ok g -> 0 <= fst g.

(** * Which topologies and which zones *)
(* the file describes one mesh: the entries of its chips and the two sides of the mesh *)
Definition one_mesh (j : json) (chips : list (string * json)) (a b : json) : Prop :=
  exists m, maps_to j "device_id_to_fabric_node_id" (JObject chips) /\ maps_to j "mesh_shapes" (JArray [m]) /\ maps_to m "shape" (JArray [a; b]).
(* an int that agrees with a number modulo 2^32 *)
Definition int_of (z n : Z) : Prop := - 2 ^ 31 <= n < 2 ^ 31 /\ exists q, z = n + q * 2 ^ 32.
(* the number a side of the mesh is read as *)
Inductive side : json -> Z -> Prop :=
| side_bool (b : bool) : side (JBool b) (if b then 1 else 0)
| side_int z n : int_of z n -> side (JInt z) n
| side_float x n : sf_trunc x = Some n -> - 2 ^ 31 <= n < 2 ^ 31 -> side (JDouble x) n.
(* a well-formed entry: a pair of numbers, of which the second is the number of the chip *)
Definition numbered (e : string * json) (n : Z) : Prop := exists a z, snd e = JArray [JInt a; JInt z] /\ int_of z n.
Definition well_formed (e : string * json) : Prop := exists n, numbered e n.
(* division of ints is defined *)
Definition divisible (n ew : Z) : Prop := ew <> 0 /\ ~ (n = - 2 ^ 31 /\ ew = -1).
(* reading the topology ends: there is no mesh, or its sides are numbers and the chips before the first entry that is not well-formed
   can be placed *)
Definition topology_read (d : device) (topo : topology) : Prop :=
  (dv_chips d <= 1)%nat \/
  forall j chips a b, topo = TopoJson j -> one_mesh j chips a b ->
    exists ns ew, side a ns /\ side b ew /\ forall pre e post n, chips = pre ++ e :: post -> Forall well_formed pre -> numbered e n -> divisible n ew.
(* the chips are known: there is one, or a file whose entries are well-formed *)
Definition chips_known (d : device) (topo : topology) : Prop :=
  (dv_chips d <= 1)%nat \/ exists j, topo = TopoJson j /\ forall chips a b, one_mesh j chips a b -> Forall well_formed chips.
(* every end of a zone ends a zone that has begun and has its name *)
Definition matched_zones {Fl} (wl : workload Fl) : Prop :=
  forall k zs, In (k, zs) (wl_zones wl) -> exists f, zs = flat_map zevents f /\ tail_open f.
(* no zone begins in the cycle of an enclosing zone of its name *)
Definition apart_zones {Fl} (wl : workload Fl) : Prop :=
  forall k zs f, In (k, zs) (wl_zones wl) -> zs = flat_map zevents f -> tail_open f -> Forall (unshadowed []) f.
