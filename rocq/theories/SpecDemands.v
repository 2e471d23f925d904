(* Specifications for the timesteps and the chips of the timeline files (C67, C68). *)
From Coq Require Import ZArith String List Bool Sorting.Permutation.
From Verif Require Import Base Arith Util Json Device SpecDevice Workload SpecWorkload Rates Stats Engine SpecEngine SpecRates Timeline SpecTimeline.
Import ListNotations.
Local Open Scope string_scope.
Local Open Scope list_scope.
Open Scope Z_scope.

(* the demand [v] on the link or network interface of core [c] with the name [h] *)
Definition demand_at {Fl} (d : device) (g : grids Fl) (c : coord) (h : hop_name) (v : Fl) : Prop :=
  match h with
  | HopLink ty => exists k, getLinkID d (mkLink c ty) = Ok (Z.of_nat k) /\ nth_error (g_link g) k = Some v
  | HopIn n => exists k, getNIUID d (mkNiu c (match n with NOC0 => NOC0_SRC | NOC1 => NOC1_SRC end)) = Ok (Z.of_nat k) /\ nth_error (g_niu g) k = Some v
  | HopOut n => exists k, getNIUID d (mkNiu c (match n with NOC0 => NOC0_SINK | NOC1 => NOC1_SINK end)) = Ok (Z.of_nat k) /\ nth_error (g_niu g) k = Some v
  end.
(* the group of a transfer in the file: its own, or a number of its own after all groups of the workload *)
Definition loose {Fl} (t : transfer Fl) : bool := (t_gid t =? -1) || (t_gix t =? -1).
Definition label {Fl} (wl : workload Fl) (i : nat) (g : Z) : Prop :=
  exists t, nth_error (all_transfers wl) i = Some t /\
    g = if loose t then wl_groups wl + Z.of_nat (List.length (filter loose (firstn i (all_transfers wl)))) else t_gid t.

Section S.
  Context (A : arith) (d : device) (cpt : Z).
  (* what a timestep of a file says of the interval and the demand of the simulated timestep from [s] to [s'] *)
  Definition shows_demand (s s' : sim A) (p : tstep A) : Prop :=
    (tp_start A p, tp_end A p) = (sm_curr A s - cpt, sm_curr A s) /\
    NoDup (map fst (tp_demand A p)) /\
    forall c h v, In (c, h, v) (tp_demand A p) <-> demand_at d (sm_grids A s') c h v /\ f_lt A (f_lit A 1 1000) v = true.
  (* a timestep that was appended to reach the length of the estimate *)
  Definition filler (p : tstep A) : Prop := (tp_start A p, tp_end A p) = (0, 0) /\ tp_active A p = [] /\ tp_demand A p = [].
End S.

(** * C68 *)
(* the value of a key of a JSON object *)
Definition maps_to (j : json) (k : string) (v : json) : Prop := exists fs, j = JObject fs /\ field fs k = Some v.
(* the topology of one mesh of [ns] rows of [ew] chips; a device has a name, a mesh and a chip *)
Definition mesh_topology (ns ew : Z) (nodes : list (string * (Z * Z))) (j : json) : Prop :=
  exists m, maps_to j "device_id_to_fabric_node_id" (JObject (map (fun e => (fst e, JArray [JInt (fst (snd e)); JInt (snd (snd e))])) nodes)) /\
    maps_to j "mesh_shapes" (JArray [m]) /\ maps_to m "shape" (JArray [JInt ns; JInt ew]).
(* the position of a chip in the mesh *)
Definition placed (ns ew : Z) (node : string * (Z * Z)) (c : string * list Z) : Prop :=
  fst c = fst node /\ exists x y, snd c = [x; y; 0; 0] /\ 0 <= x < ew /\ 0 <= y < ns /\ snd (snd node) = y * ew + x.
