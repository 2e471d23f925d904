(* Property theorems C01-C04, C06-C08, C10 (device models). Specifications: SpecDevice.v. *)
From Coq Require Import ZArith String List Bool Floats.SpecFloat.
From Verif Require Import Base Arith Util Device SpecDevice DeviceProofs RouteProofs MulticastProofs FactoryProofs.
Import ListNotations.
Open Scope Z_scope.

(** ** C08 The device factory accepts exactly the documented names *)
Theorem C08_accepts_documented : forall name d,
  createDeviceModel name = Ok d <-> In (name, d) documented_devices.
Proof. exact createDeviceModel_iff. Qed.
Print Assumptions C08_accepts_documented.
Theorem C08_rejects_others : forall name,
  (forall d, ~ In (name, d) documented_devices) -> createDeviceModel name = Throw DEVICE_MODEL_INIT_FAILED.
Proof. exact createDeviceModel_other. Qed.
Print Assumptions C08_rejects_others.
(* every device of the factory satisfies the hypothesis [wf_device] of the theorems below *)
Theorem C08_documented_well_formed : forall d, supported d -> wf_device d.
Proof. exact supported_wf. Qed.
Print Assumptions C08_documented_well_formed.
Example C08_example : createDeviceModel "T3K" = Ok (mkDevice ClsMultichip 12 10 8 12) /\
  createDeviceModel "n150" = Throw DEVICE_MODEL_INIT_FAILED.
Proof. split; reflexivity. Qed.

(** ** C01 Unicast routes are dimension-ordered torus paths *)
Theorem C01_unicast_route : forall d noc s e,
  wf_device d -> in_grid d s -> in_grid d e -> c_dev s = c_dev e ->
  exists ids ls, route d noc s (Unicast e) = Ok ids /\ reads_as d ids ls /\
    path d s ls e /\ dimension_ordered noc ls /\ NoDup ids /\ (ids = [] <-> s = e).
Proof. exact route_unicast_spec. Qed.
Print Assumptions C01_unicast_route.
(* (1,9) to (0,0) on NOC0 wraps around both edges *)
Example C01_example :
  route wormhole_b0 NOC0 (mkCoord 0 11 9) (Unicast (mkCoord 0 1 0)) = Ok [476; 441; 1] /\
  getLinkAttributes wormhole_b0 476 = Ok (mkLink (mkCoord 0 11 9) NOC0_EAST).
Proof. split; vm_compute; reflexivity. Qed.

(** ** C02 Link and NIU identifiers are a bijection with physical positions *)
Theorem C02_link_roundtrip : forall d id a,
  wf_device d -> (getLinkID d a = Ok id <-> getLinkAttributes d id = Ok a).
Proof. exact link_id_iff. Qed.
Print Assumptions C02_link_roundtrip.
Theorem C02_niu_roundtrip : forall d id a,
  wf_device d -> (getNIUID d a = Ok id <-> getNIUAttributes d id = Ok a).
Proof. exact niu_id_iff. Qed.
Print Assumptions C02_niu_roundtrip.
Theorem C02_link_ids_contiguous : forall d id, wf_device d ->
  (exists a, getLinkID d a = Ok id) <-> 0 <= id < 4 * Z.of_nat (dv_chips d * (dv_rows d * dv_cols d)).
Proof. exact link_id_range. Qed.
Print Assumptions C02_link_ids_contiguous.
Theorem C02_niu_ids_contiguous : forall d id, wf_device d ->
  (exists a, getNIUID d a = Ok id) <-> 0 <= id < 4 * Z.of_nat (dv_chips d * (dv_rows d * dv_cols d)).
Proof. exact niu_id_range. Qed.
Print Assumptions C02_niu_ids_contiguous.
Theorem C02_link_defined_in_grid : forall d a, wf_device d ->
  (in_grid d (l_coord a) -> exists id, getLinkID d a = Ok id /\ 0 <= id < 2 ^ 15) /\
  (~ in_grid d (l_coord a) -> getLinkID d a = Throw UNDEF_ERR).
Proof. exact link_id_defined. Qed.
Print Assumptions C02_link_defined_in_grid.
Theorem C02_niu_defined_in_grid : forall d a, wf_device d ->
  (in_grid d (n_coord a) -> exists id, getNIUID d a = Ok id /\ 0 <= id < 2 ^ 15) /\
  (~ in_grid d (n_coord a) -> getNIUID d a = Throw UNDEF_ERR).
Proof. exact niu_id_defined. Qed.
Print Assumptions C02_niu_defined_in_grid.
Example C02_example :
  let a := mkLink (mkCoord 35 11 9) NOC1_WEST in
  getLinkID (wormhole_multichip 36) a = Ok 17279 /\
  getLinkID (wormhole_multichip 36) (mkLink (mkCoord 36 0 0) NOC1_WEST) = Throw UNDEF_ERR.
Proof. split; vm_compute; reflexivity. Qed.

(** ** C03 Multi-chip routes stay on the source chip *)
Theorem C03_relocated_single_chip_route : forall n banks noc s e,
  let d := mkDevice ClsMultichip (dv_rows wormhole_b0) (dv_cols wormhole_b0) n banks in
  let chip := mkDevice ClsWormhole (dv_rows wormhole_b0) (dv_cols wormhole_b0) 1 banks in
  wf_device d -> in_grid d s -> in_grid d e -> c_dev s = c_dev e ->
  exists ids ids0 ls ls0,
    route d noc s (Unicast e) = Ok ids /\ reads_as d ids ls /\
    route chip noc (mkCoord 0 (c_row s) (c_col s)) (Unicast (mkCoord 0 (c_row e) (c_col e))) = Ok ids0 /\
    reads_as chip ids0 ls0 /\
    ls = map (fun l => mkLink (mkCoord (c_dev s) (c_row (l_coord l)) (c_col (l_coord l))) (l_type l)) ls0.
Proof. exact route_multichip_relocates. Qed.
Print Assumptions C03_relocated_single_chip_route.
(* unicast and multicast: anything but one destination rectangle on the source's chip is refused *)
Theorem C03_other_chip_rejected : forall d noc s dst,
  dv_class d = ClsMultichip -> dest_device_ids dst <> [c_dev s] -> route d noc s dst = Throw UNDEF_ERR.
Proof. exact route_other_chip_rejected. Qed.
Print Assumptions C03_other_chip_rejected.
Example C03_example :
  route (wormhole_multichip 2) NOC1 (mkCoord 1 0 0) (Unicast (mkCoord 1 11 9)) = Ok [482; 923] /\
  route (wormhole_multichip 2) NOC1 (mkCoord 1 0 0) (Unicast (mkCoord 0 11 9)) = Throw UNDEF_ERR.
Proof. split; vm_compute; reflexivity. Qed.

(** ** C04 A multicast route reaches every destination of its grid *)
(* no duplicates; exactly the links of the unicast routes to the far edge of the rectangle *)
Theorem C04_union_of_unicast_routes : forall d noc s g,
  wf_device d -> in_grid d s -> rect_in_grid d g -> c_dev (g_start g) = c_dev s ->
  exists ids, route d noc s (Multicast [g]) = Ok ids /\ NoDup ids /\
    forall id, In id ids <-> exists e u, far_edge noc g e /\ route d noc s (Unicast e) = Ok u /\ In id u.
Proof. exact route_multicast_union. Qed.
Print Assumptions C04_union_of_unicast_routes.
(* full claim: [covers d s g ids] for every in-grid multicast. It is false on both NoCs: *)
Theorem C04_coverage_refuted : exists d noc s g ids,
  supported d /\ in_grid d s /\ rect_in_grid d g /\ c_dev (g_start g) = c_dev s /\
  route d noc s (Multicast [g]) = Ok ids /\ ~ covers d s g ids.
Proof. exact multicast_covers_refuted. Qed.
Print Assumptions C04_coverage_refuted.
Theorem C04_coverage_noc1_refuted : exists d s g ids,
  supported d /\ in_grid d s /\ rect_in_grid d g /\ c_dev (g_start g) = c_dev s /\
  route d NOC1 s (Multicast [g]) = Ok ids /\ ~ covers d s g ids.
Proof. exact multicast_noc1_covers_refuted. Qed.
Print Assumptions C04_coverage_noc1_refuted.
(* and this is exactly when it is true *)
Theorem C04_coverage_iff : forall d noc s g ids,
  wf_device d -> in_grid d s -> rect_in_grid d g -> c_dev (g_start g) = c_dev s ->
  route d noc s (Multicast [g]) = Ok ids ->
  (covers d s g ids <-> coverable d noc s g).
Proof. exact multicast_covers_iff. Qed.
Print Assumptions C04_coverage_iff.
Example C04_example :
  let g := mkGrid (mkCoord 0 3 2) (mkCoord 0 4 3) in
  rect_in_grid wormhole_b0 g /\ coverable wormhole_b0 NOC0 (mkCoord 0 2 1) g /\
  exists ids, route wormhole_b0 NOC0 (mkCoord 0 2 1) (Multicast [g]) = Ok ids /\ List.length ids = 6%nat.
Proof.
  split; [unfold rect_in_grid, in_grid; simpl; intuition (try reflexivity; try discriminate)|].
  split; [unfold coverable; simpl; intros [H _]; revert H; vm_compute; discriminate|].
  eexists; split; vm_compute; reflexivity.
Qed.

(** ** C06 Latency estimates agree with the routes *)
Theorem C06_write_latency : forall d noc s e ids, wf_device d ->
  in_grid d s -> in_grid d e -> c_dev s = c_dev e -> route d noc s (Unicast e) = Ok ids ->
  write_latency d (c_col s) (c_row s) (c_col e) (c_row e) (noc_name noc) =
  Ok (40 + cycles_per_hop (dv_arch d) * Z.of_nat (List.length ids)).
Proof. exact write_latency_is_route_length. Qed.
Print Assumptions C06_write_latency.
Theorem C06_read_latency : forall a sx sy dx dy,
  read_latency a sx sy dx dy = read_latency_table a (sx =? dx) (sy =? dy).
Proof. exact read_latency_table_eq. Qed.
Print Assumptions C06_read_latency.
Example C06_example :
  write_latency wormhole_b0 9 11 0 1 "NOC_0" = Ok 70 /\ write_latency blackhole_p100 9 11 0 1 "NOC_1" = Ok 249.
Proof. split; vm_compute; reflexivity. Qed.

(** ** C07 Every in-grid core has a type and positive rates *)
Theorem C07_core_type : forall d c, supported d -> in_grid d c ->
  getCoreType d c = Ok (layout (dv_arch d) (c_row c) (c_col c)).
Proof. exact core_type_in_grid. Qed.
Print Assumptions C07_core_type.
Theorem C07_rates : forall d c, supported d -> in_grid d c ->
  exists i a, getSrcInjectionRate f32A d c = Ok i /\ getSinkAbsorptionRate f32A d c = Ok a /\
    finite_positive i /\ finite_positive a /\
    let m := dlit f32A (fst (fastest_rate (dv_arch d))) (snd (fastest_rate (dv_arch d))) in
    f_lt f32A m i = false /\ f_lt f32A m a = false.
Proof. exact rates_in_grid. Qed.
Print Assumptions C07_rates.
(* out of grid: the process is stopped by the bounds assertion of the grid *)
Theorem C07_out_of_grid_aborts : forall d c, supported d ->
  ~ (0 <= c_row c < Z.of_nat (dv_rows d) /\ 0 <= c_col c < Z.of_nat (dv_cols d)) -> getCoreType d c = Abort.
Proof. exact core_type_out_of_grid. Qed.
Print Assumptions C07_out_of_grid_aborts.
Theorem C07_rates_out_of_grid_abort : forall A d c, supported d ->
  ~ (0 <= c_row c < Z.of_nat (dv_rows d) /\ 0 <= c_col c < Z.of_nat (dv_cols d)) ->
  getSrcInjectionRate A d c = Abort /\ getSinkAbsorptionRate A d c = Abort.
Proof. exact rates_out_of_grid. Qed.
Print Assumptions C07_rates_out_of_grid_abort.
Example C07_example : getCoreType blackhole_p150 (mkCoord 0 1 16) = Ok ETH /\
  getCoreType wormhole_b0 (mkCoord 0 12 0) = Abort.
Proof. split; reflexivity. Qed.

(** ** C10 Equal keys have equal hashes (links and NIUs) *)
Theorem C10_link : forall a b, link_attr_eqb a b = true -> hash_link_attr a = hash_link_attr b.
Proof. exact link_hash. Qed.
Print Assumptions C10_link.
Theorem C10_niu : forall a b, niu_attr_eqb a b = true -> hash_niu_attr a = hash_niu_attr b.
Proof. exact niu_hash. Qed.
Print Assumptions C10_niu.
Example C10_example_link : link_attr_eqb (mkLink (mkCoord 0 1 2) NOC0_EAST) (mkLink (mkCoord 0 1 2) NOC0_EAST) = true /\
  hash_link_attr (mkLink (mkCoord 0 1 2) NOC0_EAST) <> hash_link_attr (mkLink (mkCoord 0 1 2) NOC0_SOUTH).
Proof. split; [reflexivity|vm_compute; discriminate]. Qed.
