(* Properties of the elaboration of fabric paths (C70-C73). *)
From Coq Require Import ZArith String List Bool.
From Verif Require Import Util Fabric SpecFabric FabricProofs FabricTopology FabricAccept FabricPaths FabricGrid FabricTraces FabricSends FabricWitness.
Import ListNotations.
Local Open Scope string_scope.
Local Open Scope list_scope.
Open Scope Z_scope.

(** * C70: neighbours *)
(* the topology contains what its file says *)
Theorem C70_topology : forall f t, TopologyGraph f = Val t -> distinct f -> well_formed t /\ contains f t.
Proof. exact made. Qed.
Print Assumptions C70_topology.
(* which files are accepted; any other file is rejected with the error of the script *)
Theorem C70_accepted : forall f, (acceptable f /\ exists t, TopologyGraph f = Val t) \/ (~ acceptable f /\ TopologyGraph f = Processing).
Proof. exact accepted. Qed.
Print Assumptions C70_accepted.
Example C70_accepted_example : acceptable (board "FABRIC_1D_RING" "T3K" 2 4 2) /\ ~ acceptable (board "FABRIC_3D" "T3K" 2 4 2) /\ ~ acceptable two_meshes.
Proof. exact boards_accepted. Qed.
(* the next chip in a direction, and the direction in which the message goes on *)
Theorem C70_neighbour : forall t, well_formed t -> broad t -> forall d g d' g', get_next_device_in_dir t d g = Val (d', g') <-> neighbour t d g d' g'.
Proof. exact next_spec. Qed.
Print Assumptions C70_neighbour.
(* the way back leads back *)
Theorem C70_back : forall t, broad t -> forall d g d' g' b, neighbour t d g d' g' -> opposite g' b -> neighbour t d' b d b.
Proof. exact next_back. Qed.
Print Assumptions C70_back.
(* the border of a T3K with two rows is a ring: each step clockwise is one place on *)
Theorem C70_ring : forall t, well_formed t -> broad t -> forall n d g d' g' m ew x y,
  turning t -> located t d m 2 ew x y -> clockwise ew x y g -> moves t n d g d' g' ->
  exists x' y', located t d' m 2 ew x' y' /\ clockwise ew x' y' g' /\ ring_index ew x' y' = (ring_index ew x y + Z.of_nat n) mod (2 * ew).
Proof. exact ring. Qed.
Print Assumptions C70_ring.
Theorem C70_ring_closed : forall t, broad t -> forall d g m ew x y, turning t -> located t d m 2 ew x y -> clockwise ew x y g ->
  (forall x y, inside 2 ew x y -> exists d, located t d m 2 ew x y) -> exists d' g', neighbour t d g d' g'.
Proof. exact ring_goes_on. Qed.
Print Assumptions C70_ring_closed.
(* [broad] is needed: with one row, west of the first chip is the chip to the east of it *)
Theorem C70_one_row_refuted : exists f t, TopologyGraph f = Val t /\ distinct f /\ turning t /\ closed_up t /\
  get_next_device_in_dir t 0 dW = Val (1, dE) /\ get_next_device_in_dir t 0 dE = Val (1, dE) /\ get_next_device_in_dir t 1 dW = Val (0, dW) /\ forall d', ~ neighbour t 0 dW d' dE.
Proof. exact one_row_refuted. Qed.
Print Assumptions C70_one_row_refuted.
(* [distinct] is needed: the constructor accepts two chips for one node, and the way back leads to another chip *)
Theorem C70_shared_node_refuted : exists f t a b c, TopologyGraph f = Val t /\ get_next_device_in_dir t a dW = Val (b, dW) /\ get_next_device_in_dir t b dE = Val (c, dE) /\ a <> c.
Proof. exact shared_node_refuted. Qed.
Print Assumptions C70_shared_node_refuted.
Example C70_example : neighbour t3k_ring 3 dE 7 dS /\ neighbour t3k_ring 7 dS 6 dW /\ neighbour t3k_ring 4 dW 0 dN /\ neighbour t3k_ring 0 dN 1 dE /\ moves t3k_ring 8 1 dE 1 dE.
Proof. exact ring_example. Qed.

(** * C71: paths in one dimension *)
Theorem C71_path : forall t, well_formed t -> broad t -> forall (W : Type) src (dst : W) dev chan start range m noc p g path de,
  channel_of t dev chan p g -> 0 <= start + range - 1 -> find_path_1d t W src dst dev chan start range m noc = Val (path, de) ->
  exists q d g' rc xy first rest re, last_plane t q /\ departs t dev g q d g' rc /\ In (chan, xy) (tp_coord t) /\ out_of dev src noc m xy first /\ path = first ++ rest /\
    along t p d rc g' (Z.to_nat (start + range - 1)) start dst false (Z.of_nat (List.length first) - 1) rest /\ stops t p d rc g' (Z.to_nat (start + range - 1)) false de re.
Proof. exact path_1d. Qed.
Print Assumptions C71_path.
(* a path is found when its links are there *)
Theorem C71_found : forall t, well_formed t -> broad t -> forall (W : Type) src (dst : W) dev chan start range m noc p g q d g' rc dl rl gl,
  channel_of t dev chan p g -> 1 <= start + range - 1 -> knows t chan -> last_plane t q -> departs t dev g q d g' rc ->
  travels t p d rc g' (Z.to_nat (start + range - 2)) dl rl gl -> exists path, find_path_1d t W src dst dev chan start range m noc = Val (path, dl).
Proof. exact path_1d_found. Qed.
Print Assumptions C71_found.
(* each segment continues its parent *)
Theorem C71_connected : forall t, well_formed t -> broad t -> forall (W : Type) src (dst : W) dev chan start range m noc p g path de,
  channel_of t dev chan p g -> 0 <= start + range - 1 -> find_path_1d t W src dst dev chan start range m noc = Val (path, de) -> connected t path.
Proof. exact connected_1d. Qed.
Print Assumptions C71_connected.
Theorem C71_destination : forall t, well_formed t -> broad t -> forall (W : Type) src (dst : W) dev chan start range m noc p g path de,
  channel_of t dev chan p g -> 1 <= start + range - 1 -> find_path_1d t W src dst dev chan start range m noc = Val (path, de) -> exists g', moves t (Z.to_nat (start + range - 1)) dev g de g'.
Proof. exact destination_1d. Qed.
Print Assumptions C71_destination.
(* the chips written are those from [start] on, [range] of them *)
Theorem C71_written : forall t, well_formed t -> broad t -> forall (W : Type) src (dst : W) dev chan start range m noc p g path de,
  channel_of t dev chan p g -> 1 <= start -> 0 <= range -> find_path_1d t W src dst dev chan start range m noc = Val (path, de) ->
  List.length (writers path) = Z.to_nat range /\
  forall i s, nth_error (writers path) i = Some s -> sg_writes W s = Some dst /\ exists g', moves t (Z.to_nat start + i) dev g (sg_device W s) g'.
Proof. exact writers_1d. Qed.
Print Assumptions C71_written.
(* the core that receives the first link is looked up on the plane of the last entry of the table *)
Theorem C71_plane_refuted : exists f t dev chan path d s1 s2, TopologyGraph f = Val t /\ distinct f /\ broad t /\ channel_of t dev chan 0 dE /\
  find_path_1d t Z (1, 2) 77 dev chan 1 1 None "NOC_0" = Val (path, d) /\ path = [s1; s2] /\ neighbour t dev dE d dE /\ sg_device Z s2 = d /\ core_on t d 1 dW (sg_start Z s2) /\ ~ core_on t d 0 dW (sg_start Z s2).
Proof. exact plane_refuted. Qed.
Print Assumptions C71_plane_refuted.
(* a channel without plane: the message of the error uses an undefined name *)
Theorem C71_unknown_channel : forall t (W : Type) src (dst : W) dev chan start range m noc xy, well_formed t -> In (chan, xy) (tp_coord t) -> (forall p g, ~ In ((dev, p, g), chan) (tp_planes t)) ->
  find_path_1d t W src dst dev chan start range m noc = Raised "NameError" /\ forall ns e w mc, find_path_2d t W src dst dev chan ns e w mc m noc = Raised "NameError".
Proof. exact unknown_channel. Qed.
Print Assumptions C71_unknown_channel.
Theorem C71_unknown_refuted : exists f t dev chan, TopologyGraph f = Val t /\ distinct f /\ knows t chan /\
  find_path_1d t Z (1, 2) 77 dev chan 1 1 None "NOC_0" <> Processing /\ forall r, find_path_1d t Z (1, 2) 77 dev chan 1 1 None "NOC_0" <> Val r.
Proof. exact unknown_refuted. Qed.
Print Assumptions C71_unknown_refuted.
Example C71_example : ring_path = Val ([mkSegment Z 2 "NOC_0" (-1) (1, 2) (Some (22, 25)) None; mkSegment Z 3 "NOC_1" 0 (23, 25) (Some (21, 25)) None; mkSegment Z 7 "NOC_1" 1 (20, 25) (Some (23, 25)) (Some 77);
    mkSegment Z 6 "NOC_1" 2 (22, 25) (Some (23, 25)) (Some 77); mkSegment Z 5 "NOC_1" 3 (22, 25) None (Some 77)], 5) /\
  channel_of t3k_ring 2 2 0 dE /\ well_formed t3k_ring /\ broad t3k_ring.
Proof. exact ring_path_example. Qed.

(** * C72: paths in two dimensions *)
(* the number of hops along the column does not count the chip on which the message turns; the number along the row does *)
Theorem C72_unicast : forall t, well_formed t -> grid t -> forall (W : Type) src (dst : W) dev chan ns e w m noc p g path de,
  channel_of t dev chan p g -> 0 <= ns -> 0 <= e -> 0 <= w -> (g = dE -> 0 < e) -> (g = dW -> 0 < w) ->
  find_path_2d t W src dst dev chan ns e w false m noc = Val (path, de) ->
  connected t path /\ one_write path de dst /\
  match g with
  | dE => straight t dev dE e de
  | dW => straight t dev dW w de
  | _ => (e = 0 -> w = 0 -> straight t dev g ns de) /\
         (0 < e -> exists mid, straight t dev g (ns + 1) mid /\ straight t mid dE (e - 1) de) /\ (0 < w -> exists mid, straight t dev g (ns + 1) mid /\ straight t mid dW (w - 1) de)
  end.
Proof. exact unicast. Qed.
Print Assumptions C72_unicast.
(* multicast along a column or a row; the full statement would say the same of the chips beside each chip of the column *)
Theorem C72_multicast_partial : forall t, well_formed t -> grid t -> forall (W : Type) src (dst : W) dev chan ns e w m noc p g path de, channel_of t dev chan p g ->
  (0 < ns /\ e = 0 /\ w = 0) \/ (ns = 0 /\ 0 < e /\ w = 0 /\ g = dE) \/ (ns = 0 /\ e = 0 /\ 0 < w /\ g = dW) ->
  find_path_2d t W src dst dev chan ns e w true m noc = Val (path, de) -> connected t path /\ row_written t dev g (ns + e + w) dst path /\ straight t dev g (ns + e + w) de.
Proof. exact multicast_row. Qed.
Print Assumptions C72_multicast_partial.
(* exactly what a multicast along a column with branches consists of: each branch starts where the one before ended, not beside its chip of the column *)
Theorem C72_fan : forall t, well_formed t -> grid t -> forall (W : Type) src (dst : W) dev chan ns e w m noc p g path de, channel_of t dev chan p g -> 0 < ns -> 0 <= e -> 0 <= w ->
  find_path_2d t W src dst dev chan ns e w true m noc = Val (path, de) ->
  exists d rc xy first trunk rest d1 rc1 re, neighbour t dev g d g /\ out_of dev src noc m xy first /\ path = first ++ trunk ++ rest /\
    along t p d rc g (Z.to_nat ns) 1 dst false (Z.of_nat (List.length first) - 1) trunk /\ stops t p d rc g (Z.to_nat ns) false d1 rc1 /\
    fans t p dst e w (Z.to_nat ns) d1 rc1 (Z.of_nat (List.length first) - 1) rest de re.
Proof. exact multicast_fan. Qed.
Print Assumptions C72_fan.
Example C72_fan_example : exists path, find_path_2d grid_43 Z (1, 2) 77 0 1 1 2 2 true None "NOC_0" = Val (path, 3) /\ map (sg_device Z) path = [0; 3; 3; 4; 4; 3] /\ map (sg_parent Z) path = [-1; 0; 1; 2; 1; 2] /\
  channel_of grid_43 0 1 0 dS /\ well_formed grid_43 /\ grid grid_43.
Proof. eexists. split; [vm_compute; reflexivity|]. split; [reflexivity|]. split; [reflexivity|]. split; [exact grid_channel_S|]. split; [exact grid_43_wf|exact grid_43_grid]. Qed.
(* three rows to the south and one column to the east of each *)
Theorem C72_multicast_refuted : exists path d, find_path_2d grid_43 Z (1, 2) 77 0 1 3 1 0 true None "NOC_0" = Val (path, d) /\
  writes_on 4 path = false /\ writes_on 7 path = false /\ writes_on 10 path = false /\ List.length (on_chip 9 path) = 4%nat /\
  exists s sp, In s path /\ nth_error path (Z.to_nat (sg_parent Z s)) = Some sp /\ sg_device Z s = 9 /\ sg_device Z sp = 3 /\ forall g g', ~ neighbour grid_43 3 g 9 g'.
Proof. exact multicast_refuted. Qed.
Print Assumptions C72_multicast_refuted.
Theorem C72_write_refuted : exists f t path d, TopologyGraph f = Val t /\ distinct f /\ grid t /\ channel_of t 0 2 0 dE /\
  find_path_2d t Z (1, 2) 77 0 2 1 0 0 false None "NOC_0" = Val (path, d) /\ writers path = [].
Proof. exact no_write_refuted. Qed.
Print Assumptions C72_write_refuted.
Example C72_example : find_path_2d grid_43 Z (1, 2) 77 0 1 1 2 0 false None "NOC_0" =
  Val ([mkSegment Z 0 "NOC_0" (-1) (1, 2) (Some (21, 25)) None; mkSegment Z 3 "NOC_1" 0 (20, 25) (Some (21, 25)) None; mkSegment Z 6 "NOC_1" 1 (20, 25) (Some (22, 25)) None; mkSegment Z 7 "NOC_1" 2 (23, 25) None (Some 77)], 7) /\
  channel_of grid_43 0 1 0 dS /\ well_formed grid_43 /\ grid grid_43.
Proof. exact unicast_example. Qed.
Example C72_example_multicast : exists path, find_path_2d grid_43 Z (1, 2) 77 0 1 3 0 0 true (Some (4, 5, "NOC_1")) "NOC_0" = Val (path, 9) /\ row_written grid_43 0 dS 3 77 path /\ List.length path = 5%nat.
Proof. exact multicast_row_example. Qed.

(** * C73: traces *)
Theorem C73_traces : forall t (W : Type) files remove out, process_traces t W files remove = Val out ->
  exists ordered some_events elaborated, stably_sorted earlier (concat files) ordered /\ (if remove then kept ordered some_events else some_events = ordered) /\
    Forall2 same_event some_events elaborated /\ Forall2 (fun e e' => elaborate t W e = Val e') some_events elaborated /\ stably_sorted listed_before elaborated out.
Proof. exact traces. Qed.
Print Assumptions C73_traces.
(* what is kept is determined *)
Theorem C73_kept : forall (W : Type) (all l l' : list (event W)), kept all l -> kept all l' -> l = l'.
Proof. exact kept_fun. Qed.
Print Assumptions C73_kept.
Theorem C73_send : forall t (W : Type), well_formed t -> broad t -> forall e e' s start range p g,
  elaborate t W e = Val e' -> ev_send W e = Some s -> fs_1d W s = Some (start, range) -> tp_config t = "FABRIC_1D" \/ tp_config t = "FABRIC_1D_RING" ->
  channel_of t (ev_dev W e) (fs_chan W s) p g -> 1 <= start -> 1 <= range ->
  exists s' path d g', ev_send W e' = Some s' /\ fs_path W s' = Some path /\ ev_dst_dev W e' = Some d /\ moves t (Z.to_nat (start + range - 1)) (ev_dev W e) g d g' /\ connected t path /\
    List.length (writers path) = Z.to_nat range /\ forall i x, nth_error (writers path) i = Some x -> sg_writes W x = Some (ev_dst W e) /\ exists h, moves t (Z.to_nat start + i) (ev_dev W e) g (sg_device W x) h.
Proof. exact send_1d. Qed.
Print Assumptions C73_send.
Theorem C73_send_2d : forall t (W : Type), well_formed t -> grid t -> forall (e e' : event W) s ns ew w p g,
  elaborate t W e = Val e' -> ev_send W e = Some s -> fs_2d W s = Some (ns, ew, w, false) ->
  channel_of t (ev_dev W e) (fs_chan W s) p g -> 0 <= ns -> 0 <= ew -> 0 <= w -> (g = dE -> 0 < ew) -> (g = dW -> 0 < w) ->
  exists s' path d, ev_send W e' = Some s' /\ fs_path W s' = Some path /\ ev_dst_dev W e' = Some d /\ connected t path /\ one_write path d (ev_dst W e) /\
    match g with
    | dE => straight t (ev_dev W e) dE ew d
    | dW => straight t (ev_dev W e) dW w d
    | _ => (ew = 0 -> w = 0 -> straight t (ev_dev W e) g ns d) /\
           (0 < ew -> exists mid, straight t (ev_dev W e) g (ns + 1) mid /\ straight t mid dE (ew - 1) d) /\ (0 < w -> exists mid, straight t (ev_dev W e) g (ns + 1) mid /\ straight t mid dW (w - 1) d)
    end.
Proof. exact send_2d. Qed.
Print Assumptions C73_send_2d.
Example C73_send_2d_example : exists e', elaborate grid_43 Z (ev 20 0 "BRISC" (Some (mkSend Z 1 None None (Some (1, 2, 0, false)) None))) = Val e' /\ ev_dst_dev Z e' = Some 7 /\
  channel_of grid_43 0 1 0 dS /\ well_formed grid_43 /\ grid grid_43.
Proof. eexists. split; [vm_compute; reflexivity|]. split; [reflexivity|]. split; [exact grid_channel_S|]. split; [exact grid_43_wf|exact grid_43_grid]. Qed.
(* a send without the fields of its configuration, and a send without a fabric *)
Theorem C73_failures : forall t (W : Type) (e : event W) s, ev_send W e = Some s ->
  (fs_1d W s = None -> tp_config t = "FABRIC_1D" \/ tp_config t = "FABRIC_1D_RING" -> elaborate t W e = Raised "KeyError") /\
  (fs_2d W s = None -> grid t -> elaborate t W e = Raised "KeyError") /\
  (tp_config t <> "FABRIC_1D" -> tp_config t <> "FABRIC_1D_RING" -> ~ grid t -> elaborate t W e = Processing).
Proof. exact send_failures. Qed.
Print Assumptions C73_failures.
Example C73_failures_example : exists t, TopologyGraph (board "DISABLED" "GALAXY" 4 3 1) = Val t /\ elaborate t Z (ev 20 0 "BRISC" (Some send)) = Processing /\ elaborate grid_43 Z (ev 20 0 "BRISC" (Some send)) = Raised "KeyError".
Proof. eexists. split; [vm_compute; reflexivity|]. split; vm_compute; reflexivity. Qed.
(* events of one core are dropped as desynchronised *)
Theorem C73_dropped_refuted : exists a b, ev_dev Z a = ev_dev Z b /\ ev_proc Z a = ev_proc Z b /\ ev_time Z a = 1001 /\ ev_time Z b = 2003 /\ process_traces t3k_ring Z [[a; b]] true = Val [a].
Proof. exact dropped_refuted. Qed.
Print Assumptions C73_dropped_refuted.
Theorem C73_error_refuted : exists a b, process_traces t3k_ring Z [[a; b]] true = Raised "KeyError" /\ ev_send Z a = None.
Proof. exact all_lost. Qed.
Print Assumptions C73_error_refuted.
Example C73_example : exists e', process_traces t3k_ring Z [[ev 50 2 "NCRISC" None; ev 20 2 "BRISC" (Some send)]; [ev 30 1 "BRISC" None]] true = Val [ev 30 1 "BRISC" None; e'; ev 50 2 "NCRISC" None] /\
  ev_time Z e' = 20 /\ ev_dst_dev Z e' = Some 5.
Proof. exact traces_example. Qed.
