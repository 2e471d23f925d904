(* Witnesses and examples of C70-C73. *)
From Coq Require Import ZArith Arith Lia Bool String List Permutation Sorting.Sorted ZifyBool ZifyNat.
From Verif Require Import Util Fabric SpecFabric FabricProofs FabricTopology FabricAccept FabricPaths FabricGrid FabricTraces.
Import ListNotations.
Local Open Scope string_scope.
Local Open Scope list_scope.
Open Scope Z_scope.
Ltac Zify.zify_post_hook ::= idtac.

(** * Boards *)
Definition upto (n : Z) : list Z := map Z.of_nat (seq 0 (Z.to_nat n)).
(* channel 4p..4p+3 of a chip belong to plane p and face N, S, E, W *)
Definition board (cfg cluster : string) (ns ew planes : Z) : topology_file :=
  mkTopologyFile [(0, Some (ns, ew))] cfg (Some cluster)
    (map (fun d => (Some d, map (fun p => (Some p, [(dN, 4 * p); (dS, 4 * p + 1); (dE, 4 * p + 2); (dW, 4 * p + 3)])) (upto planes))) (upto (ns * ew)))
    (map (fun d => (d, Some (0, d))) (upto (ns * ew)))
    (map (fun c => (c, Some (20 + c, 25))) (upto (4 * planes))).
Lemma upto_in n d : In d (upto n) <-> 0 <= d < n.
Proof.
  unfold upto. rewrite in_map_iff. split.
  - intros (k & <- & H). apply in_seq in H. lia.
  - intros H. exists (Z.to_nat d). rewrite in_seq. lia.
Qed.
Lemma upto_nodup n : NoDup (upto n).
Proof.
  unfold upto. generalize (seq_NoDup (Z.to_nat n) 0). generalize (seq 0 (Z.to_nat n)). intros l. induction l as [|x l IH]; intros H; [constructor|]. cbn [map]. apply NoDup_cons_iff in H as [H1 H2]. constructor; [|exact (IH H2)].
  intros C. apply in_map_iff in C as (y & E & C). assert (x = y) by lia. subst. contradiction.
Qed.
Lemma map_nodup {X Y} (f : X -> Y) l : (forall a b, f a = f b -> a = b) -> NoDup l -> NoDup (map f l).
Proof.
  intros HF. induction l as [|x l IH]; intros H; [constructor|]. cbn [map]. apply NoDup_cons_iff in H as [H1 H2]. constructor; [|exact (IH H2)]. intros C. apply in_map_iff in C as (y & E & C). apply HF in E. subst. contradiction.
Qed.
Lemma board_distinct cfg cluster ns ew planes : 0 < ns -> 0 < ew -> distinct (board cfg cluster ns ew planes).
Proof.
  intros H1 H2. unfold distinct, board. cbn [tf_shapes tf_planes tf_node tf_coord].
  split; [repeat constructor; intros []|]. split; [rewrite map_map; apply map_nodup; [cbn; congruence|apply upto_nodup]|]. split.
  - intros d ps H. apply in_map_iff in H as (k & E & H). injection E as <- <-. split; [rewrite map_map; apply map_nodup; [cbn; congruence|apply upto_nodup]|].
    intros p cs HP. apply in_map_iff in HP as (q & E & HP). injection E as <- <-. cbn [map fst]. repeat (apply NoDup_cons; [cbn; intuition discriminate|]). apply NoDup_nil.
  - split; [rewrite map_map; apply map_nodup; [cbn; congruence|apply upto_nodup]|]. split; [rewrite map_map; apply map_nodup; [cbn; congruence|apply upto_nodup]|].
    split; [rewrite map_map; apply map_nodup; [cbn; congruence|apply upto_nodup]|]. intros m a b [H|[]]. injection H as _ <- <-. auto.
Qed.
Definition build (f : topology_file) : topology := match TopologyGraph f with Val t => t | _ => mkTopology [] "" "" [] [] [] [] end.
Definition t3k_ring : topology := build (board "FABRIC_1D_RING" "T3K" 2 4 1).
Definition t3k_row : topology := build (board "FABRIC_1D_RING" "T3K" 1 8 1).
Definition t3k_planes : topology := build (board "FABRIC_1D" "T3K" 2 4 2).
Definition grid_43 : topology := build (board "FABRIC_2D" "GALAXY" 4 3 1).
Lemma t3k_ring_made : TopologyGraph (board "FABRIC_1D_RING" "T3K" 2 4 1) = Val t3k_ring. Proof. vm_compute. reflexivity. Qed.
Lemma t3k_row_made : TopologyGraph (board "FABRIC_1D_RING" "T3K" 1 8 1) = Val t3k_row. Proof. vm_compute. reflexivity. Qed.
Lemma t3k_planes_made : TopologyGraph (board "FABRIC_1D" "T3K" 2 4 2) = Val t3k_planes. Proof. vm_compute. reflexivity. Qed.
Lemma grid_43_made : TopologyGraph (board "FABRIC_2D" "GALAXY" 4 3 1) = Val grid_43. Proof. vm_compute. reflexivity. Qed.
Lemma board_wf cfg cluster ns ew planes t : 0 < ns -> 0 < ew -> TopologyGraph (board cfg cluster ns ew planes) = Val t -> well_formed t /\ contains (board cfg cluster ns ew planes) t.
Proof. intros H1 H2 H. apply made; [exact H|apply board_distinct; assumption]. Qed.
Lemma t3k_ring_wf : well_formed t3k_ring. Proof. exact (proj1 (board_wf _ _ _ _ _ _ (eq_refl : 0 < 2) (eq_refl : 0 < 4) t3k_ring_made)). Qed.
Lemma t3k_row_wf : well_formed t3k_row. Proof. exact (proj1 (board_wf _ _ _ _ _ _ (eq_refl : 0 < 1) (eq_refl : 0 < 8) t3k_row_made)). Qed.
Lemma t3k_planes_wf : well_formed t3k_planes. Proof. exact (proj1 (board_wf _ _ _ _ _ _ (eq_refl : 0 < 2) (eq_refl : 0 < 4) t3k_planes_made)). Qed.
Lemma grid_43_wf : well_formed grid_43. Proof. exact (proj1 (board_wf _ _ _ _ _ _ (eq_refl : 0 < 4) (eq_refl : 0 < 3) grid_43_made)). Qed.
Lemma ring_broad : broad t3k_ring. Proof. intros _ m ns ew H. vm_compute in H. destruct H as [H|[]]. injection H as _ <- <-. lia. Qed.
Lemma planes_broad : broad t3k_planes. Proof. intros _ m ns ew H. vm_compute in H. destruct H as [H|[]]. injection H as _ <- <-. lia. Qed.

(** * C70 *)
(* clockwise once around the ring of eight chips *)
Lemma ring_example : neighbour t3k_ring 3 dE 7 dS /\ neighbour t3k_ring 7 dS 6 dW /\ neighbour t3k_ring 4 dW 0 dN /\ neighbour t3k_ring 0 dN 1 dE /\ moves t3k_ring 8 1 dE 1 dE.
Proof.
  assert (N : forall d g d' g', get_next_device_in_dir t3k_ring d g = Val (d', g') -> neighbour t3k_ring d g d' g') by (intros; apply (next_spec t3k_ring t3k_ring_wf ring_broad); assumption).
  split; [apply N; vm_compute; reflexivity|]. split; [apply N; vm_compute; reflexivity|]. split; [apply N; vm_compute; reflexivity|]. split; [apply N; vm_compute; reflexivity|].
  eapply moves_S; [apply N; vm_compute; reflexivity|]. eapply moves_S; [apply N; vm_compute; reflexivity|]. eapply moves_S; [apply N; vm_compute; reflexivity|]. eapply moves_S; [apply N; vm_compute; reflexivity|].
  eapply moves_S; [apply N; vm_compute; reflexivity|]. eapply moves_S; [apply N; vm_compute; reflexivity|]. eapply moves_S; [apply N; vm_compute; reflexivity|]. eapply moves_S; [apply N; vm_compute; reflexivity|]. apply moves_0.
Qed.
(* a T3K with one row: west of the first chip is the second one, which is also east of it *)
Lemma one_row_refuted : exists f t, TopologyGraph f = Val t /\ distinct f /\ turning t /\ closed_up t /\
  get_next_device_in_dir t 0 dW = Val (1, dE) /\ get_next_device_in_dir t 0 dE = Val (1, dE) /\ get_next_device_in_dir t 1 dW = Val (0, dW) /\ forall d', ~ neighbour t 0 dW d' dE.
Proof.
  exists (board "FABRIC_1D_RING" "T3K" 1 8 1), t3k_row. split; [exact t3k_row_made|]. split; [apply board_distinct; reflexivity|]. split; [split; [right; reflexivity|reflexivity]|]. split; [left; reflexivity|].
  split; [vm_compute; reflexivity|]. split; [vm_compute; reflexivity|]. split; [vm_compute; reflexivity|].
  intros d' (m & ns & ew & x & y & x' & y' & L & [(_ & P & _)|(_ & C)] & _); [|discriminate C]. unfold perpendicular in P. cbn in P. lia.
Qed.
(* two chips for one node: the way back leads elsewhere *)
Definition shared_node : topology_file :=
  mkTopologyFile [(0, Some (1, 2))] "FABRIC_2D" (Some "GALAXY") [] [(0, Some (0, 0)); (1, Some (0, 1)); (2, Some (0, 1))] [].
Lemma shared_node_refuted : exists f t a b c, TopologyGraph f = Val t /\ get_next_device_in_dir t a dW = Val (b, dW) /\ get_next_device_in_dir t b dE = Val (c, dE) /\ a <> c.
Proof. exists shared_node, (build shared_node), 1, 0, 2. split; [vm_compute; reflexivity|]. split; [vm_compute; reflexivity|]. split; [vm_compute; reflexivity|]. discriminate. Qed.

(* accepted and rejected files *)
Definition two_meshes : topology_file := mkTopologyFile [(0, Some (1, 2)); (1, Some (1, 2))] "FABRIC_2D" (Some "GALAXY") [] [] [].
Lemma boards_accepted : acceptable (board "FABRIC_1D_RING" "T3K" 2 4 2) /\ ~ acceptable (board "FABRIC_3D" "T3K" 2 4 2) /\ ~ acceptable two_meshes.
Proof.
  split; [|split].
  - destruct (accepted (board "FABRIC_1D_RING" "T3K" 2 4 2)) as [(H & _)|(_ & H)]; [exact H|vm_compute in H; discriminate H].
  - destruct (accepted (board "FABRIC_3D" "T3K" 2 4 2)) as [(_ & t & H)|(H & _)]; [vm_compute in H; discriminate H|exact H].
  - destruct (accepted two_meshes) as [(_ & t & H)|(H & _)]; [vm_compute in H; discriminate H|exact H].
Qed.

(** * C71 *)
Definition ring_path := find_path_1d t3k_ring Z (1, 2) 77 2 2 2 3 None "NOC_0".
Lemma ring_channel : channel_of t3k_ring 2 2 0 dE.
Proof.
  split; [vm_compute; tauto|]. intros p g H. vm_compute in H. repeat (destruct H as [H|H]; [first [discriminate H|injection H as <- <-; auto]|]). destruct H.
Qed.
Lemma ring_path_example : ring_path = Val ([mkSegment Z 2 "NOC_0" (-1) (1, 2) (Some (22, 25)) None; mkSegment Z 3 "NOC_1" 0 (23, 25) (Some (21, 25)) None; mkSegment Z 7 "NOC_1" 1 (20, 25) (Some (23, 25)) (Some 77);
    mkSegment Z 6 "NOC_1" 2 (22, 25) (Some (23, 25)) (Some 77); mkSegment Z 5 "NOC_1" 3 (22, 25) None (Some 77)], 5) /\
  channel_of t3k_ring 2 2 0 dE /\ well_formed t3k_ring /\ broad t3k_ring.
Proof. split; [vm_compute; reflexivity|]. split; [exact ring_channel|]. split; [exact t3k_ring_wf|exact ring_broad]. Qed.
(* two planes: a message on plane 0 is taken to arrive at the core of plane 1 *)
Lemma plane_refuted : exists f t dev chan path d s1 s2, TopologyGraph f = Val t /\ distinct f /\ broad t /\ channel_of t dev chan 0 dE /\
  find_path_1d t Z (1, 2) 77 dev chan 1 1 None "NOC_0" = Val (path, d) /\ path = [s1; s2] /\ neighbour t dev dE d dE /\ sg_device Z s2 = d /\ core_on t d 1 dW (sg_start Z s2) /\ ~ core_on t d 0 dW (sg_start Z s2).
Proof.
  exists (board "FABRIC_1D" "T3K" 2 4 2), t3k_planes, 0, 2, [mkSegment Z 0 "NOC_0" (-1) (1, 2) (Some (22, 25)) None; mkSegment Z 1 "NOC_1" 0 (27, 25) None (Some 77)], 1.
  exists (mkSegment Z 0 "NOC_0" (-1) (1, 2) (Some (22, 25)) None), (mkSegment Z 1 "NOC_1" 0 (27, 25) None (Some 77)).
  split; [exact t3k_planes_made|]. split; [apply board_distinct; reflexivity|]. split; [exact planes_broad|]. split.
  { split; [vm_compute; tauto|]. intros p g H. vm_compute in H. repeat (destruct H as [H|H]; [first [discriminate H|injection H as <- <-; auto]|]). destruct H. }
  split; [vm_compute; reflexivity|]. split; [reflexivity|]. split; [apply (next_spec t3k_planes t3k_planes_wf planes_broad); vm_compute; reflexivity|]. split; [reflexivity|]. split.
  - exists 7. split; vm_compute; tauto.
  - intros (c & H1 & H2). apply (plane_get_iff t3k_planes t3k_planes_wf) in H1. vm_compute in H1. injection H1 as <-. apply (coord_iff t3k_planes t3k_planes_wf) in H2. vm_compute in H2. discriminate H2.
Qed.
Theorem unknown_channel t (W : Type) src (dst : W) dev chan start range m noc xy : well_formed t -> In (chan, xy) (tp_coord t) -> (forall p g, ~ In ((dev, p, g), chan) (tp_planes t)) ->
  find_path_1d t W src dst dev chan start range m noc = Raised "NameError" /\ forall ns e w mc, find_path_2d t W src dst dev chan ns e w mc m noc = Raised "NameError".
Proof.
  intros WF HC HN. assert (exists l, add_first_hop t W src dev chan m noc = Val l) as (l & HF).
  { destruct m as [[[mx my] mnoc]|]; eexists; apply (first_hop_spec t WF); exists xy; (split; [exact HC|reflexivity]). }
  split; [|intros ns e w mc]; [unfold find_path_1d|unfold find_path_2d]; rewrite HF; cbn [pbind]; rewrite (plane_of_unknown t dev chan HN); reflexivity.
Qed.
Lemma unknown_refuted : exists f t dev chan, TopologyGraph f = Val t /\ distinct f /\ knows t chan /\ find_path_1d t Z (1, 2) 77 dev chan 1 1 None "NOC_0" <> Processing /\ forall r, find_path_1d t Z (1, 2) 77 dev chan 1 1 None "NOC_0" <> Val r.
Proof.
  exists (board "FABRIC_1D_RING" "T3K" 2 4 1), t3k_ring, 100, 2. split; [exact t3k_ring_made|]. split; [apply board_distinct; reflexivity|]. split; [exists (22, 25); vm_compute; tauto|].
  assert (E : find_path_1d t3k_ring Z (1, 2) 77 100 2 1 1 None "NOC_0" = Raised "NameError") by (vm_compute; reflexivity). rewrite E. split; [discriminate|discriminate].
Qed.

(** * C72 *)
Lemma grid_43_grid : grid grid_43. Proof. left. reflexivity. Qed.
Lemma grid_channel_S : channel_of grid_43 0 1 0 dS.
Proof. split; [vm_compute; tauto|]. intros p g H. vm_compute in H. repeat (destruct H as [H|H]; [first [discriminate H|injection H as <- <-; auto]|]). destruct H. Qed.
Lemma grid_channel_E : channel_of grid_43 0 2 0 dE.
Proof. split; [vm_compute; tauto|]. intros p g H. vm_compute in H. repeat (destruct H as [H|H]; [first [discriminate H|injection H as <- <-; auto]|]). destruct H. Qed.
(* two rows to the south, one column to the east *)
Lemma unicast_example : find_path_2d grid_43 Z (1, 2) 77 0 1 1 2 0 false None "NOC_0" =
  Val ([mkSegment Z 0 "NOC_0" (-1) (1, 2) (Some (21, 25)) None; mkSegment Z 3 "NOC_1" 0 (20, 25) (Some (21, 25)) None; mkSegment Z 6 "NOC_1" 1 (20, 25) (Some (22, 25)) None; mkSegment Z 7 "NOC_1" 2 (23, 25) None (Some 77)], 7) /\
  channel_of grid_43 0 1 0 dS /\ well_formed grid_43 /\ grid grid_43.
Proof. split; [vm_compute; reflexivity|]. split; [exact grid_channel_S|]. split; [exact grid_43_wf|exact grid_43_grid]. Qed.
Definition writes_on (d : Z) (path : list (segment Z)) : bool := existsb (fun s => match sg_writes Z s with Some _ => sg_device Z s =? d | None => false end) path.
Definition on_chip (d : Z) (path : list (segment Z)) : list (segment Z) := filter (fun s => sg_device Z s =? d) (writers path).
(* three rows to the south, and one column to the east of each: chips 4, 7 and 10 are never written, chip 9 four times;
   a segment on chip 9 has a parent on chip 3, which is no neighbour of it *)
Lemma multicast_refuted : exists path d, find_path_2d grid_43 Z (1, 2) 77 0 1 3 1 0 true None "NOC_0" = Val (path, d) /\
  writes_on 4 path = false /\ writes_on 7 path = false /\ writes_on 10 path = false /\ List.length (on_chip 9 path) = 4%nat /\
  exists s sp, In s path /\ nth_error path (Z.to_nat (sg_parent Z s)) = Some sp /\ sg_device Z s = 9 /\ sg_device Z sp = 3 /\ forall g g', ~ neighbour grid_43 3 g 9 g'.
Proof.
  eexists _, _. split; [vm_compute; reflexivity|]. split; [reflexivity|]. split; [reflexivity|]. split; [reflexivity|]. split; [reflexivity|].
  exists (mkSegment Z 9 "NOC_1" 1 (20, 25) None (Some 77)). eexists. split; [cbn; tauto|]. split; [cbn; reflexivity|]. split; [reflexivity|]. split; [reflexivity|].
  intros g g' H. apply (next_spec grid_43 grid_43_wf (grid_broad grid_43 grid_43_grid)) in H. destruct g; vm_compute in H; discriminate H.
Qed.
(* with the first link to the east and no hops to the east, nothing is written *)
Lemma no_write_refuted : exists f t path d, TopologyGraph f = Val t /\ distinct f /\ grid t /\ channel_of t 0 2 0 dE /\ find_path_2d t Z (1, 2) 77 0 2 1 0 0 false None "NOC_0" = Val (path, d) /\ writers path = [].
Proof.
  exists (board "FABRIC_2D" "GALAXY" 4 3 1), grid_43. eexists _, _. split; [exact grid_43_made|]. split; [apply board_distinct; reflexivity|]. split; [exact grid_43_grid|]. split; [exact grid_channel_E|]. split; vm_compute; reflexivity.
Qed.
Lemma multicast_row_example : exists path, find_path_2d grid_43 Z (1, 2) 77 0 1 3 0 0 true (Some (4, 5, "NOC_1")) "NOC_0" = Val (path, 9) /\ row_written grid_43 0 dS 3 77 path /\ List.length path = 5%nat.
Proof.
  destruct (find_path_2d grid_43 Z (1, 2) 77 0 1 3 0 0 true (Some (4, 5, "NOC_1")) "NOC_0") as [[path d]| |] eqn:E; [|vm_compute in E; discriminate E|vm_compute in E; discriminate E].
  assert (E' := E). vm_compute in E'. injection E' as EP ED. exists path. subst d. split; [reflexivity|]. split; [|rewrite <- EP; reflexivity].
  apply (multicast_row grid_43 grid_43_wf grid_43_grid Z) with (p := 0) (g := dS) in E; [apply E|exact grid_channel_S|left; lia].
Qed.

(** * C73 *)
Definition ev (time dev : Z) (proc : string) (s : option (fabric_send Z)) : event Z := mkEvent Z time dev 1 2 proc "NOC_0" 77 s None.
Definition send : fabric_send Z := mkSend Z 2 None (Some (2, 3)) None None.
Lemma traces_example : exists e', process_traces t3k_ring Z [[ev 50 2 "NCRISC" None; ev 20 2 "BRISC" (Some send)]; [ev 30 1 "BRISC" None]] true = Val [ev 30 1 "BRISC" None; e'; ev 50 2 "NCRISC" None] /\
  ev_time Z e' = 20 /\ ev_dst_dev Z e' = Some 5.
Proof. eexists. split; [vm_compute; reflexivity|]. split; reflexivity. Qed.
(* two events of one core, the second more than twice as late as the first *)
Lemma dropped_refuted : exists a b, ev_dev Z a = ev_dev Z b /\ ev_proc Z a = ev_proc Z b /\ ev_time Z a = 1001 /\ ev_time Z b = 2003 /\ process_traces t3k_ring Z [[a; b]] true = Val [a].
Proof. exists (ev 1001 2 "BRISC" None), (ev 2003 2 "BRISC" None). do 4 (split; [reflexivity|]). vm_compute. reflexivity. Qed.
(* one bad event, and none is written *)
Lemma all_lost : exists a b, process_traces t3k_ring Z [[a; b]] true = Raised "KeyError" /\ ev_send Z a = None.
Proof. exists (ev 10 2 "BRISC" None), (ev 20 2 "BRISC" (Some (mkSend Z 2 None None None None))). split; [vm_compute; reflexivity|reflexivity]. Qed.
