(* C44-C46: the timeline files. *)
From Coq Require Import ZArith String List Bool.
From Verif Require Import Base Arith Util Device Workload SpecWorkload Rates Stats Engine SpecEngine SpecStats Timeline SpecTimeline TimelineProofs TimelineSplit TimelineLive Cases TimelineWitness.
Import ListNotations.
Local Open Scope list_scope.
Open Scope Z_scope.

(** * C44: Timeline splits partition the timesteps *)
(* the ranges, put one after the other, are 0, 1, ..., number of timesteps - 1; none is empty or longer than the threshold *)
Theorem C44_ranges : forall A gord zord d topo wl thr stt sts files ds,
  emitSimTimelineToFile A gord zord d topo false thr wl stt sts = Ok files -> stats_get A stt MESH_DEVICE = Some ds ->
  Z.of_nat (List.length (ds_ts A ds)) < 2 ^ 63 -> 0 < thr ->
  (Z.of_nat (List.length (ds_ts A ds)) <= thr -> split_regions files = []) /\
  (thr < Z.of_nat (List.length (ds_ts A ds)) ->
    flat_map (fun r => positions (rg_first r) (rg_last r)) (split_regions files) = positions 0 (Z.of_nat (List.length (ds_ts A ds))) /\
    Forall (fun r => 0 < rg_last r - rg_first r <= thr) (split_regions files)).
Proof. exact split_ranges. Qed.
Print Assumptions C44_ranges.
(* a file holds the timesteps of its range, if none of these is the dummy timestep that finishSimulation adds; full statement: for
   every file, and without [filter nonempty] *)
Theorem C44_contents_partial : forall A ord bord, bucket_order bord -> forall gord zord topo d cpt wl, proper wl -> proper_cpt cpt ->
  forall thr model stt files ds g k rg tl, 0 < thr ->
  runWithTimeline A ord bord gord zord topo false thr d model cpt wl = Ok (Stats stt, files) -> stats_get A stt MESH_DEVICE = Some ds ->
  Z.of_nat (List.length (ds_ts A ds)) < 2 ^ 63 -> getGoldenResultCycles wl MESH_DEVICE = Ok g -> 0 <= fst g ->
  In (Split A k rg (Some tl)) files -> Forall (fun i => nonempty i = true) (slice (intervals ds) (rg_first rg) (rg_last rg)) ->
  filter nonempty (step_intervals tl) = slice (intervals ds) (rg_first rg) (rg_last rg).
Proof. exact split_contents. Qed.
Print Assumptions C44_contents_partial.
(* a simulated timestep that is in no split file *)
Theorem C44_contents_refuted : exists thr cpt wl stt files ds i, proper wl /\ proper_cpt cpt /\ 0 < thr /\ tl_run thr cpt wl = Ok (Stats stt, files) /\
  stats_get f32A stt MESH_DEVICE = Some ds /\ In i (intervals ds) /\ nonempty i = true /\
  forall k rg tl, In (Split f32A k rg (Some tl)) files -> ~ In i (step_intervals tl).
Proof. exact split_loses. Qed.
Print Assumptions C44_contents_refuted.
Theorem C44_zero_refuted : exists cpt wl, proper wl /\ proper_cpt cpt /\
  (exists r, runSinglePerfSim f32A same_links same_buckets wormhole_b0 "fast" cpt wl = Ok r) /\ tl_run 0 cpt wl = UB "division by zero".
Proof. exact split_zero. Qed.
Print Assumptions C44_zero_refuted.
Example C44_example : (* per file: range, region, timesteps, active, described *)
  tl_view (tl_run 2 100 wl_long) = Some ([(0, 100); (100, 200); (200, 300); (300, 400); (0, 0)],
    [((0, 2), (0, 200), [(0, 100); (100, 200); (0, 0)], [0; 0], [0]); ((2, 4), (200, 400), [(200, 300); (300, 400)], [0; 0], [0]);
     ((4, 5), (0, 0), [(0, 0)], [], [])]).
Proof. vm_compute. reflexivity. Qed.

(** * C45: Every transfer active in a timeline file is described in it *)
Theorem C45_full : forall A ord bord, bucket_order bord -> forall gord zord, map_order gord -> forall topo d cpt wl, proper wl -> proper_cpt cpt ->
  forall model thr stt files tl g, runWithTimeline A ord bord gord zord topo false thr d model cpt wl = Ok (Stats stt, files) ->
  In (FullV1 A (Some tl)) files -> active tl g -> described tl g.
Proof. exact full_described. Qed.
Print Assumptions C45_full.
(* in a split file only a group can be missing whose first transfer starts outside the region and whose last ends outside it;
   full statement: described tl g *)
Theorem C45_split_partial : forall A ord bord, bucket_order bord -> forall gord zord, map_order gord -> forall topo d cpt wl, proper wl -> proper_cpt cpt ->
  forall model thr stt files k rg tl g, runWithTimeline A ord bord gord zord topo false thr d model cpt wl = Ok (Stats stt, files) ->
  In (Split A k rg (Some tl)) files -> active tl g -> ~ described tl g ->
  exists sf gs first last live, succeeds A ord bord d (negb (String.eqb model "none")) cpt wl sf /\ group_transfers wl (sm_sts A sf) = Ok gs /\
    In first (sm_sts A sf) /\ In last (sm_sts A sf) /\ In live (sm_sts A sf) /\
    in_group (gs_groups gs) g (t_id (s_tr first)) /\ in_group (gs_groups gs) g (t_id (s_tr last)) /\ in_group (gs_groups gs) g (t_id (s_tr live)) /\
    (forall y, In y (sm_sts A sf) -> in_group (gs_groups gs) g (t_id (s_tr y)) -> t_gix (s_tr first) <= t_gix (s_tr y) <= t_gix (s_tr last)) /\
    ~ (rg_start rg <= s_start first < rg_end rg) /\ ~ (rg_start rg < s_end last <= rg_end rg) /\ s_start live <= rg_end rg.
Proof. exact split_described. Qed.
Print Assumptions C45_split_partial.
Theorem C45_span_refuted : exists thr cpt wl stt files k rg tl g, proper wl /\ proper_cpt cpt /\ 0 < thr /\ tl_run thr cpt wl = Ok (Stats stt, files) /\
  In (Split f32A k rg (Some tl)) files /\ (rg_start rg, rg_end rg) = (100, 200) /\ active tl g /\ ~ described tl g.
Proof. exact split_spans. Qed.
Print Assumptions C45_span_refuted.
Theorem C45_edge_refuted : exists thr cpt wl stt files k rg tl g, proper wl /\ proper_cpt cpt /\ 0 < thr /\ tl_run thr cpt wl = Ok (Stats stt, files) /\
  In (Split f32A k rg (Some tl)) files /\ (rg_start rg, rg_end rg) = (0, 100) /\ active tl g /\ ~ described tl g.
Proof. exact split_edge. Qed.
Print Assumptions C45_edge_refuted.
(* the full file lists and describes groups 0 and 1 *)
Example C45_example :
  match tl_run 10 100 wl_edge with
  | Ok (_, [FullV1 _ (Some tl)]) => Some (map (tp_active f32A) (tl_steps f32A tl), map (tg_id f32A) (tl_groups f32A tl))
  | _ => None
  end = Some ([[0; 1]; [1]; []], [0; 1]).
Proof. vm_compute. reflexivity. Qed.

(** * C46: Transfer groups in the timeline partition the transfers *)
(* when the group ids in use were registered *)
Theorem C46_groups : forall A ord bord, bucket_order bord -> forall gord, map_order gord -> forall d cpt wl, proper wl -> proper_cpt cpt ->
  forall model sf, (forall t, In t (all_transfers wl) -> grouped t -> t_gid t < wl_groups wl) ->
  wl_groups wl + Z.of_nat (List.length (all_transfers wl)) < 2 ^ 31 -> succeeds A ord bord d (negb (String.eqb model "none")) cpt wl sf ->
  exists gs, group_transfers wl (sm_sts A sf) = Ok gs /\ check_groups (wl_groups wl) (gord (gs_groups gs)) (gs_ids gs) = Ok tt /\ NoDup (map fst (gs_groups gs)) /\
    (forall g id, in_group (gs_groups gs) g id -> exists t, In t (all_transfers wl) /\ id = t_id t) /\
    forall t, In t (all_transfers wl) -> exists g, (forall g', in_group (gs_groups gs) g' (t_id t) <-> g' = g) /\
      (grouped t -> g = t_gid t) /\
      (~ grouped t -> wl_groups wl <= g /\ forall id, in_group (gs_groups gs) g id -> id = t_id t).
Proof. exact run_groups. Qed.
Print Assumptions C46_groups.
(* removeLocalUnicastTransfers forgets the number of registered groups *)
Theorem C46_removal_refuted : exists thr cpt wl wl', proper wl /\ proper_cpt cpt /\ 0 < thr /\ (forall t, In t (all_transfers wl) -> grouped t -> t_gid t < wl_groups wl) /\
  (exists r, tl_run thr cpt wl = Ok r) /\ removeLocalUnicastTransfers wl = Ok wl' /\ proper wl' /\ tl_run thr cpt wl' = Throw UNDEF_ERR.
Proof. exact groups_removed. Qed.
Print Assumptions C46_removal_refuted.
Theorem C46_unregistered_refuted : exists thr cpt wl, proper wl /\ proper_cpt cpt /\ 0 < thr /\ tl_run thr cpt wl = Throw UNDEF_ERR /\
  exists r, runSinglePerfSim f32A same_links same_buckets wormhole_b0 "fast" cpt wl = Ok r.
Proof. exact groups_unregistered. Qed.
Print Assumptions C46_unregistered_refuted.
Example C46_example : (* two transfers in group 0, one in dummy group 1 *)
  match simulate f32A same_links same_buckets wormhole_b0 true 100 wl_group with
  | Ok (inl s) => match group_transfers wl_group (sm_sts f32A s) with Ok gs => Some (gs_groups gs) | _ => None end
  | _ => None
  end = Some [(0, [0; 1]); (1, [2])].
Proof. vm_compute. reflexivity. Qed.
