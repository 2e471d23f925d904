(* Witnesses for C44-C46. *)
From Coq Require Import ZArith Arith Lia String List Bool Sorting.Permutation ZifyBool ZifyNat.
From Verif Require Import Base Arith Util Device SpecDevice Workload SpecWorkload Rates Stats Engine Api SpecEngine SpecStats Cases EngineWitness Timeline SpecTimeline.
Import ListNotations.
Local Open Scope list_scope.
Open Scope Z_scope.

Definition same_groups (m : gmap) : gmap := m.
Definition same_zones (m : zone_map) : zone_map := m.
Lemma same_groups_order : map_order same_groups. Proof. intros l. apply Permutation_refl. Qed.

Definition tl_run (thr cpt : Z) (wl : workload (F f32A)) : outcome (npe_result f32A * list (content f32A)) :=
  runWithTimeline f32A same_links same_buckets same_groups same_zones TopoUnset false thr wormhole_b0 "fast" cpt wl.
(* (range, region, intervals of the timesteps, active groups, described groups) of each split file, and intervals of all timesteps *)
Definition file_view {A} (c : content A) : list ((Z * Z) * (Z * Z) * list (Z * Z) * list Z * list Z) :=
  match c with
  | Split _ _ rg (Some tl) => [((rg_first rg, rg_last rg), (rg_start rg, rg_end rg), step_intervals tl, flat_map (tp_active A) (tl_steps A tl), map (tg_id A) (tl_groups A tl))]
  | _ => []
  end.
Definition tl_view {A} (r : outcome (npe_result A * list (content A))) :=
  match r with
  | Ok (Stats stt, files) => match stats_get A stt MESH_DEVICE with Some ds => Some (intervals ds, flat_map file_view files) | None => None end
  | _ => None
  end.
Lemma tl_view_ok {A} r iv fs : @tl_view A r = Some (iv, fs) -> exists stt files ds, r = Ok (Stats stt, files) /\ stats_get A stt MESH_DEVICE = Some ds /\ intervals ds = iv /\
  (forall v, In v fs -> exists k rg tl, In (Split A k rg (Some tl)) files /\ file_view (Split A k rg (Some tl)) = [v]) /\
  (forall k rg tl, In (Split A k rg (Some tl)) files -> exists v, In v fs /\ file_view (Split A k rg (Some tl)) = [v]).
Proof.
  unfold tl_view. destruct r as [[[stt|] files]| | | | | |]; try discriminate. destruct (stats_get A stt MESH_DEVICE) as [ds|] eqn:E; [|discriminate]. intros H. injection H as <- <-.
  exists stt, files, ds. split; [reflexivity|]. split; [assumption|]. split; [reflexivity|]. split.
  2: { intros k rg tl Hin. eexists. split; [|reflexivity]. apply in_flat_map. exists (Split A k rg (Some tl)). split; [assumption|]. left. reflexivity. }
  intros v Hv. apply in_flat_map in Hv as (c & Hc & Hv).
  destruct c as [|o|k rg [tl|]]; try (destruct Hv; fail). exists k, rg, tl. split; [assumption|]. destruct Hv as [<-|[]]. reflexivity.
Qed.

(* one transfer over four timesteps *)
Definition wl_long : workload (F f32A) := build f32A [xfer f32A 350 (0,1,1) (0,1,5) 0].
(* the second transfer starts when the first timestep ends *)
Definition wl_edge : workload (F f32A) := build f32A [xfer f32A 10 (0,1,1) (0,1,5) 0; xfer f32A 100 (0,1,1) (0,1,5) 100].
(* three registered hops of one group, and a local transfer *)
Definition wl_group : workload (F f32A) :=
  match registerTransferGroupID (build f32A [hop f32A 100 (0,1,1) (0,1,5) 0 0 0 (-1); hop f32A 100 (0,1,5) (0,1,8) 0 0 1 0; xfer f32A 10 (0,1,1) (0,1,1) 0]) with
  | Ok (w, _) => w
  | _ => empty_workload
  end.
Definition wl_group' : workload (F f32A) := match removeLocalUnicastTransfers wl_group with Ok w => w | _ => empty_workload end.

Lemma share_proper : proper (wl_share f32A). Proof. proper. Qed.
Lemma long_proper : proper wl_long. Proof. proper. Qed.
Lemma edge_proper : proper wl_edge. Proof. proper. Qed.
Lemma group_proper : proper wl_group. Proof. proper. Qed.
Lemma group_proper' : proper wl_group'. Proof. proper. Qed.

(* timestep [200,300) is in no split file *)
Lemma split_loses : exists thr cpt wl stt files ds i, proper wl /\ proper_cpt cpt /\ 0 < thr /\ tl_run thr cpt wl = Ok (Stats stt, files) /\
  stats_get f32A stt MESH_DEVICE = Some ds /\ In i (intervals ds) /\ nonempty i = true /\
  forall k rg tl, In (Split f32A k rg (Some tl)) files -> ~ In i (step_intervals tl).
Proof.
  assert (V : tl_view (tl_run 2 100 (wl_share f32A)) = Some ([(0, 100); (100, 200); (200, 300); (0, 0)],
    [((0, 2), (0, 200), [(0, 100); (100, 200); (0, 0)], [0; 1; 0; 1], [0; 1]); ((2, 4), (200, 0), [], [], [])])) by (vm_compute; reflexivity).
  destruct (tl_view_ok _ _ _ V) as (stt & files & ds & R & D & IV & _ & K). exists 2, 100, (wl_share f32A), stt, files, ds, (200, 300).
  split; [exact share_proper|]. split; [unfold proper_cpt; lia|]. split; [reflexivity|]. split; [exact R|]. split; [exact D|]. split; [rewrite IV; right; right; left; reflexivity|]. split; [reflexivity|].
  intros k rg tl Hin H. destruct (K k rg tl Hin) as (v & Hv & E). cbn [file_view] in E. destruct Hv as [<-|[<-|[]]]; injection E as _ _ _ _ E _ _; rewrite E in H; cbn in H; intuition discriminate.
Qed.
(* a threshold of zero *)
Lemma split_zero : exists cpt wl, proper wl /\ proper_cpt cpt /\ (exists r, runSinglePerfSim f32A same_links same_buckets wormhole_b0 "fast" cpt wl = Ok r) /\ tl_run 0 cpt wl = UB "division by zero".
Proof.
  exists 100, (wl_share f32A). split; [exact share_proper|]. split; [unfold proper_cpt; lia|]. split.
  - assert (V : match runSinglePerfSim f32A same_links same_buckets wormhole_b0 "fast" 100 (wl_share f32A) with Ok _ => true | _ => false end = true) by (vm_compute; reflexivity).
    destruct (runSinglePerfSim _ _ _ _ _ _ _) as [r| | | | | |]; try discriminate V. exists r. reflexivity.
  - assert (V : match tl_run 0 100 (wl_share f32A) with UB s => Some s | _ => None end = Some "division by zero"%string) by (vm_compute; reflexivity).
    destruct (tl_run 0 100 (wl_share f32A)); try discriminate V. injection V as ->. reflexivity.
Qed.
Lemma missing thr cpt wl iv fs v : tl_view (tl_run thr cpt wl) = Some (iv, fs) -> In v fs -> forall g, In g (snd (fst v)) -> ~ In g (snd v) ->
  exists stt files k rg tl, tl_run thr cpt wl = Ok (Stats stt, files) /\ In (Split f32A k rg (Some tl)) files /\ (rg_start rg, rg_end rg) = snd (fst (fst (fst v))) /\ active tl g /\ ~ described tl g.
Proof.
  intros V Hv g H1 H2. destruct (tl_view_ok _ _ _ V) as (stt & files & ds & R & D & IV & K & _). destruct (K v Hv) as (k & rg & tl & Hin & E).
  exists stt, files, k, rg, tl. split; [exact R|]. split; [exact Hin|]. cbn [file_view] in E. injection E as <-. cbn [fst snd] in *. split; [reflexivity|]. split.
  - apply in_flat_map in H1 as (p & Hp & Hg). exists p. split; assumption.
  - intros (tg & Ht & E). apply H2. rewrite <- E. apply in_map, Ht.
Qed.
(* a transfer that spans the region: cycles 0 to 354, region [100,200) *)
Lemma split_spans : exists thr cpt wl stt files k rg tl g, proper wl /\ proper_cpt cpt /\ 0 < thr /\ tl_run thr cpt wl = Ok (Stats stt, files) /\
  In (Split f32A k rg (Some tl)) files /\ (rg_start rg, rg_end rg) = (100, 200) /\ active tl g /\ ~ described tl g.
Proof.
  assert (V : tl_view (tl_run 1 100 wl_long) = Some ([(0, 100); (100, 200); (200, 300); (300, 400); (0, 0)],
    [((0, 1), (0, 100), [(0, 100); (0, 0)], [0], [0]); ((1, 2), (100, 200), [(100, 200)], [0], []); ((2, 3), (200, 300), [(200, 300)], [0], []);
     ((3, 4), (300, 400), [(300, 400)], [0], [0]); ((4, 5), (0, 0), [(0, 0)], [], [])])) by (vm_compute; reflexivity).
  destruct (missing _ _ _ _ _ ((1, 2), (100, 200), [(100, 200)], [0], []) V) with (g := 0) as (stt & files & k & rg & tl & R & H1 & H2 & H3 & H4); [right; left; reflexivity|left; reflexivity|exact (fun x => x)|].
  exists 1, 100, wl_long, stt, files, k, rg, tl, 0. split; [exact long_proper|]. split; [unfold proper_cpt; lia|]. split; [reflexivity|]. auto.
Qed.
(* a transfer that starts in the last cycle of the region: cycle 100, region [0,100) *)
Lemma split_edge : exists thr cpt wl stt files k rg tl g, proper wl /\ proper_cpt cpt /\ 0 < thr /\ tl_run thr cpt wl = Ok (Stats stt, files) /\
  In (Split f32A k rg (Some tl)) files /\ (rg_start rg, rg_end rg) = (0, 100) /\ active tl g /\ ~ described tl g.
Proof.
  assert (V : tl_view (tl_run 1 100 wl_edge) = Some ([(0, 100); (100, 200); (0, 0)],
    [((0, 1), (0, 100), [(0, 100); (0, 0)], [0; 1], [0]); ((1, 2), (100, 200), [(100, 200)], [1], [1]); ((2, 3), (0, 0), [(0, 0)], [], [])])) by (vm_compute; reflexivity).
  destruct (missing _ _ _ _ _ ((0, 1), (0, 100), [(0, 100); (0, 0)], [0; 1], [0]) V) with (g := 1) as (stt & files & k & rg & tl & R & H1 & H2 & H3 & H4); [left; reflexivity|right; left; reflexivity|cbn; lia|].
  exists 1, 100, wl_edge, stt, files, k, rg, tl, 1. split; [exact edge_proper|]. split; [unfold proper_cpt; lia|]. split; [reflexivity|]. auto.
Qed.

Lemma tl_throw thr cpt wl e : match tl_run thr cpt wl with Throw e => Some e | _ => None end = Some e -> tl_run thr cpt wl = Throw e.
Proof. destruct (tl_run thr cpt wl); intros V; try discriminate V. injection V as ->. reflexivity. Qed.
(* after removeLocalUnicastTransfers no group counts as registered *)
Lemma groups_removed : exists thr cpt wl wl', proper wl /\ proper_cpt cpt /\ 0 < thr /\ (forall t, In t (all_transfers wl) -> grouped t -> t_gid t < wl_groups wl) /\
  (exists r, tl_run thr cpt wl = Ok r) /\ removeLocalUnicastTransfers wl = Ok wl' /\ proper wl' /\ tl_run thr cpt wl' = Throw UNDEF_ERR.
Proof.
  exists 10, 100, wl_group, wl_group'. split; [exact group_proper|]. split; [unfold proper_cpt; lia|]. split; [reflexivity|]. split.
  { replace (wl_groups wl_group) with 1 by (vm_compute; reflexivity). intros t Ht. assert (E : map (@t_gid _) (all_transfers wl_group) = [0; 0; -1]) by (vm_compute; reflexivity).
    apply (in_map (@t_gid _)) in Ht. rewrite E in Ht. cbn [In] in Ht. lia. }
  split. { assert (V : match tl_run 10 100 wl_group with Ok _ => true | _ => false end = true) by (vm_compute; reflexivity).
    destruct (tl_run 10 100 wl_group) as [r| | | | | |]; try discriminate V. exists r. reflexivity. }
  split; [vm_compute; reflexivity|]. split; [exact group_proper'|]. apply tl_throw. vm_compute. reflexivity.
Qed.
(* dummy ids start at the number of registered groups, not above the ids in use *)
Lemma groups_unregistered : exists thr cpt wl, proper wl /\ proper_cpt cpt /\ 0 < thr /\ tl_run thr cpt wl = Throw UNDEF_ERR /\
  exists r, runSinglePerfSim f32A same_links same_buckets wormhole_b0 "fast" cpt wl = Ok r.
Proof.
  exists 10, 100, (wl_hops1 f32A). split; [exact hops1_case|]. split; [unfold proper_cpt; lia|]. split; [reflexivity|]. split; [apply tl_throw; vm_compute; reflexivity|].
  assert (V : match runSinglePerfSim f32A same_links same_buckets wormhole_b0 "fast" 100 (wl_hops1 f32A) with Ok _ => true | _ => false end = true) by (vm_compute; reflexivity).
  destruct (runSinglePerfSim _ _ _ _ _ _ _) as [r| | | | | |]; try discriminate V. exists r. reflexivity.
Qed.
