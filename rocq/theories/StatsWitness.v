(* Witnesses for C41-C43. *)
From Coq Require Import ZArith Arith QArith Lia String List Bool Floats.SpecFloat ZifyBool ZifyNat.
From Verif Require Import Base Arith Util Device SpecDevice Workload SpecWorkload Rates Stats Engine SpecEngine SpecRates SpecStats Cases EngineWitness RatesWitness FactoryProofs StatsAvg StatsRat StatsFloat.
Import ListNotations.
Local Open Scope list_scope.
Open Scope Z_scope.

Definition ts_view {A} (r : outcome (npe_result A)) (id : Z) : option (Z * list (Z * Z) * list (D A) * Z) :=
  match r with
  | Ok (Stats stt) => match stats_get A stt id with Some ds => Some (ds_est A ds, intervals ds, map (ts_avg_lu A) (ds_ts A ds), Z.of_nat (List.length (ds_ts A ds))) | None => None end
  | _ => None
  end.
Lemma ts_view_ok A r id e iv us n : @ts_view A r id = Some (e, iv, us, n) ->
  exists stt ds, r = Ok (Stats stt) /\ stats_get A stt id = Some ds /\ ds_est A ds = e /\ intervals ds = iv /\ map (ts_avg_lu A) (ds_ts A ds) = us /\ Z.of_nat (List.length (ds_ts A ds)) = n.
Proof.
  unfold ts_view. destruct r as [[stt|]| | | | | |]; try discriminate. destruct (stats_get A stt id) as [ds|] eqn:E; [|discriminate]. intros H. injection H as <- <- <- <-. eauto 10.
Qed.
Lemma share_view : ts_view (runSinglePerfSim f32A same_links same_buckets wormhole_b0 "fast" 100 (wl_share f32A)) MESH_DEVICE =
  Some (206, [(0, 100); (100, 200); (200, 300); (0, 0)],
        [S754_finite false 7205759212905358 (-57); S754_finite false 8006399337547548 (-57); S754_finite false 8006399337547548 (-58); S754_zero false], 4).
Proof. vm_compute. reflexivity. Qed.
Lemma negative_view : ts_view (runSinglePerfSim f32A same_links same_buckets wormhole_b0 "fast" 100 (wl_negative f32A)) MESH_DEVICE =
  Some (5, [(0, 100); (0, 0)], [S754_finite true 8006399337547548 (-58); S754_zero false], 2).
Proof. vm_compute. reflexivity. Qed.
Lemma mesh_stats d : has_stats d MESH_DEVICE. Proof. right. reflexivity. Qed.
Lemma wormhole_made : made wormhole_b0. Proof. exists "wormhole_b0"%string. vm_compute. reflexivity. Qed.

(* C41: a dummy timestep *)
Lemma dummy_timestep : exists wl stt ds, proper wl /\ runSinglePerfSim f32A same_links same_buckets wormhole_b0 "fast" 100 wl = Ok (Stats stt) /\
  stats_get f32A stt MESH_DEVICE = Some ds /\ ds_est f32A ds = 206 /\ intervals ds = [(0, 100); (100, 200); (200, 300); (0, 0)].
Proof.
  exists (wl_share f32A). destruct (ts_view_ok _ _ _ _ _ _ _ share_view) as (stt & ds & H1 & H2 & H3 & H4 & _). exists stt, ds. split; [exact share_case|]. auto.
Qed.
(* C42: a negative utilisation *)
Lemma negative_utilisation : exists wl stt ds, proper wl /\ validate wormhole_b0 wl = Ok true /\ runSinglePerfSim f32A same_links same_buckets wormhole_b0 "fast" 100 wl = Ok (Stats stt) /\
  stats_get f32A stt MESH_DEVICE = Some ds /\ map (ts_avg_lu f32A) (ds_ts f32A ds) = [S754_finite true 8006399337547548 (-58); S754_zero false].
Proof.
  exists (wl_negative f32A). destruct (ts_view_ok _ _ _ _ _ _ _ negative_view) as (stt & ds & H1 & H2 & H3 & H4 & H5 & _). exists stt, ds. split; [exact negative_case|]. split; [vm_compute; reflexivity|]. auto.
Qed.

Lemma infinite_demands : exists g, List.length (g_link g) = List.length (link_table wormhole_b0) /\ List.length (g_mc g) = List.length (link_table wormhole_b0) /\
  Forall not_negative (g_link g) /\ Forall not_negative (g_mc g).
Proof.
  exists (mkGrids [] (map (fun _ => S754_infinity false) (link_table wormhole_b0)) (map (fun _ => S754_infinity false) (link_table wormhole_b0))). cbn [g_link g_mc]. rewrite !map_length.
  split; [reflexivity|]. split; [reflexivity|]. split; apply Forall_forall; intros x Hx; apply in_map_iff in Hx as (? & <- & _); split; reflexivity.
Qed.

(* C43: demand 1 everywhere, two chips *)
Definition n300 : device := mkDevice ClsMultichip 12 10 2 12.
Lemma n300_made : made n300. Proof. exists "N300"%string. vm_compute. reflexivity. Qed.
Definition ones {X} (l : list X) : list Q := map (fun _ => 1%Q) l.
Definition one_grids (d : device) : grids (F ratA) := mkGrids (map Some (ones (niu_table d))) (map Some (ones (link_table d))) (map Some (ones (link_table d))).
Lemma one_exact d : exact_grids d (one_grids d) (ones (link_table d)) (ones (link_table d)) (ones (niu_table d)).
Proof. unfold exact_grids, one_grids, ones. cbn [g_link g_mc g_niu]. rewrite !map_length. auto 10. Qed.
Lemma n300_chip : has_stats n300 1. Proof. left. vm_compute. auto. Qed.
Lemma n300_percent : (percent (qval (link_bandwidth ratA n300)) (select (niu_on 1) (niu_table n300) (ones (niu_table n300))) == 10 # 3)%Q.
Proof. vm_compute. reflexivity. Qed.
Lemma niu_halved : exists g link mc niu, exact_grids n300 g link mc niu /\ has_stats n300 1 /\
  (percent (qval (link_bandwidth ratA n300)) (select (niu_on 1) (niu_table n300) niu) == 10 # 3)%Q /\
  forall live s e, (qval (ts_avg_nd ratA (device_timestep ratA n300 g live 1 (fresh_ts ratA s e))) == 5 # 3)%Q.
Proof.
  exists (one_grids n300), (ones (link_table n300)), (ones (link_table n300)), (ones (niu_table n300)). split; [apply one_exact|]. split; [exact n300_chip|]. split; [exact n300_percent|].
  intros live s e. rewrite (niu_average n300 (made_wf _ n300_made) _ _ _ _ (one_exact n300) live 1 n300_chip s e). rewrite n300_percent. reflexivity.
Qed.
Lemma chip_averages : (percent (qval (link_bandwidth ratA n300)) (select (link_on 1) (link_table n300) (ones (link_table n300))) == 10 # 3)%Q.
Proof. vm_compute. reflexivity. Qed.
