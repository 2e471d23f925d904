(* Witnesses for C69. *)
From Coq Require Import ZArith Arith QArith Reals Lra Lia Bool String List Permutation Sorting.Sorted ZifyBool ZifyNat Floats.SpecFloat.
From Flocq Require Import Core IEEE754.BinarySingleNaN.
From Verif Require Import Base Arith Util Device SpecDevice Workload SpecWorkload Rates Stats Engine SpecEngine SpecRates SpecStats Files Report SpecReport SpecSummary Cases EngineWitness RatesWitness StatsWitness SummaryWitness ReportProofs.
Import ListNotations.
Local Open Scope string_scope.
Local Open Scope list_scope.
Open Scope Z_scope.

(* to three Ethernet cores *)
Definition wl_cores A : workload (F A) := build A [xfer A 100 (0,2,1) (0,6,3) 0; xfer A 10 (0,2,2) (0,6,1) 0; xfer A 40 (0,2,3) (0,6,2) 0].
Definition eth_view {A} (r : outcome (npe_result A)) (id : Z) : option (Z * list (coord * D A)) :=
  match r with Ok (Stats stt) => match stats_get A stt id with Some ds => Some (ds_golden A ds, ds_eth A ds) | None => None end | _ => None end.
Lemma eth_view_ok A r id g l : @eth_view A r id = Some (g, l) -> exists stt ds, r = Ok (Stats stt) /\ stats_get A stt id = Some ds /\ ds_golden A ds = g /\ ds_eth A ds = l.
Proof.
  unfold eth_view. destruct r as [[stt|]| | | | | |]; try discriminate. destruct (stats_get A stt id) as [ds|] eqn:E; [|discriminate]. intros H. injection H as <- <-. exists stt, ds. auto.
Qed.
Lemma cores_case : proper (wl_cores f32A). Proof. apply proper_case; vm_compute; reflexivity. Qed.
Lemma cores_run : eth_view (runSinglePerfSim f32A same_links same_buckets wormhole_b0 "fast" 100 (wl_cores f32A)) 0 =
  Some (1000, [(mkCoord 0 6 3, S754_finite false 7205759403792794 (-53)); (mkCoord 0 6 1, S754_finite false 5764607523034235 (-56)); (mkCoord 0 6 2, S754_finite false 5764607523034235 (-54))]).
Proof. vm_compute. reflexivity. Qed.
(* another order of the hash map, another double *)
Lemma order_matters : exists wl stt ds l, proper wl /\ wl_next wl <= 2 ^ 32 /\ runSinglePerfSim f32A same_links same_buckets wormhole_b0 "fast" 100 wl = Ok (Stats stt) /\ stats_get f32A stt 0 = Some ds /\
  0 < ds_golden f32A ds /\ Permutation l (ds_eth f32A ds) /\ getAggregateEthBwUtil f32A (reordered f32A ds l) <> getAggregateEthBwUtil f32A ds.
Proof.
  destruct (eth_view_ok _ _ _ _ _ cores_run) as (stt & ds & HR & HD & HG & HE). exists (wl_cores f32A), stt, ds, (rev (ds_eth f32A ds)).
  split; [exact cores_case|]. split; [vm_compute; discriminate|]. split; [exact HR|]. split; [exact HD|]. split; [rewrite HG; reflexivity|]. split; [symmetry; apply Permutation_rev|].
  unfold getAggregateEthBwUtil. cbn [reordered ds_eth]. rewrite HE. vm_compute. discriminate.
Qed.
(* last three digits of the significand *)
Definition three_digits (x : spec_float) : string := match x with S754_finite _ m _ => decimal (Zpos m mod 1000) | _ => "0" end.
Lemma cores_words : exists stt ds, runSinglePerfSim f32A same_links same_buckets wormhole_b0 "fast" 100 (wl_cores f32A) = Ok (Stats stt) /\ stats_get f32A stt 0 = Some ds /\
  getEthBwUtilPerCoreStr f32A three_digits ds = "(0,6,1):235% (0,6,2):235% (0,6,3):794%".
Proof.
  destruct (eth_view_ok _ _ _ _ _ cores_run) as (stt & ds & HR & HD & HG & HE). exists stt, ds. split; [exact HR|]. split; [exact HD|]. unfold getEthBwUtilPerCoreStr. rewrite HE. vm_compute. reflexivity.
Qed.
Lemma estimates_get A r k e c rest : @estimates A r = Some ((k, (e, c)) :: rest) -> exists stt ds, r = Ok (Stats stt) /\ stats_get A stt k = Some ds /\ ds_est A ds = e /\ ds_congfree A ds = c.
Proof.
  unfold estimates. destruct r as [[stt|]| | | | | |]; try discriminate. intros H. destruct stt as [|[k0 ds] stt]; [discriminate H|]. cbn [map fst snd] in H. injection H as <- <- <- _.
  exists ((k0, ds) :: stt), ds. cbn [stats_get]. rewrite Z.eqb_refl. auto.
Qed.
(* congestion takes 86 of 206 cycles; the result reports no impact *)
Lemma impact_hidden : exists cfg wl stt ds stt0 ds0, cf_impact cfg = true /\ proper wl /\ proper_cpt (cf_cpt cfg) /\
  runPerfEstimation f32A same_links same_buckets wormhole_b0 cfg wl = Ok (Stats stt) /\ stats_get f32A stt 0 = Some ds /\
  runSinglePerfSim f32A same_links same_buckets wormhole_b0 "none" (cf_cpt cfg) wl = Ok (Stats stt0) /\ stats_get f32A stt0 0 = Some ds0 /\
  (40 < saving (ds_est f32A ds) (ds_est f32A ds0))%R /\ getCongestionImpact f32A ds = S754_zero false.
Proof.
  destruct impact_run as [H1 H2]. destruct (estimates_get _ _ _ _ _ _ H1) as (stt & ds & R1 & D1 & E1 & C1). destruct (estimates_get _ _ _ _ _ _ H2) as (stt0 & ds0 & R0 & D0 & E0 & _).
  exists impact_cfg, (wl_share f32A), stt, ds, stt0, ds0. split; [reflexivity|]. split; [exact share_case|]. split; [unfold proper_cpt; cbn; lia|]. split; [exact R1|]. split; [exact D1|]. split; [exact R0|]. split; [exact D0|].
  split; [rewrite E1, E0; unfold saving; lra|]. apply impact_equal; [rewrite E1; split; reflexivity || discriminate|right; congruence].
Qed.
