(* Runs with lower injection rates (C95). *)
From Coq Require Import ZArith String List Bool Lia Floats.SpecFloat.
From Verif Require Import Base Arith Util Device Workload SpecWorkload DepTracker Rates Stats Engine SpecRates UtilProofs RunProofs SpecEngine Cases EngineWitness RatesWitness SpecAlone AloneWitness CongestWitness SpecLoad SpecPace GrowWitness.
Import ListNotations.
Local Open Scope string_scope.
Local Open Scope list_scope.
Open Scope Z_scope.

(* a long transfer and one that shares links with it, at 28.1, 1.9 and 1.0 bytes per cycle *)
Definition wl_brisk : workload (F f32A) := build f32A [packets 281 28100 1 (0,1,1) (0,1,5); packets 281 1500 1 (0,1,2) (0,1,6)].
Definition wl_calm : workload (F f32A) := build f32A [packets 281 28100 1 (0,1,1) (0,1,5); packets 19 1500 1 (0,1,2) (0,1,6)].
Definition wl_idle : workload (F f32A) := build f32A [packets 281 28100 1 (0,1,1) (0,1,5); packets 10 1500 1 (0,1,2) (0,1,6)].
Lemma brisk_case : proper wl_brisk. Proof. proper. Qed.
Lemma calm_case : proper wl_calm. Proof. proper. Qed.
Lemma idle_case : proper wl_idle. Proof. proper. Qed.
Lemma brisk_sound : Forall sound_transfer (all_transfers wl_brisk). Proof. sound. Qed.
Lemma calm_sound : Forall sound_transfer (all_transfers wl_calm). Proof. sound. Qed.
Lemma idle_sound : Forall sound_transfer (all_transfers wl_idle). Proof. sound. Qed.
Ltac slowed := intros i t Ht; destruct i as [|[|i]]; [..|destruct i; discriminate Ht]; vm_compute in Ht; injection Ht as <-;
    (eexists; split; [vm_compute; reflexivity|]; split; [split; [right; split; reflexivity|]; split; [discriminate|]; split; [vm_compute; reflexivity|reflexivity]|reflexivity]).
Lemma brisk_calm : slowed (fun i => i) wl_brisk wl_calm. Proof. slowed. Qed.
Lemma brisk_idle : slowed (fun i => i) wl_brisk wl_idle. Proof. slowed. Qed.

(* without congestion *)
Lemma pace_runs : exists s s' x x', succeeds f32A same_links same_buckets wormhole_b0 false 200 wl_brisk s /\ succeeds f32A same_links same_buckets wormhole_b0 false 200 wl_idle s' /\
  sm_curr f32A s < 2 ^ 24 /\ sm_curr f32A s' < 2 ^ 24 /\ nth_error (sm_sts f32A s) 1 = Some x /\ nth_error (sm_sts f32A s') 1 = Some x' /\
  s_end x = 54 /\ s_end x' = 1500 /\ no_faster (s_tr x) (s_tr x') /\
  (forall i j dl, ~ waits f32A s i j dl) /\ (forall i j dl, ~ waits f32A s' i j dl).
Proof.
  run wormhole_b0 false 200 wl_brisk. view. destruct H as (HC0 & HL & _). at_nth 0%nat y. at_nth 1%nat x. rename s into s0, HS into HS0. clear H0 HV.
  run wormhole_b0 false 200 wl_idle. view. destruct H0 as (HC1 & HL1 & _). at_nth 0%nat y'. at_nth 1%nat x'. rename s into s1, HS into HS1.
  exists s0, s1, x, x'. split; [exact HS0|]. split; [exact HS1|]. split; [rewrite HC0; reflexivity|]. split; [rewrite HC1; reflexivity|]. do 2 (split; [assumption|]). split; [assumption|]. split; [assumption|]. split.
  { unfold no_faster. repeat match goal with H : s_tr _ = _ |- _ => rewrite H end. repeat match goal with H : s_tr ?z = ?t |- _ => change (@s_tr spec_float z = t) in H; rewrite H; clear H end. split; [right; split; reflexivity|]. split; [discriminate|]. split; [vm_compute; reflexivity|reflexivity]. }
  split; apply no_waits; intros i z Hz.
  - assert (Hi : (i < List.length (sm_sts f32A s0))%nat) by (apply nth_error_Some; congruence). rewrite HL in Hi. cbn [List.length] in Hi. destruct i as [|[|i]]; [..|exfalso; lia]; cbn [nth_error] in Hz; known Hz.
  - assert (Hi : (i < List.length (sm_sts f32A s1))%nat) by (apply nth_error_Some; congruence). rewrite HL1 in Hi. cbn [List.length] in Hi. destruct i as [|[|i]]; [..|exfalso; lia]; cbn [nth_error] in Hz; known Hz.
Qed.
Lemma pace_stats model cpt wl e : est_of (runSinglePerfSim f32A same_links same_buckets wormhole_b0 model cpt wl) 0 = Some e ->
  exists stt ds, runSinglePerfSim f32A same_links same_buckets wormhole_b0 model cpt wl = Ok (Stats stt) /\ stats_get f32A stt 0 = Some ds /\ ds_est f32A ds = e.
Proof.
  unfold est_of. destruct (runSinglePerfSim _ _ _ _ _ _ _) as [[stt|]| | | | | |]; try discriminate. intros H. exists stt. destruct (stats_get f32A stt 0) as [ds|]; [|discriminate]. injection H as H. eauto.
Qed.
Lemma pace_estimates : est_of (runSinglePerfSim f32A same_links same_buckets wormhole_b0 "none" 200 wl_brisk) 0 = Some 1000 /\ est_of (runSinglePerfSim f32A same_links same_buckets wormhole_b0 "none" 200 wl_idle) 0 = Some 1500.
Proof. split; vm_compute; reflexivity. Qed.
Ltac golden a := let E1 := fresh in intros id g; unfold getGoldenResultCycles; let v := eval vm_compute in (wl_golden a) in assert (E1 : wl_golden a = v) by (vm_compute; reflexivity); rewrite E1;
  unfold golden_get; cbn [find fst snd map]; let H := fresh in destruct (0 =? id), (1 =? id), (-1 =? id); intros H; try discriminate H; injection H as <-; cbn; lia.
Lemma pace_golden : (forall id, getGoldenResultCycles wl_idle id = getGoldenResultCycles wl_brisk id) /\ (forall id, getGoldenResultCycles wl_calm id = getGoldenResultCycles wl_brisk id) /\
  forall id g, getGoldenResultCycles wl_brisk id = Ok g -> 0 <= fst g.
Proof.
  assert (E : wl_golden wl_idle = wl_golden wl_brisk) by (vm_compute; reflexivity). assert (E' : wl_golden wl_calm = wl_golden wl_brisk) by (vm_compute; reflexivity).
  split; [intros id; unfold getGoldenResultCycles; rewrite E; reflexivity|]. split; [intros id; unfold getGoldenResultCycles; rewrite E'; reflexivity|]. golden wl_brisk.
Qed.

(* with congestion the slower second transfer leaves more to the first *)
Lemma calm_runs : exists wl wl' stt stt' ds ds', proper wl /\ proper wl' /\ validate wormhole_b0 wl = Ok true /\ validate wormhole_b0 wl' = Ok true /\
  Forall sound_transfer (all_transfers wl) /\ Forall sound_transfer (all_transfers wl') /\ slowed (fun i => i) wl wl' /\ (forall id, getGoldenResultCycles wl' id = getGoldenResultCycles wl id) /\
  runSinglePerfSim f32A same_links same_buckets wormhole_b0 "fast" 200 wl = Ok (Stats stt) /\ runSinglePerfSim f32A same_links same_buckets wormhole_b0 "fast" 200 wl' = Ok (Stats stt') /\
  stats_get f32A stt 0 = Some ds /\ stats_get f32A stt' 0 = Some ds' /\ ds_est f32A ds = 1246 /\ ds_est f32A ds' = 1171.
Proof.
  destruct (pace_stats "fast" 200 wl_brisk 1246 ltac:(vm_compute; reflexivity)) as (stt & ds & H & G & E). destruct (pace_stats "fast" 200 wl_calm 1171 ltac:(vm_compute; reflexivity)) as (stt' & ds' & H' & G' & E').
  exists wl_brisk, wl_calm, stt, stt', ds, ds'. split; [exact brisk_case|]. split; [exact calm_case|]. split; [vm_compute; reflexivity|]. split; [vm_compute; reflexivity|]. split; [exact brisk_sound|]. split; [exact calm_sound|].
  split; [exact brisk_calm|]. split; [apply pace_golden|]. auto 7.
Qed.
