(* Runs with and without congestion (C89): one that is faster with it, one that is slower. *)
From Coq Require Import ZArith String List Bool Lia Floats.SpecFloat.
From Verif Require Import Base Arith Util Device Workload SpecWorkload DepTracker Rates Stats Engine SpecRates UtilProofs RunProofs SpecEngine Cases EngineWitness RatesWitness SpecAlone AloneWitness.
Import ListNotations.
Local Open Scope string_scope.
Local Open Scope list_scope.
Open Scope Z_scope.

(* the third transfer waits for the first, which congestion delays to exactly the end of its timestep: then the third is credited with one timestep twice *)
Definition paced_xfer (rate bytes : Z) (src dst : Z * Z * Z) (off : Z) : transfer (F f32A) :=
  tr_make bytes 1 (at_core src) (Unicast (at_core dst)) (f_lit f32A rate 10) off NOC0 "" "WRITE" (-1) (-1) (-1).
Definition wl_jam : workload (F f32A) :=
  build f32A [paced_xfer 200 1900 (0,1,1) (0,1,5) 0; paced_xfer 10 1 (0,1,1) (0,1,5) 1; paced_xfer 200 20000 (0,1,1) (0,1,5) 2; paced_xfer 100 50 (0,1,2) (0,1,6) 0].
Lemma jam_case : proper wl_jam. Proof. proper. Qed.
Lemma jam_sound : Forall sound_transfer (all_transfers wl_jam). Proof. apply Forall_forall. intros t Ht. apply soundb_ok. revert t Ht. apply forallb_forall. vm_compute. reflexivity. Qed.
(* the same without the transfer that waits *)
Definition wl_brief : workload (F f32A) := build f32A [paced_xfer 200 1900 (0,1,1) (0,1,5) 0; paced_xfer 10 1 (0,1,1) (0,1,5) 1; paced_xfer 100 50 (0,1,2) (0,1,6) 0].
Lemma brief_case : proper wl_brief. Proof. proper. Qed.
Lemma brief_sound : Forall sound_transfer (all_transfers wl_brief). Proof. apply Forall_forall. intros t Ht. apply soundb_ok. revert t Ht. apply forallb_forall. vm_compute. reflexivity. Qed.

Lemma jam_runs : exists wl s s' x x', proper wl /\ validate wormhole_b0 wl = Ok true /\ Forall sound_transfer (all_transfers wl) /\
  succeeds f32A same_links same_buckets wormhole_b0 true 100 wl s /\ succeeds f32A same_links same_buckets wormhole_b0 false 100 wl s' /\
  nth_error (sm_sts f32A s) 2 = Some x /\ nth_error (sm_sts f32A s') 2 = Some x' /\ s_start x = 100 /\ s_end x = 1000 /\ s_start x' = 95 /\ s_end x' = 1095 /\
  (forall i y, nth_error (sm_sts f32A s) i = Some y -> s_end y <= 1000).
Proof.
  run wormhole_b0 true 100 wl_jam. view. destruct H as (_ & HL & _). at_nth 0%nat y0. at_nth 1%nat y1. at_nth 2%nat x. at_nth 3%nat y3. rename s into s0, HS into HS0. clear H0 HV.
  run wormhole_b0 false 100 wl_jam. view. clear H0. at_nth 2%nat x'. rename s into s1, HS into HS1.
  exists wl_jam, s0, s1, x, x'. split; [exact jam_case|]. split; [vm_compute; reflexivity|]. split; [exact jam_sound|]. split; [exact HS0|]. split; [exact HS1|].
  split; [assumption|]. split; [assumption|]. split; [assumption|]. split; [assumption|]. split; [assumption|]. split; [assumption|].
  intros i y Hy. assert (Hi : (i < List.length (sm_sts f32A s0))%nat) by (apply nth_error_Some; congruence). rewrite HL in Hi. cbn [List.length] in Hi.
  destruct i as [|[|[|[|i]]]]; [..|exfalso; lia]; cbn [nth_error] in Hy; first [replace y with y0 by congruence; lia|replace y with y1 by congruence; lia|replace y with x by congruence; lia|replace y with y3 by congruence; lia].
Qed.
(* the estimates: less with congestion than without *)
Definition est_of (r : outcome (npe_result f32A)) (id : Z) : option Z := match r with Ok (Stats stt) => option_map (ds_est f32A) (stats_get f32A stt id) | _ => None end.
Lemma jam_estimates : est_of (runSinglePerfSim f32A same_links same_buckets wormhole_b0 "fast" 100 wl_jam) 0 = Some 1000 /\ est_of (runSinglePerfSim f32A same_links same_buckets wormhole_b0 "none" 100 wl_jam) 0 = Some 1095.
Proof. split; vm_compute; reflexivity. Qed.

(* three transfers that wait for nothing, with and without congestion *)
Lemma brief_runs : exists s s' x x', succeeds f32A same_links same_buckets wormhole_b0 true 100 wl_brief s /\ succeeds f32A same_links same_buckets wormhole_b0 false 100 wl_brief s' /\
  sm_curr f32A s < 2 ^ 24 /\ sm_curr f32A s' < 2 ^ 24 /\ nth_error (sm_sts f32A s) 0 = Some x /\ nth_error (sm_sts f32A s') 0 = Some x' /\ s_end x = 100 /\ s_end x' = 95 /\ (forall i j dl, ~ waits f32A s i j dl).
Proof.
  run wormhole_b0 true 100 wl_brief. view. destruct H as (HC0 & HL & _). at_nth 0%nat x. at_nth 1%nat y1. at_nth 2%nat y2. rename s into s0, HS into HS0. clear H0 HV.
  run wormhole_b0 false 100 wl_brief. view. destruct H0 as (HC1 & _). at_nth 0%nat x'. rename s into s1, HS into HS1.
  exists s0, s1, x, x'. split; [exact HS0|]. split; [exact HS1|]. split; [rewrite HC0; reflexivity|]. split; [rewrite HC1; reflexivity|]. do 4 (split; [assumption|]).
  intros i. destruct (nth_error (sm_sts f32A s0) i) as [y|] eqn:Hy; [|intros j dl (a & b & k & c & Ha & _); congruence].
  assert (Hi : (i < List.length (sm_sts f32A s0))%nat) by (apply nth_error_Some; congruence). rewrite HL in Hi. cbn [List.length] in Hi.
  destruct i as [|[|[|i]]]; [..|exfalso; lia]; first [apply (no_wait f32A s0 _ x); assumption|apply (no_wait f32A s0 _ y1); assumption|apply (no_wait f32A s0 _ y2); assumption].
Qed.
Lemma brief_stats model e : est_of (runSinglePerfSim f32A same_links same_buckets wormhole_b0 model 100 wl_brief) 0 = Some e ->
  exists stt ds, runSinglePerfSim f32A same_links same_buckets wormhole_b0 model 100 wl_brief = Ok (Stats stt) /\ stats_get f32A stt 0 = Some ds /\ ds_est f32A ds = e.
Proof.
  unfold est_of. destruct (runSinglePerfSim _ _ _ _ _ _ _) as [[stt|]| | | | | |]; try discriminate. intros H. exists stt. destruct (stats_get f32A stt 0) as [ds|]; [|discriminate]. injection H as H. eauto.
Qed.
Lemma brief_estimates : est_of (runSinglePerfSim f32A same_links same_buckets wormhole_b0 "fast" 100 wl_brief) 0 = Some 100 /\ est_of (runSinglePerfSim f32A same_links same_buckets wormhole_b0 "none" 100 wl_brief) 0 = Some 95.
Proof. split; vm_compute; reflexivity. Qed.
Lemma brief_golden : forall id g, getGoldenResultCycles wl_brief id = Ok g -> 0 <= fst g.
Proof.
  intros id g. unfold getGoldenResultCycles. let v := eval vm_compute in (wl_golden wl_brief) in assert (E : wl_golden wl_brief = v) by (vm_compute; reflexivity). rewrite E. clear E.
  unfold golden_get. cbn [find fst snd map]. destruct (0 =? id), (1 =? id), (-1 =? id); intros H; try discriminate H; injection H as <-; cbn; lia.
Qed.
