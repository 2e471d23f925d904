(* Runs of a workload and of the same workload with one more transfer (C91): the others are slower, or one that waits is faster. *)
From Coq Require Import ZArith String List Bool Lia Floats.SpecFloat.
From Verif Require Import Base Arith Util Device Workload SpecWorkload DepTracker Rates Stats Engine SpecRates UtilProofs RunProofs SpecEngine Cases EngineWitness RatesWitness SpecAlone AloneWitness CongestWitness SpecLoad.
Import ListNotations.
Local Open Scope string_scope.
Local Open Scope list_scope.
Open Scope Z_scope.

Definition load_one : list (transfer (F f32A)) := [paced_xfer 200 1800 (0,1,1) (0,1,5) 0; paced_xfer 10 1 (0,1,1) (0,1,5) 1].
Definition load_new : transfer (F f32A) := paced_xfer 123 50 (0,1,2) (0,1,6) 0.
Definition load_wait : transfer (F f32A) := paced_xfer 200 20000 (0,1,1) (0,1,5) 2.
(* two transfers, and the same after a new one *)
Definition wl_few : workload (F f32A) := build f32A load_one.
Definition wl_more : workload (F f32A) := build f32A (load_new :: load_one).
(* the same with a transfer that waits for the first *)
Definition wl_few_wait : workload (F f32A) := build f32A (load_one ++ [load_wait]).
Definition wl_more_wait : workload (F f32A) := build f32A (load_new :: load_one ++ [load_wait]).
Lemma few_case : proper wl_few. Proof. proper. Qed.
Lemma more_case : proper wl_more. Proof. proper. Qed.
Lemma few_wait_case : proper wl_few_wait. Proof. proper. Qed.
Lemma more_wait_case : proper wl_more_wait. Proof. proper. Qed.
Lemma few_sound : Forall sound_transfer (all_transfers wl_few). Proof. apply Forall_forall. intros t Ht. apply soundb_ok. revert t Ht. apply forallb_forall. vm_compute. reflexivity. Qed.
Lemma more_sound : Forall sound_transfer (all_transfers wl_more). Proof. apply Forall_forall. intros t Ht. apply soundb_ok. revert t Ht. apply forallb_forall. vm_compute. reflexivity. Qed.
Lemma few_wait_sound : Forall sound_transfer (all_transfers wl_few_wait). Proof. apply Forall_forall. intros t Ht. apply soundb_ok. revert t Ht. apply forallb_forall. vm_compute. reflexivity. Qed.
Lemma more_wait_sound : Forall sound_transfer (all_transfers wl_more_wait). Proof. apply Forall_forall. intros t Ht. apply soundb_ok. revert t Ht. apply forallb_forall. vm_compute. reflexivity. Qed.
Ltac next_one Ht i := destruct i as [|i]; [vm_compute in Ht; injection Ht as <-; eexists; split; [vm_compute; reflexivity|repeat split]|].
Lemma few_more : contains S wl_few wl_more.
Proof. split; [intros; lia|]. intros i t Ht. next_one Ht i. next_one Ht i. destruct i; discriminate Ht. Qed.
Lemma few_more_wait : contains S wl_few_wait wl_more_wait.
Proof. split; [intros; lia|]. intros i t Ht. next_one Ht i. next_one Ht i. next_one Ht i. destruct i; discriminate Ht. Qed.

Lemma load_runs : exists s s' x x', succeeds f32A same_links same_buckets wormhole_b0 true 100 wl_few s /\ succeeds f32A same_links same_buckets wormhole_b0 true 100 wl_more s' /\
  sm_curr f32A s < 2 ^ 24 /\ sm_curr f32A s' < 2 ^ 24 /\ nth_error (sm_sts f32A s) 0 = Some x /\ nth_error (sm_sts f32A s') 1 = Some x' /\ s_end x = 95 /\ s_end x' = 100 /\
  (forall i j dl, ~ waits f32A s i j dl) /\ (forall i j dl, ~ waits f32A s' i j dl).
Proof.
  run wormhole_b0 true 100 wl_few. view. destruct H as (HC0 & HL & _). at_nth 0%nat x. at_nth 1%nat y1. rename s into s0, HS into HS0. clear H0 HV.
  run wormhole_b0 true 100 wl_more. view. destruct H0 as (HC1 & HL1 & _). at_nth 0%nat z0. at_nth 1%nat x'. at_nth 2%nat z2. rename s into s1, HS into HS1.
  exists s0, s1, x, x'. split; [exact HS0|]. split; [exact HS1|]. split; [rewrite HC0; reflexivity|]. split; [rewrite HC1; reflexivity|]. do 4 (split; [assumption|]). split.
  - intros i. destruct (nth_error (sm_sts f32A s0) i) as [y|] eqn:Hy; [|intros j dl (a & b & k & c & Ha & _); congruence].
    assert (Hi : (i < List.length (sm_sts f32A s0))%nat) by (apply nth_error_Some; congruence). rewrite HL in Hi. cbn [List.length] in Hi.
    destruct i as [|[|i]]; [..|exfalso; lia]; first [apply (no_wait f32A s0 _ x); assumption|apply (no_wait f32A s0 _ y1); assumption].
  - intros i. destruct (nth_error (sm_sts f32A s1) i) as [y|] eqn:Hy; [|intros j dl (a & b & k & c & Ha & _); congruence].
    assert (Hi : (i < List.length (sm_sts f32A s1))%nat) by (apply nth_error_Some; congruence). rewrite HL1 in Hi. cbn [List.length] in Hi.
    destruct i as [|[|[|i]]]; [..|exfalso; lia]; first [apply (no_wait f32A s1 _ z0); assumption|apply (no_wait f32A s1 _ x'); assumption|apply (no_wait f32A s1 _ z2); assumption].
Qed.
Lemma wait_runs : exists wl wl' s s' x x', proper wl /\ proper wl' /\ validate wormhole_b0 wl = Ok true /\ validate wormhole_b0 wl' = Ok true /\
  Forall sound_transfer (all_transfers wl) /\ Forall sound_transfer (all_transfers wl') /\ contains S wl wl' /\
  succeeds f32A same_links same_buckets wormhole_b0 true 100 wl s /\ succeeds f32A same_links same_buckets wormhole_b0 true 100 wl' s' /\
  nth_error (sm_sts f32A s) 2 = Some x /\ nth_error (sm_sts f32A s') 3 = Some x' /\ s_end x = 1095 /\ s_end x' = 1000 /\ (forall i y, nth_error (sm_sts f32A s') i = Some y -> s_end y <= 1000).
Proof.
  run wormhole_b0 true 100 wl_few_wait. view. at_nth 2%nat x. rename s into s0, HS into HS0. clear H0 HV.
  run wormhole_b0 true 100 wl_more_wait. view. match goal with HH : _ /\ _ |- _ => destruct HH as (_ & HL & _) end. at_nth 0%nat y0. at_nth 1%nat y1. at_nth 2%nat y2. at_nth 3%nat x'. rename s into s1, HS into HS1.
  exists wl_few_wait, wl_more_wait, s0, s1, x, x'. split; [exact few_wait_case|]. split; [exact more_wait_case|]. split; [vm_compute; reflexivity|]. split; [vm_compute; reflexivity|]. split; [exact few_wait_sound|]. split; [exact more_wait_sound|].
  split; [exact few_more_wait|]. split; [exact HS0|]. split; [exact HS1|]. do 4 (split; [assumption|]).
  intros i y Hy. assert (Hi : (i < List.length (sm_sts f32A s1))%nat) by (apply nth_error_Some; congruence). rewrite HL in Hi. cbn [List.length] in Hi.
  destruct i as [|[|[|[|i]]]]; [..|exfalso; lia]; cbn [nth_error] in Hy; first [replace y with y0 by congruence; lia|replace y with y1 by congruence; lia|replace y with y2 by congruence; lia|replace y with x' by congruence; lia].
Qed.
Lemma load_stats wl e : est_of (runSinglePerfSim f32A same_links same_buckets wormhole_b0 "fast" 100 wl) 0 = Some e ->
  exists stt ds, runSinglePerfSim f32A same_links same_buckets wormhole_b0 "fast" 100 wl = Ok (Stats stt) /\ stats_get f32A stt 0 = Some ds /\ ds_est f32A ds = e.
Proof.
  unfold est_of. destruct (runSinglePerfSim _ _ _ _ _ _ _) as [[stt|]| | | | | |]; try discriminate. intros H. exists stt. destruct (stats_get f32A stt 0) as [ds|]; [|discriminate]. injection H as H. eauto.
Qed.
Lemma load_estimates : est_of (runSinglePerfSim f32A same_links same_buckets wormhole_b0 "fast" 100 wl_few) 0 = Some 95 /\ est_of (runSinglePerfSim f32A same_links same_buckets wormhole_b0 "fast" 100 wl_more) 0 = Some 100.
Proof. split; vm_compute; reflexivity. Qed.
Lemma wait_estimates : est_of (runSinglePerfSim f32A same_links same_buckets wormhole_b0 "fast" 100 wl_few_wait) 0 = Some 1095 /\ est_of (runSinglePerfSim f32A same_links same_buckets wormhole_b0 "fast" 100 wl_more_wait) 0 = Some 1000.
Proof. split; vm_compute; reflexivity. Qed.
Lemma load_golden : (forall id, getGoldenResultCycles wl_more id = getGoldenResultCycles wl_few id) /\ forall id g, getGoldenResultCycles wl_few id = Ok g -> 0 <= fst g.
Proof.
  assert (E : wl_golden wl_more = wl_golden wl_few) by (vm_compute; reflexivity). split; [intros id; unfold getGoldenResultCycles; rewrite E; reflexivity|].
  intros id g. unfold getGoldenResultCycles. let v := eval vm_compute in (wl_golden wl_few) in assert (E1 : wl_golden wl_few = v) by (vm_compute; reflexivity). rewrite E1.
  unfold golden_get. cbn [find fst snd map]. destruct (0 =? id), (1 =? id), (-1 =? id); intros H; try discriminate H; injection H as <-; cbn; lia.
Qed.
