(* Runs with smaller and larger transfers (C94). *)
From Coq Require Import ZArith String List Bool Lia Floats.SpecFloat.
From Verif Require Import Base Arith Util Device Workload SpecWorkload DepTracker Rates Stats Engine SpecRates UtilProofs RunProofs SpecEngine Cases EngineWitness RatesWitness SpecAlone AloneWitness CongestWitness SpecLoad.
Import ListNotations.
Local Open Scope string_scope.
Local Open Scope list_scope.
Open Scope Z_scope.

Definition packets (rate psize npkts : Z) (src dst : Z * Z * Z) : transfer (F f32A) :=
  tr_make psize npkts (at_core src) (Unicast (at_core dst)) (f_lit f32A rate 10) 0 NOC0 "WRITE" "" (-1) (-1) (-1).
(* two transfers of one packet that share links; the second is larger in the second workload *)
Definition wl_small : workload (F f32A) := build f32A [packets 281 3000 1 (0,1,1) (0,1,5); packets 281 1000 1 (0,1,2) (0,1,6)].
Definition wl_large : workload (F f32A) := build f32A [packets 281 3000 1 (0,1,1) (0,1,5); packets 281 9000 1 (0,1,2) (0,1,6)].
(* a thousand packets of 128 and of 256 bytes *)
Definition wl_p128 : workload (F f32A) := build f32A [packets 609 128 1000 (0,2,2) (0,2,6)].
Definition wl_p256 : workload (F f32A) := build f32A [packets 609 256 1000 (0,2,2) (0,2,6)].
Lemma small_case : proper wl_small. Proof. proper. Qed.
Lemma large_case : proper wl_large. Proof. proper. Qed.
Lemma p128_case : proper wl_p128. Proof. proper. Qed.
Lemma p256_case : proper wl_p256. Proof. proper. Qed.
Ltac sound := apply Forall_forall; intros t Ht; apply soundb_ok; revert t Ht; apply forallb_forall; vm_compute; reflexivity.
Lemma small_sound : Forall sound_transfer (all_transfers wl_small). Proof. sound. Qed.
Lemma large_sound : Forall sound_transfer (all_transfers wl_large). Proof. sound. Qed.
Lemma p128_sound : Forall sound_transfer (all_transfers wl_p128). Proof. sound. Qed.
Lemma p256_sound : Forall sound_transfer (all_transfers wl_p256). Proof. sound. Qed.
Lemma small_large : outgrows (fun i => i) wl_small wl_large.
Proof.
  split; [intros; lia|]. intros i t Ht. destruct i as [|[|i]]; [..|destruct i; discriminate Ht]; vm_compute in Ht; injection Ht as <-;
    (eexists; split; [vm_compute; reflexivity|]; split; [right; split; reflexivity|]; split; [discriminate|]; repeat split).
Qed.
Lemma no_waits (s : sim f32A) : (forall i x, nth_error (sm_sts f32A s) i = Some x -> s_dep x = None) -> forall i j dl, ~ waits f32A s i j dl.
Proof.
  intros H i. destruct (nth_error (sm_sts f32A s) i) as [y|] eqn:Hy; [|intros j dl (a & b & k & c & Ha & _); congruence]. apply (no_wait f32A s i y Hy). exact (H i y Hy).
Qed.

Ltac known Hz := match type of Hz with ?q = Some ?z => match goal with H : q = Some ?a, D : s_dep ?a = None |- _ => first [exact D|pose proof (eq_trans (eq_sym H) Hz) as Q; injection Q as <-; exact D] end end.
Lemma grow_runs c : exists s s' y y' x x', succeeds f32A same_links same_buckets wormhole_b0 c 100 wl_small s /\ succeeds f32A same_links same_buckets wormhole_b0 c 100 wl_large s' /\
  sm_curr f32A s < 2 ^ 24 /\ sm_curr f32A s' < 2 ^ 24 /\ nth_error (sm_sts f32A s) 0 = Some y /\ nth_error (sm_sts f32A s') 0 = Some y' /\ nth_error (sm_sts f32A s) 1 = Some x /\ nth_error (sm_sts f32A s') 1 = Some x' /\
  (s_end y, s_end y', s_end x, s_end x') = (if c then (163, 200, 67, 414) else (107, 107, 36, 321)) /\ no_shorter (s_tr x) (s_tr x') /\
  (forall i j dl, ~ waits f32A s i j dl) /\ (forall i j dl, ~ waits f32A s' i j dl).
Proof.
  destruct c.
  - run wormhole_b0 true 100 wl_small. view. destruct H as (HC0 & HL & _). at_nth 0%nat y. at_nth 1%nat x. rename s into s0, HS into HS0. clear H0 HV.
    run wormhole_b0 true 100 wl_large. view. destruct H0 as (HC1 & HL1 & _). at_nth 0%nat y'. at_nth 1%nat x'. rename s into s1, HS into HS1.
    exists s0, s1, y, y', x, x'. split; [exact HS0|]. split; [exact HS1|]. split; [rewrite HC0; reflexivity|]. split; [rewrite HC1; reflexivity|]. do 4 (split; [assumption|]). split; [congruence|]. split.
    { repeat match goal with H : s_tr _ = _ |- _ => rewrite H; clear H end. split; [right; split; reflexivity|]. split; [discriminate|]. split; reflexivity. }
    split; apply no_waits; intros i z Hz.
    + assert (Hi : (i < List.length (sm_sts f32A s0))%nat) by (apply nth_error_Some; congruence). rewrite HL in Hi. cbn [List.length] in Hi. destruct i as [|[|i]]; [..|exfalso; lia]; cbn [nth_error] in Hz; known Hz.
    + assert (Hi : (i < List.length (sm_sts f32A s1))%nat) by (apply nth_error_Some; congruence). rewrite HL1 in Hi. cbn [List.length] in Hi. destruct i as [|[|i]]; [..|exfalso; lia]; cbn [nth_error] in Hz; known Hz.
  - run wormhole_b0 false 100 wl_small. view. destruct H as (HC0 & HL & _). at_nth 0%nat y. at_nth 1%nat x. rename s into s0, HS into HS0. clear H0 HV.
    run wormhole_b0 false 100 wl_large. view. destruct H0 as (HC1 & HL1 & _). at_nth 0%nat y'. at_nth 1%nat x'. rename s into s1, HS into HS1.
    exists s0, s1, y, y', x, x'. split; [exact HS0|]. split; [exact HS1|]. split; [rewrite HC0; reflexivity|]. split; [rewrite HC1; reflexivity|]. do 4 (split; [assumption|]). split; [congruence|]. split.
    { repeat match goal with H : s_tr _ = _ |- _ => rewrite H; clear H end. split; [right; split; reflexivity|]. split; [discriminate|]. split; reflexivity. }
    split; apply no_waits; intros i z Hz.
    + assert (Hi : (i < List.length (sm_sts f32A s0))%nat) by (apply nth_error_Some; congruence). rewrite HL in Hi. cbn [List.length] in Hi. destruct i as [|[|i]]; [..|exfalso; lia]; cbn [nth_error] in Hz; known Hz.
    + assert (Hi : (i < List.length (sm_sts f32A s1))%nat) by (apply nth_error_Some; congruence). rewrite HL1 in Hi. cbn [List.length] in Hi. destruct i as [|[|i]]; [..|exfalso; lia]; cbn [nth_error] in Hz; known Hz.
Qed.

(* twice the bytes in as many packets: the end is earlier *)
Lemma packets_runs c : exists wl wl' s s' x x', proper wl /\ proper wl' /\ validate blackhole_p150 wl = Ok true /\ validate blackhole_p150 wl' = Ok true /\
  Forall sound_transfer (all_transfers wl) /\ Forall sound_transfer (all_transfers wl') /\
  succeeds f32A same_links same_buckets blackhole_p150 c 10000 wl s /\ succeeds f32A same_links same_buckets blackhole_p150 c 10000 wl' s' /\ only wl (s_tr x) /\ only wl' (s_tr x') /\
  nth_error (sm_sts f32A s) 0 = Some x /\ nth_error (sm_sts f32A s') 0 = Some x' /\ t_src (s_tr x') = t_src (s_tr x) /\ t_dst (s_tr x') = t_dst (s_tr x) /\ t_rate (s_tr x') = t_rate (s_tr x) /\ t_off (s_tr x') = t_off (s_tr x) /\
  t_npkts (s_tr x') = t_npkts (s_tr x) /\ t_bytes (s_tr x) = 128000 /\ t_bytes (s_tr x') = 256000 /\ s_end x = 21141 /\ s_end x' = 21073.
Proof.
  destruct c.
  - run blackhole_p150 true 10000 wl_p128. view. at_nth 0%nat x. rename s into s0, HS into HS0. clear H0 HV.
    run blackhole_p150 true 10000 wl_p256. view. at_nth 0%nat x'. rename s into s1, HS into HS1.
    exists wl_p128, wl_p256, s0, s1, x, x'. split; [exact p128_case|]. split; [exact p256_case|]. split; [vm_compute; reflexivity|]. split; [vm_compute; reflexivity|]. split; [exact p128_sound|]. split; [exact p256_sound|].
    split; [exact HS0|]. split; [exact HS1|]. repeat match goal with H : s_tr _ = _ |- _ => rewrite H end. repeat match goal with H : s_tr ?z = ?t |- _ => change (@s_tr spec_float z = t) in H; rewrite H; clear H end. split; [vm_compute; reflexivity|]. split; [vm_compute; reflexivity|]. do 2 (split; [assumption|]). do 7 (split; [reflexivity|]). split; assumption.
  - run blackhole_p150 false 10000 wl_p128. view. at_nth 0%nat x. rename s into s0, HS into HS0. clear H0 HV.
    run blackhole_p150 false 10000 wl_p256. view. at_nth 0%nat x'. rename s into s1, HS into HS1.
    exists wl_p128, wl_p256, s0, s1, x, x'. split; [exact p128_case|]. split; [exact p256_case|]. split; [vm_compute; reflexivity|]. split; [vm_compute; reflexivity|]. split; [exact p128_sound|]. split; [exact p256_sound|].
    split; [exact HS0|]. split; [exact HS1|]. repeat match goal with H : s_tr _ = _ |- _ => rewrite H end. repeat match goal with H : s_tr ?z = ?t |- _ => change (@s_tr spec_float z = t) in H; rewrite H; clear H end. split; [vm_compute; reflexivity|]. split; [vm_compute; reflexivity|]. do 2 (split; [assumption|]). do 7 (split; [reflexivity|]). split; assumption.
Qed.

Lemma grow_stats wl e : est_of (runSinglePerfSim f32A same_links same_buckets wormhole_b0 "fast" 100 wl) 0 = Some e ->
  exists stt ds, runSinglePerfSim f32A same_links same_buckets wormhole_b0 "fast" 100 wl = Ok (Stats stt) /\ stats_get f32A stt 0 = Some ds /\ ds_est f32A ds = e.
Proof.
  unfold est_of. destruct (runSinglePerfSim _ _ _ _ _ _ _) as [[stt|]| | | | | |]; try discriminate. intros H. exists stt. destruct (stats_get f32A stt 0) as [ds|]; [|discriminate]. injection H as H. eauto.
Qed.
Lemma grow_estimates : est_of (runSinglePerfSim f32A same_links same_buckets wormhole_b0 "fast" 100 wl_small) 0 = Some 163 /\ est_of (runSinglePerfSim f32A same_links same_buckets wormhole_b0 "fast" 100 wl_large) 0 = Some 414.
Proof. split; vm_compute; reflexivity. Qed.
Lemma grow_golden : (forall id, getGoldenResultCycles wl_large id = getGoldenResultCycles wl_small id) /\ forall id g, getGoldenResultCycles wl_small id = Ok g -> 0 <= fst g.
Proof.
  assert (E : wl_golden wl_large = wl_golden wl_small) by (vm_compute; reflexivity). split; [intros id; unfold getGoldenResultCycles; rewrite E; reflexivity|].
  intros id g. unfold getGoldenResultCycles. let v := eval vm_compute in (wl_golden wl_small) in assert (E1 : wl_golden wl_small = v) by (vm_compute; reflexivity). rewrite E1.
  unfold golden_get. cbn [find fst snd map]. destruct (0 =? id), (1 =? id), (-1 =? id); intros H; try discriminate H; injection H as <-; cbn; lia.
Qed.
