(* Runs in which a transfer is asked for later (C96). *)
From Coq Require Import ZArith String List Bool Lia Floats.SpecFloat.
From Verif Require Import Base Arith Util Device Workload SpecWorkload DepTracker Rates Stats Engine SpecRates UtilProofs RunProofs SpecEngine Cases EngineWitness RatesWitness SpecAlone AloneWitness CongestWitness SpecLoad SpecPace GrowWitness PaceWitness.
Import ListNotations.
Local Open Scope string_scope.
Local Open Scope list_scope.
Open Scope Z_scope.

(* wl_brisk with its second transfer asked for at cycle 900 and with twice the bytes at a lower rate, or as it was *)
Definition later (rate psize off : Z) (src dst : Z * Z * Z) : transfer (F f32A) :=
  tr_make psize 1 (at_core src) (Unicast (at_core dst)) (f_lit f32A rate 10) off NOC0 "WRITE" "" (-1) (-1) (-1).
Definition wl_worse : workload (F f32A) := build f32A [packets 281 28100 1 (0,1,1) (0,1,5); later 200 3000 900 (0,1,2) (0,1,6)].
Definition wl_deferred : workload (F f32A) := build f32A [packets 281 28100 1 (0,1,1) (0,1,5); later 281 1500 900 (0,1,2) (0,1,6)].
Lemma worse_case : proper wl_worse. Proof. proper. Qed.
Lemma deferred_case : proper wl_deferred. Proof. proper. Qed.
Lemma worse_sound : Forall sound_transfer (all_transfers wl_worse). Proof. sound. Qed.
Lemma deferred_sound : Forall sound_transfer (all_transfers wl_deferred). Proof. sound. Qed.

Ltac transfers := repeat match goal with H : s_tr _ = _ |- _ => rewrite H end; repeat match goal with H : s_tr ?z = ?t |- _ => change (@s_tr spec_float z = t) in H; rewrite H; clear H end.
Lemma worse_runs : exists s s' x x', succeeds f32A same_links same_buckets wormhole_b0 false 200 wl_brisk s /\ succeeds f32A same_links same_buckets wormhole_b0 false 200 wl_worse s' /\
  sm_curr f32A s < 2 ^ 24 /\ sm_curr f32A s' < 2 ^ 24 /\ nth_error (sm_sts f32A s) 1 = Some x /\ nth_error (sm_sts f32A s') 1 = Some x' /\
  s_end x = 54 /\ s_end x' = 1050 /\ no_sooner (s_tr x) (s_tr x') /\
  (forall i j dl, ~ waits f32A s i j dl) /\ (forall i j dl, ~ waits f32A s' i j dl).
Proof.
  run wormhole_b0 false 200 wl_brisk. view. destruct H as (HC0 & HL & _). at_nth 0%nat y. at_nth 1%nat x. rename s into s0, HS into HS0. clear H0 HV.
  run wormhole_b0 false 200 wl_worse. view. destruct H0 as (HC1 & HL1 & _). at_nth 0%nat y'. at_nth 1%nat x'. rename s into s1, HS into HS1.
  exists s0, s1, x, x'. split; [exact HS0|]. split; [exact HS1|]. split; [rewrite HC0; reflexivity|]. split; [rewrite HC1; reflexivity|]. do 2 (split; [assumption|]). split; [assumption|]. split; [assumption|]. split.
  { unfold no_sooner. transfers. split; [right; split; reflexivity|]. split; [discriminate|]. split; [reflexivity|]. split; [vm_compute; reflexivity|discriminate]. }
  split; apply no_waits; intros i z Hz.
  - assert (Hi : (i < List.length (sm_sts f32A s0))%nat) by (apply nth_error_Some; congruence). rewrite HL in Hi. cbn [List.length] in Hi. destruct i as [|[|i]]; [..|exfalso; lia]; cbn [nth_error] in Hz; known Hz.
  - assert (Hi : (i < List.length (sm_sts f32A s1))%nat) by (apply nth_error_Some; congruence). rewrite HL1 in Hi. cbn [List.length] in Hi. destruct i as [|[|i]]; [..|exfalso; lia]; cbn [nth_error] in Hz; known Hz.
Qed.

(* with congestion: both transfers have ended earlier than the first one before *)
Lemma deferred_runs : exists wl wl' s s' y y' x x', proper wl /\ proper wl' /\ validate wormhole_b0 wl = Ok true /\ validate wormhole_b0 wl' = Ok true /\
  Forall sound_transfer (all_transfers wl) /\ Forall sound_transfer (all_transfers wl') /\
  succeeds f32A same_links same_buckets wormhole_b0 true 200 wl s /\ succeeds f32A same_links same_buckets wormhole_b0 true 200 wl' s' /\
  List.length (sm_sts f32A s) = 2%nat /\ List.length (sm_sts f32A s') = 2%nat /\
  nth_error (sm_sts f32A s) 0 = Some y /\ nth_error (sm_sts f32A s') 0 = Some y' /\ nth_error (sm_sts f32A s) 1 = Some x /\ nth_error (sm_sts f32A s') 1 = Some x' /\
  no_sooner (s_tr y) (s_tr y') /\ no_sooner (s_tr x) (s_tr x') /\ t_off (s_tr x) = 0 /\ t_off (s_tr x') = 900 /\ s_end y = 1246 /\ s_end y' = 1205 /\ s_end x = 100 /\ s_end x' = 975.
Proof.
  run wormhole_b0 true 200 wl_brisk. view. destruct H as (HC0 & HL & _). at_nth 0%nat y. at_nth 1%nat x. rename s into s0, HS into HS0. clear H0 HV.
  run wormhole_b0 true 200 wl_deferred. view. destruct H0 as (HC1 & HL1 & _). at_nth 0%nat y'. at_nth 1%nat x'. rename s into s1, HS into HS1.
  exists wl_brisk, wl_deferred, s0, s1, y, y', x, x'. split; [exact brisk_case|]. split; [exact deferred_case|]. split; [vm_compute; reflexivity|]. split; [vm_compute; reflexivity|]. split; [exact brisk_sound|]. split; [exact deferred_sound|].
  split; [exact HS0|]. split; [exact HS1|]. split; [rewrite HL; reflexivity|]. split; [rewrite HL1; reflexivity|]. do 4 (split; [assumption|]). unfold no_sooner. transfers.
  split; [split; [right; split; reflexivity|]; split; [discriminate|]; split; [reflexivity|]; split; [vm_compute; reflexivity|discriminate]|].
  split; [split; [right; split; reflexivity|]; split; [discriminate|]; split; [reflexivity|]; split; [vm_compute; reflexivity|discriminate]|].
  split; [reflexivity|]. split; [reflexivity|]. do 3 (split; [assumption|]). assumption.
Qed.
