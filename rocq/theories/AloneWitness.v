(* Witnesses for C88. *)
From Coq Require Import ZArith String List Bool Lia Floats.SpecFloat.
From Verif Require Import Base Arith Util Device Workload SpecWorkload DepTracker Rates Stats Engine SpecEngine RunProofs Cases EngineWitness SpecAlone.
Import ListNotations.
Local Open Scope string_scope.
Local Open Scope list_scope.
Open Scope Z_scope.

(* the three transfers of [wl_lane] from another core to other cores, among transfers that cross their links *)
Definition wl_crowd : workload (F f32A) :=
  build f32A [xfer f32A 500 (0,2,0) (0,2,6) 0; xfer f32A 100 (0,2,1) (0,2,7) 0; xfer f32A 10 (0,2,1) (0,2,3) 0; xfer f32A 350 (0,2,1) (0,2,5) 0; xfer f32A 700 (0,2,4) (0,2,9) 3].
Definition wl_lonely : workload (F f32A) := build f32A [bulk f32A (0,3,1) (Unicast (at_core (0,3,4))) 0 "WRITE"].
Definition wl_company : workload (F f32A) := wl_meet f32A.
Lemma crowd_case : proper wl_crowd. Proof. proper. Qed.
Lemma lonely_case : proper wl_lonely. Proof. proper. Qed.
Lemma company_case : proper wl_company. Proof. proper. Qed.

(* no dependency when the state has none *)
Lemma no_wait A (s : sim A) i x : nth_error (sm_sts A s) i = Some x -> s_dep x = None -> forall j dl, ~ waits A s i j dl.
Proof. intros Hx Hd j dl (y & z & k & c & Hy & _ & Hk & _). assert (y = x) by congruence. subst. congruence. Qed.
Ltac at_nth n x := let X := fresh "X" in match goal with H : forall i : nat, match nth_error ?l i with Some _ => _ | None => _ end |- _ =>
  pose proof (H n) as X; cbn [nth_error] in X; destruct X as (x & ? & ? & ? & ? & ? & ? & ?) end.

(* the third transfer of the lane waits for the first, in both workloads *)
Lemma crowd_twins : exists s s', succeeds f32A same_links same_buckets wormhole_b0 false 100 (wl_lane f32A) s /\ succeeds f32A same_links same_buckets wormhole_b0 false 100 wl_crowd s' /\
  twins f32A s s' 2 3 /\ waits f32A s 2 0 0 /\ exists x, nth_error (sm_sts f32A s) 2 = Some x /\ s_start x = 100 /\ s_end x = 350.
Proof.
  run wormhole_b0 false 100 (wl_lane f32A). view. destruct H as (_ & _ & HK & _). at_nth 0%nat x. at_nth 2%nat z. rename s into s0, HS into HS0. clear H0 HV.
  run wormhole_b0 false 100 wl_crowd. view. destruct H0 as (_ & _ & HK' & _). at_nth 1%nat x'. at_nth 3%nat z'. rename s into s1, HS into HS1.
  assert (W : waits f32A s0 2 0 0).
  { exists z, x, 0%nat. eexists. repeat split; try eassumption; [match goal with H : s_req x = _ |- _ => rewrite H end; left; reflexivity|rewrite HK; reflexivity|reflexivity]. }
  assert (W' : waits f32A s1 3 1 0).
  { exists z', x', 0%nat. eexists. repeat split; try eassumption; [match goal with H : s_req x' = _ |- _ => rewrite H end; left; reflexivity|rewrite HK'; reflexivity|reflexivity]. }
  exists s0, s1. split; [exact HS0|]. split; [exact HS1|]. split; [|split; [exact W|exists z; auto]].
  apply (twins_after f32A s0 s1 2 3 0 1 0); [|exact W|exact W'|].
  - exists z, z'. split; [assumption|]. split; [assumption|]. unfold alike. repeat match goal with H : s_tr _ = _ |- _ => rewrite H; clear H end. repeat split.
  - apply twins_free; [|eapply no_wait; eassumption|eapply no_wait; eassumption].
    exists x, x'. split; [assumption|]. split; [assumption|]. unfold alike. repeat match goal with H : s_tr _ = _ |- _ => rewrite H; clear H end. repeat split.
Qed.
(* with congestion the same transfer takes three times as long in company *)
Lemma congested_witness : exists wl wl' s s' x x', proper wl /\ proper wl' /\ validate wormhole_b0 wl = Ok true /\ validate wormhole_b0 wl' = Ok true /\
  succeeds f32A same_links same_buckets wormhole_b0 true 10000 wl s /\ succeeds f32A same_links same_buckets wormhole_b0 true 10000 wl' s' /\
  twins f32A s s' 0 0 /\ s_tr x' = s_tr x /\ nth_error (sm_sts f32A s) 0 = Some x /\ nth_error (sm_sts f32A s') 0 = Some x' /\ s_end x = 29154 /\ s_end x' = 87443.
Proof.
  run wormhole_b0 true 10000 wl_lonely. view. clear H. at_nth 0%nat x. rename s into s0, HS into HS0. clear H0 HV.
  run wormhole_b0 true 10000 wl_company. view. clear H0. at_nth 0%nat x'. rename s into s1, HS into HS1.
  assert (T : s_tr x' = s_tr x) by congruence.
  exists wl_lonely, wl_company, s0, s1, x, x'. split; [exact lonely_case|]. split; [exact company_case|]. split; [vm_compute; reflexivity|]. split; [vm_compute; reflexivity|].
  split; [exact HS0|]. split; [exact HS1|]. split; [|auto 6].
  apply twins_free; [|eapply no_wait; eassumption|eapply no_wait; eassumption]. exists x, x'. split; [assumption|]. split; [assumption|]. rewrite T. unfold alike. repeat split.
Qed.
Lemma company_alone : exists s s' x t, succeeds f32A same_links same_buckets wormhole_b0 false 10000 wl_company s /\ succeeds f32A same_links same_buckets wormhole_b0 false 10000 wl_lonely s' /\
  nth_error (sm_sts f32A s) 0 = Some x /\ (forall j dl, ~ waits f32A s 0 j dl) /\ only wl_lonely t /\ ~ has_group_parent f32A t /\ alike (s_tr x) t /\ s_end x = 29154.
Proof.
  run wormhole_b0 false 10000 wl_company. view. clear H. at_nth 0%nat x. rename s into s0, HS into HS0. clear H0 HV.
  run wormhole_b0 false 10000 wl_lonely. view. clear H0. at_nth 0%nat x'. rename s into s1, HS into HS1.
  exists s0, s1, x. eexists. split; [exact HS0|]. split; [exact HS1|]. split; [assumption|]. split; [eapply no_wait; eassumption|]. split; [vm_compute; reflexivity|].
  split; [intros [H' _]; apply H'; reflexivity|]. split; [|assumption]. match goal with H : s_tr x = _ |- _ => rewrite H end. unfold alike. repeat split.
Qed.
