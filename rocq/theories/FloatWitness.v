(* Witnesses for PropertiesFloat.v. *)
From Coq Require Import ZArith String List Bool Lia Floats.SpecFloat.
From Verif Require Import Base Arith Util Device SpecDevice Workload SpecWorkload DepTracker Rates Stats Engine SpecEngine SpecRates RunProofs Cases EngineWitness RatesWitness.
Import ListNotations.
Local Open Scope list_scope.
Open Scope Z_scope.

(* one transfer that starts in the last cycles of the clock *)
Definition wl_last : workload spec_float := build f32A [xfer f32A 1 (0,1,1) (0,1,5) 4294967200].
Lemma last_run : exists s x, succeeds f32A same_links same_buckets wormhole_b0 true 4294967295 wl_last s /\
  validate wormhole_b0 wl_last = Ok true /\ nth_error (sm_sts f32A s) 0 = Some x /\ s_start x = 4294967200 /\ s_end x = 0.
Proof.
  run wormhole_b0 true 4294967295 wl_last. view. pose proof (H0 0%nat) as X. cbn [nth_error] in X. destruct X as (x & X0 & X1 & X2 & X3 & X4 & X5 & X6).
  exists s, x. split; [exact HS|]. split; [vm_compute; reflexivity|]. repeat split; assumption.
Qed.
Lemma hops_sound : proper (wl_hops f32A) /\ Forall sound_transfer (all_transfers (wl_hops f32A)) /\ wf_device N300.
Proof.
  split; [proper|]. split.
  - apply Forall_forall. intros t Ht. apply soundb_ok. assert (E : forallb soundb (all_transfers (wl_hops f32A)) = true) by (vm_compute; reflexivity).
    rewrite forallb_forall in E. exact (E t Ht).
  - unfold wf_device. split; [vm_compute; lia|]. split; [vm_compute; lia|]. split; [vm_compute; lia|]. split; [vm_compute; discriminate|]. intros H. exfalso. apply H. reflexivity.
Qed.
Lemma share_ends : exists s x y, proper (wl_share f32A) /\ Forall sound_transfer (all_transfers (wl_share f32A)) /\
  succeeds f32A same_links same_buckets wormhole_b0 true 100 (wl_share f32A) s /\
  nth_error (sm_sts f32A s) 0 = Some x /\ nth_error (sm_sts f32A s) 1 = Some y /\ s_start x = 0 /\ s_end x = 190 /\ s_start y = 20 /\ s_end y = 206.
Proof.
  run wormhole_b0 true 100 (wl_share f32A). view. pose proof (H0 0%nat) as X. pose proof (H0 1%nat) as Y. cbn [nth_error] in X, Y. destruct X as (x & X0 & X1 & X2 & X3 & X4 & X5 & X6). destruct Y as (y & Y0 & Y1 & Y2 & Y3 & Y4 & Y5 & Y6).
  exists s, x, y. split; [proper|]. split; [exact share_sound|]. split; [exact HS|]. repeat split; assumption.
Qed.
