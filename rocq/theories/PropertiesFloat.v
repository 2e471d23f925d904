(* Property theorems C26 and C33 for IEEE binary32: start and end cycles. Specification: SpecEngine.v, SpecRates.v. *)
From Coq Require Import ZArith String List Bool Floats.SpecFloat.
From Verif Require Import Base Arith Util Device SpecDevice Workload SpecWorkload DepTracker Rates Stats Engine SpecEngine SpecRates
  EngineFloat Cases EngineWitness FloatWitness.
Import ListNotations.
Local Open Scope list_scope.
Open Scope Z_scope.

(** ** C26 No transfer starts before its dependency is fulfilled *)
(* the sum of end cycle and delay does not wrap around, so the start is not before the end of the dependency plus delay *)
Theorem C26_no_wrap : forall ord bord, bucket_order bord -> forall d congestion cpt wl, proper wl -> proper_cpt cpt ->
  Forall sound_transfer (all_transfers wl) ->
  forall s, wf_device d -> visited f32A ord bord d congestion cpt wl s -> forall i x, nth_error (sm_sts f32A s) i = Some x -> has_started f32A s i ->
  forall j dl, depends f32A (sm_sts f32A s) (sm_trk f32A s) i j dl -> is_finished f32A s j /\
  exists y, nth_error (sm_sts f32A s) j = Some y /\ 0 <= s_end y /\ 0 <= dl /\ s_end y + dl < 2 ^ 32 /\
    s_start x = Z.max (t_off (s_tr x)) (s_end y + dl).
Proof. exact start_no_wrap. Qed.
Print Assumptions C26_no_wrap.
(* with C26_example: the second hop starts at 780, 680 cycles after the end of the first *)
Example C26_no_wrap_example : proper (wl_hops f32A) /\ Forall sound_transfer (all_transfers (wl_hops f32A)) /\ wf_device N300.
Proof. exact hops_sound. Qed.

(** ** C33 A transfer ends no earlier than it starts *)
(* Full statement: s_start x <= s_end x for every transfer of every successful run. It is false, see C33_end_before_start_refuted
   (PropertiesEngine.v) and C33_end_wraps_refuted below. What holds: up to cycle 2^24 the end is not before the start; after
   that the end is at most one part in 2^24 before it. Timesteps longer than 2^30 cycles are excluded. *)
Theorem C33_end_after_start_partial : forall ord bord, bucket_order bord -> forall d congestion cpt wl, proper wl -> proper_cpt cpt ->
  Forall sound_transfer (all_transfers wl) ->
  forall s i x, cpt <= 2 ^ 30 -> visited f32A ord bord d congestion cpt wl s -> is_finished f32A s i -> nth_error (sm_sts f32A s) i = Some x ->
  s_start x - s_start x / 2 ^ 24 <= s_end x <= sm_curr f32A s + cpt + 8192 /\
  (s_start x <= 2 ^ 24 -> s_start x <= s_end x).
Proof. exact end_after_start. Qed.
Print Assumptions C33_end_after_start_partial.
Example C33_end_after_start_example : exists s x y, proper (wl_share f32A) /\ Forall sound_transfer (all_transfers (wl_share f32A)) /\
  succeeds f32A same_links same_buckets wormhole_b0 true 100 (wl_share f32A) s /\
  nth_error (sm_sts f32A s) 0 = Some x /\ nth_error (sm_sts f32A s) 1 = Some y /\ s_start x = 0 /\ s_end x = 190 /\ s_start y = 20 /\ s_end y = 206.
Proof. exact share_ends. Qed.
(* with one timestep that spans the whole clock, the end cycle can wrap around to 0 *)
Theorem C33_end_wraps_refuted : exists s x, succeeds f32A same_links same_buckets wormhole_b0 true 4294967295 wl_last s /\
  validate wormhole_b0 wl_last = Ok true /\ nth_error (sm_sts f32A s) 0 = Some x /\ s_start x = 4294967200 /\ s_end x = 0.
Proof. exact last_run. Qed.
Print Assumptions C33_end_wraps_refuted.
