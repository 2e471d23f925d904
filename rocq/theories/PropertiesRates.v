(* Property theorems C38-C40, C53, C54 (rates). Specification: SpecRates.v; concrete workloads: Cases.v. *)
From Coq Require Import ZArith QArith Reals String List Bool Floats.SpecFloat.
From Flocq Require Import Core.
From Verif Require Import Base Arith Util Device Workload SpecWorkload DepTracker Rates Stats Engine SpecEngine SpecRates
  RateFloat4 RateRat EngineRates CapacityFloat2 CapacityRun Cases EngineWitness RatesWitness CapacityWitness.
Import ListNotations.
Local Open Scope string_scope.
Local Open Scope list_scope.
Open Scope Z_scope.

(** ** C38 Interpolated bandwidth is within the table *)
Theorem C38_interpolated : forall d p n, 1 <= p < 2 ^ 32 -> 1 <= n < 2 ^ 32 ->
  exists b, interpolateBW f32A (tbt f32A d) (max_noc_bandwidth f32A d) p n = Ok b /\ number b /\
    (0 < real b <= real (max_noc_bandwidth f32A d) * (1 + bpow radix2 (-23)))%R.
Proof. exact interpolated. Qed.
Print Assumptions C38_interpolated.
Example C38_example : interpolateBW f32A (tbt f32A wormhole_b0) (max_noc_bandwidth f32A wormhole_b0) 1000 3 = Ok (fl 14665864 (-19)) /\
  interpolateBW f32A (tbt f32A wormhole_b0) (max_noc_bandwidth f32A wormhole_b0) 1 1 = Ok (max_noc_bandwidth f32A wormhole_b0).
Proof. exact interp_example. Qed.

(** ** C39 Rates are finite, non-negative and bounded *)
(* in every timestep of every run *)
Theorem C39_rates : forall ord bord, bucket_order bord -> forall d congestion cpt wl, proper wl -> proper_cpt cpt ->
  Forall sound_transfer (all_transfers wl) ->
  forall s s', reach f32A ord bord d congestion cpt wl s -> timestep f32A d congestion cpt wl s = Ok s' ->
  forall i x, takes_part s s' i -> nth_error (sm_sts f32A s') i = Some x -> number (s_bw x) /\ le_float (s_bw x) (t_rate (s_tr x)).
Proof. exact run_rates. Qed.
Print Assumptions C39_rates.
(* for every set of live transfers *)
Theorem C39_rates_of_live : forall d st en sts live g0 c sts' g, timestep_window st en -> sound_live en sts live ->
  computeCurrentTransferRate f32A d st en sts live g0 c = Ok (sts', g) ->
  forall i x, In i live -> nth_error sts' i = Some x -> number (s_bw x) /\ le_float (s_bw x) (t_rate (s_tr x)).
Proof. exact rates_bounded. Qed.
Print Assumptions C39_rates_of_live.
Theorem C39_congestion_never_raises : forall d st en sts live g0 g0' sts1 sts2 g1 g2, timestep_window st en -> sound_live en sts live ->
  computeCurrentTransferRate f32A d st en sts live g0 false = Ok (sts1, g1) ->
  computeCurrentTransferRate f32A d st en sts live g0' true = Ok (sts2, g2) ->
  forall i x1 x2, In i live -> nth_error sts1 i = Some x1 -> nth_error sts2 i = Some x2 -> le_float (s_bw x2) (s_bw x1).
Proof. exact congestion_never_raises. Qed.
Print Assumptions C39_congestion_never_raises.
(* an injection rate below zero passes validation: -1 byte per cycle without congestion, and 24 with congestion *)
Theorem C39_negative_rate_refuted : exists wl sts live sts1 g1 sts2 g2 x1 x2, proper wl /\ validate wormhole_b0 wl = Ok true /\ sts = live_states f32A wormhole_b0 wl /\
  timestep_window 0 100 /\ In 0%nat live /\
  computeCurrentTransferRate f32A wormhole_b0 0 100 sts live (zero_grids f32A wormhole_b0) false = Ok (sts1, g1) /\
  nth_error sts1 0%nat = Some x1 /\ s_bw x1 = S754_finite true 8388608 (-23) /\
  computeCurrentTransferRate f32A wormhole_b0 0 100 sts live (zero_grids f32A wormhole_b0) true = Ok (sts2, g2) /\
  nth_error sts2 0%nat = Some x2 /\ s_bw x2 = S754_finite false 12582912 (-19).
Proof. exact negative_bw. Qed.
Print Assumptions C39_negative_rate_refuted.
Example C39_example : proper (wl_share f32A) /\ Forall sound_transfer (all_transfers (wl_share f32A)) /\
  sound_live 100 (live_states f32A wormhole_b0 (wl_meet f32A)) all3 /\
  (exists sts g, rate_all f32A wormhole_b0 (wl_meet f32A) all3 true = Ok (sts, g) /\
    map s_bw sts = [fl 11785994 (-20); fl 11785994 (-20); fl 11785994 (-20)]) /\
  (exists sts g, rate_all f32A wormhole_b0 (wl_meet f32A) all3 false = Ok (sts, g) /\
    map s_bw sts = [fl 14732493 (-19); fl 14732493 (-19); fl 14732493 (-19)]).
Proof. exact (conj share_case (conj share_sound (conj meet_sound (conj (proj1 (proj2 meet_rates)) (proj2 (proj2 meet_rates)))))). Qed.

(** ** C40 Congestion derating respects link and NIU capacities *)
(* the sums, in exact arithmetic *)
Theorem C40_links : forall d st en sts live sts' g, timestep_window st en -> NoDup live -> sound_rlive en sts live ->
  modelCongestion ratA d st en sts live = Ok (sts', g) ->
  forall l, (load st en (crosses l) sts' live <= qval (link_bandwidth ratA d))%Q.
Proof. exact link_capacity. Qed.
Print Assumptions C40_links.
Theorem C40_sources : forall d st en sts live sts' g, timestep_window st en -> NoDup live -> sound_rlive en sts live ->
  modelCongestion ratA d st en sts live = Ok (sts', g) ->
  forall c n rate, (0 <= rate)%Q -> (forall i x, In i live -> nth_error sts i = Some x -> leaves c n x = 1%nat -> (qval (t_rate (s_tr x)) <= rate)%Q) ->
  (load st en (leaves c n) sts' live <= rate)%Q.
Proof. exact source_capacity. Qed.
Print Assumptions C40_sources.
(* sinks of unicasts *)
Theorem C40_sinks_partial : forall d st en sts live sts' g, timestep_window st en -> NoDup live -> sound_rlive en sts live ->
  modelCongestion ratA d st en sts live = Ok (sts', g) ->
  forall c n ty, getCoreType d c = Ok ty -> (load st en (enters c n) sts' live <= qval (abs_rate ratA d ty))%Q.
Proof. exact sink_capacity. Qed.
Print Assumptions C40_sinks_partial.
(* multicasts are never slowed down by their sinks: std::min over the sinks starts with 0 *)
Theorem C40_multicast_sinks_refuted : exists wl sts live sts' g c, proper wl /\ validate wormhole_b0 wl = Ok true /\
  sts = live_states ratA wormhole_b0 wl /\ timestep_window 0 100 /\ NoDup live /\ sound_rlive 100 sts live /\
  modelCongestion ratA wormhole_b0 0 100 sts live = Ok (sts', g) /\ getCoreType wormhole_b0 c = Ok WORKER /\
  (load 0 100 (enters_multicast c NOC0) sts' live == 2 * qval (abs_rate ratA wormhole_b0 WORKER))%Q /\ (0 < qval (abs_rate ratA wormhole_b0 WORKER))%Q.
Proof. exact mcasts_overload. Qed.
Print Assumptions C40_multicast_sinks_refuted.
(* with floats: a transfer whose links, source and sink are not over-subscribed keeps its bandwidth *)
Theorem C40_keeps : forall d st en sts live g0 sts' g, timestep_window st en -> sound_live en sts live ->
  computeCurrentTransferRate f32A d st en sts live g0 true = Ok (sts', g) ->
  forall i x, In i live -> nth_error sts i = Some x ->
  (forall id dem, In id (s_route x) -> grid_get (g_link g) id = Ok dem -> le_float dem (link_bandwidth f32A d)) ->
  (forall id dem, niu_of d (t_src (s_tr x)) (src_niu_type (t_noc (s_tr x))) = Ok id -> grid_get (g_niu g) id = Ok dem -> le_float dem (t_rate (s_tr x))) ->
  (forall c id dem ty, t_dst (s_tr x) = Unicast c -> niu_of d c (sink_niu_type (t_noc (s_tr x))) = Ok id -> grid_get (g_niu g) id = Ok dem ->
     getCoreType d c = Ok ty -> le_float dem (abs_rate f32A d ty)) ->
  exists x', nth_error sts' i = Some x' /\ uncongested_bw f32A d (s_tr x) = Ok (s_bw x').
Proof. exact keeps_bandwidth. Qed.
Print Assumptions C40_keeps.
(* the sums with floats, as real numbers: at most one part in 2^19 over the capacity for every summand, and one part more *)
Theorem C40_float_links : forall d st en sts live g0 sts' g, timestep_window st en -> sound_live en sts live ->
  computeCurrentTransferRate f32A d st en sts live g0 true = Ok (sts', g) ->
  forall l, (float_load st en (crosses l) sts' live <= real (link_bandwidth f32A d) * (1 + bpow radix2 (-19)) ^ (uses (crosses l) sts' live + 1))%R.
Proof. exact links. Qed.
Print Assumptions C40_float_links.
Theorem C40_float_sources : forall d st en sts live g0 sts' g, timestep_window st en -> sound_live en sts live ->
  computeCurrentTransferRate f32A d st en sts live g0 true = Ok (sts', g) ->
  forall c n rate, (0 <= rate)%R -> (forall i x, In i live -> nth_error sts' i = Some x -> leaves c n x = 1%nat -> (real (t_rate (s_tr x)) <= rate)%R) ->
  (float_load st en (leaves c n) sts' live <= rate * (1 + bpow radix2 (-19)) ^ (uses (leaves c n) sts' live + 1) + INR (uses (leaves c n) sts' live) * bpow radix2 (-138))%R.
Proof. exact sources. Qed.
Print Assumptions C40_float_sources.
(* sinks of unicasts *)
Theorem C40_float_sinks_partial : forall d st en sts live g0 sts' g, timestep_window st en -> sound_live en sts live ->
  computeCurrentTransferRate f32A d st en sts live g0 true = Ok (sts', g) ->
  forall c n ty, getCoreType d c = Ok ty ->
  (float_load st en (enters c n) sts' live <= real (abs_rate f32A d ty) * (1 + bpow radix2 (-19)) ^ (uses (enters c n) sts' live + 1))%R.
Proof. exact sinks. Qed.
Print Assumptions C40_float_sinks_partial.
(* in every timestep of every run; [live] lists the transfers that take part in it *)
Theorem C40_run_links : forall ord bord, bucket_order bord -> forall d cpt wl, proper wl -> proper_cpt cpt -> Forall sound_transfer (all_transfers wl) ->
  forall s s', reach f32A ord bord d true cpt wl s -> timestep f32A d true cpt wl s = Ok s' ->
  forall live, NoDup live -> (forall i, In i live <-> takes_part s s' i) -> forall l,
  (float_load (sm_curr f32A s - cpt) (sm_curr f32A s) (crosses l) (sm_sts f32A s') live <=
   real (link_bandwidth f32A d) * (1 + bpow radix2 (-19)) ^ (uses (crosses l) (sm_sts f32A s') live + 1))%R.
Proof. exact run_links. Qed.
Print Assumptions C40_run_links.
Theorem C40_run_sources : forall ord bord, bucket_order bord -> forall d cpt wl, proper wl -> proper_cpt cpt -> Forall sound_transfer (all_transfers wl) ->
  forall s s', reach f32A ord bord d true cpt wl s -> timestep f32A d true cpt wl s = Ok s' ->
  forall live, NoDup live -> (forall i, In i live <-> takes_part s s' i) -> forall c n rate, (0 <= rate)%R ->
  (forall i x, takes_part s s' i -> nth_error (sm_sts f32A s') i = Some x -> leaves c n x = 1%nat -> (real (t_rate (s_tr x)) <= rate)%R) ->
  (float_load (sm_curr f32A s - cpt) (sm_curr f32A s) (leaves c n) (sm_sts f32A s') live <=
   rate * (1 + bpow radix2 (-19)) ^ (uses (leaves c n) (sm_sts f32A s') live + 1) + INR (uses (leaves c n) (sm_sts f32A s') live) * bpow radix2 (-138))%R.
Proof. exact run_sources. Qed.
Print Assumptions C40_run_sources.
Theorem C40_run_sinks_partial : forall ord bord, bucket_order bord -> forall d cpt wl, proper wl -> proper_cpt cpt -> Forall sound_transfer (all_transfers wl) ->
  forall s s', reach f32A ord bord d true cpt wl s -> timestep f32A d true cpt wl s = Ok s' ->
  forall live, NoDup live -> (forall i, In i live <-> takes_part s s' i) -> forall c n ty, getCoreType d c = Ok ty ->
  (float_load (sm_curr f32A s - cpt) (sm_curr f32A s) (enters c n) (sm_sts f32A s') live <=
   real (abs_rate f32A d ty) * (1 + bpow radix2 (-19)) ^ (uses (enters c n) (sm_sts f32A s') live + 1))%R.
Proof. exact run_sinks. Qed.
Print Assumptions C40_run_sinks_partial.
Example C40_float_example : sound_live 100 (live_states f32A wormhole_b0 (wl_meet f32A)) all3 /\
  exists sts g, rate_all f32A wormhole_b0 (wl_meet f32A) all3 true = Ok (sts, g) /\
  float_load 0 100 (enters sink_core NOC0) sts all3 = (29464985 * bpow radix2 (-20))%R /\ uses (enters sink_core NOC0) sts all3 = 3%nat /\
  float_load 0 100 (crosses link128) sts all3 = (23571988 * bpow radix2 (-20))%R /\ uses (crosses link128) sts all3 = 2%nat /\
  real (abs_rate f32A wormhole_b0 WORKER) = (14732493 * bpow radix2 (-19))%R /\ getCoreType wormhole_b0 sink_core = Ok WORKER.
Proof. exact (conj meet_sound meet_float). Qed.
(* three transfers with 70.25 bytes per cycle (weighted) for a sink that takes 28.1 *)
Example C40_example : sound_rlive 100 (live_states ratA wormhole_b0 (wl_meet ratA)) all3 /\
  exists sts' g, congested ratA wormhole_b0 (wl_meet ratA) all3 = Ok (sts', g) /\
    (load 0 100 (enters sink_core NOC0) (live_states ratA wormhole_b0 (wl_meet ratA)) all3 == 281 # 4)%Q /\
    (load 0 100 (enters sink_core NOC0) sts' all3 == 281 # 10)%Q /\
    (load 0 100 (crosses link128) sts' all3 == 562 # 25)%Q /\
    getCoreType wormhole_b0 sink_core = Ok WORKER /\ abs_rate ratA wormhole_b0 WORKER = Some (281 # 10).
Proof. exact meet_load. Qed.

(** ** C53 The congestion-free model *)
(* the rate of a transfer is a function of its own parameters *)
Theorem C53_rates : forall A ord bord, bucket_order bord -> forall d congestion cpt wl, proper wl -> proper_cpt cpt ->
  forall s s', congestion = false -> reach A ord bord d congestion cpt wl s -> timestep A d congestion cpt wl s = Ok s' ->
  forall i x, takes_part s s' i -> nth_error (sm_sts A s') i = Some x ->
  exists noc, interpolateBW A (tbt A d) (max_noc_bandwidth A d) (t_psize (s_tr x)) (t_npkts (s_tr x)) = Ok noc /\
    s_bw x = f_fmin A (t_rate (s_tr x)) noc.
Proof. exact free_rates. Qed.
Print Assumptions C53_rates.
(* the demand grids stay zero *)
Theorem C53_demand : forall A ord bord, bucket_order bord -> forall d congestion cpt wl, proper wl -> proper_cpt cpt ->
  forall s, congestion = false -> visited A ord bord d congestion cpt wl s ->
  sm_grids A s = mkGrids (map (fun _ => f_zero A) (niu_table d)) (map (fun _ => f_zero A) (link_table d)) (map (fun _ => f_zero A) (link_table d)).
Proof. exact free_demand. Qed.
Print Assumptions C53_demand.
Example C53_example : proper (wl_share f32A) /\ proper_cpt 100 /\
  exists sts g, rate_all f32A wormhole_b0 (wl_meet f32A) all3 false = Ok (sts, g) /\
    map s_bw sts = [fl 14732493 (-19); fl 14732493 (-19); fl 14732493 (-19)].
Proof. exact (conj share_case (conj cpt_case (proj2 (proj2 meet_rates)))). Qed.

(** ** C54 More congestion never speeds a transfer up within a timestep *)
Theorem C54_monotone : forall d st en sts l1 k l2 g0 g0' sts1 sts2 g1 g2, timestep_window st en -> sound_live en sts (l1 ++ k :: l2) ->
  computeCurrentTransferRate f32A d st en sts (l1 ++ l2) g0 true = Ok (sts1, g1) ->
  computeCurrentTransferRate f32A d st en sts (l1 ++ k :: l2) g0' true = Ok (sts2, g2) ->
  (forall l x1 x2, nth_error (g_link g1) l = Some x1 -> nth_error (g_link g2) l = Some x2 -> le_float x1 x2) /\
  (forall l x1 x2, nth_error (g_niu g1) l = Some x1 -> nth_error (g_niu g2) l = Some x2 -> le_float x1 x2) /\
  forall i x1 x2, In i (l1 ++ l2) -> nth_error sts1 i = Some x1 -> nth_error sts2 i = Some x2 -> le_float (s_bw x2) (s_bw x1).
Proof. exact more_congestion. Qed.
Print Assumptions C54_monotone.
Example C54_example : sound_live 100 (live_states f32A wormhole_b0 (wl_meet f32A)) (all2 ++ [2%nat]) /\
  (exists sts g, rate_all f32A wormhole_b0 (wl_meet f32A) all2 true = Ok (sts, g) /\
    map s_bw sts = [fl 14732493 (-20); fl 14732493 (-20); fl 14732493 (-19)]) /\
  (exists sts g, rate_all f32A wormhole_b0 (wl_meet f32A) (all2 ++ [2%nat]) true = Ok (sts, g) /\
    map s_bw sts = [fl 11785994 (-20); fl 11785994 (-20); fl 11785994 (-20)]).
Proof. exact (conj meet_sound (conj (proj1 meet_rates) (proj1 (proj2 meet_rates)))). Qed.
