(* Property theorems C24-C37 (dependencies and simulation). Specification: SpecEngine.v; concrete workloads: Cases.v.
   Generic theorems hold for every arithmetic [A], in particular for IEEE floats ([f32A]). *)
From Coq Require Import ZArith String List Bool Floats.SpecFloat.
From Verif Require Import Base Arith Util Device Workload SpecWorkload DepTracker Rates Stats Engine SpecEngine
  EngineFacts EngineFacts2 EngineFacts3 EngineFacts4 EngineFacts5 Cases EngineWitness.
Import ListNotations.
Local Open Scope string_scope.
Local Open Scope list_scope.
Open Scope Z_scope.

(** ** C24 Per-NIU serialisation *)
(* the transfer two places behind [j] in its lane does not start before the end of [j] *)
Theorem C24_lane_order : forall A ord bord, bucket_order bord -> forall d congestion cpt wl, proper wl -> proper_cpt cpt ->
  forall s, visited A ord bord d congestion cpt wl s -> forall i j x, nth_error (sm_sts A s) i = Some x ->
  ~ has_group_parent A (s_tr x) -> two_before A d (sm_sts A s) j i -> has_started A s i ->
  is_finished A s j /\ exists y, nth_error (sm_sts A s) j = Some y /\ 0 <= s_end y < 2 ^ 32 /\
    s_start x = Z.max (t_off (s_tr x)) (s_end y).
Proof. exact lane_order. Qed.
Print Assumptions C24_lane_order.
Theorem C24_lane_first : forall A ord bord, bucket_order bord -> forall d congestion cpt wl, proper wl -> proper_cpt cpt ->
  forall s, visited A ord bord d congestion cpt wl s -> forall i x, nth_error (sm_sts A s) i = Some x ->
  ~ has_group_parent A (s_tr x) -> first_two A d (sm_sts A s) i -> has_started A s i -> s_start x = t_off (s_tr x).
Proof. exact lane_first. Qed.
Print Assumptions C24_lane_first.
(* when all sources are on one chip, a lane is a source core, a NoC and a first direction *)
Theorem C24_lane_one_chip : forall A ord bord, bucket_order bord -> forall d congestion cpt wl, proper wl -> proper_cpt cpt ->
  (forall t t', In t (all_transfers wl) -> In t' (all_transfers wl) -> c_dev (t_src t) = c_dev (t_src t')) ->
  forall s, visited A ord bord d congestion cpt wl s -> forall i j x y, nth_error (sm_sts A s) i = Some x -> nth_error (sm_sts A s) j = Some y ->
  (same_lane A d x y <-> t_noc (s_tr x) = t_noc (s_tr y) /\ t_src (s_tr x) = t_src (s_tr y) /\ first_direction A d x = first_direction A d y).
Proof. exact same_source_lane. Qed.
Print Assumptions C24_lane_one_chip.
(* with several chips the lanes of all chips are merged: here the only transfer of its core waits until cycle 200 *)
Theorem C24_several_chips_refuted : exists wl s i x, proper wl /\ validate N300 wl = Ok true /\
  succeeds f32A same_links same_buckets N300 true 100 wl s /\ nth_error (sm_sts f32A s) i = Some x /\
  (forall j y, nth_error (sm_sts f32A s) j = Some y -> t_src (s_tr y) = t_src (s_tr x) -> j = i) /\
  t_gid (s_tr x) = -1 /\ t_off (s_tr x) = 0 /\ s_start x = 200.
Proof. exact several_chips_serialised. Qed.
Print Assumptions C24_several_chips_refuted.
Example C24_example : proper (wl_lane f32A) /\ bucket_order same_buckets /\ exists s x y z,
  succeeds f32A same_links same_buckets wormhole_b0 true 100 (wl_lane f32A) s /\
  nth_error (sm_sts f32A s) 0 = Some x /\ nth_error (sm_sts f32A s) 1 = Some y /\ nth_error (sm_sts f32A s) 2 = Some z /\
  t_src (s_tr x) = t_src (s_tr z) /\ s_start x = 0 /\ s_start y = 0 /\ s_end x = 150 /\ s_end y = 20 /\ s_start z = 150.
Proof. exact lane_example. Qed.

(** ** C25 The dependency consistency check never fails *)
Theorem C25_never_exits : forall A ord bord, bucket_order bord -> forall d congestion cpt wl, proper wl ->
  simulate A ord bord d congestion cpt wl <> Exit.
Proof. exact check_never_exits. Qed.
Print Assumptions C25_never_exits.
Theorem C25_checkpoints : forall A ord bord, bucket_order bord -> forall d cpt wl, proper wl ->
  forall s, sim_init A ord bord d cpt wl = Ok s ->
  Forall (fun c => cp_completed c = 0 /\ cp_total c = 1 /\ cp_end c = 0) (sm_trk A s) /\
  NoDup (flat_map s_req (sm_sts A s)) /\
  (forall k, In k (flat_map s_req (sm_sts A s)) <-> (k < List.length (sm_trk A s))%nat) /\
  (forall i x k, nth_error (sm_sts A s) i = Some x -> s_dep x = Some k -> (k < List.length (sm_trk A s))%nat).
Proof. exact checkpoints_initial. Qed.
Print Assumptions C25_checkpoints.
Example C25_example : proper (wl_hops f32A) /\ exists s, sim_init f32A same_links same_buckets N300 100 (wl_hops f32A) = Ok s /\
  List.length (sm_trk f32A s) = 1%nat /\ map s_req (sm_sts f32A s) = [[0%nat]; []] /\ map s_dep (sm_sts f32A s) = [None; Some 0%nat].
Proof. exact checkpoints_example. Qed.

(** ** C26 No transfer starts before its dependency is fulfilled *)
(* the sum of end cycle and delay is taken modulo 2^32; C26_no_wrap in PropertiesFloat.v *)
Theorem C26_start : forall A ord bord, bucket_order bord -> forall d congestion cpt wl, proper wl -> proper_cpt cpt ->
  forall s, visited A ord bord d congestion cpt wl s -> forall i x, nth_error (sm_sts A s) i = Some x -> has_started A s i ->
  t_off (s_tr x) <= s_start x <= sm_curr A s /\
  forall j dl, depends A (sm_sts A s) (sm_trk A s) i j dl -> is_finished A s j /\
    exists y, nth_error (sm_sts A s) j = Some y /\ s_start x = Z.max (t_off (s_tr x)) (u32 (s_end y + dl)).
Proof. exact start_after_dependency. Qed.
Print Assumptions C26_start.
Theorem C26_no_dependency : forall A ord bord, bucket_order bord -> forall d congestion cpt wl, proper wl -> proper_cpt cpt ->
  forall s, visited A ord bord d congestion cpt wl s -> forall i x, nth_error (sm_sts A s) i = Some x -> has_started A s i ->
  (forall j dl, ~ depends A (sm_sts A s) (sm_trk A s) i j dl) -> s_start x = t_off (s_tr x).
Proof. exact start_without_dependency. Qed.
Print Assumptions C26_no_dependency.
(* bytes move only after the start *)
Theorem C26_moving_is_started : forall A ord bord, bucket_order bord -> forall d congestion cpt wl, proper wl -> proper_cpt cpt ->
  forall s, visited A ord bord d congestion cpt wl s -> forall i x, nth_error (sm_sts A s) i = Some x -> 0 < s_done x -> has_started A s i.
Proof. exact moving_is_started. Qed.
Print Assumptions C26_moving_is_started.
Example C26_example : exists s x y, succeeds f32A same_links same_buckets N300 true 100 (wl_hops f32A) s /\
  nth_error (sm_sts f32A s) 0 = Some y /\ nth_error (sm_sts f32A s) 1 = Some x /\
  depends f32A (sm_sts f32A s) (sm_trk f32A s) 1 0 680 /\ s_end y = 100 /\ s_start x = 780.
Proof. exact hops_example. Qed.

(** ** C27 Dependencies cannot deadlock *)
Theorem C27_acyclic : forall A ord bord, bucket_order bord -> forall d congestion cpt wl, proper wl -> proper_cpt cpt ->
  forall s, visited A ord bord d congestion cpt wl s -> parents_first A (all_transfers wl) ->
  forall i j dl x y, nth_error (sm_sts A s) i = Some x -> nth_error (sm_sts A s) j = Some y ->
  depends A (sm_sts A s) (sm_trk A s) i j dl -> before A y x.
Proof. exact depends_before. Qed.
Print Assumptions C27_acyclic.
Theorem C27_no_deadlock : forall A ord bord, bucket_order bord -> forall d congestion cpt wl, proper wl -> proper_cpt cpt ->
  forall s, visited A ord bord d congestion cpt wl s -> parents_first A (all_transfers wl) ->
  (exists i, (i < List.length (sm_sts A s))%nat /\ ~ is_finished A s i) ->
  exists i, (i < List.length (sm_sts A s))%nat /\ ~ is_finished A s i /\
    forall j dl, depends A (sm_sts A s) (sm_trk A s) i j dl -> is_finished A s j.
Proof. exact no_deadlock. Qed.
Print Assumptions C27_no_deadlock.
(* transfers whose parents are all among themselves never start, and the run ends with the cycle limit *)
Theorem C27_cycle : forall A ord bord, bucket_order bord -> forall d congestion cpt wl, proper wl -> proper_cpt cpt ->
  forall S, S <> [] ->
  (forall i, In i S -> exists t, nth_error (all_transfers wl) i = Some t /\ has_group_parent A t /\
     (exists p, In p (all_transfers wl) /\ names_parent A t p) /\
     (forall j p, nth_error (all_transfers wl) j = Some p -> names_parent A t p -> In j S)) ->
  forall r, simulate A ord bord d congestion cpt wl = Ok r -> r = inr EXCEEDED_SIM_CYCLE_LIMIT.
Proof. exact parents_cycle. Qed.
Print Assumptions C27_cycle.
Example C27_example : proper (wl_cycle f32A) /\
  simulate f32A same_links same_buckets wormhole_b0 true 25000001 (wl_cycle f32A) = Ok (inr EXCEEDED_SIM_CYCLE_LIMIT).
Proof. split; [exact cycle_case|apply run_limit; vm_compute; reflexivity]. Qed.
Example C27_example_parents : parents_first f32A (all_transfers (wl_hops f32A)).
Proof. exact hops_parents_first. Qed.

(** ** C28 Transfers on different chips *)
Theorem C28_different_chips_refuted : exists wl s i j x y dl, proper wl /\ validate N300 wl = Ok true /\
  succeeds f32A same_links same_buckets N300 true 100 wl s /\ nth_error (sm_sts f32A s) i = Some x /\ nth_error (sm_sts f32A s) j = Some y /\
  t_gid (s_tr x) = -1 /\ t_gid (s_tr y) = -1 /\ c_dev (t_src (s_tr x)) <> c_dev (t_src (s_tr y)) /\
  depends f32A (sm_sts f32A s) (sm_trk f32A s) i j dl.
Proof. exact chips_depend. Qed.
Print Assumptions C28_different_chips_refuted.
(* what holds: outside groups only transfers of one lane (row, column, NoC, first direction) depend on each other *)
Theorem C28_rule : forall A ord bord, bucket_order bord -> forall d congestion cpt wl, proper wl -> proper_cpt cpt ->
  forall s, visited A ord bord d congestion cpt wl s -> forall i x, nth_error (sm_sts A s) i = Some x ->
  forall j dl, depends A (sm_sts A s) (sm_trk A s) i j dl ->
  (has_group_parent A (s_tr x) /\
     (j = O \/ exists y, nth_error (sm_sts A s) j = Some y /\ names_parent A (s_tr x) (s_tr y)) /\
     exists p, nth_error (sm_sts A s) j = Some p) \/
  (~ has_group_parent A (s_tr x) /\ two_before A d (sm_sts A s) j i /\ dl = 0).
Proof. exact depends_rule. Qed.
Print Assumptions C28_rule.
Theorem C28_lane : forall A ord bord, bucket_order bord -> forall d congestion cpt wl, proper wl -> proper_cpt cpt ->
  forall s, visited A ord bord d congestion cpt wl s -> forall i x, nth_error (sm_sts A s) i = Some x ->
  ~ has_group_parent A (s_tr x) -> forall j, two_before A d (sm_sts A s) j i -> depends A (sm_sts A s) (sm_trk A s) i j 0.
Proof. exact depends_lane. Qed.
Print Assumptions C28_lane.

(** ** C29 Multi-hop groups *)
Theorem C29_group : forall A ord bord, bucket_order bord -> forall d congestion cpt wl, proper wl -> proper_cpt cpt ->
  forall s, visited A ord bord d congestion cpt wl s -> forall i x, nth_error (sm_sts A s) i = Some x -> has_group_parent A (s_tr x) ->
  dv_arch d = WormholeB0 /\
  exists j dl p, depends A (sm_sts A s) (sm_trk A s) i j dl /\ nth_error (sm_sts A s) j = Some p /\ hop_delay A d (s_tr x) (s_tr p) dl /\
    (names_parent A (s_tr x) (s_tr p) \/
     (j = O /\ forall k y, nth_error (sm_sts A s) k = Some y -> ~ names_parent A (s_tr x) (s_tr y))).
Proof. exact group_rule. Qed.
Print Assumptions C29_group.
Theorem C29_one_dependency : forall A ord bord, bucket_order bord -> forall d congestion cpt wl, proper wl -> proper_cpt cpt ->
  forall s, visited A ord bord d congestion cpt wl s -> forall i j dl j' dl',
  depends A (sm_sts A s) (sm_trk A s) i j dl -> depends A (sm_sts A s) (sm_trk A s) i j' dl' -> j' = j /\ dl' = dl.
Proof. exact depends_unique. Qed.
Print Assumptions C29_one_dependency.
(* on Blackhole no workload with a group parent is simulated *)
Theorem C29_blackhole : forall A ord bord, bucket_order bord -> forall d congestion cpt wl, proper wl -> proper_cpt cpt ->
  dv_arch d = Blackhole -> (exists t, In t (all_transfers wl) /\ has_group_parent A t) ->
  forall r, simulate A ord bord d congestion cpt wl <> Ok r.
Proof. exact blackhole_never. Qed.
Print Assumptions C29_blackhole.
Theorem C29_blackhole_refuted : exists wl, proper wl /\ validate blackhole_p150 wl = Ok true /\
  (exists t p, In t (all_transfers wl) /\ In p (all_transfers wl) /\ has_group_parent f32A t /\ names_parent f32A t p /\ t_off p <= t_off t /\ t_id p < t_id t) /\
  simulate f32A same_links same_buckets blackhole_p150 true 100 wl = Throw DEPENDENCY_GEN_FAILED.
Proof. exact blackhole_hops. Qed.
Print Assumptions C29_blackhole_refuted.
(* a missing parent is replaced by transfer 0 *)
Theorem C29_missing_parent_refuted : exists wl s, proper wl /\ validate wormhole_b0 wl = Ok true /\
  succeeds f32A same_links same_buckets wormhole_b0 true 100 wl s /\
  exists x, nth_error (sm_sts f32A s) 1 = Some x /\ has_group_parent f32A (s_tr x) /\
    (forall p, In p (all_transfers wl) -> ~ names_parent f32A (s_tr x) p) /\
    depends f32A (sm_sts f32A s) (sm_trk f32A s) 1 0 70 /\ s_start x = 170.
Proof. exact orphan_run. Qed.
Print Assumptions C29_missing_parent_refuted.

(** ** C30 Activation is exact *)
Theorem C30_activation : forall A ord bord, bucket_order bord -> forall d congestion cpt wl, proper wl -> proper_cpt cpt ->
  forall s s', reach A ord bord d congestion cpt wl s -> timestep A d congestion cpt wl s = Ok s' ->
  forall i, is_queued A s i /\ ~ is_queued A s' i <->
    is_queued A s i /\ exists x, nth_error (sm_sts A s) i = Some x /\ t_off (s_tr x) <= sm_curr A s /\ fulfilled A s i (sm_curr A s).
Proof. exact activation_exact. Qed.
Print Assumptions C30_activation.
Theorem C30_places : forall A ord bord, bucket_order bord -> forall d congestion cpt wl, proper wl -> proper_cpt cpt ->
  forall s, visited A ord bord d congestion cpt wl s ->
  NoDup (map snd (sm_queue A s)) /\ NoDup (sm_live A s) /\ List.length (sm_sts A s) = List.length (all_transfers wl) /\
  forall i, (i < List.length (all_transfers wl))%nat <->
    (is_queued A s i /\ ~ is_live A s i /\ ~ is_finished A s i) \/ (~ is_queued A s i /\ is_live A s i /\ ~ is_finished A s i) \/
    (~ is_queued A s i /\ ~ is_live A s i /\ is_finished A s i).
Proof. exact places. Qed.
Print Assumptions C30_places.
Theorem C30_moves : forall A ord bord, bucket_order bord -> forall d congestion cpt wl, proper wl -> proper_cpt cpt ->
  forall s s', reach A ord bord d congestion cpt wl s -> timestep A d congestion cpt wl s = Ok s' ->
  forall i, (is_live A s i -> is_live A s' i \/ is_finished A s' i) /\ (is_finished A s i -> is_finished A s' i) /\
    (is_queued A s' i -> is_queued A s i).
Proof. exact places_move. Qed.
Print Assumptions C30_moves.
Theorem C30_transfers : forall A ord bord, bucket_order bord -> forall d congestion cpt wl, proper wl -> proper_cpt cpt ->
  forall s i x, visited A ord bord d congestion cpt wl s -> nth_error (sm_sts A s) i = Some x -> nth_error (all_transfers wl) i = Some (s_tr x).
Proof. exact visited_transfer. Qed.
Print Assumptions C30_transfers.
(* in the first timestep two of the three transfers are activated, one of them finishes *)
Example C30_example : exists s s', reach f32A same_links same_buckets wormhole_b0 true 100 (wl_lane f32A) s /\
  timestep f32A wormhole_b0 true 100 (wl_lane f32A) s = Ok s' /\
  map snd (sm_queue f32A s) = [2; 1; 0]%nat /\ sm_live f32A s = [] /\ map snd (sm_queue f32A s') = [2]%nat /\ sm_live f32A s' = [0]%nat.
Proof. exact activation_example. Qed.

(** ** C31 Every simulation terminates and the clock never wraps *)
Theorem C31_clock : forall A ord bord, bucket_order bord -> forall d congestion cpt wl, proper wl -> proper_cpt cpt ->
  forall n s, begins A ord bord d congestion cpt wl n s ->
  sm_curr A s = Z.of_nat n * cpt /\ Z.of_nat n <= MAX_CYCLE_LIMIT / cpt + 1 /\ sm_curr A s < 2 ^ 32.
Proof. exact begins_time. Qed.
Print Assumptions C31_clock.
(* the fuel of the model's loop is never what ends it *)
Theorem C31_terminates : forall A ord bord, bucket_order bord -> forall d congestion cpt wl, proper wl -> proper_cpt cpt ->
  forall s, sim_init A ord bord d cpt wl = Ok s -> forall fuel, (sim_fuel cpt <= fuel)%nat ->
  sim_loop A fuel d congestion cpt wl s = simulate A ord bord d congestion cpt wl.
Proof. exact simulation_terminates. Qed.
Print Assumptions C31_terminates.
Theorem C31_diverges_only_inside : forall A ord bord, bucket_order bord -> forall d congestion cpt wl, proper wl -> proper_cpt cpt ->
  simulate A ord bord d congestion cpt wl = Diverge ->
  sim_init A ord bord d cpt wl = Diverge \/
  exists s1, reach A ord bord d congestion cpt wl s1 /\ timestep A d congestion cpt wl s1 = Diverge.
Proof. exact simulation_diverges. Qed.
Print Assumptions C31_diverges_only_inside.
Theorem C31_error : forall A ord bord, bucket_order bord -> forall d congestion cpt wl, proper wl -> proper_cpt cpt ->
  forall e, simulate A ord bord d congestion cpt wl = Ok (inr e) -> e = EXCEEDED_SIM_CYCLE_LIMIT.
Proof. exact simulation_error. Qed.
Print Assumptions C31_error.
(* the largest timestep length *)
Example C31_example : proper_cpt 4294967295 /\ proper (wl_cycle f32A) /\
  simulate f32A same_links same_buckets wormhole_b0 true 4294967295 (wl_cycle f32A) = Ok (inr EXCEEDED_SIM_CYCLE_LIMIT).
Proof. split; [split; vm_compute; [discriminate|reflexivity]|]. split; [exact cycle_case|apply run_limit; vm_compute; reflexivity]. Qed.

(** ** C32 Bytes are conserved *)
Theorem C32_bounds : forall A ord bord, bucket_order bord -> forall d congestion cpt wl, proper wl -> proper_cpt cpt ->
  forall s, visited A ord bord d congestion cpt wl s -> forall i x, nth_error (sm_sts A s) i = Some x ->
  0 <= s_done x <= t_bytes (s_tr x) /\ (is_queued A s i -> s_done x = 0) /\ (is_live A s i -> s_done x < t_bytes (s_tr x)) /\
  (is_finished A s i -> s_done x = t_bytes (s_tr x)).
Proof. exact bytes_bounds. Qed.
Print Assumptions C32_bounds.
Theorem C32_monotone : forall A ord bord, bucket_order bord -> forall d congestion cpt wl, proper wl -> proper_cpt cpt ->
  forall s s', reach A ord bord d congestion cpt wl s -> timestep A d congestion cpt wl s = Ok s' ->
  forall i x, nth_error (sm_sts A s) i = Some x -> exists x', nth_error (sm_sts A s') i = Some x' /\ s_tr x' = s_tr x /\ s_done x <= s_done x'.
Proof. exact bytes_monotone. Qed.
Print Assumptions C32_monotone.
Theorem C32_success : forall A ord bord, bucket_order bord -> forall d congestion cpt wl, proper wl -> proper_cpt cpt ->
  forall s, succeeds A ord bord d congestion cpt wl s ->
  List.length (sm_sts A s) = List.length (all_transfers wl) /\
  (forall i x, nth_error (sm_sts A s) i = Some x -> nth_error (all_transfers wl) i = Some (s_tr x) /\ s_done x = t_bytes (s_tr x)) /\
  Forall (fun c => cp_completed c = cp_total c) (sm_trk A s).
Proof. exact success_complete. Qed.
Print Assumptions C32_success.
Example C32_example : exists s, succeeds f32A same_links same_buckets wormhole_b0 true 100 (wl_lane f32A) s /\
  map s_done (sm_sts f32A s) = [100; 10; 350].
Proof. exact lane_bytes. Qed.

(** ** C33 A transfer ends no earlier than it starts *)
(* start >= offset is C26_start; the positive part for floats is in PropertiesFloat.v *)
Theorem C33_end_before_start_refuted : exists s x, succeeds f32A same_links same_buckets wormhole_b0 true 20000000 (wl_late f32A) s /\
  validate wormhole_b0 (wl_late f32A) = Ok true /\ nth_error (sm_sts f32A s) 0 = Some x /\ s_start x = 16777217 /\ s_end x = 16777216.
Proof. exact late_run. Qed.
Print Assumptions C33_end_before_start_refuted.

(** ** C34 No transfer is faster than its bandwidth *)
(* the cycles credited since the start exceed the elapsed cycles by at most one timestep *)
Theorem C34_credit : forall A ord bord, bucket_order bord -> forall d congestion cpt wl, proper wl -> proper_cpt cpt ->
  forall s i x, step_end A ord bord d congestion cpt wl s -> nth_error (sm_sts A s) i = Some x -> has_started A s i ->
  exists cs, paced A ord bord d congestion cpt wl i s cs /\ Forall (fun c => 0 <= c <= 2 * cpt) cs /\
    sum cs <= sm_curr A s - s_start x + cpt /\ s_start x <= sm_curr A s.
Proof. exact credit_bounded. Qed.
Print Assumptions C34_credit.
Theorem C34_assertions : forall A ord bord, bucket_order bord -> forall d congestion cpt wl, proper wl -> proper_cpt cpt ->
  forall s sts1 live q acts sts2 g stt, reach A ord bord d congestion cpt wl s ->
  let curr := sm_curr A s in let sot := u32 (curr - cpt) in let n := List.length (sm_queue A s) in
  activate A n curr (sm_trk A s) (Nat.pred n) 0 (sm_sts A s) (sm_live A s) (sm_queue A s) = Ok (sts1, live, q, acts) ->
  computeCurrentTransferRate A d sot curr sts1 live (sm_grids A s) congestion = Ok (sts2, g) ->
  forall e, foldM (live_step A wl cpt curr sot) live (sts2, sm_trk A s, stt) <> Throw e.
Proof. exact assertions_hold. Qed.
Print Assumptions C34_assertions.
(* 350 bytes at 1 byte per cycle between cycle 100 and cycle 350: the timestep in which the transfer it depends on
   ended is credited twice *)
Theorem C34_too_fast_refuted : exists s x, succeeds f32A same_links same_buckets wormhole_b0 false 100 (wl_lane f32A) s /\
  nth_error (sm_sts f32A s) 2 = Some x /\ t_rate (s_tr x) = f_one f32A /\ t_bytes (s_tr x) = 350 /\ s_done x = 350 /\
  s_start x = 100 /\ s_end x = 350.
Proof. exact (lane_run false). Qed.
Print Assumptions C34_too_fast_refuted.

(** ** C35 Estimated cycles *)
Theorem C35_estimate : forall A ord bord, bucket_order bord -> forall d cpt wl, proper wl -> proper_cpt cpt ->
  forall model stt, runSinglePerfSim A ord bord d model cpt wl = Ok (Stats stt) ->
  exists s, succeeds A ord bord d (negb (String.eqb model "none")) cpt wl s /\
    forall id ds, stats_get A stt id = Some ds -> ds_completed A ds = true /\
      exists g, getGoldenResultCycles wl id = Ok g /\ (0 <= fst g -> estimate A id g (sm_sts A s) (ds_est A ds)).
Proof. exact estimated_cycles. Qed.
Print Assumptions C35_estimate.
Example C35_example : proper (wl_lane f32A) /\
  estimates (runSinglePerfSim f32A same_links same_buckets wormhole_b0 "fast" 100 (wl_lane f32A)) = Some [(0, (500, 0)); (-1, (500, 0))].
Proof. split; [exact lane_case|vm_compute; reflexivity]. Qed.

(** ** C36 Congestion impact *)
(* the congestion-free count that is reported is the count of the congested run *)
Theorem C36_congfree_refuted : exists cfg wl, cf_impact cfg = true /\ proper wl /\ validate wormhole_b0 wl = Ok true /\
  estimates (runPerfEstimation f32A same_links same_buckets wormhole_b0 cfg wl) = Some [(0, (206, 206)); (-1, (206, 206))] /\
  estimates (runSinglePerfSim f32A same_links same_buckets wormhole_b0 "none" (cf_cpt cfg) wl) = Some [(0, (120, 0)); (-1, (120, 0))].
Proof. exact congfree_witness. Qed.
Print Assumptions C36_congfree_refuted.
Theorem C36_always_equal : forall A ord bord d cfg wl stt stt0, cf_impact cfg = true ->
  runSinglePerfSim A ord bord d "none" (cf_cpt cfg) wl = Ok (Stats stt0) ->
  runPerfEstimation A ord bord d cfg wl = Ok (Stats stt) ->
  exists stt1, runSinglePerfSim A ord bord d (cf_model cfg) (cf_cpt cfg) wl = Ok (Stats stt1) /\
    forall id ds, In (id, ds) stt -> ds_congfree A ds = ds_est A ds /\ exists ds1, In (id, ds1) stt1 /\ ds_est A ds1 = ds_est A ds.
Proof. exact congfree_is_estimate. Qed.
Print Assumptions C36_always_equal.

(** ** C37 Live transfers make progress *)
Theorem C37_progress : forall A ord bord, bucket_order bord -> forall d congestion cpt wl, proper wl -> proper_cpt cpt ->
  forall s s' i x x', reach A ord bord d congestion cpt wl s -> timestep A d congestion cpt wl s = Ok s' -> is_live A s i ->
  nth_error (sm_sts A s) i = Some x -> nth_error (sm_sts A s') i = Some x' ->
  exists c m, cpt <= c <= 2 * cpt /\ f_to_uint A 64 (f_mul A (f_ofZ A c) (s_bw x')) = Ok m /\
    s_done x' = s_done x + Z.min (t_bytes (s_tr x) - s_done x) m.
Proof. exact progress. Qed.
Print Assumptions C37_progress.
(* 13 cycles at 0.07 bytes per cycle move nothing *)
Theorem C37_no_progress_refuted : exists s1 s2 x1 x2,
  validate wormhole_b0 (wl_slow f32A) = Ok true /\
  reach f32A same_links same_buckets wormhole_b0 true 13 (wl_slow f32A) s1 /\
  timestep f32A wormhole_b0 true 13 (wl_slow f32A) s1 = Ok s2 /\ is_live f32A s1 0 /\
  nth_error (sm_sts f32A s1) 0 = Some x1 /\ nth_error (sm_sts f32A s2) 0 = Some x2 /\ s_start x1 = 0 /\ sm_curr f32A s1 = 26 /\
  s_done x1 = 0 /\ s_done x2 = 0.
Proof. exact slow_run. Qed.
Print Assumptions C37_no_progress_refuted.
