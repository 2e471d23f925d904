(* Counterexamples for the simulation properties that are false of the code. *)
From Coq Require Import ZArith Arith QArith String List Bool Lia Floats.SpecFloat Sorting.Permutation.
From Verif Require Import Base Arith Util Device Workload SpecWorkload DepTracker Rates Stats Engine Api UtilProofs
  WorkloadProofs SpecEngine RunProofs EngineFacts EngineFacts2 Cases.
Import ListNotations.
Local Open Scope string_scope.
Local Open Scope list_scope.
Open Scope Z_scope.

Lemma same_buckets_order : bucket_order same_buckets.
Proof. intros bs. reflexivity. Qed.
Lemma same_links_order : link_order same_links.
Proof. intros i l. reflexivity. Qed.

(* read off a run *)
Lemma run_view A ord bord d congestion cpt wl v :
  match simulate A ord bord d congestion cpt wl with Ok (inl s) => Some (view_of s) | _ => None end = Some v ->
  exists s, succeeds A ord bord d congestion cpt wl s /\ view_of s = v.
Proof. unfold succeeds. destruct (simulate _ _ _ _ _ _ _) as [[s|e]| | | | | |]; try discriminate. intros H. injection H as <-. eauto. Qed.
(* the type of a state is not normalised this way *)
Definition outcome_is {T E} (r : outcome (T + E)) (same : E -> bool) (e0 : npe_error -> bool) : bool :=
  match r with Ok (inr e) => same e | Throw e => e0 e | _ => false end.
Definition is_limit (e : npe_error) : bool := match e with EXCEEDED_SIM_CYCLE_LIMIT => true | _ => false end.
Definition is_depfail (e : npe_error) : bool := match e with DEPENDENCY_GEN_FAILED => true | _ => false end.
Lemma run_limit A ord bord d congestion cpt wl :
  outcome_is (simulate A ord bord d congestion cpt wl) is_limit (fun _ => false) = true ->
  simulate A ord bord d congestion cpt wl = Ok (inr EXCEEDED_SIM_CYCLE_LIMIT).
Proof. destruct (simulate _ _ _ _ _ _ _) as [[s|[]]| | | | | |]; try discriminate. reflexivity. Qed.
Lemma run_depfail A ord bord d congestion cpt wl :
  outcome_is (simulate A ord bord d congestion cpt wl) (fun _ => false) is_depfail = true ->
  simulate A ord bord d congestion cpt wl = Throw DEPENDENCY_GEN_FAILED.
Proof. destruct (simulate _ _ _ _ _ _ _) as [[s|e]|[]| | | | |]; try discriminate. reflexivity. Qed.
Lemma view_nth A (s : sim A) i c sts trk q live :
  view_of s = (c, sts, trk, q, live) ->
  match nth_error sts i with
  | Some (t, dp, rq, st, e, dn) => exists x, nth_error (sm_sts A s) i = Some x /\ s_tr x = t /\ s_dep x = dp /\ s_req x = rq /\ s_start x = st /\ s_end x = e /\ s_done x = dn
  | None => nth_error (sm_sts A s) i = None
  end.
Proof.
  intros H. injection H as _ <- _ _ _. rewrite nth_error_map. destruct (nth_error (sm_sts A s) i) as [x|]; cbn; [|reflexivity]. exists x. repeat split.
Qed.
Lemma view_rest A (s : sim A) c sts trk q live : view_of s = (c, sts, trk, q, live) ->
  sm_curr A s = c /\ List.length (sm_sts A s) = List.length sts /\ sm_trk A s = trk /\ map snd (sm_queue A s) = q /\ sm_live A s = live.
Proof. intros H. injection H as <- <- <- <- <-. rewrite map_length. auto. Qed.
Tactic Notation "run" constr(d) constr(c) constr(cpt) constr(wl) :=
  edestruct (run_view f32A same_links same_buckets d c cpt wl) as (s & HS & HV); [vm_compute; reflexivity|].
Ltac view := match goal with H : view_of ?s = (?c, ?sts, ?trk, ?q, ?live) |- _ =>
   pose proof (view_rest _ _ _ _ _ _ _ H); pose proof (fun i => view_nth _ s i c sts trk q live H) end.

(* decidable form of [proper] *)
Definition rangesb {Fl} (t : transfer Fl) : bool :=
  (0 <=? t_off t) && (t_off t <? 2 ^ 32) && (0 <=? t_bytes t) && (t_bytes t <? 2 ^ 32) &&
  (0 <=? t_psize t) && (t_psize t <? 2 ^ 32) && (0 <=? t_npkts t) && (t_npkts t <? 2 ^ 32).
Lemma rangesb_ok {Fl} (t : transfer Fl) : rangesb t = true -> transfer_ranges t.
Proof. unfold rangesb, transfer_ranges. rewrite !andb_true_iff, !Z.leb_le, !Z.ltb_lt. tauto. Qed.
Lemma proper_case {Fl} (wl : workload Fl) :
  map ph_id (wl_phases wl) = map Z.of_nat (seq 0 (List.length (wl_phases wl))) ->
  map t_id (all_transfers wl) = map Z.of_nat (seq 0 (List.length (all_transfers wl))) ->
  wl_next wl = Z.of_nat (List.length (all_transfers wl)) -> forallb rangesb (all_transfers wl) = true -> proper wl.
Proof.
  intros H1 H2 H3 H4. split; [repeat split; assumption|]. rewrite forallb_forall in H4. apply Forall_forall. intros t Ht. apply rangesb_ok, H4, Ht.
Qed.
Ltac proper := apply proper_case; vm_compute; reflexivity.
Ltac cpt := unfold proper_cpt; split; vm_compute; [discriminate|reflexivity].

Definition N300 : device := wormhole_multichip 2.

Lemma lane_case : proper (wl_lane f32A). Proof. proper. Qed.
Lemma chips_case : proper (wl_chips f32A). Proof. proper. Qed.
Lemma share_case : proper (wl_share f32A). Proof. proper. Qed.
Lemma late_case : proper (wl_late f32A). Proof. proper. Qed.
Lemma cycle_case : proper (wl_cycle f32A). Proof. proper. Qed.
Lemma hops_case : proper (wl_hops f32A). Proof. proper. Qed.
Lemma hops1_case : proper (wl_hops1 f32A). Proof. proper. Qed.
Lemma orphan_case : proper (wl_orphan f32A). Proof. proper. Qed.
Lemma slow_case : proper (wl_slow f32A). Proof. proper. Qed.

(** * C24, C28 *)
Lemma chips_run : exists s, succeeds f32A same_links same_buckets N300 true 100 (wl_chips f32A) s /\ 
  exists x y, nth_error (sm_sts f32A s) 2 = Some x /\ nth_error (sm_sts f32A s) 0 = Some y /\
    t_off (s_tr x) = 0 /\ s_start x = 200 /\ t_src (s_tr x) = at_core (1,1,1) /\ t_gid (s_tr x) = -1 /\
    (forall j z, nth_error (sm_sts f32A s) j = Some z -> t_src (s_tr z) = at_core (1,1,1) -> j = 2%nat) /\
    depends f32A (sm_sts f32A s) (sm_trk f32A s) 2 0 0 /\ t_src (s_tr y) = at_core (0,1,1) /\ t_gid (s_tr y) = -1.
Proof.
  run N300 true 100 (wl_chips f32A). exists s. split; [exact HS|]. view.
  destruct H as (H1 & H2 & H3 & H4 & H5). cbn [List.length] in H2.
  pose proof (H0 0%nat) as X0. pose proof (H0 1%nat) as X1. pose proof (H0 2%nat) as X2. cbn [nth_error] in X0, X1, X2.
  destruct X0 as (y & Y0 & Y1 & Y2 & Y3 & Y4 & Y5 & Y6). destruct X1 as (z & Z0 & Z1 & Z2 & Z3 & Z4 & Z5 & Z6).
  destruct X2 as (x & X0 & X1 & X2 & X3 & X4 & X5 & X6). exists x, y. rewrite X1, Y1.
  split; [assumption|]. split; [assumption|]. split; [reflexivity|]. split; [assumption|]. split; [reflexivity|]. split; [reflexivity|]. split; [|split; [|split; reflexivity]].
  - intros [|[|[|j]]] w Hw Hs; [| |reflexivity|].
    + assert (Some w = Some y) as E by (rewrite <- Hw; exact Y0). injection E as ->. rewrite Y1 in Hs. discriminate.
    + assert (Some w = Some z) as E by (rewrite <- Hw; exact Z0). injection E as ->. rewrite Z1 in Hs. discriminate.
    + assert (nth_error (sm_sts f32A s) (S (S (S j))) <> None) as Hlt by (rewrite Hw; discriminate). apply nth_error_Some in Hlt. lia.
  - exists x, y, 0%nat. eexists. split; [assumption|]. split; [assumption|]. split; [assumption|]. rewrite Y3. split; [left; reflexivity|]. rewrite H3. split; reflexivity.
Qed.

(** * C29 *)
Lemma blackhole_hops : exists wl, proper wl /\ validate blackhole_p150 wl = Ok true /\
  (exists t p, In t (all_transfers wl) /\ In p (all_transfers wl) /\ has_group_parent f32A t /\ names_parent f32A t p /\ t_off p <= t_off t /\ t_id p < t_id t) /\
  simulate f32A same_links same_buckets blackhole_p150 true 100 wl = Throw DEPENDENCY_GEN_FAILED.
Proof.
  exists (wl_hops1 f32A). split; [exact hops1_case|]. split; [vm_compute; reflexivity|]. split; [|apply run_depfail; vm_compute; reflexivity].
  exists (nth 1 (all_transfers (wl_hops1 f32A)) (xfer f32A 0 (0,0,0) (0,0,0) 0)), (nth 0 (all_transfers (wl_hops1 f32A)) (xfer f32A 0 (0,0,0) (0,0,0) 0)).
  split; [right; left; reflexivity|]. split; [left; reflexivity|].
  split; [split; discriminate|]. split; [split; reflexivity|]. split; [discriminate|reflexivity].
Qed.
Lemma orphan_run : exists wl s, proper wl /\ validate wormhole_b0 wl = Ok true /\
  succeeds f32A same_links same_buckets wormhole_b0 true 100 wl s /\
  exists x, nth_error (sm_sts f32A s) 1 = Some x /\ has_group_parent f32A (s_tr x) /\
    (forall p, In p (all_transfers wl) -> ~ names_parent f32A (s_tr x) p) /\
    depends f32A (sm_sts f32A s) (sm_trk f32A s) 1 0 70 /\ s_start x = 170.
Proof.
  exists (wl_orphan f32A). run wormhole_b0 true 100 (wl_orphan f32A). exists s. split; [exact orphan_case|].
  split; [vm_compute; reflexivity|]. split; [exact HS|]. view. destruct H as (H1 & H2 & H3 & H4 & H5).
  pose proof (H0 0%nat) as X0. pose proof (H0 1%nat) as X1. cbn [nth_error] in X0, X1.
  destruct X0 as (y & Y0 & Y1 & Y2 & Y3 & Y4 & Y5 & Y6). destruct X1 as (x & X0 & X1 & X2 & X3 & X4 & X5 & X6). exists x. rewrite X1.
  split; [assumption|]. split; [split; discriminate|]. split.
  - intros p Hp [N1 N2]. destruct Hp as [<-|[<-|[]]]; vm_compute in N1, N2; discriminate.
  - split; [|assumption]. exists x, y, 0%nat. eexists. split; [assumption|]. split; [assumption|]. split; [assumption|]. rewrite Y3. split; [left; reflexivity|]. rewrite H3. split; reflexivity.
Qed.

(** * C33 *)
Lemma late_run : exists s x, succeeds f32A same_links same_buckets wormhole_b0 true 20000000 (wl_late f32A) s /\
  validate wormhole_b0 (wl_late f32A) = Ok true /\ nth_error (sm_sts f32A s) 0 = Some x /\ s_start x = 16777217 /\ s_end x = 16777216.
Proof.
  run wormhole_b0 true 20000000 (wl_late f32A). view. pose proof (H0 0%nat) as X. cbn [nth_error] in X. destruct X as (x & X0 & X1 & X2 & X3 & X4 & X5 & X6).
  exists s, x. split; [exact HS|]. split; [vm_compute; reflexivity|]. repeat split; assumption.
Qed.

(** * C34 *)
(* 350 bytes in the 250 cycles from 100 to 350, at a rate of 1 byte per cycle *)
Lemma lane_run congestion : exists s x, succeeds f32A same_links same_buckets wormhole_b0 congestion 100 (wl_lane f32A) s /\
  nth_error (sm_sts f32A s) 2 = Some x /\ t_rate (s_tr x) = f_one f32A /\ t_bytes (s_tr x) = 350 /\ s_done x = 350 /\
  if congestion then s_start x = 150 /\ s_end x = 500 else s_start x = 100 /\ s_end x = 350.
Proof.
  destruct congestion.
  - run wormhole_b0 true 100 (wl_lane f32A). view. pose proof (H0 2%nat) as X. cbn [nth_error] in X. destruct X as (x & X0 & X1 & X2 & X3 & X4 & X5 & X6).
    exists s, x. split; [exact HS|]. split; [assumption|]. rewrite X1. split; [reflexivity|]. split; [reflexivity|]. split; [assumption|]. split; assumption.
  - run wormhole_b0 false 100 (wl_lane f32A). view. pose proof (H0 2%nat) as X. cbn [nth_error] in X. destruct X as (x & X0 & X1 & X2 & X3 & X4 & X5 & X6).
    exists s, x. split; [exact HS|]. split; [assumption|]. rewrite X1. split; [reflexivity|]. split; [reflexivity|]. split; [assumption|]. split; assumption.
Qed.

(** * C36 *)
Definition impact_cfg : config (F f32A) := mkCfg "wormhole_b0" "fast" 100 false true false (f_zero f32A).
Definition estimates {A} (r : outcome (npe_result A)) : option (list (Z * (Z * Z))) :=
  match r with Ok (Stats st) => Some (map (fun e => (fst e, (ds_est A (snd e), ds_congfree A (snd e)))) st) | _ => None end.
Lemma impact_run :
  estimates (runPerfEstimation f32A same_links same_buckets wormhole_b0 impact_cfg (wl_share f32A)) = Some [(0, (206, 206)); (-1, (206, 206))] /\
  estimates (runSinglePerfSim f32A same_links same_buckets wormhole_b0 "none" 100 (wl_share f32A)) = Some [(0, (120, 0)); (-1, (120, 0))].
Proof. split; vm_compute; reflexivity. Qed.

(** * C37 *)
(* the second timestep of a run *)
Definition second A ord bord d congestion cpt wl :=
  match sim_init A ord bord d cpt wl with
  | Ok s => match timestep A d congestion cpt wl s with
            | Ok s' => match timestep A d congestion cpt wl (advance A cpt s') with
                       | Ok s2 => Some (finished A s', sm_curr A s', view_of (advance A cpt s'), view_of s2)
                       | _ => None end
            | _ => None end
  | _ => None end.
Lemma second_view A ord bord d congestion cpt wl c v1 v2 : second A ord bord d congestion cpt wl = Some (false, c, v1, v2) -> c <= MAX_CYCLE_LIMIT ->
  exists s1 s2, reach A ord bord d congestion cpt wl s1 /\ timestep A d congestion cpt wl s1 = Ok s2 /\ view_of s1 = v1 /\ view_of s2 = v2.
Proof.
  unfold second. destruct (sim_init _ _ _ _ _ _) as [s| | | | | |] eqn:E0; try discriminate.
  destruct (timestep A d congestion cpt wl s) as [s'| | | | | |] eqn:E1; try discriminate.
  destruct (timestep A d congestion cpt wl (advance A cpt s')) as [s2| | | | | |] eqn:E2; try discriminate.
  intros H HM. injection H as HF Hc <- <-. subst c. exists (advance A cpt s'), s2. split; [|auto].
  eapply reach_step; [constructor; exact E0|exact E1|exact HF|exact HM].
Qed.
Lemma slow_run : exists s1 s2 x1 x2,
  validate wormhole_b0 (wl_slow f32A) = Ok true /\
  reach f32A same_links same_buckets wormhole_b0 true 13 (wl_slow f32A) s1 /\
  timestep f32A wormhole_b0 true 13 (wl_slow f32A) s1 = Ok s2 /\ is_live f32A s1 0 /\ 
  nth_error (sm_sts f32A s1) 0 = Some x1 /\ nth_error (sm_sts f32A s2) 0 = Some x2 /\ s_start x1 = 0 /\ sm_curr f32A s1 = 26 /\
  s_done x1 = 0 /\ s_done x2 = 0.
Proof.
  edestruct (second_view f32A same_links same_buckets wormhole_b0 true 13 (wl_slow f32A)) as (s1 & s2 & HR & HT & HV1 & HV2); [vm_compute; reflexivity|vm_compute; discriminate|].
  pose proof (view_rest _ _ _ _ _ _ _ HV1) as (R1 & _ & _ & _ & R5). pose proof (view_nth _ _ 0%nat _ _ _ _ _ HV1) as X. pose proof (view_nth _ _ 0%nat _ _ _ _ _ HV2) as Y.
  cbn [nth_error] in X, Y. destruct X as (x & X0 & X1 & X2 & X3 & X4 & X5 & X6). destruct Y as (y & Y0 & Y1 & Y2 & Y3 & Y4 & Y5 & Y6).
  exists s1, s2, x, y. split; [vm_compute; reflexivity|]. split; [assumption|]. split; [assumption|]. split; [unfold is_live; rewrite R5; left; reflexivity|]. auto 8.
Qed.

(** * In the form of the property theorems *)
Lemma several_chips_serialised : exists wl s i x, proper wl /\ validate N300 wl = Ok true /\
  succeeds f32A same_links same_buckets N300 true 100 wl s /\ nth_error (sm_sts f32A s) i = Some x /\
  (forall j y, nth_error (sm_sts f32A s) j = Some y -> t_src (s_tr y) = t_src (s_tr x) -> j = i) /\
  t_gid (s_tr x) = -1 /\ t_off (s_tr x) = 0 /\ s_start x = 200.
Proof.
  destruct chips_run as (s & HS & x & y & Hx & Hy & H1 & H2 & H3 & H4 & H5 & _). exists (wl_chips f32A), s, 2%nat, x.
  split; [exact chips_case|]. split; [vm_compute; reflexivity|]. split; [assumption|]. split; [assumption|]. rewrite H3. split; [assumption|]. auto.
Qed.
Lemma chips_depend : exists wl s i j x y dl, proper wl /\ validate N300 wl = Ok true /\
  succeeds f32A same_links same_buckets N300 true 100 wl s /\ nth_error (sm_sts f32A s) i = Some x /\ nth_error (sm_sts f32A s) j = Some y /\
  t_gid (s_tr x) = -1 /\ t_gid (s_tr y) = -1 /\ c_dev (t_src (s_tr x)) <> c_dev (t_src (s_tr y)) /\
  depends f32A (sm_sts f32A s) (sm_trk f32A s) i j dl.
Proof.
  destruct chips_run as (s & HS & x & y & Hx & Hy & H1 & H2 & H3 & H4 & H5 & H6 & H7 & H8). exists (wl_chips f32A), s, 2%nat, 0%nat, x, y, 0.
  split; [exact chips_case|]. split; [vm_compute; reflexivity|]. split; [assumption|]. split; [assumption|]. split; [assumption|]. split; [assumption|]. split; [assumption|].
  split; [rewrite H3, H7; discriminate|assumption].
Qed.
Lemma lane_example : proper (wl_lane f32A) /\ bucket_order same_buckets /\ exists s x y z,
  succeeds f32A same_links same_buckets wormhole_b0 true 100 (wl_lane f32A) s /\
  nth_error (sm_sts f32A s) 0 = Some x /\ nth_error (sm_sts f32A s) 1 = Some y /\ nth_error (sm_sts f32A s) 2 = Some z /\
  t_src (s_tr x) = t_src (s_tr z) /\ s_start x = 0 /\ s_start y = 0 /\ s_end x = 150 /\ s_end y = 20 /\ s_start z = 150.
Proof.
  split; [exact lane_case|]. split; [exact same_buckets_order|]. run wormhole_b0 true 100 (wl_lane f32A). view.
  pose proof (H0 0%nat) as X. pose proof (H0 1%nat) as Y. pose proof (H0 2%nat) as Z. cbn [nth_error] in X, Y, Z.
  destruct X as (x & X0 & X1 & X2 & X3 & X4 & X5 & X6). destruct Y as (y & Y0 & Y1 & Y2 & Y3 & Y4 & Y5 & Y6). destruct Z as (z & Z0 & Z1 & Z2 & Z3 & Z4 & Z5 & Z6).
  exists s, x, y, z. rewrite X1, Z1. do 4 (split; [assumption|]). split; [reflexivity|]. auto 8.
Qed.
Lemma lane_bytes : exists s, succeeds f32A same_links same_buckets wormhole_b0 true 100 (wl_lane f32A) s /\ map s_done (sm_sts f32A s) = [100; 10; 350].
Proof.
  run wormhole_b0 true 100 (wl_lane f32A). exists s. split; [assumption|]. injection HV as _ HV _ _ _.
  apply (f_equal (map snd)) in HV. rewrite map_map in HV. exact HV.
Qed.
Lemma hops_example : exists s x y, succeeds f32A same_links same_buckets N300 true 100 (wl_hops f32A) s /\
  nth_error (sm_sts f32A s) 0 = Some y /\ nth_error (sm_sts f32A s) 1 = Some x /\
  depends f32A (sm_sts f32A s) (sm_trk f32A s) 1 0 680 /\ s_end y = 100 /\ s_start x = 780.
Proof.
  run N300 true 100 (wl_hops f32A). view. destruct H as (H1 & H2 & H3 & H4 & H5).
  pose proof (H0 0%nat) as Y. pose proof (H0 1%nat) as X. cbn [nth_error] in X, Y.
  destruct X as (x & X0 & X1 & X2 & X3 & X4 & X5 & X6). destruct Y as (y & Y0 & Y1 & Y2 & Y3 & Y4 & Y5 & Y6). exists s, x, y.
  split; [assumption|]. split; [assumption|]. split; [assumption|]. split; [|auto].
  exists x, y, 0%nat. eexists. split; [assumption|]. split; [assumption|]. split; [assumption|]. rewrite Y3. split; [left; reflexivity|]. rewrite H3. split; reflexivity.
Qed.
Lemma hops_parents_first : parents_first f32A (all_transfers (wl_hops f32A)).
Proof.
  intros t Ht HG. destruct Ht as [<-|[<-|[]]]; [destruct HG as [_ HG]; exfalso; apply HG; reflexivity|]. split.
  - eexists. split; [left; reflexivity|]. split; reflexivity.
  - intros p [<-|[<-|[]]] [_ HN]; [|discriminate HN]. right. split; reflexivity.
Qed.
Lemma activation_example : exists s s', reach f32A same_links same_buckets wormhole_b0 true 100 (wl_lane f32A) s /\
  timestep f32A wormhole_b0 true 100 (wl_lane f32A) s = Ok s' /\
  map snd (sm_queue f32A s) = [2; 1; 0]%nat /\ sm_live f32A s = [] /\ map snd (sm_queue f32A s') = [2]%nat /\ sm_live f32A s' = [0]%nat.
Proof.
  assert (H : match sim_init f32A same_links same_buckets wormhole_b0 100 (wl_lane f32A) with
    | Ok s => match timestep f32A wormhole_b0 true 100 (wl_lane f32A) s with Ok s' => Some (map snd (sm_queue f32A s), sm_live f32A s, map snd (sm_queue f32A s'), sm_live f32A s') | _ => None end
    | _ => None end = Some ([2; 1; 0]%nat, [], [2]%nat, [0]%nat)) by (vm_compute; reflexivity).
  revert H. destruct (sim_init _ _ _ _ _ _) as [s| | | | | |] eqn:E0; try discriminate.
  destruct (timestep _ _ _ _ _ s) as [s'| | | | | |] eqn:E1; try discriminate. intros H. injection H as H1 H2 H3 H4.
  exists s, s'. split; [constructor; assumption|]. auto.
Qed.
Lemma congfree_witness : exists cfg wl, cf_impact cfg = true /\ proper wl /\ validate wormhole_b0 wl = Ok true /\
  estimates (runPerfEstimation f32A same_links same_buckets wormhole_b0 cfg wl) = Some [(0, (206, 206)); (-1, (206, 206))] /\
  estimates (runSinglePerfSim f32A same_links same_buckets wormhole_b0 "none" (cf_cpt cfg) wl) = Some [(0, (120, 0)); (-1, (120, 0))].
Proof.
  exists impact_cfg, (wl_share f32A). split; [reflexivity|]. split; [exact share_case|]. split; [vm_compute; reflexivity|]. apply impact_run.
Qed.
Lemma checkpoints_example : proper (wl_hops f32A) /\ exists s, sim_init f32A same_links same_buckets N300 100 (wl_hops f32A) = Ok s /\
  List.length (sm_trk f32A s) = 1%nat /\ map s_req (sm_sts f32A s) = [[0%nat]; []] /\ map s_dep (sm_sts f32A s) = [None; Some 0%nat].
Proof.
  split; [exact hops_case|].
  assert (H : match sim_init f32A same_links same_buckets N300 100 (wl_hops f32A) with
    | Ok s => Some (List.length (sm_trk f32A s), map s_req (sm_sts f32A s), map s_dep (sm_sts f32A s)) | _ => None end =
    Some (1%nat, [[0%nat]; []], [None; Some 0%nat])) by (vm_compute; reflexivity).
  revert H. destruct (sim_init _ _ _ _ _ _) as [s| | | | | |]; try discriminate. intros H. injection H as H1 H2 H3. exists s. auto.
Qed.
