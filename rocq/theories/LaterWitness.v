(* Witnesses for C87. *)
From Coq Require Import ZArith String List Bool Lia Floats.SpecFloat.
From Verif Require Import Base Arith Util Device SpecDevice Workload SpecWorkload DepTracker Rates Stats Engine SpecEngine SpecRates SpecStats FactoryProofs RunProofs Cases EngineWitness RatesWitness StatsWitness SummaryWitness SpecLater.
Import ListNotations.
Local Open Scope string_scope.
Local Open Scope list_scope.
Open Scope Z_scope.

Definition windowed (w : Z * Z) (ts : list (transfer (F f32A))) : workload (F f32A) :=
  match addPhase (setGoldenResultCycles empty_workload [(0, w); (MESH_DEVICE, w)]) ts with Ok (w, _) => w | _ => empty_workload end.
(* three transfers of one lane: the third waits for the first *)
Definition wl_queue : workload (F f32A) :=
  windowed (1, 1000) [xfer f32A 90 (0,1,1) (0,1,5) 5; xfer f32A 300 (0,1,1) (0,1,5) 30; xfer f32A 300 (0,1,1) (0,1,5) 31].
(* the window opens at cycle 0 and closes before the second transfer starts *)
Definition wl_window : workload (F f32A) := windowed (0, 10) [xfer f32A 90 (0,1,1) (0,1,5) 5; xfer f32A 300 (0,2,1) (0,2,5) 30].
Definition wl_single : workload (F f32A) := windowed (1, 1000) [xfer f32A 90 (0,1,1) (0,1,5) 5].

Lemma wormhole_wf : wf_device wormhole_b0.
Proof. apply supported_wf. exists "wormhole_b0". left. auto. Qed.
Ltac by_forallb t := apply Forall_forall; intros ? Hin; match type of Hin with In ?x ?l => let E := fresh in assert (E : forallb t l = true) by (vm_compute; reflexivity); rewrite forallb_forall in E; specialize (E _ Hin) end.
Lemma queue_sound : proper wl_queue /\ Forall sound_transfer (all_transfers wl_queue) /\ Forall (fun t => 0 < t_bytes t) (all_transfers wl_queue) /\ starts_after_zero wl_queue /\ all_transfers wl_queue <> [].
Proof.
  split; [proper|]. split; [by_forallb soundb; apply soundb_ok; assumption|]. split; [by_forallb (fun t : transfer (F f32A) => 0 <? t_bytes t); lia|]. split; [|vm_compute; discriminate].
  split; [by_forallb (fun t : transfer (F f32A) => 0 <? t_off t); lia|by_forallb (fun e : Z * (Z * Z) => 0 <? fst (snd e)); lia].
Qed.
Lemma single_sound : proper wl_single /\ Forall sound_transfer (all_transfers wl_single) /\ Forall (fun t => 0 < t_bytes t) (all_transfers wl_single) /\ starts_after_zero wl_single.
Proof.
  split; [proper|]. split; [by_forallb soundb; apply soundb_ok; assumption|]. split; [by_forallb (fun t : transfer (F f32A) => 0 <? t_bytes t); lia|].
  split; [by_forallb (fun t : transfer (F f32A) => 0 <? t_off t); lia|by_forallb (fun e : Z * (Z * Z) => 0 <? fst (snd e)); lia].
Qed.
Lemma window_sound : proper wl_window /\ Forall sound_transfer (all_transfers wl_window) /\ Forall (fun t => 0 < t_bytes t /\ 0 < t_off t) (all_transfers wl_window).
Proof.
  split; [proper|]. split; [by_forallb soundb; apply soundb_ok; assumption|]. by_forallb (fun t : transfer (F f32A) => (0 <? t_bytes t) && (0 <? t_off t)). lia.
Qed.
(* the run and its result *)
Lemma queue_run : exists s, succeeds f32A same_links same_buckets wormhole_b0 true 100 wl_queue s /\ sm_curr f32A s = 800.
Proof. run wormhole_b0 true 100 wl_queue. view. exists s. split; [exact HS|]. tauto. Qed.
Lemma queue_result : exists stt ds, runSinglePerfSim f32A same_links same_buckets wormhole_b0 "fast" 100 wl_queue = Ok (Stats stt) /\ stats_get f32A stt 0 = Some ds /\ ds_est f32A ds = 732 /\ List.length (ds_ts f32A ds) = 9%nat.
Proof.
  assert (V : match sum_view (runSinglePerfSim f32A same_links same_buckets wormhole_b0 "fast" 100 wl_queue) 0 with Some ((e, _), (iv, _, _), _, _) => (e =? 732) && Nat.eqb (List.length iv) 9 | None => false end = true) by (vm_compute; reflexivity).
  destruct (sum_view _ 0) as [[[[[e g] [[iv us] ps]] [av mx]] [[dr dsim] et]]|] eqn:E; [|discriminate]. destruct (sum_view_ok _ _ _ _ _ _ _ _ _ _ _ _ _ E) as (stt & ds & H1 & H2 & H3 & H4 & H5 & _).
  exists stt, ds. apply andb_true_iff in V as [V1 V2]. split; [exact H1|]. split; [exact H2|]. split; [lia|]. apply Nat.eqb_eq in V2. rewrite <- H5 in V2. unfold intervals in V2. rewrite map_length in V2. exact V2.
Qed.

(* a window that opens at cycle 0: the delayed run records one timestep more at its start *)
Lemma window_witness : exists wl stt stt' ds ds', proper wl /\ Forall sound_transfer (all_transfers wl) /\ Forall (fun t => 0 < t_bytes t /\ 0 < t_off t) (all_transfers wl) /\
  runSinglePerfSim f32A same_links same_buckets wormhole_b0 "fast" 100 wl = Ok (Stats stt) /\
  runSinglePerfSim f32A same_links same_buckets wormhole_b0 "fast" 100 (later_workload 100 wl) = Ok (Stats stt') /\
  stats_get f32A stt 0 = Some ds /\ stats_get f32A stt' 0 = Some ds' /\ ds_est f32A ds' = ds_est f32A ds /\ ds_avg_lu f32A ds' <> ds_avg_lu f32A ds.
Proof.
  assert (V : sum_view (runSinglePerfSim f32A same_links same_buckets wormhole_b0 "fast" 100 wl_window) 0 = Some ((95, 10), ([(0, 100); (100, 200)],
    [S754_finite false 6605279358033009 (-57); S754_finite false 8006399337547548 (-58)], [S754_finite false 7130699320524800 (-51); S754_finite false 7505999378950827 (-51)]),
    (S754_finite false 5304239513403392 (-57), S754_finite false 6605279358033009 (-57)), (S754_finite false 7752488765335864 (-49), S754_finite false 6528411117924709 (-52), []))) by (vm_compute; reflexivity).
  assert (V' : sum_view (runSinglePerfSim f32A same_links same_buckets wormhole_b0 "fast" 100 (later_workload 100 wl_window)) 0 = Some ((95, 10), ([(0, 100); (100, 200)],
    [S754_zero false; S754_finite false 6605279358033009 (-57)], [S754_zero false; S754_finite false 7130699320524800 (-51)]),
    (S754_finite false 6605279358033009 (-58), S754_finite false 6605279358033009 (-57)), (S754_finite false 7752488765335864 (-49), S754_finite false 6528411117924709 (-52), []))) by (vm_compute; reflexivity).
  destruct (sum_view_ok _ _ _ _ _ _ _ _ _ _ _ _ _ V) as (stt & ds & H1 & H2 & H3 & H4 & H5 & H6 & H7 & _). destruct (sum_view_ok _ _ _ _ _ _ _ _ _ _ _ _ _ V') as (stt' & ds' & H1' & H2' & H3' & H4' & H5' & H6' & H7' & _).
  destruct window_sound as (P1 & P2 & P3). exists wl_window, stt, stt', ds, ds'. split; [exact P1|]. split; [exact P2|]. split; [exact P3|]. split; [exact H1|]. split; [exact H1'|]. split; [exact H2|]. split; [exact H2'|].
  split; [rewrite H3, H3'; reflexivity|]. rewrite H7, H7'. discriminate.
Qed.
(* cycles that binary32 cannot hold: the delayed transfer ends at another cycle *)
Lemma cycles_witness : exists wl s s' x x', proper wl /\ Forall sound_transfer (all_transfers wl) /\ Forall (fun t => 0 < t_bytes t) (all_transfers wl) /\ starts_after_zero wl /\
  succeeds f32A same_links same_buckets wormhole_b0 true 1000000 wl s /\ succeeds f32A same_links same_buckets wormhole_b0 true 1000000 (later_workload 20000000 wl) s' /\
  nth_error (sm_sts f32A s) 0 = Some x /\ nth_error (sm_sts f32A s') 0 = Some x' /\ s_start x' = s_start x + 20000000 /\ s_end x = 95 /\ s_end x' = 20000094.
Proof.
  run wormhole_b0 true 1000000 wl_single. view. pose proof (H0 0%nat) as X. cbn [nth_error] in X. destruct X as (x & X0 & X1 & X2 & X3 & X4 & X5 & X6). rename s into s0, HS into HS0. clear H H0 HV.
  run wormhole_b0 true 1000000 (later_workload 20000000 wl_single). view. pose proof (H0 0%nat) as Y. cbn [nth_error] in Y. destruct Y as (y & Y0 & Y1 & Y2 & Y3 & Y4 & Y5 & Y6).
  destruct single_sound as (P1 & P2 & P3 & P4). exists wl_single, s0, s, x, y. split; [exact P1|]. split; [exact P2|]. split; [exact P3|]. split; [exact P4|]. split; [exact HS0|]. split; [exact HS|]. split; [exact X0|]. split; [exact Y0|].
  split; [rewrite X4, Y4; reflexivity|]. split; [rewrite X5; reflexivity|rewrite Y5; reflexivity].
Qed.
Lemma queue_free : exists s, succeeds f32A same_links same_buckets wormhole_b0 false 100 wl_queue s /\ sm_curr f32A s <= 800.
Proof. run wormhole_b0 false 100 wl_queue. view. exists s. split; [exact HS|]. destruct H as [-> _]. lia. Qed.
Definition is_stats {A} (r : outcome (npe_result A)) : bool := match r with Ok (Stats _) => true | _ => false end.
Lemma is_stats_ok {A} (r : outcome (npe_result A)) : is_stats r = true -> exists stt, r = Ok (Stats stt).
Proof. destruct r as [[stt|]| | | | | |]; try discriminate. eauto. Qed.
Lemma queue_estimation : exists stt, runPerfEstimation f32A same_links same_buckets wormhole_b0 (mkCfg "wormhole_b0" "fast" 100 false true false (f_lit f32A 0 1)) wl_queue = Ok (Stats stt).
Proof. apply is_stats_ok. vm_compute. reflexivity. Qed.
