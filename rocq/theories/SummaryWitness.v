(* Witnesses for C59 and C60. *)
From Coq Require Import ZArith Arith QArith Qreals Reals Lra Lia String List Bool Floats.SpecFloat ZifyBool ZifyNat.
From Flocq Require Import Core IEEE754.BinarySingleNaN.
From Verif Require Import Base Arith Util Device SpecDevice Workload SpecWorkload Rates Stats Engine SpecEngine SpecRates SpecStats SpecSummary Cases EngineWitness RatesWitness StatsAvg StatsWitness FactoryProofs SummaryProofs SummaryFloat SummaryRun.
Import ListNotations.
Local Open Scope list_scope.
Open Scope Z_scope.

(* estimated and golden cycles; intervals, average utilisations and greatest demands of the timesteps; overall average utilisation and maximum demand; DRAM and Ethernet utilisation *)
Definition sum_view {A} (r : outcome (npe_result A)) (id : Z) : option ((Z * Z) * (list (Z * Z) * list (D A) * list (D A)) * (D A * D A) * (D A * D A * list (coord * D A))) :=
  match r with
  | Ok (Stats stt) => match stats_get A stt id with
      | Some ds => Some ((ds_est A ds, ds_golden A ds), (intervals ds, map (ts_avg_lu A) (ds_ts A ds), map (ts_max_ld A) (ds_ts A ds)), (ds_avg_lu A ds, ds_max_ld A ds), (ds_dram A ds, ds_dram_sim A ds, ds_eth A ds))
      | None => None end
  | _ => None
  end.
Definition wl_idle_window A : workload (F A) :=
    match addPhase (setGoldenResultCycles empty_workload [(0, (0, 0))]) [xfer A 100 (0,1,1) (0,1,5) 0] with Ok (w, _) => w | _ => empty_workload end.
(* reads from DRAM and writes to DRAM and to two Ethernet cores, on both chips *)
Definition wl_memory A : workload (F A) := build A [xfer A 100 (0,1,5) (0,1,1) 0; xfer A 300 (0,2,1) (0,2,5) 10; xfer A 50 (0,2,1) (0,6,1) 0; xfer A 70 (0,2,2) (0,6,1) 0; xfer A 40 (1,2,1) (1,6,2) 0; xfer A 20 (1,1,5) (1,2,1) 0; xfer A 11 (0,1,1) (0,1,2) 0].
Lemma sum_view_ok A r id e g iv us ps av mx dr dsim et : @sum_view A r id = Some ((e, g), (iv, us, ps), (av, mx), (dr, dsim, et)) -> exists stt ds, r = Ok (Stats stt) /\ stats_get A stt id = Some ds /\ ds_est A ds = e /\ ds_golden A ds = g /\
  intervals ds = iv /\ map (ts_avg_lu A) (ds_ts A ds) = us /\ ds_avg_lu A ds = av /\ ds_max_ld A ds = mx /\ map (ts_max_ld A) (ds_ts A ds) = ps /\
  ds_dram A ds = dr /\ ds_dram_sim A ds = dsim /\ ds_eth A ds = et.
Proof.
  unfold sum_view. destruct r as [[stt|]| | | | | |]; try discriminate. destruct (stats_get A stt id) as [ds|] eqn:E; [|discriminate]. intros H. injection H as <- <- <- <- <- <- <- <- <- <-. exists stt, ds.
  split; [reflexivity|]. split; [exact E|]. auto 20.
Qed.
Lemma share_chip : sum_view (runSinglePerfSim f32A same_links same_buckets n300 "fast" 100 (wl_share f32A)) 0 =
  Some ((206, 1000), ([(0, 100); (100, 200); (200, 300); (0, 0)], [S754_finite false 7205759212905358 (-57); S754_finite false 8006399337547548 (-57); S754_finite false 8006399337547548 (-58); S754_zero false], [S754_finite false 6755399262098774 (-50); S754_finite false 7505999378950827 (-50); S754_finite false 7505999378950827 (-51); S754_zero false]), (S754_finite false 4803839554806670 (-57), S754_finite false 8006399337547548 (-57)), (S754_finite false 5088813138271747 (-57), S754_finite false 6175743769034207 (-55), [])).
Proof. vm_compute. reflexivity. Qed.
Lemma share_idle : sum_view (runSinglePerfSim f32A same_links same_buckets n300 "fast" 100 (wl_share f32A)) 1 =
  Some ((0, 1000), ([], [], []), (S754_nan, S754_zero false), (S754_zero false, S754_nan, [])).
Proof. vm_compute. reflexivity. Qed.
Lemma no_window : sum_view (runSinglePerfSim f32A same_links same_buckets wormhole_b0 "fast" 100 (wl_idle_window f32A)) 0 =
  Some ((100, 0), ([(0, 100); (0, 0)], [S754_finite false 8006399337547548 (-58); S754_zero false], [S754_finite false 7505999378950827 (-51); S754_zero false]), (S754_finite false 8006399337547548 (-59), S754_finite false 8006399337547548 (-58)), (S754_infinity false, S754_finite false 6361015984144085 (-54), [])).
Proof. vm_compute. reflexivity. Qed.
Lemma memory_chip : sum_view (runSinglePerfSim f32A same_links same_buckets n300 "fast" 100 (wl_memory f32A)) 0 =
  Some ((353, 1000), ([(0, 100); (100, 200); (200, 300); (300, 400); (0, 0)], [S754_finite false 6905519404773831 (-55); S754_finite false 8006399337547548 (-58); S754_finite false 8006399337547548 (-58); S754_finite false 8006399337547548 (-58); S754_zero false], [S754_finite false 7505999378950827 (-50); S754_finite false 7505999378950827 (-51); S754_finite false 7505999378950827 (-51); S754_finite false 7505999378950827 (-51); S754_zero false]), (S754_finite false 7926335325083330 (-57), S754_finite false 6905519404773831 (-55)), (S754_finite false 5088813138271747 (-56), S754_finite false 7207950508123036 (-55), [(mkCoord 0 6 1, S754_finite false 8646911284551352 (-53))])).
Proof. vm_compute. reflexivity. Qed.
Lemma share_exact : sum_view (runSinglePerfSim ratA same_links same_buckets wormhole_b0 "fast" 100 (wl_share ratA)) MESH_DEVICE =
  Some ((206, 1000), ([(0, 100); (100, 200); (200, 300); (0, 0)], [Some (1 # 20); Some (1 # 18); Some (1 # 36); Some 0%Q], [Some 6%Q; Some (20 # 3); Some (10 # 3); Some 0%Q]), (Some (1 # 30), Some (1 # 18)), (Some (25 # 354), Some (6250 # 18231), [])).
Proof. vm_compute. reflexivity. Qed.
Lemma memory_case : proper (wl_memory f32A). Proof. apply proper_case; vm_compute; reflexivity. Qed.
Lemma window_case : proper (wl_idle_window f32A). Proof. apply proper_case; vm_compute; reflexivity. Qed.
Lemma share_rat : proper (wl_share ratA). Proof. apply proper_case; vm_compute; reflexivity. Qed.
Lemma core_k d c k : (0 <=? c_row c) && (c_row c <? Z.of_nat (dv_rows d)) && (0 <=? c_col c) && (c_col c <? Z.of_nat (dv_cols d)) = true -> layout (dv_arch d) (c_row c) (c_col c) = k -> core_at d c k.
Proof. intros H E. split; [unfold on_chip_grid; lia|exact E]. Qed.
Lemma n300_chip0 : has_stats n300 0. Proof. left. vm_compute. auto. Qed.
Lemma wormhole_chip0 : has_stats wormhole_b0 0. Proof. left. vm_compute. auto. Qed.
(* the two transfers of wl_share write 200 bytes to DRAM *)
Lemma share_bytes : sum_over (fun t => issued 0 t /\ uses_dram n300 t) t_bytes (all_transfers (wl_share f32A)) 200.
Proof.
  let l := eval vm_compute in (all_transfers (wl_share f32A)) in change (all_transfers (wl_share f32A)) with l.
  match goal with |- sum_over _ ?w [?a; ?b] _ => change 200 with (w a + (w b + 0)) end. apply sum_take; [|apply sum_take; [|apply sum_nil]];
    (split; [right; reflexivity|right; eexists; split; [reflexivity|apply core_k; reflexivity]]).
Qed.
Lemma half_utilisation : exists wl stt ds n, proper wl /\ wl_next wl <= 2 ^ 32 /\ runSinglePerfSim f32A same_links same_buckets n300 "fast" 100 wl = Ok (Stats stt) /\ stats_get f32A stt 0 = Some ds /\
  sum_over (fun t => issued 0 t /\ uses_dram n300 t) t_bytes (all_transfers wl) n /\ 0 < ds_golden f32A ds /\
  close_to (ds_dram f32A ds) (utilisation n (ds_golden f32A ds) (chip_dram n300) / 2) /\ ~ close_to (ds_dram f32A ds) (utilisation n (ds_golden f32A ds) (chip_dram n300)).
Proof.
  exists (wl_share f32A). destruct (sum_view_ok _ _ _ _ _ _ _ _ _ _ _ _ _ share_chip) as (stt & ds & HR & HD & EE & EG & _ & _ & _ & _ & _ & ED & _).
  exists stt, ds, 200. split; [exact share_case|]. split; [vm_compute; discriminate|]. split; [exact HR|]. split; [exact HD|]. split; [exact share_bytes|]. rewrite EG. split; [reflexivity|]. rewrite ED.
  assert (V : SF2R radix2 (S754_finite false 5088813138271747 (-57)) = (5088813138271747 * / 144115188075855872)%R) by reflexivity.
  let q := eval vm_compute in (utilisation 200 1000 (chip_dram n300)) in change (utilisation 200 1000 (chip_dram n300)) with q.
  match goal with |- close_to _ ?a /\ ~ close_to _ ?b => let q := eval vm_compute in a in change a with q end.
  split.
  - split; [split; [reflexivity|right; do 2 eexists; reflexivity]|]. rewrite V. unfold Q2R. cbn [Qnum Qden]. change (bpow radix2 (-21)) with (/ 2097152)%R. apply Rabs_le. lra.
  - intros [_ K]. rewrite V in K. unfold Q2R in K. cbn [Qnum Qden] in K. change (bpow radix2 (-21)) with (/ 2097152)%R in K. apply Rabs_le_inv in K. lra.
Qed.
Lemma infinite_utilisation : exists wl stt ds, proper wl /\ runSinglePerfSim f32A same_links same_buckets wormhole_b0 "fast" 100 wl = Ok (Stats stt) /\ stats_get f32A stt 0 = Some ds /\
  ds_golden f32A ds = 0 /\ ds_dram f32A ds = S754_infinity false.
Proof.
  exists (wl_idle_window f32A). destruct (sum_view_ok _ _ _ _ _ _ _ _ _ _ _ _ _ no_window) as (stt & ds & HR & HD & EE & EG & _ & _ & _ & _ & _ & ED & _). exists stt, ds. split; [exact window_case|]. auto.
Qed.
Lemma padded_mean : exists wl stt ds q l, proper wl /\ runSinglePerfSim ratA same_links same_buckets wormhole_b0 "fast" 100 wl = Ok (Stats stt) /\ stats_get ratA stt MESH_DEVICE = Some ds /\
  intervals ds = [(0, 100); (100, 200); (200, 300); (0, 0)] /\ map (ts_avg_lu ratA) (firstn 3 (ds_ts ratA ds)) = map (@Some Q) l /\ ds_avg_lu ratA ds = Some q /\ (q == 1 # 30)%Q /\ (mean l == 2 # 45)%Q.
Proof.
  exists (wl_share ratA). destruct (sum_view_ok _ _ _ _ _ _ _ _ _ _ _ _ _ share_exact) as (stt & ds & HR & HD & EE & EG & EI & EL & EA & _). exists stt, ds, (1 # 30)%Q, [1 # 20; 1 # 18; 1 # 36]%Q.
  split; [exact share_rat|]. split; [exact HR|]. split; [exact HD|]. split; [exact EI|]. split; [rewrite <- firstn_map, EL; reflexivity|]. split; [exact EA|]. split; reflexivity.
Qed.
Lemma missed_peak : exists wl stt ds q p t, proper wl /\ runSinglePerfSim ratA same_links same_buckets wormhole_b0 "fast" 100 wl = Ok (Stats stt) /\ stats_get ratA stt MESH_DEVICE = Some ds /\
  ds_max_ld ratA ds = Some q /\ In t (ds_ts ratA ds) /\ ts_max_ld ratA t = Some p /\ (q * 100 < p)%Q.
Proof.
  exists (wl_share ratA). destruct (sum_view_ok _ _ _ _ _ _ _ _ _ _ _ _ _ share_exact) as (stt & ds & HR & HD & EE & EG & EI & EL & EA & EM & EP & _).
  destruct (ds_ts ratA ds) as [|t ts] eqn:ET; [discriminate EP|]. exists stt, ds, (1 # 18)%Q, 6%Q, t. injection EP as EP _. rewrite ET.
  split; [exact share_rat|]. split; [exact HR|]. split; [exact HD|]. split; [exact EM|]. split; [left; reflexivity|]. split; [exact EP|reflexivity].
Qed.
Lemma undefined_mean : exists wl stt ds, proper wl /\ runSinglePerfSim f32A same_links same_buckets n300 "fast" 100 wl = Ok (Stats stt) /\ stats_get f32A stt 1 = Some ds /\
  ds_ts f32A ds = [] /\ ds_avg_lu f32A ds = S754_nan.
Proof.
  exists (wl_share f32A). destruct (sum_view_ok _ _ _ _ _ _ _ _ _ _ _ _ _ share_idle) as (stt & ds & HR & HD & EE & EG & EI & EL & EA & _). exists stt, ds.
  split; [exact share_case|]. split; [exact HR|]. split; [exact HD|]. split; [|exact EA]. destruct (ds_ts f32A ds); [reflexivity|discriminate EL].
Qed.
