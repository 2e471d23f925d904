(* Examples and counterexamples for the rates. *)
From Coq Require Import ZArith Arith QArith Reals String List Bool Lia Floats.SpecFloat.
From Verif Require Import Base Arith Util Device Workload SpecWorkload DepTracker Rates Stats Engine SpecEngine SpecRates Cases EngineWitness.
Import ListNotations.
Local Open Scope string_scope.
Local Open Scope list_scope.
Open Scope Z_scope.

Definition rate_all (A : arith) (d : device) (wl : workload (F A)) (live : list nat) (c : bool) :=
  computeCurrentTransferRate A d 0 100 (live_states A d wl) live (zero_grids A d) c.
Definition rates_of {A : arith} (r : outcome (list (tstate (F A)) * grids (F A))) : option (list (F A)) :=
  match r with Ok (sts, _) => Some (map s_bw sts) | _ => None end.
Lemma rates_view A (r : outcome (list (tstate (F A)) * grids (F A))) l : rates_of r = Some l -> exists sts g, r = Ok (sts, g) /\ map s_bw sts = l.
Proof. destruct r as [[sts g]| | | | | |]; try discriminate. cbn. intros H. injection H as H. eauto. Qed.

Definition soundb (t : transfer spec_float) : bool :=
  (1 <=? t_psize t) && (t_psize t <? 2 ^ 32) && (1 <=? t_npkts t) && (t_npkts t <? 2 ^ 32) && valid_binary 24 128 (t_rate t) &&
  match t_rate t with S754_zero false | S754_finite false _ _ => true | _ => false end.
Lemma soundb_ok t : soundb t = true -> sound_transfer t.
Proof.
  unfold soundb, sound_transfer, number. rewrite !andb_true_iff, !Z.leb_le, !Z.ltb_lt. intros [[[[[H1 H2] H3] H4] H5] H6].
  split; [lia|]. split; [lia|]. split; [assumption|]. destruct (t_rate t) as [[]|[]| |[] m e]; try discriminate; [left; reflexivity|right; eauto].
Qed.
Lemma sound_case en sts live : NoDup live -> forallb (fun x => soundb (s_tr x) && (0 <=? s_start x) && (s_start x <=? en)) sts = true -> sound_live en sts live.
Proof.
  intros ND H. split; [assumption|]. intros i x _ Hx. rewrite forallb_forall in H. specialize (H x (nth_error_In _ _ Hx)). rewrite !andb_true_iff, !Z.leb_le in H.
  destruct H as [[H1 H2] H3]. split; [apply soundb_ok; assumption|lia].
Qed.
Definition all3 : list nat := [0%nat; 1%nat; 2%nat].
Definition all2 : list nat := [0%nat; 1%nat].
Lemma nodup3 : NoDup all3.
Proof. repeat constructor; cbn; intuition discriminate. Qed.
Lemma nodup2 : NoDup all2.
Proof. repeat constructor; cbn; intuition discriminate. Qed.
Lemma meet_sound : sound_live 100 (live_states f32A wormhole_b0 (wl_meet f32A)) all3.
Proof. apply sound_case; [exact nodup3|vm_compute; reflexivity]. Qed.
Definition fl (m : positive) (e : Z) : spec_float := S754_finite false m e.

(* the first two of the three transfers, then all three *)
Lemma meet_rates : (exists sts g, rate_all f32A wormhole_b0 (wl_meet f32A) all2 true = Ok (sts, g) /\
    map s_bw sts = [fl 14732493 (-20); fl 14732493 (-20); fl 14732493 (-19)]) /\
  (exists sts g, rate_all f32A wormhole_b0 (wl_meet f32A) all3 true = Ok (sts, g) /\
    map s_bw sts = [fl 11785994 (-20); fl 11785994 (-20); fl 11785994 (-20)]) /\
  (exists sts g, rate_all f32A wormhole_b0 (wl_meet f32A) all3 false = Ok (sts, g) /\
    map s_bw sts = [fl 14732493 (-19); fl 14732493 (-19); fl 14732493 (-19)]).
Proof. split; [|split]; apply rates_view; vm_compute; reflexivity. Qed.

(* C39: rates below zero *)
Lemma negative_case : proper (wl_negative f32A). Proof. proper. Qed.
Lemma negative_bw : exists wl sts live sts1 g1 sts2 g2 x1 x2, proper wl /\ validate wormhole_b0 wl = Ok true /\ sts = live_states f32A wormhole_b0 wl /\
  timestep_window 0 100 /\ In 0%nat live /\
  computeCurrentTransferRate f32A wormhole_b0 0 100 sts live (zero_grids f32A wormhole_b0) false = Ok (sts1, g1) /\
  nth_error sts1 0%nat = Some x1 /\ s_bw x1 = S754_finite true 8388608 (-23) /\
  computeCurrentTransferRate f32A wormhole_b0 0 100 sts live (zero_grids f32A wormhole_b0) true = Ok (sts2, g2) /\
  nth_error sts2 0%nat = Some x2 /\ s_bw x2 = S754_finite false 12582912 (-19).
Proof.
  exists (wl_negative f32A), (live_states f32A wormhole_b0 (wl_negative f32A)), [0%nat].
  assert (H : rates_of (rate_all f32A wormhole_b0 (wl_negative f32A) [0%nat] false) = Some [S754_finite true 8388608 (-23)]) by (vm_compute; reflexivity).
  apply rates_view in H as (sts1 & g1 & H1 & H2). destruct sts1 as [|x1 sts1]; [discriminate H2|]. injection H2 as H2 _.
  assert (H : rates_of (rate_all f32A wormhole_b0 (wl_negative f32A) [0%nat] true) = Some [S754_finite false 12582912 (-19)]) by (vm_compute; reflexivity).
  apply rates_view in H as (sts2 & g2 & H3 & H4). destruct sts2 as [|x2 sts2]; [discriminate H4|]. injection H4 as H4 _.
  exists (x1 :: sts1), g1, (x2 :: sts2), g2, x1, x2. split; [exact negative_case|]. split; [vm_compute; reflexivity|]. split; [reflexivity|].
  split; [split; lia|].
  split; [left; reflexivity|]. split; [exact H1|]. split; [reflexivity|]. split; [exact H2|]. split; [exact H3|]. split; [reflexivity|exact H4].
Qed.

(* C38 *)
Lemma interp_example : interpolateBW f32A (tbt f32A wormhole_b0) (max_noc_bandwidth f32A wormhole_b0) 1000 3 = Ok (fl 14665864 (-19)) /\
  interpolateBW f32A (tbt f32A wormhole_b0) (max_noc_bandwidth f32A wormhole_b0) 1 1 = Ok (max_noc_bandwidth f32A wormhole_b0).
Proof. split; vm_compute; reflexivity. Qed.

(* C40 *)
Definition sink_core : coord := at_core (0, 3, 4).
Definition link128 : Z := 128.
Definition congested (A : arith) (d : device) (wl : workload (F A)) (live : list nat) := modelCongestion A d 0 100 (live_states A d wl) live.
Definition qb (x : qx) : bool := match x with Some q => Qle_bool 0 q | None => false end.
Lemma qb_ok x : qb x = true -> qnumber x.
Proof. destruct x as [q|]; [|discriminate]. cbn. intros H. exists q. split; [reflexivity|]. apply Qle_bool_iff. assumption. Qed.
Lemma rsound_case en sts live : forallb (fun x => qb (t_rate (s_tr x)) && qb (s_bw x) && (0 <=? s_start x) && (s_start x <=? en)) sts = true -> sound_rlive en sts live.
Proof.
  intros H i x _ Hx. rewrite forallb_forall in H. specialize (H x (nth_error_In _ _ Hx)). rewrite !andb_true_iff, !Z.leb_le in H.
  destruct H as [[[H1 H2] H3] H4]. split; [apply qb_ok; assumption|]. split; [apply qb_ok; assumption|lia].
Qed.
Lemma meet_load : sound_rlive 100 (live_states ratA wormhole_b0 (wl_meet ratA)) all3 /\
  exists sts' g, congested ratA wormhole_b0 (wl_meet ratA) all3 = Ok (sts', g) /\
    (load 0 100 (enters (sink_core) NOC0) (live_states ratA wormhole_b0 (wl_meet ratA)) all3 == 281 # 4)%Q /\
    (load 0 100 (enters (sink_core) NOC0) sts' all3 == 281 # 10)%Q /\
    (load 0 100 (crosses link128) sts' all3 == 562 # 25)%Q /\
    getCoreType wormhole_b0 (sink_core) = Ok WORKER /\ abs_rate ratA wormhole_b0 WORKER = Some (281 # 10).
Proof.
  split; [apply rsound_case; vm_compute; reflexivity|].
  destruct (congested ratA wormhole_b0 (wl_meet ratA) all3) as [[sts' g]| | | | | |] eqn:E; try (vm_compute in E; discriminate).
  exists sts', g. split; [reflexivity|]. split; [vm_compute; reflexivity|].
  assert (H : match congested ratA wormhole_b0 (wl_meet ratA) all3 with
     | Ok (s, _) => Qeq_bool (load 0 100 (enters (sink_core) NOC0) s all3) (281 # 10) && Qeq_bool (load 0 100 (crosses link128) s all3) (562 # 25)
     | _ => false end = true) by (vm_compute; reflexivity).
  rewrite E in H. apply andb_true_iff in H as [H1 H2]. apply Qeq_bool_iff in H1. apply Qeq_bool_iff in H2. split; [exact H1|]. split; [exact H2|]. split; vm_compute; reflexivity.
Qed.
Lemma mcasts_overload : exists wl sts live sts' g c, proper wl /\ validate wormhole_b0 wl = Ok true /\
  sts = live_states ratA wormhole_b0 wl /\ timestep_window 0 100 /\ NoDup live /\ sound_rlive 100 sts live /\
  modelCongestion ratA wormhole_b0 0 100 sts live = Ok (sts', g) /\ getCoreType wormhole_b0 c = Ok WORKER /\
  (load 0 100 (enters_multicast c NOC0) sts' live == 2 * qval (abs_rate ratA wormhole_b0 WORKER))%Q /\ (0 < qval (abs_rate ratA wormhole_b0 WORKER))%Q.
Proof.
  destruct (congested ratA wormhole_b0 (wl_mcasts ratA) all2) as [[sts' g]| | | | | |] eqn:E; try (vm_compute in E; discriminate).
  exists (wl_mcasts ratA), (live_states ratA wormhole_b0 (wl_mcasts ratA)), all2, sts', g, (sink_core).
  split; [proper|]. split; [vm_compute; reflexivity|]. split; [reflexivity|]. split; [split; lia|]. split; [exact nodup2|]. split; [apply rsound_case; vm_compute; reflexivity|].
  split; [exact E|]. split; [vm_compute; reflexivity|].
  assert (H : match congested ratA wormhole_b0 (wl_mcasts ratA) all2 with
     | Ok (s, _) => Qeq_bool (load 0 100 (enters_multicast (sink_core) NOC0) s all2) (2 * qval (abs_rate ratA wormhole_b0 WORKER))
     | _ => false end = true) by (vm_compute; reflexivity).
  rewrite E in H. apply Qeq_bool_iff in H. split; [exact H|reflexivity].
Qed.
(* the same with floats: neither of the two multicasts is slowed down *)
Lemma mcasts_floats : exists sts g, rate_all f32A wormhole_b0 (wl_mcasts f32A) all2 true = Ok (sts, g) /\ map s_bw sts = [fl 14732493 (-19); fl 14732493 (-19)].
Proof. apply rates_view; vm_compute; reflexivity. Qed.
(* rates of zero: a validated workload that never makes progress *)
Lemma share_sound : Forall sound_transfer (all_transfers (wl_share f32A)).
Proof. apply Forall_forall. intros t Ht. apply soundb_ok. revert t Ht. apply forallb_forall. vm_compute. reflexivity. Qed.

Lemma cpt_case : proper_cpt 100. Proof. unfold proper_cpt. split; [discriminate|reflexivity]. Qed.
