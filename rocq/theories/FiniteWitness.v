(* Concrete cases for C82 and for C43 in floats. *)
From Coq Require Import ZArith Arith Reals Lra Lia Bool String List Floats.SpecFloat ZifyBool.
From Flocq Require Import Core.
From Verif Require Import Base Arith Util Device SpecDevice Workload SpecWorkload Rates Stats Engine SpecEngine SpecRates SpecStats SpecSummary SpecFinite Cases EngineWitness RatesWitness StatsWitness SummaryWitness
  Timeline SpecTimeline TimelineWitness SpecGroups GroupWitness.
Import ListNotations.
Local Open Scope string_scope.
Local Open Scope list_scope.
Open Scope Z_scope.

Lemma not_nan64 : ~ number64 S754_nan.
Proof. intros (_ & [C|(m & e & C)]); discriminate C. Qed.
Lemma not_inf64 s : ~ number64 (S754_infinity s).
Proof. intros (_ & [C|(m & e & C)]); discriminate C. Qed.
(* a chip without transfers *)
Lemma idle_numbers : exists wl stt ds, proper wl /\ proper_cpt 100 /\ Forall sound_transfer (all_transfers wl) /\ runSinglePerfSim f32A same_links same_buckets n300 "fast" 100 wl = Ok (Stats stt) /\
  stats_get f32A stt 1 = Some ds /\ 0 < ds_golden f32A ds /\ ~ Forall number64 (result_numbers ds).
Proof.
  exists (wl_share f32A). destruct (sum_view_ok _ _ _ _ _ _ _ _ _ _ _ _ _ share_idle) as (stt & ds & HR & HD & EE & EG & _ & _ & EA & _). exists stt, ds. split; [exact share_case|]. split; [exact cpt_case|].
  split; [exact share_sound|]. split; [exact HR|]. split; [exact HD|]. split; [rewrite EG; reflexivity|]. intros H. unfold result_numbers in H. apply Forall_app in H as [H _]. rewrite Forall_forall in H.
  apply not_nan64. rewrite <- EA. apply H. cbn [In]. auto.
Qed.
(* an empty golden window *)
Lemma window_sound : Forall sound_transfer (all_transfers (wl_idle_window f32A)).
Proof. apply Forall_forall. intros t Ht. apply soundb_ok. revert t Ht. apply forallb_forall. vm_compute. reflexivity. Qed.
Lemma window_numbers : exists wl stt ds, proper wl /\ proper_cpt 100 /\ Forall sound_transfer (all_transfers wl) /\ runSinglePerfSim f32A same_links same_buckets wormhole_b0 "fast" 100 wl = Ok (Stats stt) /\
  stats_get f32A stt 0 = Some ds /\ 0 < ds_est f32A ds /\ ~ Forall number64 (result_numbers ds).
Proof.
  exists (wl_idle_window f32A). destruct (sum_view_ok _ _ _ _ _ _ _ _ _ _ _ _ _ no_window) as (stt & ds & HR & HD & EE & EG & _ & _ & _ & _ & _ & ED & _). exists stt, ds. split; [exact window_case|]. split; [exact cpt_case|].
  split; [exact window_sound|]. split; [exact HR|]. split; [exact HD|]. split; [rewrite EE; reflexivity|]. intros H. unfold result_numbers in H. apply Forall_app in H as [H _]. rewrite Forall_forall in H.
  apply (not_inf64 false). rewrite <- ED. apply H. cbn [In]. auto 20.
Qed.
(* a chip with transfers *)
Lemma chip_numbers : exists stt ds, runSinglePerfSim f32A same_links same_buckets n300 "fast" 100 (wl_share f32A) = Ok (Stats stt) /\ stats_get f32A stt 0 = Some ds /\
  (forall g, getGoldenResultCycles (wl_share f32A) 0 = Ok g -> 0 <= fst g) /\ 0 < ds_est f32A ds /\ 0 < ds_golden f32A ds.
Proof.
  destruct (sum_view_ok _ _ _ _ _ _ _ _ _ _ _ _ _ share_chip) as (stt & ds & HR & HD & EE & EG & _). exists stt, ds. split; [exact HR|]. split; [exact HD|]. split; [|rewrite EE, EG; split; reflexivity].
  intros g H. assert (E : getGoldenResultCycles (wl_share f32A) 0 = Ok (0, 1000)) by (vm_compute; reflexivity). rewrite E in H. injection H as <-. cbn [fst]. lia.
Qed.
(* a demand of one byte per cycle everywhere *)
Definition unit_grids (d : device) : grids spec_float :=
  mkGrids (map (fun _ => f_one f32A) (niu_table d)) (map (fun _ => f_one f32A) (link_table d)) (map (fun _ => f_one f32A) (link_table d)).
Lemma unit_limited : limited (f_one f32A).
Proof.
  split; [split; [reflexivity|right; exists 8388608%positive, (-23); reflexivity]|].
  change (real (f_one f32A)) with (8388608 * / 8388608)%R. apply Rle_trans with 1%R; [lra|]. change 1%R with (bpow radix2 0). apply bpow_le. discriminate.
Qed.
Lemma unit_case d : limited_grids d (unit_grids d).
Proof.
  unfold limited_grids, unit_grids. cbn [g_link g_mc g_niu]. rewrite !map_length.
  assert (Q : forall X (l : list X), Forall limited (map (fun _ => f_one f32A) l)) by (intros X l; apply Forall_map, Forall_forall; intros; exact unit_limited). auto 10.
Qed.
(* the files of a run of three transfers *)
Definition mesh_view (r : outcome (npe_result f32A * list (content f32A))) : option (Z * Z * nat) :=
  match r with
  | Ok (Stats stt, files) => match stats_get f32A stt MESH_DEVICE with Some ds => Some (ds_est f32A ds, ds_golden f32A ds, List.length files) | None => None end
  | _ => None
  end.
Lemma file_case : Forall (on_grid wormhole_b0) (all_transfers wl_group) /\ Forall sound_transfer (all_transfers wl_group) /\ wl_next wl_group <= 2 ^ 32 /\ getGoldenResultCycles wl_group MESH_DEVICE = Ok (0, 1000) /\
  mesh_view (tl_run 10 100 wl_group) = Some (320, 1000, 1%nat).
Proof. destruct (GroupWitness.fits wl_group) as (B1 & B2 & B3); [vm_compute; reflexivity|]. split; [exact B1|]. split; [exact B2|]. split; [vm_compute; discriminate|]. split; vm_compute; reflexivity. Qed.
