(* Cases for C81. *)
From Coq Require Import ZArith Arith Lia String List Bool Permutation Floats.SpecFloat ZifyBool ZifyNat.
From Verif Require Import Base Arith Util Json Device SpecDevice Workload SpecWorkload Rates Stats Engine SpecEngine SpecRates SpecStats Cases EngineWitness SummaryWitness Timeline SpecTimeline TimelineWitness SpecZones ZoneWitness SpecGroups SpecDemands DemandWitness SpecEmit EmitWitness
  TrackerProofs TimelineSplit Layout SpecLayout LayoutProofs.
Import ListNotations.
Local Open Scope string_scope.
Local Open Scope list_scope.
Open Scope Z_scope.

(* the documents of the files *)
Definition json_view (name : string) (d : device) (wl : workload (F f32A)) (thr : Z) (r : outcome (npe_result f32A * list (content f32A))) : option (list json) :=
  match r with
  | Ok (Stats stt, files) => match stats_get f32A stt MESH_DEVICE with Some ds => Some (map (file_json name "fast" 100 d wl ds thr) files) | None => None end
  | _ => None
  end.
Lemma json_view_ok name d wl thr r js : json_view name d wl thr r = Some js ->
  exists stt files ds, r = Ok (Stats stt, files) /\ stats_get f32A stt MESH_DEVICE = Some ds /\ map (file_json name "fast" 100 d wl ds thr) files = js.
Proof.
  unfold json_view. destruct r as [[[stt|] files]| | | | | |]; try discriminate. destruct (stats_get f32A stt MESH_DEVICE) as [ds|] eqn:E; [|discriminate]. intros H. injection H as <-.
  exists stt, files, ds. auto.
Qed.
Definition run1 (legacy : bool) (d : device) (topo : topology) (wl : workload (F f32A)) :=
  runWithTimeline f32A same_links same_buckets same_groups same_zones topo legacy 10 d "fast" 100 wl.

Lemma first_file d topo wl stt files : run1 false d topo wl = Ok (Stats stt, files) -> exists o rest, files = FullV1 f32A o :: rest.
Proof.
  unfold run1. intros H. destruct (run_emit f32A same_links same_buckets same_groups same_zones topo d 100 wl _ _ _ _ _ H) as (s & _ & HE).
  destruct (stats_get f32A stt MESH_DEVICE) as [ds|] eqn:E; [|unfold emitSimTimelineToFile in HE; rewrite E in HE; discriminate HE].
  destruct (emit_cases f32A same_groups same_zones d topo wl _ _ _ _ _ HE E) as (full & _ & HC). cbv zeta in HC. destruct HC as [(_ & ->)|(_ & _ & sp & -> & _)]; eauto.
Qed.
Lemma legacy_file d topo wl stt files : run1 true d topo wl = Ok (Stats stt, files) -> exists doc, files = [FullV0 f32A doc].
Proof.
  unfold run1. intros H. destruct (run_emit f32A same_links same_buckets same_groups same_zones topo d 100 wl _ _ _ _ _ H) as (s & _ & HE). unfold emitSimTimelineToFile in HE.
  destruct (stats_get f32A stt MESH_DEVICE) as [ds|]; [|discriminate HE]. apply bind_ok in HE as (doc & _ & HE). injection HE as <-. eauto.
Qed.
(* an empty golden window *)
Definition dram_field (j : json) : option json := match get_field j "common_info" with Some i => get_field i "dram_bw_util" | None => None end.
Definition dram_of (js : option (list json)) : option (list (option json)) := option_map (map dram_field) js.
Lemma dram_some o l : dram_of o = Some l -> exists js, o = Some js /\ map dram_field js = l.
Proof. destruct o as [js|]; [|discriminate]. intros H. injection H as <-. eauto. Qed.
Lemma null_misfit name model cpt d wl ds thr tl : dram_field (file_json name model cpt d wl ds thr (FullV1 f32A (Some tl))) = Some JNull ->
  ~ fits (emitted_schema SNum) (file_json name model cpt d wl ds thr (FullV1 f32A (Some tl))).
Proof.
  intros V HF. cbn [file_json] in *. unfold j_timeline, dram_field in *. cbn [get_field field String.eqb Ascii.eqb Bool.eqb] in V.
  inversion HF as [| | | | | | | | | | | |? ? _ K]; subst. destruct (K "common_info" _ (or_introl eq_refl)) as (v & I & FV). cbn [In] in I. destruct I as [I|I]; [|intuition discriminate].
  injection I as <-. inversion FV as [| | | | | | | | | | | |? ? ND K']; subst. destruct (K' "dram_bw_util" _ (or_intror (or_intror (or_intror (or_intror (or_intror (or_introl eq_refl))))))) as (w & I & FW).
  cbn [j_info In] in I. do 7 (destruct I as [I|I]; [discriminate I|]). destruct I as [I|I]; [|exfalso; clear -I; intuition discriminate]. injection I as <-. injection V as V. rewrite V in FW. inversion FW.
Qed.
Lemma null_number : exists wl stt files ds tl, proper wl /\ proper_cpt 100 /\ run1 false wormhole_b0 TopoUnset wl = Ok (Stats stt, files) /\
  stats_get f32A stt MESH_DEVICE = Some ds /\ In (FullV1 f32A (Some tl)) files /\
  ~ fits (emitted_schema SNum) (file_json "wormhole_b0" "fast" 100 wormhole_b0 wl ds 10 (FullV1 f32A (Some tl))).
Proof.
  assert (V : dram_of (json_view "wormhole_b0" wormhole_b0 (wl_idle_window f32A) 10 (run1 false wormhole_b0 TopoUnset (wl_idle_window f32A))) = Some [Some JNull]) by (vm_compute; reflexivity).
  apply dram_some in V as (js & E & V). apply json_view_ok in E as (stt & files & ds & HR & HD & <-). destruct files as [|c [|]]; try discriminate V. cbn [map] in V. injection V as V.
  destruct (first_file _ _ _ _ _ HR) as (o & rest & EF). injection EF as -> _. destruct o as [tl|]; [|discriminate V].
  exists (wl_idle_window f32A), stt, [FullV1 f32A (Some tl)], ds, tl. split; [exact window_case|]. split; [unfold proper_cpt; lia|]. split; [exact HR|]. split; [exact HD|]. split; [left; reflexivity|].
  exact (null_misfit _ _ _ _ _ _ _ _ V).
Qed.
(* the same transfer on chip 0 and on chip 1 *)
Definition wl_on (c : Z) : workload (F f32A) := build f32A [xfer f32A 120 (c,1,1) (c,1,3) 50].
Lemma same_legacy : exists wl wl' stt stt' ds ds' doc doc', proper wl /\ proper wl' /\ proper_cpt 100 /\ map t_src (all_transfers wl) <> map t_src (all_transfers wl') /\
  run1 true (wormhole_multichip 2) TopoUnset wl = Ok (Stats stt, [FullV0 f32A doc]) /\ stats_get f32A stt MESH_DEVICE = Some ds /\
  run1 true (wormhole_multichip 2) TopoUnset wl' = Ok (Stats stt', [FullV0 f32A doc']) /\ stats_get f32A stt' MESH_DEVICE = Some ds' /\
  file_json "N300" "fast" 100 (wormhole_multichip 2) wl ds 10 (FullV0 f32A doc) = file_json "N300" "fast" 100 (wormhole_multichip 2) wl' ds' 10 (FullV0 f32A doc').
Proof.
  assert (V : exists j, json_view "N300" (wormhole_multichip 2) (wl_on 0) 10 (run1 true (wormhole_multichip 2) TopoUnset (wl_on 0)) = Some [j] /\
                        json_view "N300" (wormhole_multichip 2) (wl_on 1) 10 (run1 true (wormhole_multichip 2) TopoUnset (wl_on 1)) = Some [j]) by (eexists; split; vm_compute; reflexivity).
  destruct V as (j & V & V'). apply json_view_ok in V as (stt & files & ds & HR & HD & E). apply json_view_ok in V' as (stt' & files' & ds' & HR' & HD' & E').
  destruct (legacy_file _ _ _ _ _ HR) as (doc & ->). destruct (legacy_file _ _ _ _ _ HR') as (doc' & ->). cbn [map] in E, E'. injection E as E. injection E' as E'.
  exists (wl_on 0), (wl_on 1), stt, stt', ds, ds', doc, doc'. split; [apply proper_case; vm_compute; reflexivity|]. split; [apply proper_case; vm_compute; reflexivity|]. split; [unfold proper_cpt; lia|].
  split; [intros C; vm_compute in C; discriminate C|]. split; [exact HR|]. split; [exact HD|]. split; [exact HR'|]. split; [exact HD'|]. exact (eq_trans E (eq_sym E')).
Qed.
(* what a reader finds: header, place among the split files, numbers of chips, transfers, zones and timesteps *)
Definition file_summary (o : option file_view) : option (string * string * Z * option (Z * Z * Z * Z) * list nat) :=
  option_map (fun v => (iv_device (fv_info v), iv_arch (fv_info v), iv_cols (fv_info v),
    option_map (fun p => (pv_index p, pv_total p, pv_first p, pv_last p)) (fv_split v),
    [List.length (fv_chips v); List.length (fv_groups v); List.length (fv_zones v); List.length (fv_steps v)])) o.
