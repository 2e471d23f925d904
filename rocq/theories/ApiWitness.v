(* Inputs for which runNPE does not return a result object, and one for which it does (C22). *)
From Coq Require Import ZArith Reals String List Bool Lia Lra Floats.SpecFloat.
From Verif Require Import Base Arith Util Device SpecDevice Workload SpecWorkload DepTracker Rates Stats Engine Api SpecEngine SpecRates SpecStats SpecApi FactoryProofs ScheduleProofs RunProofs Cases EngineWitness.
Import ListNotations.
Local Open Scope string_scope.
Local Open Scope list_scope.
Open Scope Z_scope.

Definition api_config (model : string) (infer : bool) (scale : F f32A) : config (F f32A) := mkCfg "wormhole_b0" model 100 infer false false scale.
Definition api_hop (ps np : Z) (src : Z * Z * Z) (dst : noc_dest) (rate : F f32A) (group index parent : Z) : transfer (F f32A) :=
  tr_make ps np (at_core src) dst rate 0 NOC0 "" "WRITE" group index parent.
Definition far : noc_dest := Unicast (at_core (0, 1, 5)).
Definition one32 : F f32A := f_one f32A.

(* what kind of outcome, without its value *)
Definition ends_in {T} (want : outcome unit) (r : outcome T) : bool :=
  match want, r with
  | StdThrow a, StdThrow b => String.eqb a b
  | UB a, UB b => String.eqb a b
  | Abort, Abort => true
  | _, _ => false
  end.
Lemma ends_std {T} s (r : outcome T) : ends_in (StdThrow s) r = true -> r = StdThrow s.
Proof. destruct r; try discriminate. cbn. intros H. apply String.eqb_eq in H. congruence. Qed.
Lemma ends_ub {T} s (r : outcome T) : ends_in (UB s) r = true -> r = UB s.
Proof. destruct r; try discriminate. cbn. intros H. apply String.eqb_eq in H. congruence. Qed.
Lemma ends_abort {T} (r : outcome T) : ends_in Abort r = true -> r = Abort.
Proof. destruct r; try discriminate. reflexivity. Qed.

(* one phase, no golden cycles *)
Definition wl_plain (ts : list (transfer (F f32A))) : workload (F f32A) := match addPhase empty_workload ts with Ok (w, _) => w | _ => empty_workload end.
Lemma plain_built ts w id : addPhase (@empty_workload (F f32A)) ts = Ok (w, id) -> built w [ts].
Proof. intros H. exact (built_add _ [] _ _ _ built_empty H). Qed.
Lemma build_built ts w id : addPhase (setGoldenResultCycles (@empty_workload (F f32A)) [(0, (0, 1000)); (1, (0, 1000))]) ts = Ok (w, id) -> built w [ts].
Proof. intros H. exact (built_add _ [] _ _ _ (built_golden _ _ _ built_empty) H). Qed.

Definition no_golden_trs := [api_hop 100 1 (0, 1, 1) far one32 (-1) (-1) (-1)].
Lemma no_golden_run : exists cfg wl ts, npeAPI_make f32A cfg = Ok wormhole_b0 /\ built wl [ts] /\ validate wormhole_b0 wl = Ok true /\
  runNPE f32A same_links same_buckets wormhole_b0 cfg wl = StdThrow "out_of_range".
Proof.
  exists (api_config "fast" false one32), (wl_plain no_golden_trs), no_golden_trs. split; [vm_compute; reflexivity|]. split; [eapply plain_built; reflexivity|]. split; [vm_compute; reflexivity|].
  apply ends_std. vm_compute. reflexivity.
Qed.
Definition grouped_trs := [api_hop 100 1 (0, 1, 1) far one32 3 0 (-1); api_hop 100 1 (0, 1, 1) (one_core (0, 1, 5)) one32 3 1 0].
Lemma grouped_run : exists cfg wl ts, npeAPI_make f32A cfg = Ok wormhole_b0 /\ built wl [ts] /\ validate wormhole_b0 wl = Ok true /\
  runNPE f32A same_links same_buckets wormhole_b0 cfg wl = StdThrow "bad_variant_access".
Proof.
  exists (api_config "fast" false one32), (build f32A grouped_trs), grouped_trs. split; [vm_compute; reflexivity|]. split; [eapply build_built; reflexivity|]. split; [vm_compute; reflexivity|].
  apply ends_std. vm_compute. reflexivity.
Qed.
Definition outside_trs := [api_hop 100 1 (0, 99, 1) far one32 (-1) (-1) (-1)].
Lemma outside_run : exists cfg wl ts, npeAPI_make f32A cfg = Ok wormhole_b0 /\ built wl [ts] /\ validate wormhole_b0 wl = Ok false /\
  runNPE f32A same_links same_buckets wormhole_b0 cfg wl = Abort.
Proof.
  exists (api_config "fast" true one32), (build f32A outside_trs), outside_trs. split; [vm_compute; reflexivity|]. split; [eapply build_built; reflexivity|]. split; [vm_compute; reflexivity|].
  apply ends_abort. vm_compute. reflexivity.
Qed.
Definition nowhere_trs := [api_hop 100 1 (0, 1, 1) (Multicast []) one32 (-1) (-1) (-1)].
Lemma nowhere_run : exists cfg wl ts, npeAPI_make f32A cfg = Ok wormhole_b0 /\ built wl [ts] /\
  runNPE f32A same_links same_buckets wormhole_b0 cfg wl = UB "front() of an empty vector".
Proof.
  exists (api_config "fast" false one32), (build f32A nowhere_trs), nowhere_trs. split; [vm_compute; reflexivity|]. split; [eapply build_built; reflexivity|].
  apply ends_ub. vm_compute. reflexivity.
Qed.
Definition backwards_trs := [api_hop 100 1 (0, 1, 1) far (f_lit f32A (-1) 1) (-1) (-1) (-1)].
Lemma backwards_run : exists cfg wl ts, npeAPI_make f32A cfg = Ok wormhole_b0 /\ built wl [ts] /\ validate wormhole_b0 wl = Ok true /\
  Forall (fun t => t_rate t = f_lit f32A (-1) 1) (all_transfers wl) /\
  runNPE f32A same_links same_buckets wormhole_b0 cfg wl = UB "float to integer".
Proof.
  exists (api_config "none" false one32), (build f32A backwards_trs), backwards_trs. split; [vm_compute; reflexivity|]. split; [eapply build_built; reflexivity|]. split; [vm_compute; reflexivity|].
  split; [constructor; [vm_compute; reflexivity|constructor]|]. apply ends_ub. vm_compute. reflexivity.
Qed.
Definition wrapped_trs := [api_hop 65536 65536 (0, 1, 1) far (S754_zero false) (-1) (-1) (-1)].
Lemma wrapped_run : exists cfg wl ts, npeAPI_make f32A cfg = Ok wormhole_b0 /\ built wl [ts] /\ validate wormhole_b0 wl = Ok true /\
  Forall (fun t => t_psize t = 65536 /\ t_npkts t = 65536 /\ number (t_rate t)) (all_transfers wl) /\
  runNPE f32A same_links same_buckets wormhole_b0 cfg wl = UB "float to integer".
Proof.
  exists (api_config "fast" false one32), (build f32A wrapped_trs), wrapped_trs. split; [vm_compute; reflexivity|]. split; [eapply build_built; reflexivity|]. split; [vm_compute; reflexivity|].
  split; [constructor; [|constructor]; split; [vm_compute; reflexivity|]; split; [vm_compute; reflexivity|]; split; [vm_compute; reflexivity|left; vm_compute; reflexivity]|]. apply ends_ub. vm_compute. reflexivity.
Qed.
Lemma scaled_run : exists cfg wl ts, npeAPI_make f32A cfg = Ok wormhole_b0 /\ built wl [ts] /\ validate wormhole_b0 wl = Ok true /\ cf_scale cfg = S754_nan /\
  runNPE f32A same_links same_buckets wormhole_b0 cfg wl = UB "float to integer".
Proof.
  exists (api_config "fast" false S754_nan), (build f32A no_golden_trs), no_golden_trs. split; [vm_compute; reflexivity|]. split; [eapply build_built; reflexivity|]. split; [vm_compute; reflexivity|].
  split; [reflexivity|]. apply ends_ub. vm_compute. reflexivity.
Qed.

(* two transfers that share a lane, the second one starts later *)
Lemma share_usable : usable_workload wormhole_b0 (api_config "fast" false one32) (wl_share f32A).
Proof.
  split; [|split; [|split; [|split; [|split]]]].
  - split; [vm_compute; reflexivity|]. split; vm_compute; reflexivity.
  - vm_compute. reflexivity.
  - vm_compute. discriminate.
  - assert (H : forall t, In t (all_transfers (wl_share f32A)) -> rangesb t = true /\ 0 < t_bytes t /\ (exists c, t_dst t = Unicast c) /\ number (t_rate t)).
    { intros t Ht. vm_compute in Ht. destruct Ht as [<-|[<-|[]]]; (split; [vm_compute; reflexivity|]; split; [vm_compute; reflexivity|]; split; [eexists; cbn [t_dst]; reflexivity|]; split; [vm_compute; reflexivity|right; do 2 eexists; cbn [t_rate]; reflexivity]). }
    apply Forall_forall. intros t Ht. destruct (H t Ht) as (H1 & H2 & [c H3] & H4). apply rangesb_ok in H1.
    split; [exact H1|]. split; [intros E; exfalso; change (0 < t_bytes (Fl := spec_float) t) in H2; rewrite E in H2; discriminate H2|]. split; [intros E; assert (Unicast c = Multicast []) by (rewrite <- E; symmetry; exact H3); discriminate|]. split; [intros _; exists c; exact H3|exact H4].
  - destruct one_scale as [S1 S2]. split; [exact S1|]. change (cf_scale (api_config "fast" false one32)) with (f_one f32A). rewrite S2.
    assert (H : forall t, In t (all_transfers (wl_share f32A)) -> t_off t = 0 \/ t_off t = 20).
    { intros t Ht. vm_compute in Ht. destruct Ht as [<-|[<-|[]]]; cbn [t_off]; auto. }
    apply Forall_forall. intros t Ht. assert (HH : t_off (Fl := spec_float) t = 0 \/ t_off (Fl := spec_float) t = 20) by exact (H t Ht). destruct HH as [E|E]; rewrite E; lra.
  - intros id [Hid|Hid].
    + vm_compute in Hid. destruct Hid as [<-|[]]. eexists. vm_compute. reflexivity.
    + rewrite Hid. eexists. vm_compute. reflexivity.
Qed.
Lemma wormhole_supported : supported wormhole_b0.
Proof. exists "wormhole_b0". apply createDeviceModel_iff. reflexivity. Qed.
Lemma share_accepted : Forall (accepted wormhole_b0) (all_transfers (wl_share f32A)).
Proof.
  assert (H : forall t, In t (all_transfers (wl_share f32A)) -> t_npkts t = 1 /\ t_psize t = 100 /\ t_src t = mkCoord 0 1 1 /\ t_dst t = Unicast (mkCoord 0 1 5)).
  { intros t Ht. vm_compute in Ht. destruct Ht as [<-|[<-|[]]]; repeat split; vm_compute; reflexivity. }
  apply Forall_forall. intros t Ht. destruct (H t Ht) as (H1 & H2 & H3 & H4). unfold accepted, in_grid. rewrite H1, H2, H3, H4. cbn. lia.
Qed.
