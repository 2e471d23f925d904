(* Workloads without golden cycles are never simulated (C80). *)
From Coq Require Import ZArith Arith Lia Bool String List Floats.SpecFloat ZifyBool ZifyNat.
From Verif Require Import Base Arith Util UtilProofs Device SpecDevice DeviceProofs FactoryProofs Workload SpecWorkload WorkloadProofs Rates Stats DepTracker Engine SpecEngine SpecRates SpecStats TrackerProofs RunProofs
  Api SpecApi SafeProofs SafeRun CalmProofs ApiProofs.
Import ListNotations.
Local Open Scope string_scope.
Local Open Scope list_scope.
Open Scope Z_scope.
Ltac Zify.zify_post_hook ::= idtac.

(** * Without golden cycles of one chip or of the mesh the first timestep throws *)
Section Missing.
  Context (A : arith) (ord : Z -> list Z -> list Z) (bord : list bucket -> list bucket) (d : device) (cpt : Z) (wl : workload (F A)) (id : Z).
  Context (HS : has_stats d id) (HN : forall w, getGoldenResultCycles wl id <> Ok w).
  Lemma golden_cases i : (exists w, getGoldenResultCycles wl i = Ok w) \/ getGoldenResultCycles wl i = StdThrow "out_of_range".
  Proof. unfold getGoldenResultCycles. destruct (golden_get (wl_golden wl) i); eauto. Qed.
  Lemma insert_throws s e stt : In id (map fst stt) -> insertTimestep A wl s e stt = StdThrow "out_of_range".
  Proof.
    unfold insertTimestep, stats_map. induction stt as [|[k ds] stt IH]; intros H; [destruct H|]. cbn [mapM fst snd]. destruct (golden_cases k) as [(w & E)|E]; rewrite E; cbn [bind]; [|reflexivity].
    destruct H as [H|H]; [cbn [fst] in H; subst k; exfalso; exact (HN _ E)|]. rewrite (IH H). reflexivity.
  Qed.
  Lemma simulate_throws congestion s : sim_init A ord bord d cpt wl = Ok s -> 0 < cpt -> simulate A ord bord d congestion cpt wl = StdThrow "out_of_range".
  Proof.
    intros H HC. unfold simulate. rewrite H. cbn [bind]. unfold sim_init in H. apply bind_ok in H as (sts & _ & H). cbv zeta in H. apply bind_ok in H as (st & _ & H). injection H as <-.
    assert (EF : exists n, sim_fuel cpt = S n).
    { unfold sim_fuel. assert (0 <= MAX_CYCLE_LIMIT / cpt) by (apply Z.div_pos; [unfold MAX_CYCLE_LIMIT; lia|exact HC]). exists (Z.to_nat (MAX_CYCLE_LIMIT / cpt + 1)). lia. }
    destruct EF as (n & ->). cbn [sim_loop]. unfold timestep. cbn [sm_curr sm_stats]. rewrite insert_throws; [reflexivity|]. unfold stats_make. rewrite map_app, map_map. apply in_or_app.
    destruct HS as [HI|HI]; [left|right; left; symmetry; exact HI]. cbn [fst]. rewrite map_id. exact HI.
  Qed.
  Lemma simulate_never congestion r : simulate A ord bord d congestion cpt wl <> Ok r.
  Proof.
    intros H. destruct (Z_lt_le_dec 0 cpt) as [HC|HC].
    - pose proof H as H'. unfold simulate in H'. apply bind_ok in H' as (s & Hs & _). rewrite (simulate_throws congestion s Hs HC) in H. discriminate H.
    - unfold simulate in H. apply bind_ok in H as (s & Hs & H). unfold sim_init in Hs. apply bind_ok in Hs as (sts & _ & Hs). cbv zeta in Hs. apply bind_ok in Hs as (st & _ & Hs). injection Hs as <-.
      destruct (sim_fuel cpt) as [|n]; [discriminate H|]. cbn [sim_loop] in H. unfold timestep in H. cbn [sm_curr sm_stats] in H. rewrite insert_throws in H; [discriminate H|].
      unfold stats_make. rewrite map_app, map_map. apply in_or_app. destruct HS as [HI|HI]; [left|right; left; symmetry; exact HI]. cbn [fst]. rewrite map_id. exact HI.
  Qed.
  Lemma single_never model r : runSinglePerfSim A ord bord d model cpt wl <> Ok r.
  Proof. unfold runSinglePerfSim. intros H. apply bind_ok in H as (x & Hx & _). exact (simulate_never _ _ Hx). Qed.
End Missing.

(** * What preprocessing does to the golden cycles *)
Lemma infer_golden (A : arith) d (wl wl' : workload (F A)) : inferInjectionRates A d wl = Ok wl' -> wl_golden wl' = wl_golden wl.
Proof. unfold inferInjectionRates. intros H. apply bind_ok in H as (ps & _ & H). injection H as <-. reflexivity. Qed.
Lemma scale_golden (A : arith) s (wl wl' : workload (F A)) : scaleWorkloadSchedule A s wl = Ok wl' -> wl_golden wl' = wl_golden wl.
Proof. unfold scaleWorkloadSchedule. intros H. apply bind_ok in H as (ps & _ & H). injection H as <-. reflexivity. Qed.
Lemma remove_golden {Fl} (wl wl' : workload Fl) : removeLocalUnicastTransfers wl = Ok wl' -> wl_golden wl' = wl_golden (setGoldenResultCycles (@empty_workload Fl) (wl_golden wl)).
Proof.
  unfold removeLocalUnicastTransfers. generalize (setGoldenResultCycles (@empty_workload Fl) (wl_golden wl)) as a. generalize (wl_phases wl) as ps. induction ps as [|p ps IH]; intros a H; cbn [foldM] in H; [injection H as <-; reflexivity|].
  apply bind_ok in H as (b & Hb & H). rewrite (IH _ H). apply bind_ok in Hb as ([c n] & Hc & Hb). injection Hb as <-. unfold addPhase in Hc. destruct (_ <? _) in Hc; [|discriminate]. injection Hc as <- _. reflexivity.
Qed.
Lemma preprocess_golden (A : arith) d (cfg : config (F A)) wl wl' : preprocessWorkload A d cfg wl = Ok wl' ->
  (cf_remove_local cfg = false -> wl_golden wl' = wl_golden wl) /\ forall id, id <> MESH_DEVICE -> golden_get (wl_golden wl') id = golden_get (wl_golden wl) id.
Proof.
  unfold preprocessWorkload. intros H. apply bind_ok in H as (w1 & H1 & H). apply bind_ok in H as (w2 & H2 & H).
  assert (E1 : wl_golden w1 = wl_golden wl) by (destruct (cf_infer cfg); [exact (infer_golden A d _ _ H1)|injection H1 as <-; reflexivity]).
  assert (E2 : wl_golden w2 = wl_golden w1) by (destruct (scale_set A (cf_scale cfg)); [exact (scale_golden A _ _ _ H2)|injection H2 as <-; reflexivity]).
  destruct (cf_remove_local cfg); [|injection H as <-; split; intros; congruence]. split; [discriminate|]. intros id N. apply remove_golden in H. rewrite H. unfold setGoldenResultCycles. cbn [wl_golden]. rewrite golden_get_put.
  destruct (Z.eqb_spec MESH_DEVICE id) as [E|_]; [congruence|]. rewrite E2, E1. reflexivity.
Qed.
Theorem missing_never (A : arith) ord bord d (cfg : config (F A)) (wl : workload (F A)) id : has_stats d id -> (forall w, getGoldenResultCycles wl id <> Ok w) ->
  cf_remove_local cfg = false \/ id <> MESH_DEVICE -> forall stt, runNPE A ord bord d cfg wl <> Ok (Stats stt).
Proof.
  intros HS HN HL stt H. unfold runNPE in H. apply bind_ok in H as (w & HP & H). apply bind_ok in H as (b & _ & H). destruct b; [|discriminate].
  assert (HN' : forall x, getGoldenResultCycles w id <> Ok x).
  { intros x Hx. apply (HN x). destruct (preprocess_golden A d cfg wl w HP) as [G1 G2]. unfold getGoldenResultCycles in *. destruct HL as [HL|HL]; [rewrite <- (G1 HL); exact Hx|rewrite <- (G2 id HL); exact Hx]. }
  destruct (runPerfEstimation A ord bord d cfg w) as [r| | | | | |] eqn:E; try discriminate. unfold runPerfEstimation in E. destruct (cf_impact cfg).
  - apply bind_ok in E as (r' & E & _). exact (single_never A ord bord d _ w id HS HN' _ _ E).
  - exact (single_never A ord bord d _ w id HS HN' _ _ E).
Qed.

(** * If only the golden cycles are missing the exception is std::out_of_range *)
Lemma init_with_golden (A : arith) ord bord d cpt (wl : workload (F A)) m : sim_init A ord bord d cpt (setGoldenResultCycles wl m) = sim_init A ord bord d cpt wl.
Proof. destruct wl. reflexivity. Qed.
Lemma validate_with_golden {Fl} d (wl : workload Fl) m : validate d (setGoldenResultCycles wl m) = validate d wl.
Proof. reflexivity. Qed.
Lemma infer_with_golden (A : arith) d (wl : workload (F A)) m : inferInjectionRates A d (setGoldenResultCycles wl m) = let! w := inferInjectionRates A d wl in Ok (setGoldenResultCycles w m).
Proof. unfold inferInjectionRates. cbn [wl_phases setGoldenResultCycles]. destruct (mapM _ (wl_phases wl)); reflexivity. Qed.
Lemma scale_with_golden (A : arith) s (wl : workload (F A)) m : scaleWorkloadSchedule A s (setGoldenResultCycles wl m) = let! w := scaleWorkloadSchedule A s wl in Ok (setGoldenResultCycles w m).
Proof. unfold scaleWorkloadSchedule. cbn [wl_phases setGoldenResultCycles]. destruct (mapM _ (wl_phases wl)); reflexivity. Qed.
Lemma preprocess_with_golden (A : arith) d (cfg : config (F A)) wl m : cf_remove_local cfg = false ->
  preprocessWorkload A d cfg (setGoldenResultCycles wl m) = let! w := preprocessWorkload A d cfg wl in Ok (setGoldenResultCycles w m).
Proof.
  intros HR. unfold preprocessWorkload. rewrite HR. destruct (cf_infer cfg).
  - rewrite infer_with_golden. destruct (inferInjectionRates A d wl); try reflexivity. cbn [bind]. destruct (scale_set A (cf_scale cfg)); [|reflexivity]. rewrite scale_with_golden. destruct (scaleWorkloadSchedule _ _ _); reflexivity.
  - cbn [bind]. destruct (scale_set A (cf_scale cfg)); [|reflexivity]. rewrite scale_with_golden. destruct (scaleWorkloadSchedule _ _ _); reflexivity.
Qed.
Theorem missing_throws ord bord d (cfg : config (F f32A)) (wl : workload (F f32A)) m id : link_order ord -> bucket_order bord -> supported d -> good_config cfg -> cf_remove_local cfg = false ->
  usable_workload d cfg (setGoldenResultCycles wl m) -> has_stats d id -> (forall w, getGoldenResultCycles wl id <> Ok w) ->
  runNPE f32A ord bord d cfg wl = StdThrow "out_of_range" \/ exists e, runNPE f32A ord bord d cfg wl = Ok (Failure e).
Proof.
  intros HO HB HD [HC1 _] HRL HU HS HN. assert (HC : 0 < cf_cpt cfg) by lia. destruct (preprocess_fit cfg d _ HD HU) as (wl' & HP & F). pose proof (preprocess_with_golden f32A d cfg wl m HRL) as HG. rewrite HP in HG. symmetry in HG. apply bind_ok in HG as (w & HW & HG). injection HG as <-.
  unfold runNPE. rewrite HW. cbn [bind]. pose proof F as (D' & N' & P' & U' & _).
  destruct (validate_spec d _ D' N') as [_ HVal]; [eapply Z.le_lt_trans; [exact P'|reflexivity]|eapply Forall_impl; [|exact U']; intros t ((R & _) & _); exact (proj1 R)|].
  destruct HVal as (b & Eb & Hb); [eapply Forall_impl; [|exact U']; intros t (_ & _ & H & _); exact H|]. rewrite validate_with_golden in Eb. assert (Eb' : validate d w = Ok b) by exact Eb. rewrite Eb'. cbn [bind]. destruct b; [|right; eauto].
  pose proof (fit_ready _ _ F (proj1 Hb eq_refl)) as RW. pose proof (sim_init_safe ord HO bord HB d HD (cf_cpt cfg) _ RW) as SI. rewrite init_with_golden in SI.
  assert (HN' : forall x, getGoldenResultCycles w id <> Ok x) by (intros x Hx; apply (HN x); unfold getGoldenResultCycles in *; rewrite <- (proj1 (preprocess_golden f32A d cfg wl w HW) HRL); exact Hx).
  assert (ES : forall model, runSinglePerfSim f32A ord bord d model (cf_cpt cfg) w = StdThrow "out_of_range" \/ exists e, runSinglePerfSim f32A ord bord d model (cf_cpt cfg) w = Throw e).
  { intros model. unfold runSinglePerfSim. destruct (sim_init f32A ord bord d (cf_cpt cfg) w) as [s|e| | | | |] eqn:EI; try contradiction.
    - left. rewrite (simulate_throws f32A ord bord d (cf_cpt cfg) w id HS HN' _ s EI HC). reflexivity.
    - right. exists e. unfold simulate. rewrite EI. reflexivity. }
  assert (EE : runPerfEstimation f32A ord bord d cfg w = StdThrow "out_of_range" \/ exists e, runPerfEstimation f32A ord bord d cfg w = Throw e).
  { unfold runPerfEstimation. destruct (ES (cf_model cfg)) as [E|(e & E)]; rewrite E; destruct (cf_impact cfg); cbn [bind]; eauto. }
  destruct EE as [->|(e & ->)]; eauto.
Qed.
(* valid transfers with single rectangles, no group that Blackhole could not handle *)
Theorem missing_throws_simple ord bord d (cfg : config (F f32A)) (wl : workload (F f32A)) m id : link_order ord -> bucket_order bord -> supported d -> good_config cfg -> cf_remove_local cfg = false ->
  usable_workload d cfg (setGoldenResultCycles wl m) -> has_stats d id -> (forall w, getGoldenResultCycles wl id <> Ok w) ->
  (forall w, preprocessWorkload f32A d cfg wl = Ok w -> Forall (accepted d) (all_transfers w) /\ simple_workload d w) ->
  runNPE f32A ord bord d cfg wl = StdThrow "out_of_range".
Proof.
  intros HO HB HD [HC1 _] HRL HU HS HN HSim. assert (HC : 0 < cf_cpt cfg) by lia. destruct (preprocess_fit cfg d _ HD HU) as (wl' & HP & F). pose proof (preprocess_with_golden f32A d cfg wl m HRL) as HG. rewrite HP in HG. symmetry in HG. apply bind_ok in HG as (w & HW & HG). injection HG as <-.
  unfold runNPE. rewrite HW. cbn [bind]. pose proof F as (D' & N' & P' & U' & _). destruct (HSim w HW) as [HA HSi].
  destruct (validate_spec d _ D' N') as [_ HVal]; [eapply Z.le_lt_trans; [exact P'|reflexivity]|eapply Forall_impl; [|exact U']; intros t ((R & _) & _); exact (proj1 R)|].
  destruct HVal as (b & Eb & Hb); [eapply Forall_impl; [|exact U']; intros t (_ & _ & H & _); exact H|]. rewrite validate_with_golden in Eb. assert (Eb' : validate d w = Ok b) by exact Eb. rewrite Eb'. cbn [bind]. destruct b; [|discriminate (proj2 Hb HA)].
  pose proof (fit_ready _ _ F HA) as RW. pose proof (sim_init_safe ord HO bord HB d HD (cf_cpt cfg) _ RW) as SI. pose proof (sim_init_calm ord HO bord HB d HD (cf_cpt cfg) _ RW HSi) as SC. rewrite init_with_golden in SI, SC.
  assert (HN' : forall x, getGoldenResultCycles w id <> Ok x) by (intros x Hx; apply (HN x); unfold getGoldenResultCycles in *; rewrite <- (proj1 (preprocess_golden f32A d cfg wl w HW) HRL); exact Hx).
  destruct (sim_init f32A ord bord d (cf_cpt cfg) w) as [s|e| | | | |] eqn:EI; try contradiction; [|exfalso; exact (SC e eq_refl)].
  assert (ES : forall model, runSinglePerfSim f32A ord bord d model (cf_cpt cfg) w = StdThrow "out_of_range") by (intros model; unfold runSinglePerfSim; rewrite (simulate_throws f32A ord bord d (cf_cpt cfg) w id HS HN' _ s EI HC); reflexivity).
  unfold runPerfEstimation. rewrite (ES (cf_model cfg)). destruct (cf_impact cfg); reflexivity.
Qed.
