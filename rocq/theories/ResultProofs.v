(* Which result runNPE returns (C55), and that workloads that make progress succeed (C37). *)
From Coq Require Import ZArith Arith Reals String List Bool Lia Lra ZifyBool ZifyNat Sorting.Permutation Sorting.Sorted Floats.SpecFloat.
From Flocq Require Import Core IEEE754.BinarySingleNaN.
From Verif Require Import Base Arith Util Device SpecDevice Workload SpecWorkload DepTracker Rates Stats Engine Api UtilProofs DeviceProofs RouteProofs MulticastProofs FactoryProofs
  WorkloadProofs SpecTracker TrackerProofs DepGenProofs StepProofs SpecEngine SpecRates SpecStats SpecApi EngineProofs RunProofs EngineFacts EngineFacts2 EngineFacts3 FloatProofs RateFloat4 EngineFloat IngestTotal
  SafeProofs SafeFloat SafeRun CalmProofs ApiProofs SpecProgress ProgressProofs SpecResult.
Import ListNotations.
Local Open Scope list_scope.
Open Scope Z_scope.
Ltac Zify.zify_post_hook ::= idtac.

Lemma safe_calm {X} (m : outcome X) : safe m -> calm m -> exists x, m = Ok x.
Proof. destruct m as [x|e| | | | |]; intros S C; try contradiction; [eauto|]. destruct (C e eq_refl). Qed.
Lemma map_throws {X Y} (f : X -> outcome Y) e l : (forall x, In x l -> (exists y, f x = Ok y) \/ f x = Throw e) -> (exists x, In x l /\ f x = Throw e) -> mapM f l = Throw e.
Proof.
  induction l as [|x l IH]; intros H (z & Hz & Ez); [destruct Hz|]. cbn [mapM]. destruct (H x (or_introl eq_refl)) as [(y & Ey)|Ey]; rewrite Ey; cbn [bind]; [|reflexivity].
  rewrite IH; [reflexivity|intros w Hw; apply H; right; exact Hw|]. exists z. split; [|exact Ez]. destruct Hz as [->|Hz]; [congruence|exact Hz].
Qed.
Lemma rectangles {Fl} (t : transfer Fl) : at_most_one_rectangle t <-> ~ several_rectangles t.
Proof.
  unfold at_most_one_rectangle, several_rectangles. destruct (t_dst t) as [c|m]; split; try tauto; try (intros _ (m & E & _); discriminate E).
  - intros H (m' & [= <-] & L). lia.
  - intros H. destruct (Nat.le_gt_cases (List.length m) 1) as [L|L]; [exact L|]. exfalso. apply H. exists m. split; [reflexivity|lia].
Qed.
Lemma loop_over A ord bord (bord_perm : bucket_order bord) d congestion cpt (wl : workload (F A)) (HW : proper wl) (HC : proper_cpt cpt) fuel : forall n s, begins A ord bord d congestion cpt wl n s -> forall e, sim_loop A fuel d congestion cpt wl s = Ok (inr e) ->
  runs_too_long A ord bord d congestion cpt wl.
Proof.
  induction fuel as [|fuel IH]; intros n s HB e H; [discriminate|]. cbn [sim_loop] in H. apply bind_ok in H as (s' & HT & H). destruct (finished A s') eqn:EF; [discriminate|].
  destruct (Z.ltb_spec MAX_CYCLE_LIMIT (sm_curr A s')) as [L|L].
  - exists n, s, s'. rewrite (step_curr A d congestion cpt wl _ _ HT), (proj1 (begins_time A ord bord bord_perm d congestion cpt wl HW HC _ _ HB)) in L. split; [exact HB|]. split; [exact HT|]. split; [|exact L].
    unfold finished in EF. destruct (sm_live A s'); [|left; discriminate]. destruct (sm_queue A s'); [discriminate EF|right; discriminate].
  - apply (IH (S n) (advance A cpt s')) with (2 := H). eapply begins_next; eassumption.
Qed.
Lemma simulate_over A ord bord (bord_perm : bucket_order bord) d congestion cpt (wl : workload (F A)) (HW : proper wl) (HC : proper_cpt cpt) e :
  simulate A ord bord d congestion cpt wl = Ok (inr e) -> runs_too_long A ord bord d congestion cpt wl.
Proof. unfold simulate. intros H. apply bind_ok in H as (s & H0 & H). eapply loop_over; [exact bord_perm|exact HW|exact HC|apply begins_first; exact H0|exact H]. Qed.

Section Run.
  Context (ord : Z -> list Z -> list Z) (ord_perm : link_order ord) (bord : list bucket -> list bucket) (bord_perm : bucket_order bord).
  Context (d : device) (HD : supported d) (cpt : Z) (wl : workload (F f32A)) (HC : proper_cpt cpt) (HR : ready_workload d wl).
  Let HW : proper wl := proj1 HR.
  Notation single model := (runSinglePerfSim f32A ord bord d model cpt wl).
  Notation over model := (runs_too_long f32A ord bord d (negb (String.eqb model "none")) cpt wl).

  Lemma summary_calm stt : calm (computeSummaryStats f32A d wl stt).
  Proof.
    apply calm_stats. intros id ds. unfold summary_device. cbn zeta. apply calm_bind; [|intros rw _; apply calm_bind; [|intros; apply calm_ok]]; apply calm_fold_all; intros acc t _.
    - destruct (counts_for f32A id t); [|apply calm_ok]. apply calm_bind; [apply calm_core|]. intros ty _. destruct ty; try apply calm_ok; (destruct (t_dst t); [|apply calm_ok]; apply calm_bind; [apply calm_core|]; intros ty' _; destruct ty'; apply calm_ok).
    - destruct (counts_for f32A id t); [|apply calm_ok]. destruct (t_dst t); [|apply calm_ok]. apply calm_bind; [apply calm_core|]. intros ty' _; destruct ty'; apply calm_ok.
  Qed.
  Lemma finish_calm stt : calm (finishSimulation f32A wl cpt stt).
  Proof.
    apply calm_stats. intros id ds. unfold finish_device. apply calm_bind; [intros e; apply nothrow_golden|]. intros g _. cbn zeta. destruct (_ <=? _); [apply calm_ok|]. destruct (_ =? _); [intros e; discriminate|apply calm_ok].
  Qed.
  Lemma single_plain model : simple_workload d wl -> (exists stt, single model = Ok (Stats stt)) \/ (single model = Ok (Failure EXCEEDED_SIM_CYCLE_LIMIT) /\ exists e, simulate f32A ord bord d (negb (String.eqb model "none")) cpt wl = Ok (inr e)).
  Proof.
    intros HP. pose proof (single_safe ord ord_perm bord bord_perm d HD cpt wl HC HR model) as S.
    assert (C : calm (single model)).
    { unfold runSinglePerfSim. apply calm_bind; [exact (simulate_calm ord ord_perm bord bord_perm d HD _ cpt wl HC HR HP)|]. intros [s|e] _; [|apply calm_ok].
      apply calm_bind; [apply finish_calm|]. intros st1 _. apply calm_bind; [apply summary_calm|intros; apply calm_ok]. }
    destruct (safe_calm _ S C) as ([stt|e] & E); [eauto|]. right. pose proof E as E0. unfold runSinglePerfSim in E. apply bind_ok in E as ([s|e'] & ES & E).
    - apply bind_ok in E as (s1 & _ & E). apply bind_ok in E as (s2 & _ & E). discriminate E.
    - assert (e' = e) by congruence. subst e'. rewrite (simulation_error f32A ord bord bord_perm d _ cpt wl HW HC e ES) in *. eauto.
  Qed.
  (* both simulations *)
  Lemma estimation_plain (cfg : config (F f32A)) : cf_cpt cfg = cpt -> simple_workload d wl -> (exists stt, runPerfEstimation f32A ord bord d cfg wl = Ok (Stats stt)) \/
    (runPerfEstimation f32A ord bord d cfg wl = Ok (Failure EXCEEDED_SIM_CYCLE_LIMIT) /\ exists e, simulate f32A ord bord d (negb (String.eqb (cf_model cfg) "none")) cpt wl = Ok (inr e)).
  Proof.
    intros EC HP. unfold runPerfEstimation. rewrite EC. destruct (cf_impact cfg); [|apply single_plain; exact HP].
    destruct (single_plain (cf_model cfg) HP) as [(stt & ->)|[-> O]]; cbn [bind]; [|right; auto]. left.
    destruct (single_plain "none"%string HP) as [(stt0 & ->)|[-> _]]; cbn [bind]; eauto.
  Qed.
  Lemma simulate_throws e congestion : (initTransferState f32A ord d wl = Throw e \/ exists sts, initTransferState f32A ord d wl = Ok sts /\ genDependencies f32A bord d sts = Throw e) ->
    simulate f32A ord bord d congestion cpt wl = Throw e.
  Proof. unfold simulate, sim_init. intros [->|(sts & -> & E)]; cbn [bind]; [reflexivity|]. cbv zeta. rewrite E. reflexivity. Qed.
  Lemma estimation_throws e (cfg : config (F f32A)) : (forall c, simulate f32A ord bord d c cpt wl = Throw e) -> cf_cpt cfg = cpt -> runPerfEstimation f32A ord bord d cfg wl = Throw e.
  Proof. intros H EC. unfold runPerfEstimation, runSinglePerfSim. rewrite EC, !H. destruct (cf_impact cfg); reflexivity. Qed.
  Lemma split_throws congestion : Exists several_rectangles (all_transfers wl) -> simulate f32A ord bord d congestion cpt wl = Throw UNDEF_ERR.
  Proof.
    intros HX. apply simulate_throws. left. rewrite (init_dense f32A ord d wl (proj1 HW)). fold (all_transfers wl). pose proof HR as (_ & _ & HA & _). rewrite Forall_forall in HA.
    assert (K : forall t, In t (all_transfers wl) -> several_rectangles t -> make_state f32A ord d t = Throw UNDEF_ERR).
    { intros t _ (m & Em & L). unfold make_state. rewrite Em. destruct m as [|g [|g2 m]]; cbn [List.length] in L; try lia.
      unfold route, route_f. destruct (dv_class d); unfold chip_route; cbn [dest_device_ids mcast_device_ids map List.length Nat.eqb tt_assert bind]; reflexivity. }
    apply map_throws.
    - intros t Ht. assert (DEC : at_most_one_rectangle t \/ several_rectangles t).
      { unfold at_most_one_rectangle, several_rectangles. destruct (t_dst t) as [c|m]; [left; exact I|]. destruct (Nat.le_gt_cases (List.length m) 1) as [L|L]; [left; exact L|right; eauto]. }
      destruct DEC as [O|O]; [|right; apply K; assumption]. left. unfold make_state. destruct (route_made d HD (t_noc t) t (HA t Ht) O) as (r & ->). cbn [bind]. eauto.
    - apply Exists_exists in HX as (t & Ht & O). exists t. split; [exact Ht|apply K; assumption].
  Qed.
  Lemma groups_throw congestion : Forall at_most_one_rectangle (all_transfers wl) -> dv_arch d = Blackhole -> Exists (has_group_parent f32A) (all_transfers wl) -> simulate f32A ord bord d congestion cpt wl = Throw DEPENDENCY_GEN_FAILED.
  Proof.
    intros HO EA HX. apply simulate_throws. right.
    assert (C : calm (initTransferState f32A ord d wl)).
    { rewrite (init_dense f32A ord d wl (proj1 HW)). fold (all_transfers wl). pose proof HR as (_ & _ & HA & _). rewrite Forall_forall in HA, HO.
      apply calm_map. intros t Ht. unfold make_state. destruct (route_made d HD (t_noc t) t (HA t Ht) (HO t Ht)) as (r & ->). apply calm_ok. }
    destruct (init_safe ord ord_perm d HD wl HR) as [S FF]. destruct (safe_calm _ S C) as (sts & H). exists sts. split; [exact H|]. specialize (FF _ H). rewrite Forall_forall in FF.
    destruct (init_states f32A ord d wl HW _ H) as (NL & FS & NS). rewrite (genDependencies_eq f32A ord bord bord_perm d sts FS).
    assert (B : exists bs, make_buckets f32A d sts = Ok bs).
    { apply safe_calm.
      - apply (safe_fold (fun _ => True)); [|exact I]. intros bs x _ _. split; [|auto]. apply safe_bind; [|intros; exact I]. unfold bucket_key. apply safe_bind; [|intros; exact I].
        destruct (s_route x); [exact I|]. apply safe_bind; [apply safe_linkattr|intros; exact I].
      - apply calm_fold_all. intros bs x Hx. apply calm_bind; [|intros; apply calm_ok]. unfold bucket_key. apply calm_bind; [|intros; apply calm_ok].
        destruct (FF x Hx) as (_ & _ & FR). destruct (s_route x) as [|id r]; [apply calm_ok|]. inversion FR as [|? ? F1 F2]. destruct (link_attr_made d HD id F1) as (a & ->). apply calm_ok. }
    destruct B as (bs & Hbs). unfold dep_edges. rewrite Hbs. cbn [bind]. unfold group_edges.
    assert (K : forall x, In x sts -> has_group_parent f32A (s_tr x) -> group_edge f32A d sts x = Throw DEPENDENCY_GEN_FAILED).
    { intros x Hx (G1 & G2). unfold group_edge. replace (negb (t_gid (s_tr x) =? -1) && negb (t_gpar (s_tr x) =? -1)) with true by lia.
      destruct (In_nth_error _ _ Hx) as (i & Hi). destruct (NS i x Hi) as (Ht & _). pose proof (nth_error_In _ _ Ht) as Hin.
      pose proof HR as (_ & _ & _ & _ & HG & _). rewrite Forall_forall in HG. destruct (HG _ Hin) as (c & Hc); [split; assumption|]. unfold group_delay. rewrite Hc.
      destruct (latency_made d HD (c_col (t_src (s_tr x))) (c_row (t_src (s_tr x))) (c_col c) (c_row c) (noc_name (t_noc (s_tr x)))) as (l & El). rewrite El. cbn [bind]. rewrite EA. reflexivity. }
    rewrite (map_throws (group_edge f32A d sts) DEPENDENCY_GEN_FAILED sts); [reflexivity| |].
    - intros x Hx. destruct (Z.eq_dec (t_gid (s_tr x)) (-1)) as [E1|E1]; [|destruct (Z.eq_dec (t_gpar (s_tr x)) (-1)) as [E2|E2]].
      + left. unfold group_edge. rewrite E1. cbn [Z.eqb Pos.eqb negb andb]. eauto.
      + left. unfold group_edge. rewrite E2. cbn [Z.eqb Pos.eqb negb]. rewrite andb_false_r. eauto.
      + right. apply K; [exact Hx|split; assumption].
    - apply Exists_exists in HX as (t & Ht & G). destruct (In_nth_error _ _ Ht) as (i & Hi). destruct (nth_lt_some sts i) as (x & Hx); [rewrite <- (Forall2_length' _ _ _ NL); eapply nth_some_lt; exact Hi|].
      destruct (NS i x Hx) as (Ht' & _). exists x. split; [eapply nth_error_In; exact Hx|]. apply K; [eapply nth_error_In; exact Hx|]. replace (s_tr x) with t by congruence. exact G.
  Qed.
End Run.

Lemma plain_simple d (wl : workload (F f32A)) : plain d wl -> simple_workload d wl.
Proof. intros (_ & H1 & H2). split; [eapply Forall_impl; [|exact H1]; intros t; apply rectangles|]. intros E. eapply Forall_impl; [|exact (H2 E)]. intros t Ht Hg. apply Ht. exact Hg. Qed.

Theorem run_cases ord bord (cfg : config (F f32A)) d (wl : workload (F f32A)) : link_order ord -> bucket_order bord -> u32_config cfg -> npeAPI_make f32A cfg = Ok d -> usable_workload d cfg wl ->
  exists wl', preprocessWorkload f32A d cfg wl = Ok wl' /\
    let r := runNPE f32A ord bord d cfg wl in
    (rejected d wl' /\ r = Ok (Failure WORKLOAD_VALIDATION_FAILED) \/
     split_multicast d wl' /\ r = Ok (Failure UNDEF_ERR) \/
     blackhole_groups d wl' /\ r = Ok (Failure DEPENDENCY_GEN_FAILED) \/
     plain d wl' /\ ((exists stt, r = Ok (Stats stt)) \/
       r = Ok (Failure EXCEEDED_SIM_CYCLE_LIMIT) /\ runs_too_long f32A ord bord d (negb (String.eqb (cf_model cfg) "none")) (cf_cpt cfg) wl')).
Proof.
  intros HO HB [_ HC] HM HU. unfold npeAPI_make in HM. apply bind_ok in HM as (d' & HM & HM'). apply bind_ok in HM' as ([] & HV & HM'). assert (d' = d) as -> by congruence.
  apply validate_config_iff in HV. destruct HV as [HV _].
  assert (HD : supported d) by (exists (cf_device cfg); apply createDeviceModel_iff; exact HM).
  destruct (preprocess_fit cfg d wl HD HU) as (wl' & HP & F). exists wl'. split; [exact HP|]. unfold runNPE. rewrite HP. cbn [bind]. pose proof F as (D' & N' & P' & U' & _).
  destruct (validate_spec d wl' D' N') as [_ HVal]; [eapply Z.le_lt_trans; [exact P'|reflexivity]|eapply Forall_impl; [|exact U']; intros t ((R & _) & _); exact (proj1 R)|].
  destruct HVal as (b & Eb & Hb); [eapply Forall_impl; [|exact U']; intros t (_ & _ & H & _); exact H|]. rewrite Eb. cbn [bind]. cbv zeta. destruct b.
  2:{ left. split; [|reflexivity]. intros HA. apply Hb in HA. discriminate HA. }
  right. assert (HA := proj1 Hb eq_refl). assert (HR := fit_ready _ _ F HA). assert (HCP : proper_cpt (cf_cpt cfg)) by (split; assumption).
  assert (HA' : Forall (accepted (Fl := spec_float) d) (all_transfers wl')) by exact HA.
  destruct (Exists_dec (several_rectangles (Fl := spec_float)) (all_transfers wl')) as [X|NX].
  { intros t. unfold several_rectangles. destruct (t_dst t) as [c|m]; [right; intros (m & E & _); discriminate E|]. destruct (le_lt_dec 2 (List.length m)); [left; eauto|right; intros (m' & [= <-] & L); lia]. }
  { left. split; [split; [exact HA'|exact X]|]. rewrite (estimation_throws ord bord d (cf_cpt cfg) wl' UNDEF_ERR cfg); [reflexivity| |reflexivity]. intros c. apply (split_throws ord bord d HD); assumption. }
  assert (HS : Forall (fun t => ~ several_rectangles (Fl := spec_float) t) (all_transfers wl')) by (apply Forall_Exists_neg; exact NX).
  assert (HS' : Forall at_most_one_rectangle (all_transfers wl')) by (eapply Forall_impl; [|exact HS]; intros t; apply rectangles).
  right. assert (PL : plain d wl' -> plain d wl' /\ ((exists stt, match runPerfEstimation f32A ord bord d cfg wl' with Throw e => Ok (Failure e) | r => r end = Ok (Stats stt)) \/
       match runPerfEstimation f32A ord bord d cfg wl' with Throw e => Ok (Failure e) | r => r end = Ok (Failure EXCEEDED_SIM_CYCLE_LIMIT) /\ runs_too_long f32A ord bord d (negb (String.eqb (cf_model cfg) "none")) (cf_cpt cfg) wl')).
  { intros PLN. split; [exact PLN|]. destruct (estimation_plain ord HO bord HB d HD (cf_cpt cfg) wl' HCP HR cfg eq_refl (plain_simple _ _ PLN)) as [(stt & ->)|[-> (e & O)]]; [left; eauto|right].
    split; [reflexivity|]. eapply simulate_over; [exact HB|exact (proj1 HR)|exact HCP|exact O]. }
  destruct (dv_arch d) eqn:EA.
  - right. apply PL. split; [exact HA'|]. split; [exact HS|]. rewrite EA. discriminate.
  - destruct (Exists_dec (waits_for_group (Fl := spec_float)) (all_transfers wl')) as [X|NX2].
    { intros t. unfold waits_for_group. destruct (Z.eq_dec (t_gid t) (-1)); [right; tauto|]. destruct (Z.eq_dec (t_gpar t) (-1)); [right; tauto|left; auto]. }
    + left. split; [split; [exact HA'|split; [exact HS|split; [exact EA|exact X]]]|]. rewrite (estimation_throws ord bord d (cf_cpt cfg) wl' DEPENDENCY_GEN_FAILED cfg); [reflexivity| |reflexivity].
      intros c. apply (groups_throw ord HO bord HB d HD); assumption.
    + right. apply PL. split; [exact HA'|]. split; [exact HS|]. intros _. apply Forall_Exists_neg. exact NX2.
Qed.

(* the four kinds are distinct *)
Theorem kinds_distinct d (wl : workload spec_float) : ~ (rejected d wl /\ (split_multicast d wl \/ blackhole_groups d wl \/ plain d wl)) /\ ~ (split_multicast d wl /\ (blackhole_groups d wl \/ plain d wl)) /\ ~ (blackhole_groups d wl /\ plain d wl).
Proof.
  assert (S : split_multicast d wl -> ~ Forall (fun t => ~ several_rectangles t) (all_transfers wl)).
  { intros [_ X] F. apply Exists_exists in X as (t & Ht & X). rewrite Forall_forall in F. exact (F t Ht X). }
  split; [|split].
  - intros [R [[H _]|[[H _]|[H _]]]]; exact (R H).
  - intros [X [(_ & F & _)|(_ & F & _)]]; exact (S X F).
  - intros [(_ & _ & E & X) (_ & _ & F)]. specialize (F E). apply Exists_exists in X as (t & Ht & X). rewrite Forall_forall in F. exact (F t Ht X).
Qed.
