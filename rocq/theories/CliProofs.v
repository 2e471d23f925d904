(* Proofs about the command line (C79). *)
From Coq Require Import ZArith Arith Lia Lra Bool String List Reals Floats.SpecFloat ZifyBool ZifyNat.
From Verif Require Import Base Arith Util UtilProofs Json Device SpecDevice DeviceProofs FactoryProofs Workload SpecWorkload WorkloadProofs Rates Stats DepTracker Engine SpecEngine SpecRates SpecStats SpecGroups TrackerProofs DepGenProofs RunProofs
  Api SpecApi SafeProofs SafeRun CalmProofs ApiProofs Bindings BindingsProofs Ingest SpecIngest IngestProofs IngestTrace IngestFacts IngestTotal SpecTimeline Timeline SpecEmit EmitProofs EmitExact ScheduleProofs Cli SpecCli CliTrace CliFile NoGolden.
Import ListNotations.
Local Open Scope string_scope.
Local Open Scope list_scope.
Open Scope Z_scope.
Ltac Zify.zify_post_hook ::= idtac.

Lemma throw_inj {X Y} a b : @Throw X a = Throw b -> @Throw Y a = Throw b.
Proof. congruence. Qed.

Section Runs.
  Context (ord : Z -> list Z -> list Z) (bord : list bucket -> list bucket) (gord : gmap -> gmap) (zord : zone_map -> zone_map).
  Notation single := (single_run ord bord gord zord).
  Notation api := (api_run ord bord gord zord).

  (** * The result does not depend on the emission *)
  Lemma single_result e d model cpt wl r files : single e d model cpt wl = Ok (r, files) -> runSinglePerfSim f32A ord bord d model cpt wl = Ok r.
  Proof.
    unfold single_run. destruct (em_on e); [|intros H; apply bind_ok in H as (x & Hx & H); injection H as <- _; exact Hx].
    unfold runWithTimeline, runSinglePerfSim. intros H. apply bind_ok in H as (x & Hx & H). rewrite Hx. cbn [bind]. destruct x as [s|er]; [|injection H as <- _; reflexivity].
    apply bind_ok in H as (s1 & H1 & H). rewrite H1. cbn [bind]. apply bind_ok in H as (s2 & H2 & H). rewrite H2. cbn [bind]. apply bind_ok in H as (fs & _ & H). injection H as <- _. reflexivity.
  Qed.
  Lemma single_throw e d model cpt wl er : runSinglePerfSim f32A ord bord d model cpt wl = Throw er -> single e d model cpt wl = Throw er.
  Proof.
    unfold single_run. intros H. destruct (em_on e); [|rewrite H; reflexivity]. unfold runWithTimeline. unfold runSinglePerfSim in H. destruct (simulate _ _ _ _ _ _ _) as [x|?| | | | |]; cbn [bind] in *; try discriminate H; [|exact (throw_inj _ _ H)].
    destruct x as [s|?]; [|discriminate]. destruct (finishSimulation _ _ _ _) as [s1|?| | | | |]; cbn [bind] in *; try discriminate H; [|exact (throw_inj _ _ H)].
    destruct (computeSummaryStats _ _ _ _) as [s2|?| | | | |]; cbn [bind] in *; try discriminate H. exact (throw_inj _ _ H).
  Qed.

  Lemma estimate_result e d cfg wl r files : estimate_run ord bord gord zord e d cfg wl = Ok (r, files) -> runPerfEstimation f32A ord bord d cfg wl = Ok r.
  Proof.
    unfold estimate_run, runPerfEstimation. destruct (cf_impact cfg); [|apply single_result]. intros H. apply bind_ok in H as ([x fs] & Hx & H). rewrite (single_result _ _ _ _ _ _ _ Hx). cbn [bind fst snd] in *.
    destruct x as [stt|er]; [|injection H as <- _; reflexivity]. apply bind_ok in H as (r0 & H0 & H). rewrite H0. cbn [bind]. destruct r0; injection H as <- _; reflexivity.
  Qed.
  Lemma estimate_throw e d cfg wl er : runPerfEstimation f32A ord bord d cfg wl = Throw er -> (forall model, safe (single e d model (cf_cpt cfg) wl)) -> exists er', estimate_run ord bord gord zord e d cfg wl = Throw er'.
  Proof.
    unfold estimate_run, runPerfEstimation. intros H HS. specialize (HS (cf_model cfg)). destruct (cf_impact cfg); [|exists er; apply single_throw; exact H].
    destruct (runSinglePerfSim f32A ord bord d (cf_model cfg) (cf_cpt cfg) wl) as [x|?| | | | |] eqn:E1; cbn [bind] in H; try discriminate H; [|rewrite (single_throw _ _ _ _ _ _ E1); eexists; reflexivity].
    destruct x as [stt|?]; [|discriminate]. destruct (single e d (cf_model cfg) (cf_cpt cfg) wl) as [[r fs]|er'| | | | |] eqn:E2; try contradiction; [|eexists; reflexivity].
    pose proof (single_result _ _ _ _ _ _ _ E2) as E3. rewrite E1 in E3. injection E3 as <-. cbn [bind fst snd].
    destruct (runSinglePerfSim f32A ord bord d "none" (cf_cpt cfg) wl) as [[]|?| | | | |]; cbn [bind] in *; try discriminate H. eexists; reflexivity.
  Qed.
  Lemma throw_safe {X} (m : outcome X) : (exists x, m = Ok x) \/ (exists e, m = Throw e) -> safe m.
  Proof. intros [[x ->]|[e ->]]; exact I. Qed.
  Lemma safe_cases {X} (m : outcome X) : safe m -> (exists x, m = Ok x) \/ (exists e, m = Throw e).
  Proof. destruct m; try contradiction; eauto. Qed.
  Context (HO : link_order ord) (HB : bucket_order bord) (HG : map_order gord) (HZ : map_order zord).

  (** * Runs of usable workloads end *)
  Definition writable (e : emission) (d : device) (wl : workload spec_float) : Prop :=
    em_on e = true -> em_legacy e = true \/ (apart_zones wl /\ topology_read d (em_topo e) /\ (chips_known d (em_topo e) -> matched_zones wl)).
  Lemma single_ends e d cpt (wl : workload (F f32A)) model : supported d -> proper_cpt cpt -> ready_workload d wl -> registered wl -> wl_groups wl + Z.of_nat (List.length (all_transfers wl)) < 2 ^ 31 -> window_from wl ->
    0 < em_thr e -> writable e d wl -> safe (single e d model cpt wl).
  Proof.
    intros HD HC HR HRG HN HWin HT HW. apply throw_safe. unfold single_run. pose proof (single_safe ord HO bord HB d HD cpt wl HC HR model) as S. destruct (em_on e) eqn:EM.
    - apply safe_cases in S. destruct S as [([stt|er] & E)|(er & E)].
      + left. destruct (em_legacy e) eqn:EL.
        * destruct (run_emits_legacy f32A ord HO bord HB gord zord d HD cpt wl (proj1 HR) HC model (proj1 (proj2 (proj2 HR))) (em_topo e) (em_thr e) stt E) as (doc & E2). rewrite E2. eauto.
        * destruct (HW EM) as [W|[W1 W2]]; [congruence|]. destruct (proj2 (proj1 (run_exact f32A ord HO bord HB gord HG zord HZ d HD cpt wl (proj1 HR) HC model (proj1 (proj2 (proj2 HR))) (em_topo e) (em_thr e) stt HWin HRG HN W1 HT E)) W2) as (fs & E2). rewrite E2. eauto.
      + left. rewrite (run_no_files f32A ord bord gord zord (em_topo e) (em_legacy e) (em_thr e) d model cpt wl er E). eauto.
      + right. exists er. pose proof (single_throw e d model cpt wl er E) as E2. unfold single_run in E2. rewrite EM in E2. exact E2.
    - apply safe_cases in S. destruct S as [(x & E)|(er & E)]; rewrite E; cbn [bind]; eauto.
  Qed.
  Definition like (wl wl' : workload (F f32A)) : Prop :=
    wl_zones wl' = wl_zones wl /\ wl_groups wl' = wl_groups wl /\ wl_golden wl' = wl_golden wl /\ List.length (all_transfers wl') = List.length (all_transfers wl) /\ (registered wl -> registered wl').
  Lemma scale_like s wl wl' : scaleWorkloadSchedule f32A s wl = Ok wl' -> like wl wl'.
  Proof.
    intros H. pose proof (scale_transfers f32A s wl wl' H) as HT. unfold scaleWorkloadSchedule in H. apply bind_ok in H as (ps & _ & H). injection H as <-. split; [reflexivity|]. split; [reflexivity|]. split; [reflexivity|]. split; [symmetry; exact (Forall2_length' _ _ _ HT)|].
    intros RG t Ht. destruct (In_nth_error _ _ Ht) as (i & Hi). destruct (nth_lt_some (all_transfers wl) i) as (a & Ha); [rewrite (Forall2_length' _ _ _ HT); exact (nth_some_lt _ _ _ Hi)|].
    destruct (Forall2_nth _ _ _ HT _ _ _ Ha Hi) as [SB _]. pose proof (RG a (nth_error_In _ _ Ha)) as RA. unfold same_but_offset in SB.
    intros [G1 G2]. assert (EG : t_gid t = t_gid a /\ t_gix t = t_gix a) by tauto. destruct EG as [E1 E2]. assert (L : t_gid a < wl_groups wl) by (apply RA; split; congruence). exact (eq_ind_r (fun x => x < wl_groups wl) L E1).
  Qed.
  Lemma like_trans a b c : like a b -> like b c -> like a c.
  Proof. intros (A1 & A2 & A3 & A4 & A5) (B1 & B2 & B3 & B4 & B5). repeat split; try congruence. auto. Qed.
  Lemma preprocess_plain d (cfg : config (F f32A)) (wl wl' : workload (F f32A)) : cf_remove_local cfg = false -> preprocessWorkload f32A d cfg wl = Ok wl' -> like wl wl'.
  Proof.
    unfold preprocessWorkload. intros -> H. apply bind_ok in H as (w & Hw & H). apply bind_ok in H as (w2 & Hw2 & H). injection H as ->.
    assert (L2 : like w wl') by (destruct (scale_set f32A (cf_scale cfg)); [exact (scale_like _ _ _ Hw2)|injection Hw2 as ->; unfold like; auto 10]).
    refine (like_trans _ _ _ _ L2). clear L2 Hw2 wl'. revert w Hw. intros wl' Hw. unfold like. destruct (cf_infer cfg).
    - pose proof Hw as HF. apply infer_phases in HF as [FR HF]. assert (HT : Forall2 (fun a b : transfer (F f32A) => same_but_rate a b) (all_transfers wl) (all_transfers wl')).
      { unfold all_transfers. eapply Forall2_flat_map; [exact HF|]. cbn beta. intros p q [_ Q]. eapply Forall2_imp; [exact Q|]. cbn beta. tauto. }
      unfold inferInjectionRates in Hw. apply bind_ok in Hw as (ps & _ & Hw). injection Hw as <-. split; [reflexivity|]. split; [reflexivity|]. split; [reflexivity|]. split; [symmetry; exact (Forall2_length' _ _ _ HT)|].
      intros RG t Ht. destruct (In_nth_error _ _ Ht) as (i & Hi). destruct (nth_lt_some (all_transfers wl) i) as (a & Ha); [rewrite (Forall2_length' _ _ _ HT); exact (nth_some_lt _ _ _ Hi)|].
      pose proof (Forall2_nth _ _ _ HT _ _ _ Ha Hi) as SB. pose proof (RG a (nth_error_In _ _ Ha)) as RA. destruct SB as (_ & _ & _ & _ & _ & _ & _ & _ & _ & E1 & E2 & _).
      intros [G1 G2]. assert (L : t_gid a < wl_groups wl) by (apply RA; split; congruence). exact (eq_ind_r (fun x => x < wl_groups wl) L E1).
    - injection Hw as ->. auto 10.
  Qed.

  Theorem api_ends e d (cfg : config (F f32A)) (wl : workload (F f32A)) : supported d -> good_config cfg -> cf_cpt cfg < 2 ^ 32 -> cf_remove_local cfg = false ->
    usable_workload d cfg wl -> registered wl -> wl_groups wl + Z.of_nat (List.length (all_transfers wl)) < 2 ^ 31 -> window_from wl -> 0 < em_thr e -> writable e d wl -> exists r, api e d cfg wl = Ok r.
  Proof.
    intros HD [HC _] HC2 HRL HU HRG HN HWin HT HW. destruct (preprocess_fit cfg d wl HD HU) as (wl' & HP & F). unfold api_run. rewrite HP. cbn [bind]. pose proof F as (D' & N' & P' & U' & _).
    destruct (preprocess_plain d cfg wl wl' HRL HP) as (EZ & EG & EW & EL & ER).
    destruct (validate_spec d wl' D' N') as [_ HVal]; [eapply Z.le_lt_trans; [exact P'|reflexivity]|eapply Forall_impl; [|exact U']; intros t ((R & _) & _); exact (proj1 R)|].
    destruct HVal as (b & Eb & Hb); [eapply Forall_impl; [|exact U']; intros t (_ & _ & H & _); exact H|]. rewrite Eb. cbn [bind]. destruct b; [|eauto].
    pose proof (fit_ready _ _ F (proj1 Hb eq_refl)) as RW. assert (PC : proper_cpt (cf_cpt cfg)) by (split; lia).
    assert (SS : forall model, safe (single e d model (cf_cpt cfg) wl')).
    { intros model. apply single_ends; try assumption; [exact (ER HRG)|rewrite EG, EL; exact HN|intros g Hg; apply HWin; unfold getGoldenResultCycles in *; rewrite <- EW; exact Hg|].
      intros EM. destruct (HW EM) as [W|[W1 [W2 W3]]]; [left; exact W|right; split; [|split; [exact W2|]]].
      - intros k zs f Hk. apply (W1 k zs f). exact (eq_ind (wl_zones wl') (fun z => In (k, zs) z) Hk _ EZ).
      - intros K k zs Hk. apply (W3 K k zs). exact (eq_ind (wl_zones wl') (fun z => In (k, zs) z) Hk _ EZ). }
    assert (SE : safe (estimate_run ord bord gord zord e d cfg wl')).
    { unfold estimate_run. destruct (cf_impact cfg); [|apply SS]. apply safe_bind; [apply SS|]. intros [[stt|er] fs] _; [|exact I]. cbn [fst snd]. apply safe_bind; [exact (single_safe ord HO bord HB d HD _ wl' PC RW "none")|]. intros [|] _; exact I. }
    destruct (estimate_run ord bord gord zord e d cfg wl'); try contradiction; eauto.
  Qed.
End Runs.
Lemma api_result ord bord gord zord e d cfg wl r files : api_run ord bord gord zord e d cfg wl = Ok (r, files) -> runNPE f32A ord bord d cfg wl = Ok r \/ exists er, r = Failure er.
Proof.
  unfold api_run, runNPE. intros H. apply bind_ok in H as (w & -> & H). apply bind_ok in H as (b & Hb & H). cbn [bind]. rewrite Hb. cbn [bind]. destruct b; [|injection H as <- _; right; eauto].
  destruct (estimate_run ord bord gord zord e d cfg w) as [[r' fs]|er| | | | |] eqn:E; try discriminate; [|injection H as <- _; right; eauto]. injection H as -> _. rewrite (estimate_result ord bord gord zord e d cfg w _ _ E). left. reflexivity.
Qed.
Lemma api_quiet ord bord gord zord e d cfg wl : em_on e = false -> api_run ord bord gord zord e d cfg wl = let! r := runNPE f32A ord bord d cfg wl in Ok (r, []).
Proof.
  intros EM. unfold api_run, runNPE. destruct (preprocessWorkload f32A d cfg wl) as [w|?| | | | |]; cbn [bind]; try reflexivity. destruct (validate d w) as [[]|?| | | | |]; cbn [bind]; try reflexivity.
  unfold estimate_run, single_run, runPerfEstimation. rewrite EM. destruct (cf_impact cfg).
  - destruct (runSinglePerfSim f32A ord bord d (cf_model cfg) (cf_cpt cfg) w) as [[]|?| | | | |]; cbn [bind fst snd]; try reflexivity. destruct (runSinglePerfSim f32A ord bord d "none" (cf_cpt cfg) w) as [[]|?| | | | |]; reflexivity.
  - destruct (runSinglePerfSim f32A ord bord d (cf_model cfg) (cf_cpt cfg) w) as [[]|?| | | | |]; reflexivity.
Qed.

(** * The program *)
Lemma mem_iff l s : mem_choice l s = true <-> In s l.
Proof.
  unfold mem_choice. induction l as [|a l IH]; cbn [existsb In]; [intuition discriminate|]. rewrite orb_true_iff, IH. destruct (String.eqb_spec s a); intuition congruence.
Qed.
Lemma chosen_iff o : chosen o <-> mem_choice device_choices (op_device o) = true /\ mem_choice model_choices (op_model o) = true.
Proof. rewrite !mem_iff. unfold chosen, device_choices, model_choices. cbn [In]. intuition. Qed.
Lemma chosen_device o : chosen o -> exists d, createDeviceModel (op_device o) = Ok d.
Proof. intros [H _]. cbn [In] in H. decompose [or] H; try contradiction; (match goal with E : _ = op_device o |- _ => rewrite <- E end); eexists; reflexivity. Qed.
Section Main.
  Context (ord : Z -> list Z -> list Z) (bord : list bucket -> list bucket) (gord : gmap -> gmap) (zord : zone_map -> zone_map).
  Context (file_at : string -> file) (topology_at : string -> topology) (accept : bool) (o : options).
  Notation program := (main ord bord gord zord file_at topology_at accept o).
  Notation made := (createWorkloadFromJSON (op_workload o) (op_device o) (op_trace o) accept (file_at (op_workload o))).
  Notation cfg := (config_of o (op_cpt o) (f_of_d f32A (op_scale o))).
  Notation em := (emission_of o (topology_at (op_topology o))).

  Lemma main_chosen : chosen o -> u32_steps o -> program =
    if String.eqb (op_workload o) "" then Ok (Exits 1, None, []) else
    let! wl := made in
    match wl with
    | None => Ok (Exits 1, None, [])
    | Some wl => let! api := InitAPI f32A cfg in
        match api with
        | None => Ok (Exits 1, None, [])
        | Some d => let! r := api_run ord bord gord zord em d cfg wl in Ok (ended (fst r), Some (fst r), snd r)
        end
    end.
  Proof.
    intros HC HU. apply chosen_iff in HC as [C1 C2]. unfold main. rewrite C1, C2. cbn [negb orb]. unfold cast_uint32, py_arg. rewrite (cast_ok f32A 0 (2 ^ 32) (op_cpt o)) by exact HU. cbn [bind cast_float cast_double].
    destruct (String.eqb (op_workload o) ""); [reflexivity|]. destruct made as [[wl|]| | | | | |]; try reflexivity.
  Qed.
  Lemma main_steps st r fs : chosen o -> program = Ok (st, r, fs) -> u32_steps o.
  Proof.
    intros HC. apply chosen_iff in HC as [C1 C2]. unfold main. rewrite C1, C2. cbn [negb orb]. intros H. apply bind_ok in H as (c & Hc & _). unfold py_arg, cast_uint32 in Hc. destruct (cast_int f32A 0 (2 ^ 32) (PyInt f32A (op_cpt o))) eqn:E; try discriminate. apply cast_res in E. exact (proj2 E).
  Qed.
  Lemma init_chosen d : chosen o -> u32_steps o -> createDeviceModel (op_device o) = Ok d -> InitAPI f32A cfg = Ok (if op_cpt o =? 0 then None else Some d).
  Proof.
    intros HC [H0 _] HD. unfold InitAPI, npeAPI_make. cbn [config_of cf_device]. rewrite HD. cbn [bind]. unfold validateConfig. cbn [config_of cf_cpt cf_model]. destruct HC as [_ HM].
    assert (EM : negb (String.eqb (op_model o) "none") && negb (String.eqb (op_model o) "fast") = false) by (destruct HM as [->| ->]; reflexivity). rewrite EM. destruct (Z.leb_spec (op_cpt o) 0); [replace (op_cpt o =? 0) with true by lia; reflexivity|]. replace (op_cpt o =? 0) with false by lia. reflexivity.
  Qed.

  Theorem main_status st r fs : program = Ok (st, r, fs) ->
    (st = Exits 2 /\ ~ chosen o /\ r = None /\ fs = []) \/
    (st = Exits 1 /\ chosen o /\ r = None /\ fs = [] /\ (op_workload o = "" \/ made = Ok None \/ op_cpt o = 0)) \/
    (chosen o /\ exists wl d x, made = Ok (Some wl) /\ In (op_device o, d) documented_devices /\ r = Some x /\ st = ended x /\ (runNPE f32A ord bord d cfg wl = Ok x \/ (op_emit o = true /\ exists e, x = Failure e))).
  Proof.
    intros H. assert (D : chosen o \/ ~ chosen o) by (rewrite chosen_iff; destruct (mem_choice device_choices _), (mem_choice model_choices _); intuition discriminate). destruct D as [HC|HC].
    - right. pose proof (main_steps _ _ _ HC H) as HU. rewrite (main_chosen HC HU) in H. destruct (String.eqb_spec (op_workload o) ""); [injection H as <- <- <-; left; auto 10|].
      apply bind_ok in H as (w & Hw & H). destruct w as [wl|]; [|injection H as <- <- <-; left; auto 10]. destruct (chosen_device o HC) as (d & HD). rewrite (init_chosen d HC HU HD) in H. cbn [bind] in H. destruct (Z.eqb_spec (op_cpt o) 0); [injection H as <- <- <-; left; auto 10|].
      right. apply bind_ok in H as ([x xs] & Hx & H). injection H as <- <- <-. split; [exact HC|]. exists wl, d, x. split; [exact Hw|]. split; [apply createDeviceModel_iff; exact HD|]. split; [reflexivity|]. split; [reflexivity|]. destruct (op_emit o) eqn:EE; [destruct (api_result _ _ _ _ _ _ _ _ _ _ Hx); auto|]. left. rewrite api_quiet in Hx by exact EE. apply bind_ok in Hx as (y & Hy & Hx). injection Hx as <- _. exact Hy.
    - left. assert (N : mem_choice device_choices (op_device o) = false \/ mem_choice model_choices (op_model o) = false) by (rewrite chosen_iff in HC; destruct (mem_choice device_choices _), (mem_choice model_choices _); intuition).
      assert (E : program = Ok (Exits 2, None, [])) by (unfold main; destruct N as [N|N]; rewrite N; [reflexivity|rewrite orb_true_r; reflexivity]). rewrite E in H. injection H as <- <- <-. auto.
  Qed.
  (* without a timeline the result is that of runNPE *)
  Theorem main_quiet wl d : chosen o -> u32_steps o -> op_workload o <> "" -> op_cpt o <> 0 -> op_emit o = false -> made = Ok (Some wl) -> In (op_device o, d) documented_devices ->
    program = let! r := runNPE f32A ord bord d cfg wl in Ok (ended r, Some r, []).
  Proof.
    intros HC HU HW H0 HE HM HD. rewrite (main_chosen HC HU). destruct (String.eqb_spec (op_workload o) ""); [contradiction|]. rewrite HM. cbn [bind]. rewrite (init_chosen d HC HU) by (apply createDeviceModel_iff; exact HD). replace (op_cpt o =? 0) with false by lia. cbn [bind].
    rewrite api_quiet by exact HE. destruct (runNPE _ _ _ _ _ _); reflexivity.
  Qed.

  Context (HO : link_order ord) (HB : bucket_order bord) (HG : map_order gord) (HZ : map_order zord).
  Lemma main_ends wl d : chosen o -> u32_steps o -> op_workload o <> "" -> made = Ok (Some wl) -> createDeviceModel (op_device o) = Ok d ->
    usable_workload d cfg wl -> registered wl -> wl_groups wl + Z.of_nat (List.length (all_transfers wl)) < 2 ^ 31 -> window_from wl -> emittable o d (topology_at (op_topology o)) wl ->
    exists st r fs, program = Ok (st, r, fs) /\ (op_cpt o <> 0 -> r <> None).
  Proof.
    intros HC HU HW HM HD U RG HN HWin HEm. rewrite (main_chosen HC HU). destruct (String.eqb_spec (op_workload o) ""); [contradiction|]. rewrite HM. cbn [bind]. rewrite (init_chosen d HC HU HD). destruct (Z.eqb_spec (op_cpt o) 0) as [E|E]; cbn [bind]; [do 3 eexists; split; [reflexivity|]; intros C; contradiction|].
    destruct (api_ends ord bord gord zord HO HB HG HZ em d cfg wl) as ([r fs] & ->); try assumption.
    - exists (op_device o). apply createDeviceModel_iff. exact HD.
    - split; [cbn; destruct HU; lia|]. exact (proj2 HC).
    - exact (proj2 HU).
    - reflexivity.
    - reflexivity.
    - cbn [bind fst snd]. do 3 eexists. split; [reflexivity|]. discriminate.
  Qed.
  Theorem main_trace evs d : chosen o -> u32_steps o -> op_workload o <> "" -> op_trace o = true -> file_at (op_workload o) = Parsed (JArray evs) -> In (op_device o, d) documented_devices ->
    clean d evs -> (op_no_infer o = false -> sources_on d evs) -> (forall wl, made = Ok (Some wl) -> fitting_scale o wl /\ emittable o d (topology_at (op_topology o)) wl) ->
    exists st r fs, program = Ok (st, r, fs) /\ ((st = Exits 1 /\ r = None) \/ exists x, r = Some x /\ st = ended x).
  Proof.
    intros HC HU HW HT HF HD HCl HSrc HEm. apply createDeviceModel_iff in HD. destruct (clean_name (op_workload o) (op_device o) d accept evs HD HCl) as (w & Hw). rewrite <- HF, <- HT in Hw. destruct w as [wl|].
    - assert (HCv : convert_trace d (op_workload o) (JArray evs) = Ok (Some wl)).
      { rewrite HF, HT in Hw. unfold createWorkloadFromJSON in Hw. unfold convertNocTracesToNpeWorkload in Hw. rewrite HD in Hw. cbn [bind] in Hw. destruct (convert_trace d (op_workload o) (JArray evs)); try discriminate. injection Hw as ->. reflexivity. }
      destruct (trace_usable (op_workload o) d evs wl cfg) as (U1 & U2 & U3 & U4); try assumption; [exists (op_device o); apply createDeviceModel_iff; exact HD|cbn [config_of cf_infer]; intros E; apply HSrc; destruct (op_no_infer o); [discriminate|reflexivity]|exact (proj1 (HEm wl Hw))|].
      destruct (main_ends wl d HC HU HW Hw HD U1 U2 U3 U4 (proj2 (HEm wl Hw))) as (st & r & fs & E & I). exists st, r, fs. split; [exact E|]. destruct (main_status _ _ _ E) as [(-> & N & _)|[(-> & _ & -> & _)|(_ & wl' & d' & x & _ & _ & -> & -> & _)]]; [contradiction|left; auto|right; eauto].
    - exists (Exits 1), None, []. split; [|left; auto]. rewrite (main_chosen HC HU). destruct (String.eqb_spec (op_workload o) ""); [contradiction|]. rewrite Hw. reflexivity.
  Qed.
  Theorem main_file j ps ess d : chosen o -> u32_steps o -> op_workload o <> "" -> op_cpt o <> 0 -> op_trace o = false -> accept = true -> file_at (op_workload o) = Parsed j -> In (op_device o, d) documented_devices -> dv_chips d = 1%nat ->
    workload_file j ps -> golden_cycles j -> Forall2 (fun p es => holds p "transfers" (JArray es) /\ Forall (entry_on d (negb (op_no_infer o))) es) ps ess -> Z.of_nat (List.length (concat ess)) < 2 ^ 31 -> Z.of_nat (List.length ps) <= 2 ^ 31 ->
    (forall wl, made = Ok (Some wl) -> fitting_scale o wl) ->
    exists r fs, program = Ok (ended r, Some r, fs).
  Proof.
    intros HC HU HW H0 HT HA HF HD HCh [(fl & HJ) HP] HGo HE HN HNp HFit. assert (HSu : supported d) by (exists (op_device o); exact HD). apply createDeviceModel_iff in HD.
    destruct (file_accepted (op_workload o) j fl ps ess HJ HP) as (wl & HL); [right; exact HGo|eapply Forall2_imp; [exact HE|]; cbn beta; intros p es [E1 E2]; split; [exact E1|eapply Forall_impl; [|exact E2]; intros e [R _]; exact R]|exact HN|].
    assert (HM : made = Ok (Some wl)) by (rewrite HT, HA, HF; unfold createWorkloadFromJSON; rewrite HL; reflexivity).
    destruct (file_usable (op_workload o) d true j ps ess wl cfg HSu HCh HL HP HGo HE HN HNp) as (U1 & U2 & U3 & U4 & U5); [exact (HFit wl HM)|].
    destruct (main_ends wl d HC HU HW HM HD U1 U2 U3 U4) as (st & r & fs & E & I); [intros _; right; split; [intros k zs f Hk; rewrite U5 in Hk; destruct Hk|split; [left; rewrite HCh; apply le_n|intros _ k zs Hk; rewrite U5 in Hk; destruct Hk]]|]. specialize (I H0). destruct (main_status _ _ _ E) as [(_ & _ & -> & _)|[(_ & _ & -> & _)|(_ & _ & _ & x & _ & _ & -> & -> & _)]]; try contradiction. eauto.
  Qed.
  (* the workload files of devices with several chips have golden cycles of chip 0 only *)
  Theorem main_chips wl d st r fs : In (op_device o, d) documented_devices -> (1 < dv_chips d)%nat -> op_trace o = false -> loadJSONWorkloadFormat (op_workload o) accept (file_at (op_workload o)) = Ok (Some wl) ->
    program = Ok (st, Some r, fs) -> exists e, r = Failure e.
  Proof.
    intros HD HCh HT HL H. destruct (main_status _ _ _ H) as [(_ & _ & E & _)|[(_ & _ & E & _)|(_ & wl' & d' & x & HM & HD' & E & _ & HR)]]; try discriminate. injection E as <-. destruct HR as [HR|[_ HR]]; [|exact HR].
    apply createDeviceModel_iff in HD, HD'. assert (d' = d) by congruence. subst d'. rewrite HT in HM. unfold createWorkloadFromJSON in HM. rewrite HL in HM. cbn [bind] in HM. injection HM as <-.
    destruct r as [stt|e]; [|eauto]. exfalso. assert (HS : has_stats d 1).
    { left. unfold dv_device_ids. apply in_map_iff. exists 1%nat. split; [reflexivity|]. apply in_seq. lia. }
    refine (missing_never f32A ord bord d cfg wl 1 HS _ (or_introl eq_refl) stt HR). intros w Hw. destruct (file_golden _ _ _ _ HL) as [G _]. assert (N1 : 1 <> 0) by lia. assert (N2 : 1 <> MESH_DEVICE) by discriminate. discriminate (eq_trans (eq_sym (G 1 N1 N2)) Hw).
  Qed.
End Main.
