(* runNPE returns a result object for every usable workload in binary32; what the configuration check rejects (C22). *)
From Coq Require Import ZArith Arith Reals String List Bool Lia Lra ZifyBool ZifyNat Floats.SpecFloat.
From Verif Require Import Base Arith Util Device SpecDevice Workload SpecWorkload DepTracker Rates Stats Engine Api UtilProofs DeviceProofs RouteProofs MulticastProofs FactoryProofs
  WorkloadProofs ScheduleProofs SpecTracker TrackerProofs DepGenProofs StepProofs SpecEngine SpecRates SpecStats SpecApi EngineProofs RunProofs EngineFacts EngineFacts2 EngineFacts3 FloatProofs IngestTotal SafeProofs SafeFloat SafeRun.
Import ListNotations.
Local Open Scope string_scope.
Local Open Scope list_scope.
Open Scope Z_scope.
Ltac Zify.zify_post_hook ::= idtac.

(** * Configuration *)
Lemma validate_config_iff (A : arith) (cfg : config (F A)) :
  (validateConfig A cfg = Ok tt <-> good_config cfg) /\ (validateConfig A cfg = Throw INVALID_CONFIG <-> ~ good_config cfg).
Proof.
  unfold validateConfig, good_config. destruct (Z.leb_spec (cf_cpt cfg) 0).
  - split; split; try discriminate; try lia; auto.
  - destruct (String.eqb_spec (cf_model cfg) "none") as [E|E]; [cbn [negb andb]; split; split; try discriminate; auto; intros H1; [split; [lia|auto]|exfalso; apply H1; split; [lia|auto]]|].
    destruct (String.eqb_spec (cf_model cfg) "fast") as [E'|E']; cbn [negb andb]; split; split; try discriminate; auto; intros H1; try (split; [lia|auto]); try (exfalso; apply H1; split; [lia|auto]); intuition.
Qed.

(** * Summary *)
Section Sum.
  Context (A : arith) (d : device) (HD : supported d).
  Lemma accepted_src (t : transfer (F A)) : accepted d t -> exists ty, getCoreType d (t_src t) = Ok ty.
  Proof. intros HA. apply (core_ok d HD). destruct HA as (_ & _ & HA & _). split; apply HA. Qed.
  Lemma accepted_dst (t : transfer (F A)) c : accepted d t -> t_dst t = Unicast c -> exists ty, getCoreType d c = Ok ty.
  Proof. intros HA E. apply (core_ok d HD). destruct HA as (_ & _ & _ & HA). rewrite E in HA. split; apply HA. Qed.
  Lemma dram_safe id ts : Forall (accepted d) ts -> safe (dram_bytes A d id ts).
  Proof.
    intros HF. unfold dram_bytes. apply (safe_fold (fun _ => True)); [|trivial]. intros acc t _ Ht. split; [|trivial].
    rewrite Forall_forall in HF. specialize (HF t Ht). destruct (counts_for A id t); [|exact I]. destruct (accepted_src t HF) as [ty E]. rewrite E. cbn [bind].
    destruct ty; try exact I; (destruct (t_dst t) as [c|] eqn:ED; [|exact I]; destruct (accepted_dst t c HF ED) as [ty' E']; rewrite E'; cbn [bind]; destruct ty'; exact I).
  Qed.
  Lemma eth_safe id ts : Forall (accepted d) ts -> safe (eth_bytes A d id ts).
  Proof.
    intros HF. unfold eth_bytes. apply (safe_fold (fun _ => True)); [|trivial]. intros acc t _ Ht. split; [|trivial].
    rewrite Forall_forall in HF. specialize (HF t Ht). destruct (counts_for A id t); [|exact I].
    destruct (t_dst t) as [c|] eqn:ED; [|exact I]. destruct (accepted_dst t c HF ED) as [ty' E']. rewrite E'. cbn [bind]. destruct ty'; exact I.
  Qed.
  Lemma summary_safe wl stt : Forall (accepted d) (all_transfers wl) -> safe (computeSummaryStats A d wl stt).
  Proof.
    intros HF. unfold computeSummaryStats, stats_map. apply safe_map. intros [k ds] _. cbn [fst snd]. apply safe_bind; [|intros; exact I].
    unfold summary_device. cbn zeta. apply safe_bind; [apply dram_safe; exact HF|]. intros rw _. apply safe_bind; [apply eth_safe; exact HF|]. intros; exact I.
  Qed.
End Sum.

(** * The engine *)
Section Run.
  Context (ord : Z -> list Z -> list Z) (ord_perm : link_order ord) (bord : list bucket -> list bucket) (bord_perm : bucket_order bord).
  Context (d : device) (HD : supported d) (cpt : Z) (wl : workload (F f32A)) (HC : proper_cpt cpt) (HR : ready_workload d wl).
  Lemma end_keys congestion s : step_end f32A ord bord d congestion cpt wl s -> keyed f32A wl (sm_stats f32A s).
  Proof.
    intros (s0 & HRe & HT). pose proof (proj1 HR) as HW. pose proof (reach_keys ord ord_perm bord bord_perm d HD congestion cpt wl HC HR _ HRe) as IH.
    destruct (reach_setup f32A ord bord bord_perm d congestion cpt wl HW s0 HRe) as (sts0 & E & HS).
    destruct (step_inv f32A ord bord bord_perm d congestion cpt wl HW HC _ _ _ _ HS HRe HT) as (fin & act & sts1 & sts2 & stt & I & SR & I').
    destruct (sr_stats0 _ _ _ _ _ _ _ _ _ _ _ SR) as (stt1 & Hins & ->).
    refine (note_all_keys d wl HR _ _ _ _ _ (sr_stats _ _ _ _ _ _ _ _ _ _ _ SR) _).
    - intros i x Hx. eapply static_fine; [exact ord_perm|exact HD|exact HR|exact HS|apply (inv_static _ _ _ _ _ _ I')|exact Hx].
    - apply update_keys. eapply map_keys; [exact Hins|exact IH].
  Qed.
  Lemma single_safe model : safe (runSinglePerfSim f32A ord bord d model cpt wl).
  Proof.
    unfold runSinglePerfSim. apply safe_bind; [exact (simulate_safe ord ord_perm bord bord_perm d HD _ cpt wl HC HR)|].
    intros [s|e] ES; [|exact I]. apply succeeds_end in ES. destruct ES as [ES _]. apply end_keys in ES.
    apply safe_bind; [apply finish_safe; [destruct HC; lia|exact ES]|]. intros stt _. apply safe_bind; [|intros; exact I].
    apply summary_safe; [exact HD|]. apply HR.
  Qed.
  Lemma estimation_safe cfg : cf_cpt cfg = cpt -> safe (runPerfEstimation f32A ord bord d cfg wl).
  Proof.
    intros E. unfold runPerfEstimation. rewrite E. destruct (cf_impact cfg); [|apply single_safe].
    apply safe_bind; [apply single_safe|]. intros [stt|e] _; [|exact I]. apply safe_bind; [apply single_safe|]. intros [|] _; exact I.
  Qed.
End Run.

(** * Preprocessing *)
(* a workload with the identifiers addPhase gives, fit for validation *)
Definition fit (d : device) (infer : bool) (wl : workload spec_float) : Prop :=
  dense wl /\ wl_next wl < 2 ^ 31 /\ Z.of_nat (List.length (wl_phases wl)) <= 2 ^ 31 /\
  Forall (usable_transfer d infer) (all_transfers wl) /\
  forall id, has_stats d id -> golden f32A wl id.

Lemma Forall2_map_eq {X Y Z} (f : X -> Z) (g : Y -> Z) l l' : Forall2 (fun a b => g b = f a) l l' -> map g l' = map f l.
Proof. induction 1; cbn [map]; congruence. Qed.
Lemma dense_same {Fl} (wl wl' : workload Fl) : same_frame wl wl' ->
  Forall2 (fun p q => ph_id q = ph_id p /\ Forall2 (fun a b => t_id b = t_id a) (ph_trs p) (ph_trs q)) (wl_phases wl) (wl_phases wl') ->
  dense wl -> dense wl' /\ wl_next wl' = wl_next wl /\ List.length (wl_phases wl') = List.length (wl_phases wl).
Proof.
  intros (_ & EN & _) HF (D1 & D2 & D3).
  assert (E1 : map ph_id (wl_phases wl') = map ph_id (wl_phases wl)) by (apply Forall2_map_eq; eapply Forall2_imp; [exact HF|]; cbn beta; tauto).
  assert (E2 : map t_id (all_transfers wl') = map t_id (all_transfers wl)).
  { apply Forall2_map_eq. unfold all_transfers. eapply Forall2_flat_map; [exact HF|]. cbn beta. tauto. }
  pose proof (f_equal (@List.length Z) E1) as L1. pose proof (f_equal (@List.length Z) E2) as L2. rewrite !map_length in L1, L2.
  unfold dense. rewrite E1, E2, EN, L1, L2. auto.
Qed.
Lemma inj_number d ty : supported d -> number (inj_rate f32A d ty).
Proof.
  intros H. apply supported_cases in H. destruct H as [->|[[n [Hn ->]]|[->| ->]]]; destruct ty; (split; [vm_compute; reflexivity|right; do 2 eexists; vm_compute; reflexivity]).
Qed.
Lemma Forall2_transfer {X Y} (P : X -> Prop) (Q : Y -> Prop) (R : X -> Y -> Prop) l l' :
  (forall a b, P a -> R a b -> Q b) -> Forall P l -> Forall2 R l l' -> Forall Q l'.
Proof. intros H HP HR. induction HR; [constructor|]. inversion HP; subst. constructor; eauto. Qed.

Lemma usable_eq d i (a b : transfer spec_float) o r : usable_transfer d i a -> t_psize b = t_psize a -> t_npkts b = t_npkts a -> t_dst b = t_dst a -> t_bytes b = t_bytes a ->
  t_gid b = t_gid a -> t_gpar b = t_gpar a -> t_off b = o -> 0 <= o < 2 ^ 32 -> t_rate b = r -> number r -> usable_transfer d false b.
Proof.
  intros (U1 & U2 & U3 & U4 & U5) E1 E2 E3 E4 E5 E6 EO R ER N. unfold usable_transfer, transfer_ranges, waits_for_group in *. rewrite E1, E2, E3, E4, E5, E6, EO, ER. intuition.
Qed.

Lemma infer_fit d wl wl' : supported d -> fit d true wl -> inferInjectionRates f32A d wl = Ok wl' -> fit d false wl'.
Proof.
  intros HD (D & N & P & U & G) H. apply infer_phases in H. destruct H as [FR HF].
  assert (HT : Forall2 (fun a b => same_but_rate a b /\ getSrcInjectionRate f32A d (t_src a) = Ok (t_rate b)) (all_transfers wl) (all_transfers wl')).
  { unfold all_transfers. eapply Forall2_flat_map; [exact HF|]. cbn beta. tauto. }
  destruct (dense_same wl wl' FR) as (D' & N' & P'); [|exact D|].
  { eapply Forall2_imp; [exact HF|]. cbn beta. intros a b [E1 E2]. split; [exact E1|]. eapply Forall2_imp; [exact E2|]. cbn beta. intros x y [E _]. apply E. }
  split; [exact D'|]. split; [lia|]. split; [lia|]. split.
  - eapply Forall2_transfer; [|exact U|exact HT]. cbn beta. intros a b (U1 & U2 & U3 & U4 & U5) [(E1 & E2 & E3 & E4 & E5 & E6 & E7 & E8 & E9 & E10 & E11 & E12 & E13 & E14) ER].
    unfold getSrcInjectionRate in ER. apply bind_ok in ER as (ty & _ & ER). injection ER as ER.
    exact (usable_eq d true a b _ _ (conj U1 (conj U2 (conj U3 (conj U4 U5)))) E1 E2 E4 E8 E10 E12 E5 (proj1 U1) (eq_sym ER) (inj_number d ty HD)).
  - intros id Hid. destruct (G id Hid) as [w Hw]. exists w. unfold getGoldenResultCycles in *. destruct FR as (_ & _ & _ & -> & _). exact Hw.
Qed.
Lemma infer_offsets d (wl wl' : workload spec_float) : inferInjectionRates f32A d wl = Ok wl' -> Forall2 (fun a b => t_off b = t_off a) (all_transfers wl) (all_transfers wl').
Proof.
  intros H. apply infer_phases in H. destruct H as [FR HF]. unfold all_transfers. eapply Forall2_flat_map; [exact HF|]. cbn beta. intros a b [_ E].
  eapply Forall2_imp; [exact E|]. cbn beta. intros x y [E' _]. apply E'.
Qed.
Lemma scale_u32 s o r : nonneg_scale s -> 0 <= o < 2 ^ 32 -> scale_offset f32A s o = Ok r -> 0 <= r < 2 ^ 32.
Proof.
  intros Hs Ho E. destruct (scale_monotone s o o r Hs) as (r1 & E1 & H1); try (lia || exact E). assert (r1 = r) by congruence. subst r1. split; [lia|]. rewrite scale_offset_eq in E by auto. cbn zeta in E.
  destruct (Z.ltb_spec (Flocq.Core.Raux.Zfloor (rnd32 (rnd32 (IZR o) * scale_value s))) (2 ^ 32)) as [L|]; [|discriminate]. congruence.
Qed.
Lemma scale_fit d s wl wl' : nonneg_scale s -> fit d false wl -> scaleWorkloadSchedule f32A s wl = Ok wl' -> fit d false wl'.
Proof.
  intros Hs (D & N & P & U & G) H. pose proof (scale_transfers _ _ _ _ H) as HT. apply scale_phases in H. destruct H as [FR HF].
  destruct (dense_same wl wl' FR) as (D' & N' & P'); [|exact D|].
  { eapply Forall2_imp; [exact HF|]. cbn beta. intros a b [E1 E2]. split; [exact E1|]. eapply Forall2_imp; [exact E2|]. cbn beta. intros x y [E _]. apply E. }
  split; [exact D'|]. split; [lia|]. split; [lia|]. split.
  - eapply Forall2_transfer; [|exact U|exact HT]. cbn beta. intros a b (U1 & U2 & U3 & U4 & U5) [(E1 & E2 & E3 & E4 & E5 & E6 & E7 & E8 & E9 & E10 & E11 & E12 & E13 & E14) ER].
    destruct U1 as (R1 & R2). apply scale_u32 in ER; [|exact Hs|exact R1].
    exact (usable_eq d false a b _ _ (conj (conj R1 R2) (conj U2 (conj U3 (conj U4 U5)))) E1 E2 E4 E8 E10 E12 eq_refl ER E5 U5).
  - intros id Hid. destruct (G id Hid) as [w Hw]. exists w. unfold getGoldenResultCycles in *. destruct FR as (_ & _ & _ & -> & _). exact Hw.
Qed.
Lemma remove_fit d (wl : workload spec_float) : fit d false wl -> exists wl', removeLocalUnicastTransfers wl = Ok wl' /\ fit d false wl'.
Proof.
  intros (D & N & P & U & G). destruct (removeLocal_spec wl D N P) as (wl' & E & D' & N' & HF & _ & _ & _ & EG). exists wl'. split; [exact E|].
  split; [exact D'|]. split; [exact N'|]. split; [rewrite <- (Forall2_length' _ _ _ HF); exact P|]. split.
  - unfold all_transfers in *. rewrite Forall_flat_map in *. eapply Forall2_transfer; [|exact U|exact HF]. cbn beta. intros p q HP HPQ. eapply Forall2_transfer; [|apply incl_Forall with (2 := HP); apply incl_filter|exact HPQ].
    cbn beta. intros a b (U1 & U2 & U3 & U4 & U5) [(E1 & E2 & E3 & E4 & E5 & E6 & E7 & E8 & E9 & E10 & E11 & E12 & E13) _].
    exact (usable_eq d false a b _ _ (conj U1 (conj U2 (conj U3 (conj U4 U5)))) E1 E2 E4 E9 E11 E13 E6 (proj1 U1) E5 U5).
  - intros id Hid. destruct (G id Hid) as [w Hw]. unfold golden, getGoldenResultCycles in *. change (wl_golden (Fl := F f32A) wl') with (wl_golden (Fl := spec_float) wl'). rewrite EG. cbn [setGoldenResultCycles wl_golden]. rewrite golden_get_put.
    destruct (_ =? _); [eauto|]. exists w. exact Hw.
Qed.

Lemma fit_ready d wl : fit d false wl -> Forall (accepted d) (all_transfers wl) -> ready_workload d wl.
Proof.
  intros (D & N & P & U & G) HA. rewrite Forall_forall in U, HA. split; [split; [exact D|]|].
  { apply Forall_forall. intros t Ht. apply (U t Ht). }
  split; [|split; [apply Forall_forall; exact HA|split; [|split; [|exact G]]]]; apply Forall_forall; intros t Ht; destruct (U t Ht) as ((R1 & R2 & R3 & R4) & U2 & U3 & U4 & U5); pose proof (HA t Ht : accepted (Fl := spec_float) d t) as (A1 & A2 & _).
  - split; [lia|]. split; [lia|exact U5].
  - assert (GB : 0 < t_bytes (Fl := spec_float) t) by (destruct (Z.eqb_spec (t_bytes (Fl := spec_float) t) 0) as [E|E]; [destruct (U2 E); lia|lia]). exact GB.
  - exact U4.
Qed.

Lemma preprocess_fit (cfg : config (F f32A)) d (wl : workload (F f32A)) : supported d -> usable_workload d cfg wl -> exists wl', preprocessWorkload f32A d cfg wl = Ok wl' /\ fit d false wl'.
Proof.
  intros HD (D & N & P & U & [S1 S2] & G).
  assert (F0 : fit d (cf_infer cfg) wl) by (split; [exact D|]; split; [exact N|]; split; [exact P|]; split; [exact U|exact G]).
  unfold preprocessWorkload.
  assert (H1 : exists w1, (if cf_infer cfg then inferInjectionRates f32A d wl else Ok wl) = Ok w1 /\ fit d false w1 /\ Forall (fun t => (IZR (t_off t) * scale_value (cf_scale cfg) <= 2 ^ 32 - 512)%R) (all_transfers w1)).
  { destruct (cf_infer cfg).
    - destruct (infer_defined f32A d wl HD) as [w1 E].
      { eapply Forall_impl; [|apply F0]. intros t (_ & _ & _ & _ & H). exact H. }
      exists w1. split; [exact E|]. split; [eapply infer_fit; eassumption|]. eapply Forall2_transfer; [|exact S2|exact (infer_offsets _ _ _ E)]. cbn beta. intros a b HA HE. assert (HE' : t_off (Fl := F f32A) b = t_off (Fl := spec_float) a) by exact HE. rewrite HE'. exact HA.
    - exists wl. auto. }
  destruct H1 as (w1 & -> & F1 & T1). cbn [bind].
  assert (H2 : exists w2, (if scale_set f32A (cf_scale cfg) then scaleWorkloadSchedule f32A (cf_scale cfg) w1 else Ok w1) = Ok w2 /\ fit d false w2).
  { destruct (scale_set f32A (cf_scale cfg)); [|eauto]. destruct (schedule_defined (cf_scale cfg) w1 S1) as [w2 E].
    - unfold u32_offsets. eapply Forall_impl; [|apply F1]. intros t ((R & _) & _). exact R.
    - exact T1.
    - exists w2. split; [exact E|]. eapply scale_fit; [exact S1|exact F1|exact E]. }
  destruct H2 as (w2 & -> & F2). cbn [bind]. destruct (cf_remove_local cfg); [apply remove_fit; exact F2|eauto].
Qed.
Theorem run_total ord bord (cfg : config (F f32A)) d (wl : workload (F f32A)) : link_order ord -> bucket_order bord -> u32_config cfg -> npeAPI_make f32A cfg = Ok d ->
  usable_workload d cfg wl -> exists r, runNPE f32A ord bord d cfg wl = Ok r.
Proof.
  intros HO HB [_ HC] HM HU. unfold npeAPI_make in HM. apply bind_ok in HM as (d' & HM & HM'). apply bind_ok in HM' as ([] & HV & HM'). assert (d' = d) as -> by congruence.
  apply validate_config_iff in HV. destruct HV as [HV _].
  assert (HD : supported d) by (exists (cf_device cfg); apply createDeviceModel_iff; exact HM).
  destruct (preprocess_fit cfg d wl HD HU) as (wl' & HP & F). unfold runNPE. rewrite HP. cbn [bind]. pose proof F as (D' & N' & P' & U' & _).
  destruct (validate_spec d wl' D' N') as [_ HVal]; [eapply Z.le_lt_trans; [exact P'|reflexivity]|eapply Forall_impl; [|exact U']; intros t ((R & _) & _); exact (proj1 R)|].
  destruct HVal as (b & Eb & Hb); [eapply Forall_impl; [|exact U']; intros t (_ & _ & H & _); exact H|]. rewrite Eb. cbn [bind]. destruct b; [|eauto].
  pose proof (estimation_safe ord HO bord HB d HD (cf_cpt cfg) wl' (conj HV HC) (fit_ready _ _ F (proj1 Hb eq_refl)) cfg eq_refl) as S.
  destruct (runPerfEstimation f32A ord bord d cfg wl'); try contradiction; eauto.
Qed.
Theorem simulation_ends ord bord (d : device) congestion cpt (cfg : config (F f32A)) (wl : workload (F f32A)) : link_order ord -> bucket_order bord -> supported d -> proper_cpt cpt ->
  cf_infer cfg = false -> usable_workload d cfg wl -> Forall (accepted d) (all_transfers wl) ->
  let r := simulate f32A ord bord d congestion cpt wl in
  (exists s, r = Ok (inl s)) \/ r = Ok (inr EXCEEDED_SIM_CYCLE_LIMIT) \/ exists e, r = Throw e.
Proof.
  intros HO HB HD HC EI (D & N & P & U & _ & G) HA r. assert (EI' : cf_infer (Fl := spec_float) cfg = false) by exact EI. rewrite EI' in U.
  assert (HR : ready_workload d wl) by (apply fit_ready; [|exact HA]; split; [exact D|]; split; [exact N|]; split; [exact P|]; split; [exact U|exact G]).
  pose proof (simulate_safe ord HO bord HB d HD congestion cpt wl HC HR) as S. pose proof (simulation_error f32A ord bord HB d congestion cpt wl (proj1 HR) HC) as SE. subst r.
  destruct (simulate f32A ord bord d congestion cpt wl) as [[s|e]|e| | | | |]; try contradiction; eauto. right. left. rewrite (SE e eq_refl). reflexivity.
Qed.
Theorem make_iff (A : arith) (cfg : config (F A)) :
  (forall d, npeAPI_make A cfg = Ok d <-> In (cf_device cfg, d) documented_devices /\ good_config cfg) /\
  (npeAPI_make A cfg = Throw DEVICE_MODEL_INIT_FAILED <-> forall d, ~ In (cf_device cfg, d) documented_devices) /\
  (npeAPI_make A cfg = Throw INVALID_CONFIG <-> (exists d, In (cf_device cfg, d) documented_devices) /\ ~ good_config cfg) /\
  ((exists d, npeAPI_make A cfg = Ok d) \/ npeAPI_make A cfg = Throw DEVICE_MODEL_INIT_FAILED \/ npeAPI_make A cfg = Throw INVALID_CONFIG).
Proof.
  unfold npeAPI_make. destruct (validate_config_iff A cfg) as [V1 V2].
  assert (VD : validateConfig A cfg = Ok tt \/ validateConfig A cfg = Throw INVALID_CONFIG).
  { unfold validateConfig. destruct (_ <=? _); auto. destruct (_ && _); auto. }
  destruct (createDeviceModel (cf_device cfg)) as [d0|e| | | | |] eqn:ED.
  - pose proof ED as ED'. apply createDeviceModel_iff in ED'. cbn [bind].
    assert (UN : forall d, In (cf_device cfg, d) documented_devices -> d = d0) by (intros d Hd; apply createDeviceModel_iff in Hd; congruence).
    destruct VD as [VD|VD]; rewrite VD; cbn [bind].
    + apply V1 in VD. repeat split; intros.
      * assert (d0 = d) as <- by congruence. exact ED'.
      * apply VD.
      * apply VD.
      * f_equal. symmetry. apply UN. tauto.
      * discriminate.
      * exfalso. eapply H. exact ED'.
      * discriminate.
      * discriminate.
      * tauto.
      * eauto.
    + apply V2 in VD. repeat split; intros; try discriminate; try tauto; eauto. exfalso. eapply H. exact ED'.
  - cbn [bind]. assert (ND : forall d, ~ In (cf_device cfg, d) documented_devices) by (intros d Hd; apply createDeviceModel_iff in Hd; congruence).
    rewrite (createDeviceModel_other _ ND) in ED. assert (e = DEVICE_MODEL_INIT_FAILED) as -> by congruence.
    repeat split; intros; try discriminate; try tauto; eauto; exfalso; [apply (ND d); tauto|destruct H as [[d Hd] _]; apply (ND d); exact Hd].
  - exfalso. assert (ND : forall d, ~ In (cf_device cfg, d) documented_devices) by (intros d Hd; apply createDeviceModel_iff in Hd; congruence). rewrite (createDeviceModel_other _ ND) in ED. discriminate.
  - exfalso. assert (ND : forall d, ~ In (cf_device cfg, d) documented_devices) by (intros d Hd; apply createDeviceModel_iff in Hd; congruence). rewrite (createDeviceModel_other _ ND) in ED. discriminate.
  - exfalso. assert (ND : forall d, ~ In (cf_device cfg, d) documented_devices) by (intros d Hd; apply createDeviceModel_iff in Hd; congruence). rewrite (createDeviceModel_other _ ND) in ED. discriminate.
  - exfalso. assert (ND : forall d, ~ In (cf_device cfg, d) documented_devices) by (intros d Hd; apply createDeviceModel_iff in Hd; congruence). rewrite (createDeviceModel_other _ ND) in ED. discriminate.
  - exfalso. assert (ND : forall d, ~ In (cf_device cfg, d) documented_devices) by (intros d Hd; apply createDeviceModel_iff in Hd; congruence). rewrite (createDeviceModel_other _ ND) in ED. discriminate.
Qed.
