(* The numbers in the timeline files are finite (C82). *)
From Coq Require Import ZArith Arith Reals Lia Bool String List Sorting.Permutation Floats.SpecFloat ZifyBool ZifyNat.
From Verif Require Import Base Arith Util SpecUtil Json Device SpecDevice Workload SpecWorkload Rates Stats Engine UtilProofs TrackerProofs DeviceProofs FactoryProofs SpecEngine SpecRates SpecStats SpecSummary SpecFinite
  EngineFacts2 FloatProofs FloatProofs2 RateFloat RateFloat2 RateFloat4 StatsFloat StatsRun MeanProofs SummaryProofs SummaryRun FiniteProofs FiniteStep FiniteRun
  Timeline SpecTimeline TimelineSplit SpecZones SpecGroups GroupProofs SpecDemands DemandProofs Layout SpecLayout LayoutProofs.
Import ListNotations.
Local Open Scope string_scope.
Local Open Scope list_scope.
Open Scope Z_scope.
Ltac Zify.zify_post_hook ::= idtac.

Lemma finite_number x : number64 x -> finite x = true.
Proof. intros H. apply MeanProofs.number_nf in H. destruct x as [s|s| |s m e]; try reflexivity; destruct H as [_ H]; discriminate H. Qed.
Lemma finite_float (x : F f32A) : number x -> finite (d_of_f f32A x) = true.
Proof.
  intros H. apply RateFloat4.number_nf in H. change (d_of_f f32A x) with (sf_conv prec64 emax64 x). apply finite_number, MeanProofs.number_nf.
  exact (proj1 (conv_up x H)).
Qed.
Lemma finite_forall l : Forall (fun x => finite x = true) l -> forallb finite l = true.
Proof. intros H. apply forallb_forall. rewrite Forall_forall in H. exact H. Qed.

Lemma info_finite ds : Forall number64 (result_numbers ds) -> Forall (fun x => finite x = true) (info_numbers ds).
Proof.
  intros H. unfold result_numbers in H. apply Forall_app in H as [H _]. rewrite Forall_forall in H. unfold info_numbers.
  repeat (constructor; [apply finite_number, H; cbn [In]; auto 20|]). constructor.
Qed.
Lemma step_finite t : Forall number64 (timestep_numbers t) -> Forall (fun x => finite x = true) (step_numbers t).
Proof.
  intros H. rewrite Forall_forall in H. unfold step_numbers, timestep_numbers in *.
  repeat (constructor; [apply finite_number, H; cbn [In]; auto 20|]). constructor.
Qed.
Lemma steps_finite l : Forall (fun t => Forall number64 (timestep_numbers t)) l -> Forall (fun x => finite x = true) (flat_map step_numbers l).
Proof. induction 1 as [|t l H _ IH]; [constructor|]. cbn [flat_map]. apply Forall_app. split; [apply step_finite; exact H|exact IH]. Qed.

Section Run.
  Context (ord : Z -> list Z -> list Z) (bord : list bucket -> list bucket) (ord_perm : link_order ord) (bord_perm : bucket_order bord).
  Context (gord : gmap -> gmap) (zord : zone_map -> zone_map) (gord_perm : map_order gord) (topo : topology).
  Context (d : device) (HM : made d) (cpt : Z) (wl : workload spec_float) (HW : proper wl) (HN : wl_next wl <= 2 ^ 32) (HC : proper_cpt cpt).
  Context (HF : Forall sound_transfer (all_transfers wl)) (HG : Forall (on_grid d) (all_transfers wl)) (model : string).
  Notation cong := (negb (String.eqb model "none")).

  Lemma shown_limited s s' p : reach f32A ord bord d cong cpt wl s -> timestep f32A d cong cpt wl s = Ok s' -> shows_demand f32A d cpt s s' p ->
    forall x, In x (tp_demand f32A p) -> number (snd x).
  Proof.
    intros R T (_ & _ & H) [[c h] v] Hx. apply H in Hx as [Hx _]. destruct (step_grids ord bord bord_perm d cpt wl HW HC HF model s s' R T) as (L1 & _ & L3 & _). rewrite Forall_forall in L1, L3. cbn [snd].
    destruct h as [ty|n|n]; destruct Hx as (k & _ & Hk); apply nth_error_In in Hk; first [exact (proj1 (L1 _ Hk))|exact (proj1 (L3 _ Hk))].
  Qed.
  Lemma demand_finite l : Forall (fun p : tstep f32A => forall x, In x (tp_demand f32A p) -> number (snd x)) l ->
    Forall (fun x => finite x = true) (map (fun x => d_of_f f32A (snd x)) (flat_map (tp_demand f32A) l)).
  Proof.
    induction 1 as [|p l H _ IH]; [constructor|]. cbn [flat_map]. rewrite map_app. apply Forall_app. split; [|exact IH].
    apply Forall_map, Forall_forall. intros x Hx. apply finite_float, H, Hx.
  Qed.
  Lemma rate_number sf x : succeeds f32A ord bord d cong cpt wl sf -> In x (sm_sts f32A sf) -> number (t_rate (s_tr x)).
  Proof.
    intros HS Hx. destruct (success_complete f32A ord bord bord_perm d cong cpt wl HW HC sf HS) as (_ & SC & _). apply In_nth_error in Hx as (i & Hi). destruct (SC i x Hi) as [Ht _].
    apply nth_error_In in Ht. rewrite Forall_forall in HF. destruct (HF _ Ht) as (_ & _ & H). exact H.
  Qed.

  Lemma common_finite model' stt ds : model' = model -> runSinglePerfSim f32A ord bord d model' cpt wl = Ok (Stats stt) -> stats_get f32A stt MESH_DEVICE = Some ds ->
    (forall g, getGoldenResultCycles wl MESH_DEVICE = Ok g -> 0 <= fst g) -> 0 < ds_est f32A ds -> 0 < ds_golden f32A ds ->
    Forall (fun x => finite x = true) (info_numbers ds) /\ Forall (fun x => finite x = true) (flat_map step_numbers (ds_ts f32A ds)).
  Proof.
    intros -> HR HD G1 G2 G3. split.
    - apply info_finite. exact (proj1 (run_result_numbers ord bord bord_perm d HM cpt wl HW HN HC HF model stt MESH_DEVICE ds HR (or_intror eq_refl) HD G1 G2 G3)).
    - apply steps_finite. eapply Forall_impl; [|exact (run_timesteps ord bord bord_perm d HM cpt wl HW HC HF model MESH_DEVICE (or_intror eq_refl) stt ds HR HD)]. intros t (H & _). exact H.
  Qed.

  Theorem file_finite thr stt files ds r tl : runWithTimeline f32A ord bord gord zord topo false thr d model cpt wl = Ok (Stats stt, files) -> stats_get f32A stt MESH_DEVICE = Some ds ->
    document f32A files r tl -> (forall g, getGoldenResultCycles wl MESH_DEVICE = Ok g -> 0 <= fst g) -> 0 < ds_est f32A ds -> 0 < ds_golden f32A ds ->
    forallb finite (file_numbers ds tl) = true.
  Proof.
    intros H HD HDc G1 G2 G3. pose proof (run_result f32A ord bord gord zord topo d cpt wl _ _ _ _ _ H) as HR. pose proof (made_supported d HM) as SD.
    destruct (common_finite model stt ds eq_refl HR HD G1 G2 G3) as [C1 C2]. apply finite_forall. unfold file_numbers.
    apply Forall_app. split; [exact C1|]. apply Forall_app. split; [exact C2|]. apply Forall_app. split.
    - apply demand_finite, Forall_forall. intros p Hp.
      destruct (DemandProofs.run_steps f32A ord bord bord_perm gord zord topo d cpt wl SD HW HC model thr stt files r tl p H HDc Hp) as [(_ & _ & E)|(n & s & s' & HB & HT & SH & _)].
      + intros x Hx. assert (Hx' : In x []) by (rewrite <- E; exact Hx). destruct Hx'.
      + exact (shown_limited s s' p (begins_reach f32A ord bord d cong cpt wl n s HB) HT SH).
    - destruct (run_segments f32A ord bord ord_perm bord_perm gord zord gord_perm topo d cpt wl SD HW HC HG model thr stt files r tl H HDc) as (sf & ss & rest & HS & HP & _ & H2).
      apply Forall_map. assert (IN : forall x, In x ss -> In x (sm_sts f32A sf)) by (intros x Hx; apply (Permutation_in _ HP), in_or_app; left; exact Hx). clear HP.
      induction H2 as [|x sg ss' sgs Hd H2 IH]; [constructor|]. constructor; [|apply IH; intros y Hy; apply IN; right; exact Hy].
      destruct Hd as (_ & _ & E & _). pose proof (finite_float _ (rate_number sf x HS (IN x (or_introl eq_refl)))) as Q. rewrite <- E in Q. exact Q.
  Qed.
  Theorem legacy_finite thr stt ds doc : runWithTimeline f32A ord bord gord zord topo true thr d model cpt wl = Ok (Stats stt, [FullV0 f32A doc]) -> stats_get f32A stt MESH_DEVICE = Some ds ->
    (forall g, getGoldenResultCycles wl MESH_DEVICE = Ok g -> 0 <= fst g) -> 0 < ds_est f32A ds -> 0 < ds_golden f32A ds ->
    forallb finite (legacy_numbers ds doc) = true.
  Proof.
    intros H HD G1 G2 G3. pose proof (run_result f32A ord bord gord zord topo d cpt wl _ _ _ _ _ H) as HR. pose proof (made_supported d HM) as SD.
    destruct (common_finite model stt ds eq_refl HR HD G1 G2 G3) as [C1 C2]. apply finite_forall. unfold legacy_numbers.
    apply Forall_app. split; [exact C1|]. apply Forall_app. split; [exact C2|]. apply Forall_app. split.
    - apply demand_finite. eapply Forall_impl; [|exact (run_legacy f32A ord bord bord_perm gord zord topo d cpt wl SD HW HC model thr stt _ doc H (or_introl eq_refl))].
      intros p [(_ & _ & E)|(n & s & s' & HB & HT & SH & _)].
      + intros x Hx. assert (Hx' : In x []) by (rewrite <- E; exact Hx). destruct Hx'.
      + exact (shown_limited s s' p (begins_reach f32A ord bord d cong cpt wl n s HB) HT SH).
    - destruct (legacy_transfers f32A ord bord ord_perm bord_perm gord zord topo d cpt wl SD HW HC HG model thr stt _ doc H (or_introl eq_refl)) as (sf & HS & H2).
      apply Forall_map. assert (IN : forall x, In x (sm_sts f32A sf) -> In x (sm_sts f32A sf)) by auto. revert H2 IN. generalize (sm_sts f32A sf) at 1 2. intros ss H2 IN.
      induction H2 as [|x v ss' vs Hd H2 IH]; [constructor|]. constructor; [|apply IH; intros y Hy; apply IN; right; exact Hy].
      destruct Hd as (_ & E & _). pose proof (finite_float _ (rate_number sf x HS (IN x (or_introl eq_refl)))) as Q. rewrite <- E in Q. exact Q.
  Qed.

  Theorem finite_layout name thr stt files ds r tl : runWithTimeline f32A ord bord gord zord topo false thr d model cpt wl = Ok (Stats stt, files) -> stats_get f32A stt MESH_DEVICE = Some ds ->
    (In (FullV1 f32A (Some tl)) files /\ r = None) \/ (exists k rg, In (Split f32A k rg (Some tl)) files /\ r = Some (k, rg)) ->
    (forall g, getGoldenResultCycles wl MESH_DEVICE = Ok g -> 0 <= fst g) -> 0 < ds_est f32A ds -> 0 < ds_golden f32A ds ->
    fits (emitted_schema SNum) (file_json name model cpt d wl ds thr (match r with None => FullV1 f32A (Some tl) | Some (k, rg) => Split f32A k rg (Some tl) end)).
  Proof.
    intros H HD HDc G1 G2 G3. pose proof (run_layout ord bord gord zord name model cpt d topo wl thr stt files ds r tl H HD HDc) as Q.
    assert (E : forallb finite (file_numbers ds tl) = true).
    { apply (file_finite thr stt files ds (option_map snd r) tl H HD); [|exact G1|exact G2|exact G3]. destruct HDc as [(I & ->)|(k & rg & I & ->)]; [left; auto|right; exists k, rg; auto]. }
    unfold number_of in Q. rewrite E in Q. exact Q.
  Qed.
  Theorem finite_legacy name thr stt ds files : runWithTimeline f32A ord bord gord zord topo true thr d model cpt wl = Ok (Stats stt, files) -> stats_get f32A stt MESH_DEVICE = Some ds ->
    (forall g, getGoldenResultCycles wl MESH_DEVICE = Ok g -> 0 <= fst g) -> 0 < ds_est f32A ds -> 0 < ds_golden f32A ds ->
    exists doc, files = [FullV0 f32A doc] /\ fits (emitted_legacy SNum) (file_json name model cpt d wl ds thr (FullV0 f32A doc)).
  Proof.
    intros H HD G1 G2 G3. destruct (run_old ord bord gord zord name model cpt d topo wl thr stt files ds H HD) as (s & doc & _ & -> & _ & Q). exists doc. split; [reflexivity|].
    unfold number_of in Q. rewrite (legacy_finite thr stt ds doc H HD G1 G2 G3) in Q. exact Q.
  Qed.
End Run.
