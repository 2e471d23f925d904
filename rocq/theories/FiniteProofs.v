(* The statistics of a run are numbers, and close to the exact ones (C82, C43). *)
From Coq Require Import ZArith Arith Reals Lra Lia Bool String List Floats.SpecFloat ZifyBool ZifyNat.
From Flocq Require Import Core IEEE754.BinarySingleNaN Relative.
From Verif Require Import Base Arith Util Device SpecDevice Workload SpecWorkload Rates Stats Engine UtilProofs TrackerProofs DeviceProofs FactoryProofs DepGenProofs SpecEngine SpecRates SpecStats SpecSummary SpecFinite
  StepProofs EngineProofs RunProofs DepFacts EngineFacts EngineFacts2 EngineFacts3 EngineFacts4 EngineFacts5 FloatProofs FloatProofs2 RateFacts RateFloat RateFloat2 RateFloat3 RateFloat4 EngineRates StatsFacts StatsAvg StatsRat StatsFloat StatsRun MeanProofs SummaryFloat SummaryRun ReportProofs.
Import ListNotations.
Local Open Scope list_scope.
Open Scope Z_scope.
Ltac Zify.zify_post_hook ::= idtac.

(** * Sums that stay below a bound at which adding has no effect *)
Section Sat.
  Context (prec emax : Z) (Hp : Prec_gt_0 prec) (Hm : Prec_lt_emax prec emax) (B Y : spec_float).
  Context (NB : nnf prec emax B) (NY : nnf prec emax Y) (HB : SFadd prec emax B Y = B).
  Lemma sat_sum l : forall a, nnf prec emax a -> (vl a <= vl B)%R -> Forall (fun y => nnf prec emax y /\ (vl y <= vl Y)%R) l ->
    nnf prec emax (fold_left (SFadd prec emax) l a) /\ (vl (fold_left (SFadd prec emax) l a) <= vl B)%R.
  Proof.
    induction l as [|y l IH]; intros a Na La HF; cbn [fold_left]; [auto|]. inversion HF as [|? ? [Ny Ly] HF']; subst.
    assert (L : (cl emax (SFadd prec emax a y) <= vl B)%R).
    { rewrite <- (nnf_cl prec emax B NB). rewrite <- HB. apply add_le; try assumption; try apply Na; try apply Ny; try apply NB; try apply NY; rewrite !(nnf_cl prec emax) by assumption; assumption. }
    assert (N : nnf prec emax (SFadd prec emax a y)).
    { apply nneg_fin; [apply add_nn; try assumption; [apply Na|apply Ny]|]. eapply Rle_lt_trans; [exact L|]. apply (nnf_lt prec emax B NB). }
    rewrite (nnf_cl prec emax _ N) in L. apply IH; assumption.
  Qed.
End Sat.
Definition two32 : spec_float := S754_finite false 8388608 9.
Definition d128 : spec_float := S754_finite false 8388608 (-16).
Lemma two32_ok : nf32 two32 /\ vl two32 = bpow radix2 32.
Proof. split; [split; [split; reflexivity|reflexivity]|]. unfold vl, SF2R, two32, F2R. cbn. lra. Qed.
Lemma d128_ok : nf32 d128 /\ vl d128 = 128%R.
Proof. split; [split; [split; reflexivity|reflexivity]|]. unfold vl, SF2R, d128, F2R. cbn. lra. Qed.
Lemma demand_sum l : Forall (fun y => nf32 y /\ (vl y <= 128)%R) l -> nf32 (fold_left (f_add f32A) l (f_zero f32A)) /\ (vl (fold_left (f_add f32A) l (f_zero f32A)) <= bpow radix2 32)%R.
Proof.
  intros HF. destruct two32_ok as [N1 V1]. destruct d128_ok as [N2 V2]. rewrite <- V1. apply (sat_sum prec32 emax32 eq_refl eq_refl two32 d128 N1 N2 eq_refl).
  - exact (nnf_zero prec32 emax32).
  - change (vl (f_zero f32A)) with 0%R. rewrite V1. apply bpow_ge_0.
  - rewrite V2. exact HF.
Qed.
Definition two60 : spec_float := S754_finite false 4503599627370496 8.
Definition two114 : spec_float := S754_finite false 4503599627370496 62.
Lemma two60_ok : nf64 two60 /\ vl two60 = bpow radix2 60.
Proof. split; [split; [split; reflexivity|reflexivity]|]. unfold vl, SF2R, two60, F2R. cbn. lra. Qed.
Lemma two114_ok : nf64 two114.
Proof. split; [split; reflexivity|reflexivity]. Qed.
Lemma avg_finite l : l <> [] -> Forall (fun y => nf64 y /\ (vl y <= bpow radix2 60)%R) l -> nf64 (avg_of f32A l).
Proof.
  intros NE HF. destruct two60_ok as [N1 V1]. rewrite <- V1 in HF. unfold avg_of, dsum.
  destruct (sat_sum prec64 emax64 eq_refl eq_refl two114 two60 two114_ok N1 eq_refl l (dz f32A) (nnf_zero prec64 emax64)) as [NS _].
  { change (vl (dz f32A)) with 0%R. apply (vl_nneg prec64 emax64), two114_ok. }
  { exact HF. }
  change (fold_left (SFadd prec64 emax64) l (dz f32A)) with (fold_left (d_add f32A) l (dz f32A)) in NS. set (s := fold_left (d_add f32A) l (dz f32A)) in *.
  set (n := Z.of_nat (List.length l)). assert (Hn : 1 <= n) by (destruct l; [congruence|cbn [List.length] in n; lia]).
  destruct (ofZ_nneg prec64 emax64 eq_refl eq_refl n ltac:(lia)) as [NN CN]. destruct d_one_ok as [N1' V1']. set (one := d_lit f32A 1 1) in *.
  assert (L1 : (cl emax64 one <= cl emax64 (sf_ofZ prec64 emax64 n))%R).
  { rewrite (nnf_cl prec64 emax64 _ N1'), V1', CN. apply Rmin_glb; [|change 1%R with (bpow radix2 0); apply bpow_le; discriminate].
    rewrite <- (rnd_1 prec64 emax64 eq_refl eq_refl) at 1. apply rnd_le; [reflexivity|]. apply IZR_le. exact Hn. }
  assert (P1 : (0 < cl emax64 one)%R) by (rewrite (nnf_cl prec64 emax64 _ N1'), V1'; lra).
  pose proof (div_anti prec64 emax64 eq_refl eq_refl s one _ NS (proj1 N1') NN (or_intror P1) L1) as DA.
  destruct (div_nneg prec64 emax64 eq_refl eq_refl s one NS N1' ltac:(rewrite V1'; lra)) as [_ C1]. rewrite V1' in C1. unfold Rdiv in C1. rewrite Rinv_1, Rmult_1_r in C1.
  rewrite (rnd_vl prec64 emax64) in C1 by (try reflexivity; apply NS).
  change (d_div f32A s (d_ofZ f32A n)) with (SFdiv prec64 emax64 s (sf_ofZ prec64 emax64 n)). apply nneg_fin; [apply div_nn; try reflexivity; [exact NS|exact NN|right; exact (Rlt_le_trans _ _ _ P1 L1)]|].
  eapply Rle_lt_trans; [exact DA|]. rewrite C1. eapply Rle_lt_trans; [apply Rmin_l|]. apply (nnf_lt prec64 emax64 s NS).
Qed.

(** * The demand in a run *)
Lemma max_bandwidth d : (vl (max_noc_bandwidth f32A d) <= 100)%R.
Proof. unfold max_noc_bandwidth, tbt. destruct (dv_class d); match goal with |- context [vl ?x] => let y := eval vm_compute in x in change (vl y <= 100)%R end; unfold vl, SF2R, F2R; cbn; lra. Qed.
Lemma uncongested_limit d t b : sound_transfer t -> uncongested_bw f32A d t = Ok b -> nf32 b /\ (vl b <= 128)%R.
Proof.
  intros H E. destruct (uncongested_ok d t H) as (b' & nb & E' & EI & _ & _ & N & _ & EV). rewrite E in E'. injection E' as <-. split; [exact N|].
  destruct H as (Hp & Hn & _). destruct (interpolate_ok d (t_psize t) (t_npkts t)) as (nb' & EI' & _ & _ & L); [lia|lia|]. rewrite EI in EI'. injection EI' as <-.
  pose proof (max_bandwidth d) as MB. assert (B23 : (bpow radix2 (-23) <= / 8)%R) by (change (/ 8)%R with (bpow radix2 (-3)); apply bpow_le; discriminate). pose proof (bpow_gt_0 radix2 (-23)).
  rewrite EV. apply Rle_trans with (1 := Rmin_r _ _). nra.
Qed.
Section Q.
  Context (ord : Z -> list Z -> list Z) (bord : list bucket -> list bucket) (bord_perm : bucket_order bord).
  Context (d : device) (congestion : bool) (cpt : Z) (wl : workload spec_float).
  Context (HW : proper wl) (HC : proper_cpt cpt) (HF : Forall sound_transfer (all_transfers wl)).
  Lemma limited_nf x : limited x <-> nf32 x /\ (vl x <= bpow radix2 32)%R.
  Proof. unfold limited. rewrite RateFloat4.number_nf. reflexivity. Qed.
  Lemma zero_limited {X} (l : list X) : Forall limited (map (fun _ => f_zero f32A) l).
  Proof.
    apply Forall_forall. intros x Hx. apply in_map_iff in Hx as (y & <- & _). apply limited_nf. split; [exact (nnf_zero prec32 emax32)|]. change (vl (f_zero f32A)) with 0%R. apply bpow_ge_0.
  Qed.
  Lemma zero_grids_limited : limited_grids d (zero_grids f32A d).
  Proof. unfold limited_grids. cbn [zero_grids g_link g_mc g_niu]. rewrite !map_length. pose proof (@zero_limited link_attr (link_table d)). pose proof (@zero_limited niu_attr (niu_table d)). auto 10. Qed.
  Lemma bumped_limited {X} (t : list X) ops g : bumped f32A ops (map (fun _ => f_zero f32A) t) g -> (forall l, Forall (fun y => nf32 y /\ (vl y <= 128)%R) (amounts f32A ops l)) ->
    Forall limited g /\ List.length g = List.length t.
  Proof.
    intros (L & _ & H) HA. split; [|rewrite L; apply map_length].
    assert (K : forall l (x : F f32A), nth_error g l = Some x -> limited x).
    { intros l x Hl. assert (HL : (l < List.length (map (fun _ => f_zero f32A) t))%nat) by (rewrite <- L; apply nth_error_Some; congruence).
      apply nth_error_Some in HL. destruct (nth_error (map _ t) l) as [y|] eqn:Hy; [|congruence]. pose proof (H _ _ Hy) as E. apply zero_list in Hy. subst y. rewrite Hl in E. injection E as ->.
      apply limited_nf. apply demand_sum. apply HA. }
    apply Forall_forall. intros x Hx. apply In_nth_error in Hx as (l & Hl). exact (K l x Hl).
  Qed.
  Lemma step_limited s s' : reach f32A ord bord d congestion cpt wl s -> timestep f32A d congestion cpt wl s = Ok s' -> limited_grids d (sm_grids f32A s) -> limited_grids d (sm_grids f32A s').
  Proof.
    intros HR HT GF. destruct (rate_round f32A ord bord bord_perm d congestion cpt wl HW HC s s' HR HT) as (sts1 & sts2 & live & ND & HM' & HRT & HST & _).
    destruct (reach_clock f32A ord bord bord_perm d congestion cpt wl HW HC s HR) as (_ & K2 & K3). pose proof HC as [HC1 HC2].
    assert (HL : sound_live (sm_curr f32A s) sts1 live).
    { split; [assumption|]. intros j x1 Hj Hx1. destruct (HST j x1 Hj Hx1) as [HS1 HS2]. split; [|exact HS1]. rewrite Forall_forall in HF. apply HF. eapply nth_error_In. exact HS2. }
    unfold computeCurrentTransferRate in HRT. apply bind_ok in HRT as (sts3 & H1 & H). destruct congestion; [|injection H as _ <-; exact GF].
    pose proof (started_live _ _ _ _ _ HL H1) as HL1. apply congestion_spec in H as (HD & _); [|assumption].
    assert (HB : forall i x, In i live -> nth_error sts3 i = Some x -> (vl (s_bw x) <= 128)%R).
    { intros i y Hi Hy. apply update_spec in H1 as (_ & _ & HI). destruct (HI i Hi) as (x & b & Hx & Hb & Hx1). rewrite Hy in Hx1. injection Hx1 as ->. cbn [with_bw s_bw].
      apply (uncongested_limit d _ _ (proj1 (proj2 HL i x Hi Hx)) Hb). }
    assert (HA : forall f l, Forall (fun y => nf32 y /\ (vl y <= 128)%R) (amounts f32A (ops_of f32A (sm_curr f32A s - cpt) (sm_curr f32A s) f sts3 live) l)).
    { intros f l. apply Forall_forall. intros a Ha. unfold amounts in Ha. apply in_map_iff in Ha as ([id e] & <- & Ha). apply filter_In in Ha as [Ha _].
      unfold ops_of in Ha. apply in_flat_map in Ha as (i & Hi & Ha). destruct (nth_error sts3 i) as [x|] eqn:Hx; [|destruct Ha]. apply in_map_iff in Ha as (k & E & _). injection E as _ <-.
      destruct (demand_ok (sm_curr f32A s - cpt) (sm_curr f32A s) x ltac:(lia) ltac:(lia) (HL1 i x Hi Hx)) as [N L]. split; [exact N|]. apply Rle_trans with (1 := L). exact (HB i x Hi Hx). }
    pose proof (mc_spec _ _ _ _ _ _ _ HD) as B3. apply demand_spec in HD as (B1 & B2 & _). cbn [zero_grids g_link g_mc g_niu] in B1, B2, B3.
    apply bumped_limited in B1 as [Q1 L1]; [|apply HA]. apply bumped_limited in B2 as [Q2 L2]; [|apply HA]. apply bumped_limited in B3 as [Q3 L3]; [|apply HA].
    unfold limited_grids. auto 10.
  Qed.
  Theorem reach_limited s : reach f32A ord bord d congestion cpt wl s -> limited_grids d (sm_grids f32A s).
  Proof.
    intros HR. induction HR as [s H|s s' HR IH HT HF' HM'].
    - destruct (sim_init_eq f32A ord bord bord_perm d cpt wl HW _ H) as (sts0 & E & _ & ->). exact zero_grids_limited.
    - cbn [advance sm_grids]. exact (step_limited _ _ HR HT IH).
  Qed.
End Q.
