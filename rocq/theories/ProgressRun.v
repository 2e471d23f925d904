(* Conditions on the workload under which transfers keep moving, and runNPE succeeds (C37). *)
From Coq Require Import ZArith Arith Reals String List Bool Lia Lra ZifyBool ZifyNat Sorting.Permutation Sorting.Sorted Floats.SpecFloat.
From Flocq Require Import Core IEEE754.BinarySingleNaN.
From Verif Require Import Base Arith Util Device SpecDevice Workload SpecWorkload DepTracker Rates Stats Engine Api UtilProofs DeviceProofs RouteProofs MulticastProofs FactoryProofs
  WorkloadProofs SpecTracker TrackerProofs DepGenProofs StepProofs SpecEngine SpecRates SpecStats SpecApi EngineProofs RunProofs EngineFacts EngineFacts2 EngineFacts3 EngineFacts5
  FloatProofs FloatProofs2 RateFloat RateFloat2 RateFloat4 EngineRates EndFloat EngineFloat IngestTotal
  SafeProofs SafeFloat SafeRun CalmProofs ApiProofs SpecProgress ProgressProofs SpecResult ResultProofs RateFacts RateFloat3 RateLow NiuProofs.
Import ListNotations.
Local Open Scope list_scope.
Open Scope Z_scope.
Ltac Zify.zify_post_hook ::= idtac.

(* a bandwidth that suffices for [m] bytes in a timestep moves [m] bytes *)
Lemma moves_enough c cpt m bw k : nnf prec32 emax32 bw -> 0 < cpt <= 2 ^ 24 -> cpt <= c <= 2 * cpt -> 0 <= m <= 2 ^ 24 -> (IZR m <= vl bw * IZR cpt)%R ->
  f_to_uint f32A 64 (SFmul prec32 emax32 (ofz c) bw) = Ok k -> m <= k.
Proof.
  intros NB HC Hc Hm HB HK. change (2 ^ 24) with 16777216 in *. destruct (ofZ_fin prec32 emax32 _ _ c ltac:(lia)) as [NC VC]; [change (2 ^ (emax32 - 1)) with (2 ^ 127); lia|].
  assert (LC : (IZR cpt <= vl (ofz c))%R).
  { change (vl (ofz c)) with (vl (sf_ofZ prec32 emax32 c)). rewrite VC, <- (rnd_Z prec32 emax32 _ _ cpt); [apply rnd_le; [typeclasses eauto|apply IZR_le; lia]|]. change (2 ^ prec32) with 16777216. lia. }
  destruct (mul_nneg prec32 emax32 _ _ _ _ NC NB) as [NM EM]. destruct (to_uint_ok 64 _ _ NM HK) as [-> F]. rewrite (nnf_cl prec32 emax32 _ F) in EM.
  pose proof (nnf_lt prec32 emax32 _ NB) as [PB _]. apply Zfloor_lub. change (ofz c) with (sf_ofZ prec32 emax32 c) in *. rewrite EM. apply Rmin_glb.
  - rewrite <- (rnd_Z prec32 emax32 _ _ m); [apply rnd_le; [typeclasses eauto|nra]|]. change (2 ^ prec32) with 16777216. lia.
  - apply Rle_trans with (IZR 16777216); [apply IZR_le; lia|]. change (IZR 16777216) with (bpow radix2 24). apply bpow_le. vm_compute. discriminate.
Qed.

Section Run.
  Context (ord : Z -> list Z -> list Z) (bord : list bucket -> list bucket) (bord_perm : bucket_order bord).
  Context (d : device) (cpt : Z) (wl : workload (F f32A)) (HW : proper wl) (HC : proper_cpt cpt) (HF : Forall sound_transfer (all_transfers wl)).
  (* enough bandwidth for every live transfer of every timestep *)
  Lemma moves_by_rate congestion m : cpt <= 2 ^ 24 -> 0 <= m <= 2 ^ 24 ->
    (forall s s' i x', reach f32A ord bord d congestion cpt wl s -> timestep f32A d congestion cpt wl s = Ok s' -> is_live f32A s i -> nth_error (sm_sts f32A s') i = Some x' ->
      nnf prec32 emax32 (s_bw x') /\ (IZR m <= vl (s_bw x') * IZR cpt)%R) ->
    moves_on f32A ord bord d congestion cpt wl m.
  Proof.
    intros H1 H2 H s s' i x x' HR HT Hi Hx Hx'. destruct (progress f32A ord bord bord_perm d congestion cpt wl HW HC s s' i x x' HR HT Hi Hx Hx') as (c & k & Hc & Hk & HD).
    destruct (H s s' i x' HR HT Hi Hx') as [NB LB]. destruct HC as [HC1 HC2]. pose proof (moves_enough c cpt m (s_bw x') k NB ltac:(lia) Hc H2 LB Hk). rewrite HD. lia.
  Qed.
  Lemma brisk_moves m : cpt <= 2 ^ 24 -> 0 <= m <= 2 ^ 24 -> Forall (brisk d cpt m) (all_transfers wl) -> moves_on f32A ord bord d false cpt wl m.
  Proof.
    intros H1 H2 HB. apply moves_by_rate; [assumption|assumption|]. intros s s' i x' HR HT Hi Hx'.
    assert (TP : takes_part s s' i) by (left; exact Hi).
    destruct (free_rates f32A ord bord bord_perm d false cpt wl HW HC s s' eq_refl HR HT i x' TP Hx') as (noc & Hn & E).
    assert (HT' : In (s_tr x') (all_transfers wl)).
    { apply (nth_error_In _ i). apply (visited_transfer f32A ord bord bord_perm d false cpt wl HW HC s'); [right; exists s; split; [exact HR|exact HT]|exact Hx']. }
    rewrite Forall_forall in HF, HB. destruct (HB _ HT') as (B1 & b & B2 & B3). pose proof (HF _ HT') as S. destruct (uncongested_ok d _ S) as (b0 & nb & U1 & U2 & U3 & U4 & U5 & U6 & U7).
    assert (E1 : @Ok (F f32A) nb = Ok noc) by (rewrite <- U2; exact Hn). injection E1 as ->. assert (E2 : @Ok (F f32A) b = Ok noc) by (rewrite <- Hn; symmetry; exact B2). injection E2 as ->.
    assert (s_bw x' = b0) as ->. { assert (E3 : @Ok (F f32A) b0 = Ok (f_fmin f32A (t_rate (s_tr x')) noc)); [|injection E3 as ->; exact E].
      rewrite <- U1. unfold uncongested_bw. etransitivity; [exact (f_equal (fun o => bind o (fun noc => Ok (f_fmin f32A (t_rate (s_tr x')) noc))) U2)|reflexivity]. }
    split; [exact U5|]. rewrite U7. change (real (t_rate (s_tr x'))) with (vl (t_rate (s_tr x'))) in B1. change (real noc) with (vl noc) in B3.
    apply Rmin_case; assumption.
  Qed.
End Run.

(** * With congestion *)
Lemma noc_bandwidth_max d : (vl (max_noc_bandwidth f32A d) <= 63)%R.
Proof.
  assert (H : nnfb (max_noc_bandwidth f32A d) = true /\ SFltb (sf_ofZ prec32 emax32 63) (max_noc_bandwidth f32A d) = false).
  { unfold max_noc_bandwidth, tbt. destruct (dv_class d); split; vm_compute; reflexivity. }
  destruct H as [H1 H2]. apply nnfb_ok in H1. destruct (ofZ_exact prec32 emax32 _ _ 63) as [N V]; [change (2 ^ prec32) with 16777216; lia|].
  apply (ltb_cl_false prec32 emax32 _ _ (proj1 N) (proj1 H1)) in H2. rewrite !(nnf_cl prec32 emax32) in H2 by assumption. rewrite V in H2. exact H2.
Qed.
Lemma noc_max d t nb : sound_transfer t -> interpolateBW f32A (tbt f32A d) (max_noc_bandwidth f32A d) (t_psize t) (t_npkts t) = Ok nb -> (vl nb <= 64)%R.
Proof.
  intros (Hp & Hn & _) H. destruct (interpolated d (t_psize t) (t_npkts t)) as (b & H1 & _ & _ & H3); [lia|lia|]. assert (E : @Ok (F f32A) nb = Ok b) by (rewrite <- H; exact H1). injection E as ->.
  change (real b) with (vl b) in H3. change (real (max_noc_bandwidth f32A d)) with (vl (max_noc_bandwidth f32A d)) in H3. pose proof (noc_bandwidth_max d). assert (P : bpow radix2 (-23) = (/ 8388608)%R) by (cbn; lra). rewrite P in H3. lra.
Qed.
Lemma some_length (l : list nat) n : NoDup l -> (forall i, In i l -> (i < n)%nat) -> (List.length l <= n)%nat.
Proof. intros ND H. rewrite <- (seq_length n 0). apply NoDup_incl_length; [exact ND|]. intros i Hi. apply in_seq. specialize (H i Hi). lia. Qed.

Section Congested.
  Context (ord : Z -> list Z -> list Z) (ord_perm : link_order ord) (bord : list bucket -> list bucket) (bord_perm : bucket_order bord).
  Context (d : device) (HD : supported d) (cpt : Z) (wl : workload (F f32A)) (HC : proper_cpt cpt) (HR : ready_workload d wl) (HS : simple_workload d wl).
  Let HW : proper wl := proj1 HR.
  Let HF : Forall sound_transfer (all_transfers wl) := proj1 (proj2 HR).
  Lemma visited_fine congestion s i x : visited f32A ord bord d congestion cpt wl s -> nth_error (sm_sts f32A s) i = Some x -> state_fine f32A d x /\ NoDup (s_route x).
  Proof.
    intros V Hx. destruct (visited_facts f32A ord bord bord_perm d congestion cpt wl HW HC s V) as (sts0 & E & h & fin & HSU & _ & I & _).
    destruct (static_same f32A _ _ _ _ _ I _ _ Hx) as (z0 & Hz0 & ET & ER). destruct HSU as [HI _]. destruct (init_states f32A ord d wl HW _ HI) as (M & _ & G).
    pose proof (G _ _ Hz0) as GZ. assert (Ht : nth_error (all_transfers wl) i = Some (s_tr z0)) by apply GZ. pose proof (Forall2_nth _ _ _ M _ _ _ Ht Hz0) as MS. cbn beta in MS.
    pose proof HR as (_ & _ & HA & _). pose proof HS as [HO _]. rewrite Forall_forall in HA, HO. pose proof (nth_error_In _ _ Ht) as Hin.
    destruct (make_fine f32A ord d (s_tr z0) ord_perm HD (HA _ Hin)) as [_ MF]. pose proof (MF z0 MS) as (F1 & F2 & F3). split.
    - unfold state_fine. rewrite ET, ER. auto.
    - rewrite ER. exact (made_nodup f32A ord d _ z0 ord_perm HD (HA _ Hin) (HO _ Hin) MS).
  Qed.
  Lemma steady_moves m : cpt <= 2 ^ 24 -> 1 <= m <= 2 ^ 24 -> Z.of_nat (List.length (all_transfers wl)) <= 2 ^ 18 ->
    Forall (steady d cpt m (Z.of_nat (List.length (all_transfers wl)))) (all_transfers wl) -> moves_on f32A ord bord d true cpt wl m.
  Proof.
    intros H1 H2 HN HB. set (n := Z.of_nat (List.length (all_transfers wl))) in *. apply (moves_by_rate ord bord bord_perm d cpt wl HW HC); [assumption|lia|]. intros s s' i x' HRe HT Hi Hx'.
    assert (V' : visited f32A ord bord d true cpt wl s') by (right; exists s; split; [exact HRe|exact HT]).
    destruct (rate_round f32A ord bord bord_perm d true cpt wl HW HC s s' HRe HT) as (sts1 & sts2 & live & ND & HM & HRT & HST & HX).
    assert (Hl : In i live) by (apply HM; left; exact Hi). destruct (HX i x' Hl Hx') as (x2 & Hx2 & ETx & EBx & _ & _). rewrite EBx.
    destruct (reach_clock f32A ord bord bord_perm d true cpt wl HW HC s HRe) as (_ & K2 & K3). pose proof HC as [HC1 HC2]. rewrite Forall_forall in HB. pose proof HF as HF'. rewrite Forall_forall in HF'.
    assert (TW : timestep_window (sm_curr f32A s - cpt) (sm_curr f32A s)) by (split; lia).
    assert (SL : sound_live (sm_curr f32A s) sts1 live).
    { split; [assumption|]. intros j x1 Hj Hx1. destruct (HST j x1 Hj Hx1) as [S1 S2]. split; [|exact S1]. apply HF'. eapply nth_error_In. exact S2. }
    destruct (rates_shape d _ _ sts1 live _ true sts2 _ TW SL HRT) as [[G1 G2] RS]. pose proof (rate_spec f32A d _ _ sts1 live _ true sts2 _ ND HRT) as (_ & _ & RSP).
    destruct (visited_facts f32A ord bord bord_perm d true cpt wl HW HC s' V') as (sts0 & E & h & fin & HSU & _ & INV & _).
    destruct (places f32A ord bord bord_perm d true cpt wl HW HC s' V') as (_ & _ & LEN & _).
    assert (BACK : forall j x1, In j live -> nth_error sts1 j = Some x1 -> exists y, nth_error (sm_sts f32A s') j = Some y /\ s_tr y = s_tr x1 /\ s_route y = s_route x1 /\ In (s_tr x1) (all_transfers wl)).
    { intros j x1 Hj Hx1. destruct (HST j x1 Hj Hx1) as [_ S2]. assert (Hlt : (j < List.length (sm_sts f32A s'))%nat) by (rewrite LEN; eapply nth_some_lt; exact S2). destruct (nth_lt_some _ _ Hlt) as (y & Hy).
      destruct (HX j y Hj Hy) as (y2 & Hy2 & T1 & _ & _ & T2). destruct (RSP j Hj) as (z & b0 & b & Z1 & _ & Z2 & _). rewrite Hx1 in Z1. injection Z1 as <-. rewrite Hy2 in Z2. injection Z2 as ->. cbn [with_bw s_tr s_route] in T1, T2.
      exists y. split; [exact Hy|]. split; [exact T1|]. split; [exact T2|]. eapply nth_error_In. exact S2. }
    assert (GM : grid_max n (g_niu (sm_grids f32A s')) /\ grid_max n (g_link (sm_grids f32A s'))).
    { pose proof HRT as HU. unfold computeCurrentTransferRate in HU. apply bind_ok in HU as (u & U1 & HU). pose proof (started_live _ _ _ _ _ SL U1) as LU. apply congestion_spec in HU as (DM & _); [|exact ND].
      pose proof (update_spec f32A _ _ _ _ U1) as (_ & _ & UI).
      refine (grids_max d _ _ u live _ n (proj1 TW) (proj2 TW) LU _ _ _ HN DM).
      - intros j y Hj Hy. destruct (UI j Hj) as (x1 & b & Hx1 & Hb & Hy'). rewrite Hy in Hy'. injection Hy' as ->. cbn [with_bw s_bw]. destruct (BACK j x1 Hj Hx1) as (_ & _ & _ & _ & Hin). pose proof (HF' _ Hin) as SD.
        destruct (uncongested_ok d _ SD) as (b' & nb & B1 & B2 & _ & _ & _ & _ & B3). assert (EB : @Ok (F f32A) b = Ok b') by (rewrite <- Hb; exact B1). injection EB as ->.
        apply Rle_trans with (vl nb); [apply Rle_trans with (2 := Rmin_r (vl (t_rate (s_tr x1))) (vl nb)); right; exact B3|]. exact (noc_max d _ nb SD B2).
      - intros j y Hj Hy. destruct (UI j Hj) as (x1 & b & Hx1 & Hb & Hy'). rewrite Hy in Hy'. injection Hy' as ->. cbn [with_bw s_route]. destruct (BACK j x1 Hj Hx1) as (z & Hz & T1 & T2 & _). destruct (visited_fine true s' j z V' Hz) as [VF VN].
        split; [|exact (eq_ind _ (fun r => NoDup r) VN _ T2)].
        exact (eq_ind _ (fun r => NoDup r) (nius_nodup d z HD VF) _ (f_equal (fun t => match niu_ids f32A d t with Ok ids => ids | _ => [] end) T1)).
      - pose proof (some_length live (List.length (all_transfers wl)) ND) as SL'. apply inj_le. apply SL'. intros j Hj. destruct (RSP j Hj) as (x1 & _ & _ & Hx1 & _). destruct (HST j x1 Hj Hx1) as [_ S2]. eapply nth_some_lt. exact S2. }
    destruct GM as [M1 M2]. destruct (RS i Hl) as (x & b0 & b & Rx & Rx2 & Rb0 & N0 & _ & NR & Nb & _ & Enb). rewrite Hx2 in Rx2. injection Rx2 as ->. cbn [with_bw s_bw].
    destruct (BACK i x Hl Rx) as (_ & _ & _ & _ & Hin). destruct (HB _ Hin) as (nb & c & I1 & I2 & I3 & I4 & (I5 & I6) & I7).
    destruct (uncongested_ok d _ (HF' _ Hin)) as (b' & nb' & B1 & B2 & _ & _ & _ & _ & B3). assert (EB : @Ok (F f32A) b0 = Ok b') by (rewrite <- Rb0; exact B1). injection EB as ->.
    assert (EN : @Ok (F f32A) nb' = Ok nb) by (rewrite <- B2; exact I1). injection EN as ->. assert (I8 : (IZR (256 * n * m) <= vl b' * c * IZR cpt)%R).
    { apply Rle_trans with (1 := I7). apply Rmult_le_compat_r; [apply (IZR_le 0); lia|]. apply Rmult_le_compat_r; [|right; exact (eq_sym B3)].
      assert (0 <= IZR (64 * n))%R by (apply (IZR_le 0); lia). lra. }
    clear I7. rename I8 into I7.
    assert (Hn1 : 1 <= n). { pose proof (nth_some_lt _ _ _ (proj2 (HST i x Hl Rx))) as C. unfold n. lia. }
    assert (R64 : IZR (64 * n) = (64 * IZR n)%R) by apply mult_IZR. assert (R256 : IZR (256 * n * m) = (256 * IZR n * IZR m)%R) by (rewrite !mult_IZR; reflexivity). rewrite R256 in I7.
    assert (PN : (1 <= IZR n)%R) by (apply (IZR_le 1); lia). assert (PM : (1 <= IZR m)%R) by (apply (IZR_le 1); lia). assert (PC : (1 <= IZR cpt)%R) by (apply (IZR_le 1); lia).
    assert (PC2 : (IZR cpt <= 16777216)%R) by (apply IZR_le; change (2 ^ 24) with 16777216 in H1; exact H1).
    pose proof (nnf_lt prec32 emax32 _ N0) as [P0 _]. set (v := vl b') in *.
    assert (LB : (bpow radix2 (-24) <= v)%R).
    { assert (P24 : bpow radix2 (-24) = (/ 16777216)%R) by (cbn; lra). rewrite P24. rewrite R64 in I5.
      assert (C0 : (0 <= c)%R) by (rewrite R64 in I6; lra).
      assert (X1 : (v * c * IZR cpt <= v * (64 * IZR n) * 16777216)%R).
      { apply Rmult_le_compat; [apply Rmult_le_pos; assumption|lra|apply Rmult_le_compat_l; assumption|assumption]. }
      assert (X2 : (256 * IZR n * 1 <= 256 * IZR n * IZR m)%R) by (apply Rmult_le_compat_l; lra).
      assert (X3 : (IZR n * 4 <= IZR n * (v * 16777216))%R) by lra. apply Rmult_le_reg_l in X3; lra. }
    split; [exact Nb|].
    pose proof (new_bw_low n c (conj Hn1 HN) I5 I6 d _ (with_bw x b') b Enb G1 G2 M1 M2 NR N0 LB I2 I3 I4) as LOW. cbn [with_bw s_bw] in LOW. fold v in LOW.
    apply Rle_trans with (v * (c / IZR (64 * n)) / 4 * IZR cpt)%R; [|apply Rmult_le_compat_r; [lra|exact LOW]].
    rewrite R64. apply Rmult_le_reg_l with (256 * IZR n)%R; [lra|]. replace (256 * IZR n * (v * (c / (64 * IZR n)) / 4 * IZR cpt))%R with (v * c * IZR cpt)%R by (field; lra). exact I7.
  Qed.
End Congested.


(* a plain workload that keeps moving, and has enough cycles for all its transfers one after the other, succeeds *)
Theorem run_succeeds ord bord (cfg : config (F f32A)) d (wl wl' : workload (F f32A)) m wait : link_order ord -> bucket_order bord -> u32_config cfg -> npeAPI_make f32A cfg = Ok d ->
  usable_workload d cfg wl -> preprocessWorkload f32A d cfg wl = Ok wl' -> plain d wl' -> parents_first f32A (all_transfers wl') ->
  1 <= m -> moves_on f32A ord bord d (negb (String.eqb (cf_model cfg) "none")) (cf_cpt cfg) wl' m -> waits_at_most f32A d (all_transfers wl') wait ->
  cycles_for_all (cf_cpt cfg) m wait (all_transfers wl') <= MAX_CYCLE_LIMIT -> exists stt, runNPE f32A ord bord d cfg wl = Ok (Stats stt).
Proof.
  intros HO HB HU HM HUs HP HPl HPF Hm HMv HWt HL. destruct (run_cases ord bord cfg d wl HO HB HU HM HUs) as (wl1 & HP1 & HR). assert (wl1 = wl') as -> by congruence. cbv zeta in HR.
  destruct HR as [[R _]|[[[_ R] _]|[[(_ & _ & R1 & R2) _]|[_ [R|[_ R]]]]]]; [exfalso; apply R; apply HPl| | |exact R|].
  - exfalso. destruct HPl as (_ & N & _). apply Exists_exists in R as (t & Ht & S). rewrite Forall_forall in N. exact (N t Ht S).
  - exfalso. destruct HPl as (_ & _ & N). specialize (N R1). apply Exists_exists in R2 as (t & Ht & S). rewrite Forall_forall in N. exact (N t Ht S).
  - exfalso. destruct HU as [_ HC]. unfold npeAPI_make in HM. apply bind_ok in HM as (d' & HM & HM'). apply bind_ok in HM' as ([] & HV & HM'). assert (d' = d) as -> by congruence.
    apply validate_config_iff in HV. destruct HV as [HV _]. assert (HD : supported d) by (exists (cf_device cfg); apply createDeviceModel_iff; exact HM).
    destruct (preprocess_fit cfg d wl HD HUs) as (wl2 & HP2 & F). assert (wl2 = wl') as -> by congruence. destruct (fit_ready d wl' F (proj1 HPl)) as (HW & HF & _).
    destruct R as (n & s & s' & B1 & B2 & B3 & B4).
    exact (never_too_long ord bord HB d _ (cf_cpt cfg) wl' HW (conj HV HC) HF m Hm wait HMv HWt HPF HL n s s' B1 B2 B3 B4).
Qed.

Theorem run_static ord bord (cfg : config (F f32A)) d (wl wl' : workload (F f32A)) m wait : link_order ord -> bucket_order bord -> u32_config cfg -> npeAPI_make f32A cfg = Ok d ->
  usable_workload d cfg wl -> preprocessWorkload f32A d cfg wl = Ok wl' -> plain d wl' -> parents_first f32A (all_transfers wl') ->
  keeps_moving d (cf_model cfg) (cf_cpt cfg) m (all_transfers wl') -> waits_at_most f32A d (all_transfers wl') wait ->
  cycles_for_all (cf_cpt cfg) m wait (all_transfers wl') <= MAX_CYCLE_LIMIT -> exists stt, runNPE f32A ord bord d cfg wl = Ok (Stats stt).
Proof.
  intros HO HB HU HM HUs HP HPl HPF (K1 & K2 & K3) HWt HL. apply (run_succeeds ord bord cfg d wl wl' m wait); try assumption; [lia|].
  destruct HU as [_ HC]. pose proof HM as HM0. unfold npeAPI_make in HM. apply bind_ok in HM as (d' & HM & HM'). apply bind_ok in HM' as ([] & HV & HM'). assert (d' = d) as -> by congruence.
  apply validate_config_iff in HV. destruct HV as [HV _]. assert (HD : supported d) by (exists (cf_device cfg); apply createDeviceModel_iff; exact HM).
  destruct (preprocess_fit cfg d wl HD HUs) as (wl2 & HP2 & F). assert (wl2 = wl') as -> by congruence. pose proof (fit_ready d wl' F (proj1 HPl)) as HR.
  destruct (String.eqb (cf_model cfg) "none"); cbn [negb].
  - apply brisk_moves; [exact HB|exact (proj1 HR)|split; assumption|exact (proj1 (proj2 HR))|exact K1|lia|exact K3].
  - destruct K3 as [K3 K4]. apply (steady_moves ord HO bord HB d HD (cf_cpt cfg) wl' (conj HV HC) HR (plain_simple _ _ HPl) m K1 K2 K3 K4).
Qed.
