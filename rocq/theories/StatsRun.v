(* The statistics recorded in a run (C42). *)
From Coq Require Import ZArith Arith Reals Lra Lia Bool List String Sorting.Permutation Floats.SpecFloat ZifyBool ZifyNat.
From Flocq Require Import Core IEEE754.BinarySingleNaN.
From Verif Require Import Base Arith Util Device Workload SpecWorkload DepTracker Rates Stats Engine UtilProofs WorkloadProofs SpecTracker TrackerProofs DepGenProofs SpecEngine SpecRates SpecStats
  StepProofs EngineProofs RunProofs DepFacts EngineFacts EngineFacts2 EngineFacts3 EngineFacts4 EngineFacts5 FloatProofs FloatProofs2 RateFacts RateFloat RateFloat2 RateFloat3 RateFloat4 EngineRates StatsFacts StatsAvg StatsFloat.
Import ListNotations.
Local Open Scope list_scope.
Open Scope Z_scope.
Ltac Zify.zify_post_hook ::= idtac.

Section G.
  Context (A : arith).
  (* the fields that the summary fills in *)
  Definition overall (ds : dstats A) :=
    (ds_avg_ld A ds, ds_max_ld A ds, ds_avg_lu A ds, ds_max_lu A ds, ds_avg_nd A ds, ds_max_nd A ds, ds_avg_ld0 A ds, ds_avg_lu0 A ds, ds_max_ld0 A ds, ds_avg_ld1 A ds, ds_avg_lu1 A ds, ds_max_ld1 A ds, ds_avg_mc A ds, ds_congfree A ds).
  Definition untouched (ds : dstats A) : Prop := overall ds = overall (empty_ds A).
  Definition ent (P : tstats A -> Prop) (k curr : Z) (ds : dstats A) : Prop :=
    untouched ds /\ Forall P (ds_ts A ds) /\ (ds_ts A ds <> [] -> k <= curr).
  Lemma get_map f stt stt' : stats_map A f stt = Ok stt' -> forall id ds', stats_get A stt' id = Some ds' -> exists ds, stats_get A stt id = Some ds /\ f id ds = Ok ds'.
  Proof.
    unfold stats_map. revert stt'. induction stt as [|[j ds] stt IH]; intros stt' H id ds' HG; cbn [mapM] in H; [injection H as <-; discriminate HG|].
    apply bind_ok in H as ([j' ds1] & H1 & H). apply bind_ok in H as (r & H2 & H). injection H as <-. cbn [fst snd] in H1.
    apply bind_ok in H1 as (ds2 & H1 & H3). injection H3 as <- <-. cbn [stats_get] in HG |- *. destruct (Z.eqb_spec j id) as [->|N]; [injection HG as <-; eauto|apply (IH _ H2 _ _ HG)].
  Qed.
  Lemma note_ent (wl : workload (F A)) sts ids P k curr id : forall stt stt', note_all A wl sts ids stt = Ok stt' ->
    (forall ds, stats_get A stt id = Some ds -> ent P k curr ds) -> forall ds, stats_get A stt' id = Some ds -> ent P k curr ds.
  Proof.
    assert (W : forall j off e g stt, (forall ds, stats_get A stt id = Some ds -> ent P k curr ds) ->
      forall ds, stats_get A (updateWorstCase A j off e g stt) id = Some ds -> ent P k curr ds).
    { intros j off e g stt H ds HG. unfold updateWorstCase in HG. destruct (_ && _); [|auto]. rewrite stats_get_mod in HG. destruct (Z.eqb_spec id j) as [<-|]; [|auto].
      injection HG as <-. destruct (stats_get A stt id) as [ds0|]; [exact (H ds0 eq_refl)|]. split; [unfold untouched; cbn; auto|]. split; [constructor|]. intros C. contradiction C. reflexivity. }
    unfold note_all. induction ids as [|i ids IH]; intros stt stt' H HI; cbn [foldM] in H; [injection H as <-; exact HI|].
    apply bind_ok in H as (st1 & H1 & H). apply (IH _ _ H). apply bind_ok in H1 as (x & _ & H1). unfold note in H1. apply bind_ok in H1 as (g & _ & H1). apply bind_ok in H1 as (gm & _ & H1). injection H1 as <-.
    apply W, W, HI.
  Qed.
  Lemma update_get d g live stt id ds' : stats_get A (updateSimulationStats A d g live stt) id = Some ds' -> exists ds, stats_get A stt id = Some ds /\
    match rev (ds_ts A ds) with [] => ds' = ds | t :: before => ds' = with_ts A ds (rev before ++ [device_timestep A d g live id t]) end.
  Proof.
    unfold updateSimulationStats. induction stt as [|[j ds] stt IH]; cbn [map stats_get]; [discriminate|]. cbn [fst snd].
    destruct (rev (ds_ts A ds)) as [|t before] eqn:ER; cbn [stats_get]; destruct (Z.eqb_spec j id) as [->|]; try exact IH; intros H; injection H as <-; exists ds; rewrite ER; auto.
  Qed.
End G.

Section R.
  Context (A : arith) (ord : Z -> list Z -> list Z) (bord : list bucket -> list bucket) (bord_perm : bucket_order bord).
  Context (d : device) (congestion : bool) (cpt : Z) (wl : workload (F A)).
  Context (HW : proper wl) (HC : proper_cpt cpt).
  Notation reach := (reach A ord bord d congestion cpt wl).
  Notation step := (timestep A d congestion cpt wl).
  Context (id : Z) (HI : has_stats d id) (P : tstats A -> Prop).
  Context (HP : forall s s' live, reach s -> step s = Ok s' -> (forall i, In i live -> has_started A s' i) -> NoDup live /\ (forall i, In i live <-> takes_part s s' i) -> P (device_timestep A d (sm_grids A s') live id (fresh_ts A (sm_curr A s - cpt) (sm_curr A s)))).

  Definition all_recorded (curr : Z) (stt : stats A) : Prop :=
    forall g ds, getGoldenResultCycles wl id = Ok g -> stats_get A stt id = Some ds -> ent A P (fst g) curr ds.
  Lemma all_step s s' : reach s -> step s = Ok s' -> all_recorded (sm_curr A s - cpt) (sm_stats A s) -> all_recorded (sm_curr A s') (sm_stats A s').
  Proof.
    intros HR HT IH g ds' Hg HD'. destruct (reach_setup A ord bord bord_perm d congestion cpt wl HW s HR) as (sts0 & E & HS).
    destruct (step_inv A ord bord bord_perm d congestion cpt wl HW HC _ _ _ _ HS HR HT) as (fin & act & sts1 & sts2 & stt & I & SR & I').
    assert (HL : forall i, In i (sm_live A s ++ act) -> has_started A s' i).
    { intros i Hi. destruct (complete A (sm_sts A s') i) eqn:EC.
      - right. apply (finished_spec A ord cpt _ _ _ _ _ I'). apply in_or_app. right. apply filter_In. auto.
      - left. unfold is_live. rewrite (sr_live _ _ _ _ _ _ _ _ _ _ _ SR). apply filter_In. rewrite EC. auto. }
    assert (HRd : NoDup (sm_live A s ++ act) /\ forall i, In i (sm_live A s ++ act) <-> takes_part s s' i).
    { pose proof (part_ids _ _ _ _ _ _ I) as [ND _]. pose proof (sr_queue _ _ _ _ _ _ _ _ _ _ _ SR) as PQ. pose proof (sr_act _ _ _ _ _ _ _ _ _ _ _ SR) as PA.
      assert (NDQ : NoDup (act ++ map snd (sm_queue A s'))) by (eapply Permutation_NoDup; [exact PQ|]; eapply NoDup_app_l; exact ND). split.
      - apply (Permutation_NoDup (l := act ++ sm_live A s)); [apply Permutation_app_comm|]. apply (NoDup_app_l _ (map snd (sm_queue A s') ++ fin)).
        eapply Permutation_NoDup; [|exact ND]. rewrite PQ. rewrite <- !app_assoc. apply Permutation_app_head. rewrite !app_assoc. apply Permutation_app_tail. apply Permutation_app_comm.
      - intros i. rewrite in_app_iff. unfold takes_part, is_live, is_queued. split; (intros [Hi|Hi]; [left; exact Hi|right]).
        + split; [apply PA; assumption|]. exact (NoDup_app_not _ _ _ NDQ Hi).
        + destruct Hi as [Hq Hn]. eapply Permutation_in in Hq; [|exact PQ]. apply in_app_or in Hq as [Hq|Hq]; [assumption|contradiction]. }
    destruct (sr_stats0 _ _ _ _ _ _ _ _ _ _ _ SR) as (stt1 & S1 & S2). pose proof (sr_stats _ _ _ _ _ _ _ _ _ _ _ SR) as S3.
    destruct (reach_clock A ord bord bord_perm d congestion cpt wl HW HC _ HR) as (K1 & K2 & K3). pose proof HC as [HC1 HC2].
    rewrite (sr_curr _ _ _ _ _ _ _ _ _ _ _ SR). refine (note_ent A wl _ _ P (fst g) (sm_curr A s) id _ _ S3 _ ds' HD').
    intros ds2 HD2. subst stt. apply update_get in HD2 as (ds1 & HD1 & E1). unfold insertTimestep in S1. destruct (get_map A _ _ _ S1 _ _ HD1) as (ds & HD & E2).
    rewrite Hg in E2. cbn [bind] in E2. injection E2 as <-. destruct (IH g ds Hg HD) as (U & FA & NE). rewrite K1 in E1.
    destruct (Z.leb_spec (fst g) (sm_curr A s)) as [L|L].
    - cbn [with_ts ds_ts] in E1. rewrite rev_app_distr in E1. cbn [rev app] in E1. rewrite E1. split; [exact U|]. cbn [with_ts ds_ts]. rewrite rev_involutive. split; [|intros _; exact L].
      apply Forall_app. split; [exact FA|]. constructor; [|constructor]. apply HP; assumption.
    - assert (EN : ds_ts A ds = []).
      { destruct (ds_ts A ds) eqn:EQ; [reflexivity|]. assert (fst g <= sm_curr A s - cpt) by (apply NE; discriminate). lia. }
      rewrite EN in E1. cbn [rev] in E1. subst ds2. split; [exact U|]. split; [exact FA|]. rewrite EN. intros C. contradiction C. reflexivity.
  Qed.
  Lemma all_reach s : reach s -> all_recorded (sm_curr A s - cpt) (sm_stats A s).
  Proof.
    intros HR. induction HR as [s H|s s' HR IH HT HF HM].
    - intros g ds Hg HD. pose proof (init_iv A ord bord bord_perm d cpt wl HW _ _ H HI) as IV. unfold iv in IV. rewrite HD in IV. cbn [option_map] in IV. injection IV as IV.
      destruct (sim_init_eq A ord bord bord_perm d cpt wl HW _ H) as (sts0 & E & _ & ->). cbn [sm_stats sm_curr] in *.
      assert (ED : ds = empty_ds A).
      { unfold stats_make in HD. induction (dv_device_ids d) as [|j l IH]; cbn [map app stats_get] in HD; [destruct (MESH_DEVICE =? id); [injection HD as <-; reflexivity|discriminate HD]|].
        destruct (j =? id); [injection HD as <-; reflexivity|auto]. }
      subst ds. split; [unfold untouched; cbn; auto|]. split; [constructor|]. intros C. contradiction C. reflexivity.
    - pose proof (all_step _ _ HR HT IH) as Q. cbn [advance sm_stats sm_curr]. pose proof (reach_time A ord bord bord_perm d congestion cpt wl HW HC s HR) as T.
      rewrite (step_curr A d congestion cpt wl _ _ HT) in *. destruct (time_next ord cpt HC _ T HM) as [-> _]. replace (sm_curr A s + cpt - cpt) with (sm_curr A s) by lia. exact Q.
  Qed.
End R.

Section F.
  Context (A : arith) (ord : Z -> list Z -> list Z) (bord : list bucket -> list bucket) (bord_perm : bucket_order bord).
  Context (d : device) (cpt : Z) (wl : workload (F A)).
  Context (HW : proper wl) (HC : proper_cpt cpt) (model : string).
  Notation cong := (negb (String.eqb model "none")).
  Context (id : Z) (HI : has_stats d id) (P : tstats A -> Prop).
  Context (HP : forall s s' live, reach A ord bord d cong cpt wl s -> timestep A d cong cpt wl s = Ok s' -> (forall i, In i live -> has_started A s' i) -> NoDup live /\ (forall i, In i live <-> takes_part s s' i) -> P (device_timestep A d (sm_grids A s') live id (fresh_ts A (sm_curr A s - cpt) (sm_curr A s)))).
  Context (HP0 : P (fresh_ts A 0 0)).
  Lemma summarised stt ds : runSinglePerfSim A ord bord d model cpt wl = Ok (Stats stt) -> stats_get A stt id = Some ds ->
    exists ds1, untouched A ds1 /\ Forall P (ds_ts A ds1) /\ (0 <= ds_est A ds1 < 2 ^ 64 /\ 0 <= ds_golden A ds1 < 2 ^ 32) /\ summary_device A d wl id ds1 = Ok ds.
  Proof.
    unfold runSinglePerfSim. intros H HD. apply bind_ok in H as (r & Hr & H). destruct r as [s|e]; [|discriminate H].
    apply bind_ok in H as (stt1 & H1 & H). apply bind_ok in H as (stt2 & H2 & H). injection H as <-.
    unfold computeSummaryStats in H2. destruct (get_map A _ _ _ H2 _ _ HD) as (ds1 & HD1 & E1). unfold finishSimulation in H1. destruct (get_map A _ _ _ H1 _ _ HD1) as (ds0 & HD0 & E0).
    destruct (succeeds_end A ord bord d _ cpt wl s Hr) as [(s0 & HR & HT) _].
    unfold finish_device in E0. apply bind_ok in E0 as (g & Hg & E0). cbv zeta in E0.
    destruct (all_step A ord bord bord_perm d cong cpt wl HW HC id P HP s0 s HR HT (all_reach A ord bord bord_perm d cong cpt wl HW HC id HI P HP s0 HR) g ds0 Hg HD0) as (U & FA & _).
    assert (RG : 0 <= ds_est A ds1 < 2 ^ 64 /\ 0 <= ds_golden A ds1 < 2 ^ 32).
    { assert (G32 : 0 <= u32 (snd g - fst g) < 2 ^ 32) by (apply Z.mod_pos_bound; reflexivity).
      destruct (_ <=? _); [injection E0 as <-; split; [cbn [ds_est]; split; [discriminate|reflexivity]|exact G32]|]. destruct (cpt =? 0); [discriminate E0|]. injection E0 as <-.
      split; [|exact G32]. cbn [ds_est]. apply Z.mod_pos_bound. reflexivity. }
    exists ds1. assert (Q : untouched A ds1 /\ Forall P (ds_ts A ds1)).
    { destruct (_ <=? _); [injection E0 as <-; split; [exact U|constructor]|]. destruct (cpt =? 0); [discriminate E0|]. injection E0 as <-. split; [exact U|]. cbn [ds_ts]. unfold resize.
      apply Forall_app. split; [|apply Forall_forall; intros x Hx; apply repeat_spec in Hx; subst x; exact HP0].
      apply Forall_forall. intros x Hx. rewrite Forall_forall in FA. apply FA. rewrite <- (firstn_skipn (Z.to_nat (u64 (u64 (u64 (u64 (ds_worst A ds0 + cpt) - 1) / cpt - fst g / cpt) + 1))) (ds_ts A ds0)). apply in_or_app. left. exact Hx. }
    split; [exact (proj1 Q)|]. split; [exact (proj2 Q)|]. split; [exact RG|exact E1].
  Qed.
  Lemma all_final stt ds : runSinglePerfSim A ord bord d model cpt wl = Ok (Stats stt) -> stats_get A stt id = Some ds ->
    Forall P (ds_ts A ds) /\ exists n, n = d_ofZ A (Z.of_nat (List.length (ds_ts A ds))) /\
      let avg f := d_div A (dsum A (map f (ds_ts A ds)) (dz A)) n in
      ds_avg_lu A ds = avg (ts_avg_lu A) /\ ds_avg_lu0 A ds = avg (ts_avg_lu0 A) /\ ds_avg_lu1 A ds = avg (ts_avg_lu1 A) /\ ds_avg_mc A ds = avg (ts_avg_mc A).
  Proof.
    intros H HD. destruct (summarised stt ds H HD) as (ds1 & U & FA1 & _ & E1). unfold untouched, overall in U. cbn [empty_ds ds_avg_ld ds_max_ld ds_avg_lu ds_max_lu ds_avg_nd ds_max_nd ds_avg_ld0 ds_avg_lu0 ds_max_ld0 ds_avg_ld1 ds_avg_lu1 ds_max_ld1 ds_avg_mc ds_congfree] in U.
    injection U as _ _ U1 _ _ _ _ U2 _ _ U3 _ U4 _. unfold summary_device in E1. apply bind_ok in E1 as (rw & _ & E1). apply bind_ok in E1 as (et & _ & E1). injection E1 as <-.
    cbn [ds_ts]. split; [exact FA1|]. eexists. split; [reflexivity|].
    assert (SM : forall f : tstats A -> D A, sum_ts A f ds1 (dz A) = dsum A (map f (ds_ts A ds1)) (dz A)).
    { intros f. unfold sum_ts, dsum. generalize (ds_ts A ds1) as l. generalize (dz A) as x. intros x l. revert x. induction l as [|t l IH]; intros x; [reflexivity|exact (IH _)]. }
    cbv zeta. cbn [ds_avg_lu ds_avg_lu0 ds_avg_lu1 ds_avg_mc]. rewrite U1, U2, U3, U4, !SM. auto.
  Qed.
End F.

(** * Floats *)
Lemma percentage_nf x : percentage x <-> nf64 x /\ (vl x <= 100)%R.
Proof.
  unfold percentage. split.
  - intros (V & C & L1 & L2). split; [|exact L2]. destruct C as [->|(m & e & ->)]; (split; [split; [exact V|reflexivity]|reflexivity]).
  - intros [[[V S] Fi] L]. split; [exact V|]. split; [|split; [exact (vl_nneg prec64 emax64 _ (conj V S))|exact L]].
    destruct x as [b|b| |b m0 e0]; try discriminate Fi; [left; rewrite S; reflexivity|right; rewrite S; eauto].
Qed.
Lemma zero_percentage : percentage (dz f32A).
Proof. apply percentage_nf. split; [exact (nnf_zero prec64 emax64)|]. change (vl (dz f32A)) with 0%R. lra. Qed.
Lemma nn_not_negative x : nn32 x -> not_negative x.
Proof. intros [V S]. split; [exact V|]. destruct x as [[]|[]| |[] m e]; try reflexivity; try discriminate S; exact I. Qed.
Lemma average_ok l : l <> [] -> Z.of_nat (List.length l) * 100 < 2 ^ 53 -> Forall percentage l ->
  percentage (d_div f32A (dsum f32A l (dz f32A)) (d_ofZ f32A (Z.of_nat (List.length l)))).
Proof.
  intros NE HL HF. set (n := Z.of_nat (List.length l)) in *. assert (Hn : 1 <= n) by (destruct l; [congruence|cbn [List.length] in n; lia]).
  assert (V100 : F2R (Float radix2 100 0) = 100%R) by (unfold F2R; cbn; lra).
  destruct (dsum_bound 100 0 ltac:(lia) l 0 (dz f32A) ltac:(lia) ltac:(rewrite Z.add_0_l; exact HL)) as [NS LS].
  { exact (nnf_zero prec64 emax64). }
  { rewrite Rmult_0_l. apply Rle_refl. }
  { eapply Forall_impl; [|exact HF]. intros y Hy. apply percentage_nf in Hy. rewrite V100. exact Hy. }
  rewrite Z.add_0_l, V100 in LS. fold n in LS. set (s := dsum f32A l (dz f32A)) in *.
  destruct (ofZ_exact prec64 emax64 eq_refl eq_refl n) as [NN VN]; [split; [lia|change (2 ^ prec64) with 9007199254740992; change (2 ^ 53) with 9007199254740992 in HL; lia]|].
  change (d_ofZ f32A n) with (sf_ofZ prec64 emax64 n). change (d_div f32A s (sf_ofZ prec64 emax64 n)) with (SFdiv prec64 emax64 s (sf_ofZ prec64 emax64 n)).
  assert (Pn : (1 <= IZR n)%R) by (apply IZR_le; exact Hn).
  destruct (div_nneg prec64 emax64 eq_refl eq_refl s _ NS NN) as [ND CD]; [rewrite VN; lra|]. rewrite VN in CD.
  assert (L : (cl emax64 (SFdiv prec64 emax64 s (sf_ofZ prec64 emax64 n)) <= 100)%R).
  { rewrite CD. eapply Rle_trans; [apply Rmin_l|]. apply Rle_trans with (rd64 100).
    - apply le64. apply Rmult_le_reg_r with (IZR n); [lra|]. unfold Rdiv. rewrite Rmult_assoc, Rinv_l by lra. lra.
    - apply Req_le. apply round_generic; [apply valid_rnd_N|]. rewrite <- V100. apply (generic_format_FLT radix2 (SpecFloat.emin prec64 emax64) prec64).
      exists (Float radix2 100 0); [reflexivity| |]; cbn; lia. }
  assert (NF : nf64 (SFdiv prec64 emax64 s (sf_ofZ prec64 emax64 n))).
  { apply (nneg_fin prec64 emax64); [exact ND|]. eapply Rle_lt_trans; [exact L|]. apply Rle_lt_trans with (bpow radix2 10); [|apply bpow_lt; reflexivity]. change (bpow radix2 10) with 1024%R. lra. }
  apply percentage_nf. split; [exact NF|]. rewrite (nnf_cl prec64 emax64) in L by exact NF. exact L.
Qed.

(* the multicast write demand *)
Definition mc_route (x : tstate (F f32A)) : list Z := if String.eqb (t_event (s_tr x)) "WRITE_MULTICAST" then s_route x else [].
Lemma mc_spec d st en sts live : forall g0 g, foldM (add_demand f32A d st en sts) live g0 = Ok g -> bumped f32A (ops_of f32A st en mc_route sts live) (g_mc g0) (g_mc g).
Proof.
  induction live as [|i live IH]; intros g0 g H; cbn [foldM] in H.
  - injection H as <-. apply bumped_nil.
  - apply bind_ok in H as (g1 & H1 & H). pose proof (IH _ _ H) as B. unfold add_demand in H1.
    apply bind_ok in H1 as (x & Hx & H1). apply vec_get_ok in Hx. apply bind_ok in H1 as (niu & _ & H1). apply bind_ok in H1 as (lk & _ & H1). apply bind_ok in H1 as (mc & Hm & H1). injection H1 as <-.
    cbn [g_mc] in *. cbn [ops_of flat_map]. rewrite Hx. eapply bumped_app; [|exact B]. unfold mc_route. destruct (String.eqb _ _); [apply links_bumped; exact Hm|injection Hm as <-; apply bumped_nil].
Qed.

Section Q.
  Context (ord : Z -> list Z -> list Z) (bord : list bucket -> list bucket) (bord_perm : bucket_order bord).
  Context (d : device) (HM : made d) (congestion : bool) (cpt : Z) (wl : workload spec_float).
  Context (HW : proper wl) (HC : proper_cpt cpt) (HF : Forall sound_transfer (all_transfers wl)).
  Definition grid_fine (g : grids (F f32A)) : Prop :=
    List.length (g_link g) = List.length (link_table d) /\ List.length (g_mc g) = List.length (link_table d) /\ Forall not_negative (g_link g) /\ Forall not_negative (g_mc g).
  Lemma zero_fine : grid_fine (zero_grids f32A d).
  Proof.
    unfold grid_fine. cbn [zero_grids g_link g_mc]. rewrite !map_length. split; [reflexivity|]. split; [reflexivity|].
    split; apply Forall_forall; intros x Hx; apply in_map_iff in Hx as (? & <- & _); (split; [reflexivity|reflexivity]).
  Qed.
  Lemma ok_forall g : grid_ok g -> Forall not_negative g.
  Proof. intros H. apply Forall_forall. intros x Hx. apply In_nth_error in Hx as (l & Hl). apply nn_not_negative. exact (H _ _ Hl). Qed.
  Lemma step_fine s s' : reach f32A ord bord d congestion cpt wl s -> timestep f32A d congestion cpt wl s = Ok s' -> grid_fine (sm_grids f32A s) -> grid_fine (sm_grids f32A s').
  Proof.
    intros HR HT GF. destruct (rate_round f32A ord bord bord_perm d congestion cpt wl HW HC s s' HR HT) as (sts1 & sts2 & live & ND & HM' & HRT & HST & _).
    destruct (reach_clock f32A ord bord bord_perm d congestion cpt wl HW HC s HR) as (_ & K2 & K3). pose proof HC as [HC1 HC2].
    assert (HL : sound_live (sm_curr f32A s) sts1 live).
    { split; [assumption|]. intros j x1 Hj Hx1. destruct (HST j x1 Hj Hx1) as [HS1 HS2]. split; [|exact HS1]. rewrite Forall_forall in HF. apply HF. eapply nth_error_In. exact HS2. }
    unfold computeCurrentTransferRate in HRT. apply bind_ok in HRT as (sts3 & H1 & H). destruct congestion; [|injection H as _ <-; exact GF].
    pose proof (started_live _ _ _ _ _ HL H1) as HL1. apply congestion_spec in H as (HD & _); [|assumption].
    destruct (grids_ok d (sm_curr f32A s - cpt) (sm_curr f32A s) _ _ _ ltac:(lia) ltac:(lia) HL1 HD) as [G1 G2]. pose proof (mc_spec _ _ _ _ _ _ _ HD) as B3.
    apply demand_spec in HD as (_ & B2 & _). cbn [zero_grids g_link g_mc] in B2, B3.
    split; [destruct B2 as [L _]; rewrite L; apply map_length|]. split; [destruct B3 as [L _]; rewrite L; apply map_length|]. split; [apply ok_forall; exact G2|].
    apply ok_forall. eapply bumped_ok; [exact B3|]. intros l. apply amounts_ok; [lia|lia|exact HL1].
  Qed.
  Lemma reach_fine s : reach f32A ord bord d congestion cpt wl s -> grid_fine (sm_grids f32A s).
  Proof.
    intros HR. induction HR as [s H|s s' HR IH HT HF' HM'].
    - destruct (sim_init_eq f32A ord bord bord_perm d cpt wl HW _ H) as (sts0 & E & _ & ->). exact zero_fine.
    - cbn [advance sm_grids]. exact (step_fine _ _ HR HT IH).
  Qed.
  Lemma step_percentages id s s' live : has_stats d id -> reach f32A ord bord d congestion cpt wl s -> timestep f32A d congestion cpt wl s = Ok s' ->
    percentages (device_timestep f32A d (sm_grids f32A s') live id (fresh_ts f32A (sm_curr f32A s - cpt) (sm_curr f32A s))).
  Proof.
    intros HI HR HT. destruct (step_fine _ _ HR HT (reach_fine _ HR)) as (L1 & L2 & P1 & P2). exact (utilisation d HM _ L1 L2 P1 P2 id live _ _ HI).
  Qed.
End Q.

(* every recorded timestep, and the averages over them *)
Theorem run_utilisation ord bord : bucket_order bord -> forall d, made d -> forall cpt wl, proper wl -> proper_cpt cpt -> Forall sound_transfer (all_transfers wl) ->
  forall model stt id ds, runSinglePerfSim f32A ord bord d model cpt wl = Ok (Stats stt) -> has_stats d id -> stats_get f32A stt id = Some ds ->
  Forall percentages (ds_ts f32A ds) /\
  (0 < Z.of_nat (List.length (ds_ts f32A ds)) < 2 ^ 46 ->
   percentage (ds_avg_lu f32A ds) /\ percentage (ds_avg_lu0 f32A ds) /\ percentage (ds_avg_lu1 f32A ds) /\ percentage (ds_avg_mc f32A ds)).
Proof.
  intros HB d HM cpt wl HW HC HF model stt id ds HR HI HD.
  destruct (all_final f32A ord bord HB d cpt wl HW HC model id HI percentages
    (fun s s' live R T _ _ => step_percentages ord bord HB d HM _ cpt wl HW HC HF id s s' live HI R T)
    (conj zero_percentage (conj zero_percentage (conj zero_percentage zero_percentage))) stt ds HR HD) as (FA & n & -> & E1 & E2 & E3 & E4).
  split; [exact FA|]. intros [L1 L2]. rewrite E1, E2, E3, E4. clear E1 E2 E3 E4 HR HD.
  assert (AV : forall f, (forall t, percentages t -> percentage (f t)) ->
    percentage (d_div f32A (dsum f32A (map f (ds_ts f32A ds)) (dz f32A)) (d_ofZ f32A (Z.of_nat (List.length (ds_ts f32A ds)))))).
  { intros f Hf. rewrite <- (map_length f (ds_ts f32A ds)). apply average_ok.
    - intros E. apply map_eq_nil in E. rewrite E in L1. cbn in L1. lia.
    - rewrite map_length. change (2 ^ 46) with 70368744177664 in L2. change (2 ^ 53) with 9007199254740992. lia.
    - apply Forall_map. eapply Forall_impl; [|exact FA]. exact Hf. }
  split; [apply AV; intros t T; apply T|]. split; [apply AV; intros t T; apply T|]. split; apply AV; intros t T; apply T.
Qed.
