(* The statistics of a run in floats (C82, C43). *)
From Coq Require Import ZArith Arith Reals Lra Lia Bool String List Floats.SpecFloat ZifyBool ZifyNat.
From Flocq Require Import Core IEEE754.BinarySingleNaN Relative.
From Verif Require Import Base Arith Util Device SpecDevice Workload SpecWorkload Rates Stats Engine UtilProofs TrackerProofs DeviceProofs FactoryProofs SpecEngine SpecRates SpecStats SpecSummary SpecFinite
  RunProofs EngineFacts FloatProofs FloatProofs2 RateFloat RateFloat2 RateFloat4 StatsFacts StatsAvg StatsRat StatsFloat StatsRun MeanProofs SummaryFloat SummaryRun ReportProofs FiniteProofs FiniteStep.
Import ListNotations.
Local Open Scope list_scope.
Open Scope Z_scope.
Ltac Zify.zify_post_hook ::= idtac.

(** * The timesteps *)
Definition sound_step (t : tstats f32A) : Prop := averages64 t /\ Forall limited (ts_link f32A t) /\ Forall limited (ts_niu f32A t).
Lemma zero_dem : dem64 (dz f32A).
Proof. split; [exact (nnf_zero prec64 emax64)|]. change (vl (dz f32A)) with 0%R. apply bpow_ge_0. Qed.
Lemma fresh_sound s e : sound_step (fresh_ts f32A s e).
Proof. pose proof zero_dem. split; [unfold averages64; cbn [fresh_ts ts_avg_ld ts_max_ld ts_avg_nd ts_max_nd ts_avg_ld0 ts_max_ld0 ts_avg_ld1 ts_max_ld1 ts_avg_lu ts_avg_lu0 ts_avg_lu1 ts_avg_mc]; auto 15|]. split; constructor. Qed.
Lemma step_sound d g live id s e : made d -> limited_grids d g -> has_stats d id -> sound_step (device_timestep f32A d g live id (fresh_ts f32A s e)).
Proof.
  intros HM HG HI. destruct (float_timestep d HM g HG live id HI s e) as [H _]. split; [exact H|].
  destruct (timestep_maxima f32A d g live id s e) as (_ & _ & _ & _ & E1 & E2). pose proof HG as (L1 & _ & L3 & _).
  split; [refine (eq_ind_r (fun l => Forall limited l) _ E1)|refine (eq_ind_r (fun l => Forall limited l) _ E2)]; destruct (id =? MESH_DEVICE); try constructor; assumption.
Qed.
Lemma step_numbers_ok t : sound_step t -> Forall number64 (timestep_numbers t) /\ Forall limited (ts_link f32A t) /\ Forall limited (ts_niu f32A t).
Proof.
  intros [(A1 & A2 & A3 & A4 & A5 & A6 & A7 & A8 & A9 & A10 & A11 & A12) H]. split; [|exact H]. unfold timestep_numbers.
  repeat (constructor; [apply MeanProofs.number_nf; match goal with H : dem64 ?x |- nf64 ?x => exact (proj1 H) end|]). constructor.
Qed.

Section Run.
  Context (ord : Z -> list Z -> list Z) (bord : list bucket -> list bucket) (bord_perm : bucket_order bord).
  Context (d : device) (HM : made d) (cpt : Z) (wl : workload spec_float) (HW : proper wl) (HC : proper_cpt cpt) (HF : Forall sound_transfer (all_transfers wl)).
  Context (model : string) (id : Z) (HI : has_stats d id).
  Notation cong := (negb (String.eqb model "none")).
  Lemma step_grids s s' : reach f32A ord bord d cong cpt wl s -> timestep f32A d cong cpt wl s = Ok s' -> limited_grids d (sm_grids f32A s').
  Proof. intros R T. exact (step_limited ord bord bord_perm d _ cpt wl HW HC HF _ _ R T (reach_limited ord bord bord_perm d _ cpt wl HW HC HF _ R)). Qed.
  Lemma run_steps stt ds : runSinglePerfSim f32A ord bord d model cpt wl = Ok (Stats stt) -> stats_get f32A stt id = Some ds -> Forall sound_step (ds_ts f32A ds).
  Proof.
    intros HR HD. refine (proj1 (all_final f32A ord bord bord_perm d cpt wl HW HC model id HI sound_step _ (fresh_sound 0 0) stt ds HR HD)).
    intros s s' live R T _ _. exact (step_sound d _ live id _ _ HM (step_grids _ _ R T) HI).
  Qed.
  Theorem run_timesteps stt ds : runSinglePerfSim f32A ord bord d model cpt wl = Ok (Stats stt) -> stats_get f32A stt id = Some ds ->
    Forall (fun t => Forall number64 (timestep_numbers t) /\ Forall limited (ts_link f32A t) /\ Forall limited (ts_niu f32A t)) (ds_ts f32A ds).
  Proof. intros HR HD. eapply Forall_impl; [|exact (run_steps stt ds HR HD)]. exact step_numbers_ok. Qed.
End Run.

(** * The prediction error *)
Lemma normalize_fin m : Z.abs m < 2 ^ 64 -> exists b : binary_float prec32 emax32, sf_ofZ prec32 emax32 m = B2SF b /\ is_finite b = true /\ (Rabs (B2R b) <= bpow radix2 64)%R.
Proof.
  intros H. unfold sf_ofZ. rewrite (normalize_eq prec32 emax32 eq_refl eq_refl). eexists. split; [reflexivity|].
  pose proof (binary_normalize_correct prec32 emax32 eq_refl eq_refl mode_NE m 0 false) as C. cbn [round_mode] in C. unfold F2R in C. cbn [Fnum Fexp bpow] in C. rewrite Rmult_1_r in C.
  assert (B : (Rabs (round radix2 (SpecFloat.fexp prec32 emax32) ZnearestE (IZR m)) <= bpow radix2 64)%R).
  { apply abs_round_le_generic; [typeclasses eauto|apply valid_rnd_N|apply generic_format_bpow; vm_compute; discriminate|]. rewrite <- abs_IZR. change (bpow radix2 64) with (IZR (2 ^ 64)). apply IZR_le. lia. }
  rewrite Rlt_bool_true in C by (apply Rle_lt_trans with (1 := B); apply bpow_lt; reflexivity). destruct C as (C1 & C2 & _). split; [exact C2|rewrite C1; exact B].
Qed.
Lemma conv_fin (b : binary_float prec32 emax32) k : 0 <= k <= 100 -> is_finite b = true -> (Rabs (B2R b) <= bpow radix2 k)%R ->
  exists c : B64, sf_conv prec64 emax64 (B2SF b) = B2SF c /\ is_finite c = true /\ (Rabs (B2R c) <= bpow radix2 k)%R.
Proof.
  intros Hk F L. destruct b as [s|s| |s m e HB]; try discriminate F; cbn [B2SF sf_conv].
  - exists (B754_zero s). split; [reflexivity|]. split; [reflexivity|]. cbn [B2R]. rewrite Rabs_R0. apply bpow_ge_0.
  - rewrite (normalize_eq prec64 emax64 eq_refl eq_refl). eexists. split; [reflexivity|].
    pose proof (binary_normalize_correct prec64 emax64 eq_refl eq_refl mode_NE (cond_Zopp s (Zpos m)) e s) as C. cbn [round_mode] in C. change (F2R (Float radix2 (cond_Zopp s (Z.pos m)) e)) with (B2R (B754_finite s m e HB)) in C.
    assert (B : (Rabs (rd64 (B2R (B754_finite s m e HB))) <= bpow radix2 k)%R).
    { apply abs_round_le_generic; [typeclasses eauto|apply valid_rnd_N| |exact L]. apply generic_format_bpow. unfold SpecFloat.fexp, SpecFloat.emin, prec64, emax64. lia. }
    rewrite Rlt_bool_true in C by (apply Rle_lt_trans with (1 := B); apply bpow_lt; unfold emax64; lia). destruct C as (C1 & C2 & _). split; [exact C2|rewrite C1; exact B].
Qed.
Lemma finite_B (b : B64) : is_finite b = true -> finite64 (B2SF b).
Proof. intros F. split; [apply valid_binary_B2SF|]. destruct b; try discriminate F; exact I. Qed.
Lemma error_finite est golden : 0 <= est < 2 ^ 64 -> 0 < golden < 2 ^ 32 ->
  finite64 (d_div f32A (d_mul f32A (d_lit f32A 100 1) (d_of_f f32A (f_ofZ f32A (est - golden)))) (d_ofZ f32A golden)).
Proof.
  intros HE HG. destruct (normalize_fin (est - golden)) as (b & EB & FB & LB); [change (2 ^ 32) with 4294967296 in HG; change (2 ^ 64) with 18446744073709551616 in *; lia|].
  destruct (conv_fin b 64 ltac:(lia) FB LB) as (c & EC & FC & LC). destruct (ofZ_B 100) as (bh & EH & RH & FH); [lia|].
  destruct (ofZ_B golden) as (bg & EG & RG & FG); [change (2 ^ 32) with 4294967296 in HG; change (2 ^ 53) with 9007199254740992; lia|].
  change (d_lit f32A 100 1) with (sf_ofZ prec64 emax64 100). change (d_ofZ f32A) with (sf_ofZ prec64 emax64). change (d_of_f f32A) with (sf_conv prec64 emax64). change (f_ofZ f32A) with (sf_ofZ prec32 emax32). cbn [d_div d_mul f32A].
  rewrite EB, EC, EH, EG. rewrite (mul_eq prec64 emax64 eq_refl eq_refl), (div_eq prec64 emax64 eq_refl eq_refl).
  pose proof (Bmult_correct prec64 emax64 eq_refl eq_refl mode_NE bh c) as HX. rewrite RH in HX. cbn [round_mode] in HX.
  assert (A1 : (Rabs (100 * B2R c) <= bpow radix2 71)%R). { rewrite Rabs_mult, (Rabs_right 100) by lra. replace (bpow radix2 71) with (128 * bpow radix2 64)%R by (change 128%R with (bpow radix2 7); rewrite <- bpow_plus; reflexivity). pose proof (Rabs_pos (B2R c)). lra. }
  rewrite rd64_small in HX by (apply Rle_trans with (1 := A1); apply bpow_le; discriminate). destruct HX as (RX & FX & _). rewrite FH, FC in FX. set (bx := Bmult mode_NE bh c) in *.
  assert (B1 : (Rabs (B2R bx) <= bpow radix2 71)%R) by (rewrite RX; apply abs_round_le_generic; [typeclasses eauto|apply valid_rnd_N|apply generic_format_bpow; vm_compute; discriminate|exact A1]).
  pose proof (Bdiv_correct prec64 emax64 eq_refl eq_refl mode_NE bx bg) as HD. assert (G1 : (1 <= IZR golden)%R) by (apply IZR_le; lia). rewrite RG in HD. specialize (HD ltac:(lra)). cbn [round_mode] in HD.
  assert (A2 : (Rabs (B2R bx / IZR golden) <= bpow radix2 900)%R).
  { unfold Rdiv. rewrite Rabs_mult. apply Rle_trans with (bpow radix2 71 * 1)%R.
    - apply Rmult_le_compat; [apply Rabs_pos|apply Rabs_pos|exact B1|]. rewrite Rabs_right; [rewrite <- Rinv_1; apply Rinv_le_contravar; lra|]. apply Rle_ge. left. apply Rinv_0_lt_compat. lra.
    - rewrite Rmult_1_r. apply bpow_le. discriminate. }
  rewrite rd64_small in HD by exact A2. destruct HD as (_ & FD & _). apply finite_B. rewrite FD. exact FX.
Qed.

(** * The result *)
Theorem run_result_numbers ord bord : bucket_order bord -> forall d, made d -> forall cpt wl, proper wl -> wl_next wl <= 2 ^ 32 -> proper_cpt cpt -> Forall sound_transfer (all_transfers wl) ->
  forall model stt id ds, runSinglePerfSim f32A ord bord d model cpt wl = Ok (Stats stt) -> has_stats d id -> stats_get f32A stt id = Some ds ->
  (forall g, getGoldenResultCycles wl id = Ok g -> 0 <= fst g) -> 0 < ds_est f32A ds -> 0 < ds_golden f32A ds ->
  Forall number64 (result_numbers ds) /\ finite64 (ds_err f32A ds).
Proof.
  intros HB d HM cpt wl HW HN HC HF model stt id ds HR HI HD HG PE PG.
  pose proof (run_steps ord bord HB d HM cpt wl HW HC HF model id HI stt ds HR HD) as RS.
  destruct (run_fields f32A ord bord HB d cpt wl HW HC model id HI stt ds HR HD) as (FA & FM & FE & R1 & R2).
  destruct (run_dram_float ord bord HB d HM cpt wl HW HN HC model stt id ds HR HI HD) as (n & _ & D1 & D2).
  destruct (run_eth_float ord bord HB d HM cpt wl HW HN HC model stt id ds HR HI HD) as (_ & _ & D3).
  assert (NE : ds_ts f32A ds <> []).
  { destruct (timesteps_final f32A ord bord HB d cpt wl HW HC model stt HR) as (s & _ & TF).
    assert (EG : exists g, getGoldenResultCycles wl id = Ok g).
    { destruct (summarised f32A ord bord HB d cpt wl HW HC model id HI (fun _ => True) (fun _ _ _ _ _ _ _ => I) I stt ds HR HD) as (ds1 & _).
      unfold runSinglePerfSim in HR. apply bind_ok in HR as (r & Hr & HR). destruct r as [s1|]; [|discriminate HR]. apply bind_ok in HR as (stt1 & H1 & HR). apply bind_ok in HR as (stt2 & H2 & HR). injection HR as <-.
      unfold computeSummaryStats in H2. destruct (get_map f32A _ _ _ H2 _ _ HD) as (dsa & HDa & _). unfold finishSimulation in H1. destruct (get_map f32A _ _ _ H1 _ _ HDa) as (dsb & _ & E0).
      unfold finish_device in E0. apply bind_ok in E0 as (g & Hg & _). exists g. exact Hg. }
    destruct EG as (g & Hg). destruct (TF id ds g HI HD Hg (HG g Hg)) as [(E & _)|(c & kept & dummies & EI & _ & _ & EC & _)]; [lia|].
    intros E. unfold intervals in EI. rewrite E in EI. cbn [map] in EI. assert (kept = O /\ dummies = O) as [-> ->].
    { destruct kept; [|discriminate EI]. destruct dummies; [auto|discriminate EI]. }
    pose proof (HG g Hg). destruct HC as [HC1 _]. assert (fst g / cpt <= (fst g + ds_est f32A ds + cpt - 1) / cpt) by (apply Z.div_le_mono; lia). cbn [Nat.add Z.of_nat] in EC. lia. }
  assert (AV : forall fa ft, In (fa, ft) (average_fields f32A) -> (forall t, sound_step t -> dem64 (ft t)) -> number64 (fa ds)).
  { intros fa ft HI' HT. rewrite (FA fa ft HI'). apply MeanProofs.number_nf. apply avg_finite; [intros E; apply map_eq_nil in E; contradiction|]. apply Forall_map. eapply Forall_impl; [|exact RS]. exact HT. }
  assert (MX : forall fm ft, In (fm, ft) (maximum_fields f32A) -> (forall t, sound_step t -> dem64 (ft t)) -> number64 (fm ds)).
  { intros fm ft HI' HT. rewrite (FM fm ft HI'). apply MeanProofs.number_nf. unfold max_of.
    assert (HA : Forall nf64 (map ft (ds_ts f32A ds))) by (apply Forall_map; eapply Forall_impl; [|exact RS]; intros t Ht; exact (proj1 (HT t Ht))).
    destruct (max_float _ HA (dz f32A) (nnf_zero prec64 emax64)) as [[E|E] _]; [rewrite <- E; exact (nnf_zero prec64 emax64)|]. rewrite Forall_forall in HA. exact (HA _ E). }
  split; [|rewrite FE; apply error_finite; [exact R1|lia]].
  unfold result_numbers. apply Forall_app. split.
  - repeat (constructor; [first [ exact (proj1 (D1 PG)) | exact (proj1 (D2 PE))
      | eapply AV; [unfold average_fields; cbn [In]; auto 10|intros t ((A1 & A2 & A3 & A4 & A5 & A6 & A7 & A8 & A9 & A10 & A11 & A12) & _); assumption]
      | eapply MX; [unfold maximum_fields; cbn [In]; auto 10|intros t ((A1 & A2 & A3 & A4 & A5 & A6 & A7 & A8 & A9 & A10 & A11 & A12) & _); assumption] ]|]). constructor.
  - apply Forall_forall. intros v Hv. apply in_map_iff in Hv as ([c w] & <- & Hv). destruct (D3 PG c w Hv) as (k & _ & CL). exact (proj1 CL).
Qed.

(** * A timestep *)
Theorem float_averages d : made d -> forall g, limited_grids d g -> forall live id, has_stats d id -> forall s e,
  let t := device_timestep f32A d g live id (fresh_ts f32A s e) in
  let bw := real (link_bandwidth f32A d) in
  let links p := map real (select p (link_table d) (g_link g)) in
  let noc0 a := link_on id a && on_noc0 a in
  let noc1 a := link_on id a && negb (on_noc0 a) in
  about (ts_avg_ld f32A t) (rpercent bw (links (link_on id))) /\
  about (ts_avg_lu f32A t) (rpercent bw (map (Rmin bw) (links (link_on id)))) /\
  about (ts_avg_mc f32A t) (rpercent bw (map (Rmin bw) (map real (select (link_on id) (link_table d) (g_mc g))))) /\
  about (ts_avg_ld0 f32A t) (rpercent bw (links noc0)) /\
  about (ts_avg_lu0 f32A t) (rpercent bw (map (Rmin bw) (links noc0))) /\
  about (ts_avg_ld1 f32A t) (rpercent bw (links noc1)) /\
  about (ts_avg_lu1 f32A t) (rpercent bw (map (Rmin bw) (links noc1))) /\
  about (ts_avg_nd f32A t) (rpercent bw (map real (select (niu_on id) (niu_table d) (g_niu g))) / (if id =? MESH_DEVICE then 1 else IZR (Z.of_nat (dv_chips d)))) /\
  (exists y, rgreatest (links (link_on id)) y /\ about (ts_max_ld f32A t) (100 * y / bw)) /\
  (exists y, rgreatest (links noc0) y /\ about (ts_max_ld0 f32A t) (100 * y / bw)) /\
  (exists y, rgreatest (links noc1) y /\ about (ts_max_ld1 f32A t) (100 * y / bw)) /\
  (exists y, rgreatest (map real (select (niu_on id) (niu_table d) (g_niu g))) y /\ about (ts_max_nd f32A t) (100 * y / bw)).
Proof. intros HM g HG live id HI s e. exact (proj2 (float_timestep d HM g HG live id HI s e)). Qed.
