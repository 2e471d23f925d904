(* C69: the reports on a result. *)
From Coq Require Import ZArith Arith QArith Reals Lra Lia Bool String List Permutation Sorting.Sorted ZifyBool ZifyNat Floats.SpecFloat.
From Flocq Require Import Core Relative IEEE754.BinarySingleNaN.
From Verif Require Import Base Arith Util Device Workload Rates Stats Engine Files Report SpecReport SpecSummary SpecStats FloatProofs FloatProofs2 SpecEngine SpecRates SpecWorkload SpecDevice TrackerProofs StatsAvg StatsRun SummaryProofs SummaryFloat SummaryRun MeanProofs UtilProofs FilesProofs.
Import ListNotations.
Local Open Scope string_scope.
Local Open Scope list_scope.
Open Scope Z_scope.
Ltac Zify.zify_post_hook ::= idtac.

Notation P64 := (eq_refl : FLX.Prec_gt_0 prec64) (only parsing).
Notation B64 := (binary_float prec64 emax64).

(** * The congestion impact *)
Lemma ofZ_B z : 0 <= z <= 2 ^ 53 -> exists b : B64, sf_ofZ prec64 emax64 z = B2SF b /\ B2R b = IZR z /\ is_finite b = true.
Proof.
  intros H. destruct (ofZ_exact prec64 emax64 eq_refl eq_refl z H) as [[[V _] F] E]. destruct (to_B prec64 emax64 _ V) as [b EB].
  exists b. rewrite EB in *. rewrite vl_B in E. unfold fin in F. rewrite is_finite_SF_B2SF in F. auto.
Qed.
Lemma rd64_rel r : r = 0%R \/ (bpow radix2 (-1022) <= Rabs r)%R -> exists eps, (Rabs eps <= uu)%R /\ rd64 r = (r * (1 + eps))%R.
Proof.
  intros [->|H].
  - exists 0%R. rewrite Rabs_R0. pose proof uu_pos. split; [lra|]. rewrite round_0; [lra|apply valid_rnd_N].
  - destruct (relative_error_N_FLT_ex radix2 (-1074) 53 eq_refl (fun x => negb (Z.even x)) r H) as (eps & HE & EQ).
    exists eps. split; [|exact EQ]. apply Rle_trans with (1 := HE). rewrite uu_val. change (bpow radix2 (- (53) + 1)) with (/ 4503599627370496)%R. lra.
Qed.
Lemma rd64_small r : (Rabs r <= bpow radix2 900)%R -> Rlt_bool (Rabs (rd64 r)) (bpow radix2 emax64) = true.
Proof.
  intros H. apply Rlt_bool_true. apply Rle_lt_trans with (bpow radix2 900); [|apply bpow_lt; reflexivity].
  apply abs_round_le_generic; [typeclasses eauto|apply valid_rnd_N| |exact H]. apply generic_format_bpow. vm_compute. discriminate.
Qed.
Theorem impact_float (ds : dstats f32A) : 0 <= ds_est f32A ds <= 2 ^ 53 -> 0 <= ds_congfree f32A ds <= 2 ^ 53 ->
  let e := ds_est f32A ds in let c := ds_congfree f32A ds in let x := getCongestionImpact f32A ds in
  (e = 0 \/ c = 0 -> x = S754_zero false) /\
  (e <> 0 -> c <> 0 -> approximates x (saving e c) /\ (SF2R radix2 x <= 100)%R /\ ((0 < SF2R radix2 x)%R <-> c < e) /\ (SF2R radix2 x = 0%R <-> c = e)).
Proof.
  intros HE HC e c x. unfold x, getCongestionImpact. fold e c in HE, HC |- *. split.
  - intros [E|E]; rewrite E; rewrite ?orb_true_r; reflexivity.
  - intros NE NC. destruct (Z.eqb_spec e 0); [congruence|]. destruct (Z.eqb_spec c 0); [congruence|]. cbn [orb].
    change (2 ^ 53) with 9007199254740992 in HE, HC.
    destruct (ofZ_B e) as (be & EE & RE & FE); [change (2 ^ 53) with 9007199254740992; lia|]. destruct (ofZ_B c) as (bc & EC & RC & FC); [change (2 ^ 53) with 9007199254740992; lia|].
    destruct (ofZ_B 100) as (bh & EH & RH & FH); [lia|].
    change (d_lit f32A 100 1) with (sf_ofZ prec64 emax64 100). change (d_ofZ f32A) with (sf_ofZ prec64 emax64). cbn [d_div d_mul d_sub f32A]. rewrite EE, EC, EH.
    rewrite (sub_eq prec64 emax64 eq_refl eq_refl), (mul_eq prec64 emax64 eq_refl eq_refl), (div_eq prec64 emax64 eq_refl eq_refl).
    assert (PE : (1 <= IZR e <= 9007199254740992)%R) by (split; apply IZR_le; lia).
    assert (PC : (1 <= IZR c <= 9007199254740992)%R) by (split; apply IZR_le; lia).
    assert (B9 : (1180591620717411303424 <= bpow radix2 900)%R) by (change 1180591620717411303424%R with (bpow radix2 70); apply bpow_le; discriminate).
    pose proof (Bminus_correct prec64 emax64 eq_refl eq_refl mode_NE be bc FE FC) as HM. rewrite RE, RC in HM. cbn [round_mode] in HM.
    assert (DR : rd64 (IZR e - IZR c) = (IZR e - IZR c)%R). { rewrite <- minus_IZR. apply (rnd_Z prec64 emax64 eq_refl eq_refl). change (2 ^ prec64) with 9007199254740992. lia. }
    assert (AD : (Rabs (IZR e - IZR c) <= 9007199254740992)%R) by (apply Rabs_le; lra).
    rewrite rd64_small in HM by (apply Rle_trans with (1 := AD); lra). destruct HM as (RM & FM & _). rewrite DR in RM.
    set (bm := Bminus mode_NE be bc) in *. set (dd := (IZR e - IZR c)%R) in *.
    pose proof (Bmult_correct prec64 emax64 eq_refl eq_refl mode_NE bh bm) as HX. rewrite RH, RM in HX. cbn [round_mode] in HX.
    assert (A1 : (Rabs (100 * dd) <= 900719925474099200)%R) by (rewrite Rabs_mult, (Rabs_right 100) by lra; lra).
    rewrite rd64_small in HX by (apply Rle_trans with (1 := A1); lra). destruct HX as (RX & FX & _). rewrite FH, FM in FX. set (bx := Bmult mode_NE bh bm) in *.
    assert (N1 : (100 * dd = 0)%R \/ (bpow radix2 (-1022) <= Rabs (100 * dd))%R).
    { destruct (Z.eq_dec e c) as [->|NQ]; [left; unfold dd; lra|right]. apply Rle_trans with 1%R; [change 1%R with (bpow radix2 0); apply bpow_le; discriminate|].
      rewrite Rabs_mult, (Rabs_right 100) by lra. unfold dd. rewrite <- minus_IZR, <- abs_IZR. assert (1 <= IZR (Z.abs (e - c)))%R by (apply IZR_le; lia). lra. }
    destruct (rd64_rel _ N1) as (e1 & L1 & Q1). rewrite Q1 in RX.
    pose proof uu_pos as UP. assert (L1' : (Rabs (1 + e1) <= 2)%R) by (apply Rabs_le; apply Rabs_le_inv in L1; rewrite uu_val in L1; lra).
    pose proof (Bdiv_correct prec64 emax64 eq_refl eq_refl mode_NE bx be) as HD. rewrite RE in HD. specialize (HD ltac:(lra)). cbn [round_mode] in HD. rewrite RX in HD.
    set (q := (100 * dd * (1 + e1) / IZR e)%R) in *.
    assert (IE : (0 < / IZR e <= 1)%R). { split; [apply Rinv_0_lt_compat; lra|]. rewrite <- Rinv_1. apply Rinv_le_contravar; lra. }
    assert (IE2 : (/ 9007199254740992 <= / IZR e)%R) by (apply Rinv_le_contravar; lra).
    assert (AQ : Rabs q = (Rabs (100 * dd) * Rabs (1 + e1) * / IZR e)%R) by (unfold q, Rdiv; rewrite !Rabs_mult, (Rabs_right (/ IZR e)) by lra; reflexivity).
    assert (A2 : (Rabs q <= bpow radix2 900)%R).
    { rewrite AQ. apply Rle_trans with (900719925474099200 * 2 * 1)%R; [|lra]. pose proof (Rabs_pos (100 * dd)). pose proof (Rabs_pos (1 + e1)).
      apply Rmult_le_compat; [apply Rmult_le_pos; lra|lra|apply Rmult_le_compat; lra|lra]. }
    rewrite rd64_small in HD by exact A2. destruct HD as (RD & FD & _). rewrite FX in FD. set (bd := Bdiv mode_NE bx be) in *.
    assert (N2 : q = 0%R \/ (bpow radix2 (-1022) <= Rabs q)%R).
    { destruct (Z.eq_dec e c) as [EQ|NQ]; [left; unfold q, dd; rewrite EQ; lra|right]. rewrite AQ.
      apply Rle_trans with (bpow radix2 (-60)); [apply bpow_le; discriminate|]. change (bpow radix2 (-60)) with (/ 1152921504606846976)%R.
      assert (B1 : (100 <= Rabs (100 * dd))%R) by (rewrite Rabs_mult, (Rabs_right 100) by lra; unfold dd; rewrite <- minus_IZR, <- abs_IZR; assert (1 <= IZR (Z.abs (e - c)))%R by (apply IZR_le; lia); lra).
      assert (B2 : (/ 2 <= Rabs (1 + e1))%R) by (apply Rabs_le_inv in L1; rewrite uu_val in L1; rewrite Rabs_right by lra; lra).
      apply Rle_trans with (100 * / 2 * / 9007199254740992)%R; [lra|]. apply Rmult_le_compat; [lra|lra|apply Rmult_le_compat; lra|lra]. }
    destruct (rd64_rel _ N2) as (e2 & L2 & Q2). rewrite Q2 in RD.
    change (SF2R radix2 (B2SF bd)) with (vl (B2SF bd)). unfold approximates. change (SF2R radix2 (B2SF bd)) with (vl (B2SF bd)). rewrite vl_B, RD.
    set (r := saving e c). assert (ER : q = (r * (1 + e1))%R) by (unfold q, r, saving, dd, Rdiv; ring).
    pose proof L1 as L1a. pose proof L2 as L2a. apply Rabs_le_inv in L1a, L2a. assert (UV := uu_val).
    assert (P2 : (0 < 1 + e2)%R) by (rewrite UV in L2a; lra). assert (P1 : (0 < 1 + e1)%R) by (rewrite UV in L1a; lra).
    assert (SGN : (0 < r)%R <-> c < e).
    { unfold r, saving, Rdiv. split; intros H.
      - apply lt_IZR. destruct (Rle_lt_dec (IZR e) (IZR c)) as [L|L]; [exfalso|exact L]. assert (100 * (IZR e - IZR c) * / IZR e <= 0)%R; [|lra]. assert (0 <= 100 * (IZR c - IZR e) * / IZR e)%R by (apply Rmult_le_pos; lra). lra.
      - apply IZR_lt in H. apply Rmult_lt_0_compat; lra. }
    assert (ZER : r = 0%R <-> c = e).
    { unfold r, saving, Rdiv. split; intros H; [|rewrite H; rewrite Rminus_diag_eq by reflexivity; ring]. apply eq_IZR. apply Rmult_integral in H as [H|H]; [lra|lra]. }
    split; [|split; [|split]].
    + split; [apply valid_B|]. split; [rewrite is_finite_SF_B2SF; exact FD|]. rewrite ER. replace (r * (1 + e1) * (1 + e2) - r)%R with (r * (e1 + e2 + e1 * e2))%R by ring.
      rewrite Rabs_mult, Rmult_assoc. apply Rmult_le_compat_l; [apply Rabs_pos|]. apply Rle_trans with (uu + uu + uu * uu)%R.
      * eapply Rle_trans; [apply Rabs_triang|]. apply Rplus_le_compat; [eapply Rle_trans; [apply Rabs_triang|]; lra|]. rewrite Rabs_mult. apply Rmult_le_compat; try apply Rabs_pos; assumption.
      * assert (uu * uu <= uu * 1)%R by (apply Rmult_le_compat_l; rewrite UV; lra). lra.
    + rewrite <- Q2. assert (G : rd64 100 = 100%R) by (apply (rnd_Z prec64 emax64 eq_refl eq_refl 100); vm_compute; discriminate). rewrite <- G. apply (rnd_le prec64 emax64 eq_refl).
      unfold q. apply Rmult_le_reg_r with (IZR e); [lra|]. unfold Rdiv. rewrite Rmult_assoc, Rinv_l by lra. rewrite Rmult_1_r.
      destruct (Rle_lt_dec dd 0) as [L|L].
      * assert (0 <= 100 * (- dd) * (1 + e1))%R by (apply Rmult_le_pos; lra). lra.
      * assert (DE : (dd <= IZR e - 1)%R) by (unfold dd; lra). apply Rle_trans with (100 * dd * (1 + uu))%R; [apply Rmult_le_compat_l; lra|].
        assert (dd * uu <= 1)%R. { rewrite UV. apply Rle_trans with (9007199254740992 * / 9007199254740992)%R; [apply Rmult_le_compat_r; lra|lra]. } lra.
    + rewrite <- SGN, ER. split; intros H.
      * destruct (Rle_lt_dec r 0) as [L|L]; [exfalso|exact L]. assert (0 <= - r * (1 + e1) * (1 + e2))%R by (apply Rmult_le_pos; [apply Rmult_le_pos|]; lra). lra.
      * apply Rmult_lt_0_compat; [apply Rmult_lt_0_compat|]; lra.
    + rewrite <- ZER, ER. split; intros H.
      * apply Rmult_integral in H as [H|H]; [|lra]. apply Rmult_integral in H as [H|H]; lra.
      * rewrite H. ring.
Qed.

(** * Every result reports an impact of zero *)
Lemma sub_self x : nnf prec64 emax64 x -> SFsub prec64 emax64 x x = S754_zero false.
Proof.
  intros [[V S] F]. destruct x as [s|s| |s m e]; try discriminate F; cbn in S; subst s; [reflexivity|].
  unfold SFsub. rewrite Z.min_id. unfold SpecFloat.cond_Zopp. rewrite Z.sub_diag. reflexivity.
Qed.
Lemma impact_equal (ds : dstats f32A) : 0 <= ds_est f32A ds < 2 ^ 64 -> ds_congfree f32A ds = 0 \/ ds_congfree f32A ds = ds_est f32A ds ->
  getCongestionImpact f32A ds = S754_zero false.
Proof.
  intros HE HC. unfold getCongestionImpact. set (e := ds_est f32A ds) in *. set (c := ds_congfree f32A ds) in *.
  destruct (Z.eqb_spec e 0); [reflexivity|]. destruct (Z.eqb_spec c 0); [reflexivity|]. cbn [orb]. destruct HC as [HC|HC]; [congruence|]. rewrite HC.
  change (d_lit f32A 100 1) with (sf_ofZ prec64 emax64 100). change (d_ofZ f32A) with (sf_ofZ prec64 emax64). cbn [d_div d_mul d_sub f32A].
  destruct (ofZ_fin prec64 emax64 eq_refl eq_refl e) as [NE VE]; [lia|apply Z.lt_trans with (2 ^ 64); [lia|reflexivity]|]. rewrite sub_self by exact NE.
  assert (R1 : (1 <= vl (sf_ofZ prec64 emax64 e))%R).
  { rewrite VE. rewrite <- (rnd_1 prec64 emax64 eq_refl eq_refl). apply (rnd_le prec64 emax64 eq_refl). apply IZR_le. lia. }
  destruct NE as [[V S] F]. destruct (sf_ofZ prec64 emax64 e) as [s|s| |s m k]; try discriminate F; cbn in S; subst s; [|reflexivity].
  exfalso. unfold vl in R1. cbn [SF2R] in R1. lra.
Qed.
Lemma free_zero ord bord : bucket_order bord -> forall d cpt wl, proper wl -> proper_cpt cpt ->
  forall model stt id ds, runSinglePerfSim f32A ord bord d model cpt wl = Ok (Stats stt) -> has_stats d id -> stats_get f32A stt id = Some ds ->
  0 <= ds_est f32A ds < 2 ^ 64 /\ ds_congfree f32A ds = 0.
Proof.
  intros HB d cpt wl HW HC model stt id ds HR HI HD.
  destruct (summarised f32A ord bord HB d cpt wl HW HC model id HI (fun _ => True) (fun _ _ _ _ _ _ _ => I) I stt ds HR HD) as (ds1 & U & _ & (RG & _) & E).
  unfold untouched, overall in U. injection U as _ _ _ _ _ _ _ _ _ _ _ _ _ U. unfold summary_device in E. apply bind_ok in E as (rw & _ & E). apply bind_ok in E as (et & _ & E). injection E as <-. cbn [ds_est ds_congfree]. auto.
Qed.
Theorem impact_zero ord bord : bucket_order bord -> forall d cfg wl, proper wl -> proper_cpt (cf_cpt cfg) ->
  forall stt id ds, runPerfEstimation f32A ord bord d cfg wl = Ok (Stats stt) -> has_stats d id -> stats_get f32A stt id = Some ds ->
  getCongestionImpact f32A ds = S754_zero false.
Proof.
  intros HB d cfg wl HW HC stt id ds HR HI HD. unfold runPerfEstimation in HR. destruct (cf_impact cfg).
  - apply bind_ok in HR as (r & H1 & HR). destruct r as [stt1|]; [|discriminate HR]. apply bind_ok in HR as (r0 & H2 & HR). destruct r0 as [stt0|].
    + injection HR as <-. assert (G : exists ds1, stats_get f32A stt1 id = Some ds1 /\ ds = with_congfree f32A ds1 (ds_est f32A ds1)).
      { clear - HD. induction stt1 as [|[k x] l IH]; [discriminate HD|]. cbn [map stats_get fst snd] in HD. cbn [stats_get]. destruct (k =? id); [|exact (IH HD)]. injection HD as <-. exists x. auto. }
      destruct G as (ds1 & G & ->). destruct (free_zero ord bord HB d _ wl HW HC _ stt1 id ds1 H1 HI G) as [RG _]. apply impact_equal; [exact RG|right; reflexivity].
    + injection HR as <-. destruct (free_zero ord bord HB d _ wl HW HC _ stt1 id ds H1 HI HD) as [RG Z0]. apply impact_equal; [exact RG|left; exact Z0].
  - destruct (free_zero ord bord HB d _ wl HW HC _ stt id ds HR HI HD) as [RG Z0]. apply impact_equal; [exact RG|left; exact Z0].
Qed.

(** * The average over the Ethernet cores *)
Lemma rsum_perm l l' : Permutation l l' -> rsum l = rsum l'.
Proof. induction 1; unfold rsum in *; cbn [fold_right]; lra. Qed.
Lemma aggregate_avg (ds : dstats f32A) l : l <> [] -> getAggregateEthBwUtil f32A (reordered f32A ds l) = avg_of f32A (map snd l).
Proof.
  intros NE. unfold getAggregateEthBwUtil, avg_of. cbn [reordered ds_eth]. destruct l as [|x l]; [congruence|]. set (y := x :: l). rewrite map_length. f_equal. unfold dsum.
  change (d_lit f32A 0 1) with (dz f32A). generalize (dz f32A). generalize y. clear. intros y. induction y as [|e l IH]; intros z; [reflexivity|exact (IH _)].
Qed.
Theorem run_aggregate ord bord : bucket_order bord -> forall d, made d -> forall cpt wl, proper wl -> wl_next wl <= 2 ^ 32 -> proper_cpt cpt ->
  forall model stt id ds l n, runSinglePerfSim f32A ord bord d model cpt wl = Ok (Stats stt) -> has_stats d id -> stats_get f32A stt id = Some ds ->
  Permutation l (ds_eth f32A ds) -> n = Z.of_nat (List.length l) ->
  let x := getAggregateEthBwUtil f32A (reordered f32A ds l) in
  (l = [] -> x = S754_zero false) /\
  (l <> [] -> 0 < ds_golden f32A ds -> number64 x /\ near (2 * n + 3) x (rsum (map (fun e => SF2R radix2 (snd e)) (ds_eth f32A ds)) / IZR n)).
Proof.
  intros HB d HM cpt wl HW HN HC model stt id ds l n HR HI HD HP EN x. split; [intros ->; reflexivity|]. intros NE GP.
  destruct (run_eth_float ord bord HB d HM cpt wl HW HN HC model stt id ds HR HI HD) as (N1 & N2 & N3). specialize (N3 GP).
  assert (LB : Z.of_nat (@List.length spec_float (map snd l)) = n) by (rewrite EN; f_equal; apply map_length).
  assert (NB : n <= 2 ^ 50).
  { rewrite EN. destruct HW as [(_ & _ & E) _]. rewrite E in HN. apply Z.le_trans with (2 ^ 32); [|discriminate]. apply Z.le_trans with (2 := HN). apply inj_le.
    rewrite (Permutation_length HP), <- (map_length fst), <- (map_length Unicast), <- (map_length t_dst (all_transfers wl)). apply NoDup_incl_length.
    - apply FinFun.Injective_map_NoDup; [|exact N1]. intros a b H. injection H as ->. reflexivity.
    - intros z Hz. apply in_map_iff in Hz as (c & <- & Hc). apply N2 in Hc as (t & Ht & _ & Hd & _). rewrite <- Hd. apply in_map. exact Ht. }
  unfold x. rewrite aggregate_avg by exact NE. destruct (avg_near (map snd l)) as [Q1 Q2].
  - apply Forall_forall. intros v Hv. apply in_map_iff in Hv as ([c w] & <- & Hv). cbn [snd]. apply (Permutation_in _ HP) in Hv. destruct (N3 c w Hv) as (b & SB & NV & CV).
    split; [apply number_nf; exact NV|]. pose proof (sum_small f32A wl HW HN _ _ SB) as BB. destruct (eth_q d) as (_ & _ & _ & PQ). rewrite Q2R_util in CV by (lia || exact PQ).
    destruct (run_bytes f32A ord bord HB d HM cpt wl HW HN HC model id HI stt ds HR HD) as ((_ & G2) & _).
    assert (QB : (12 <= Q2R (eth_link d))%R). { unfold eth_link. destruct (dv_arch d); unfold Q2R; cbn [Qnum Qden]; lra. }
    assert (CB : (1 <= IZR (ds_golden f32A ds))%R) by (apply IZR_le; lia). assert (BR : (0 <= IZR b <= 18446744073709551616)%R) by (split; apply IZR_le; change (2 ^ 64) with 18446744073709551616 in BB; lia).
    assert (DB : (1 <= IZR (ds_golden f32A ds) * Q2R (eth_link d))%R). { rewrite <- (Rmult_1_l 1). apply Rmult_le_compat; lra. }
    set (u := (100 * IZR b / (IZR (ds_golden f32A ds) * Q2R (eth_link d)))%R) in *.
    assert (UB : (0 <= u <= 1844674407370955161600)%R).
    { unfold u, Rdiv. assert (I1 : (0 < / (IZR (ds_golden f32A ds) * Q2R (eth_link d)) <= 1)%R). { split; [apply Rinv_0_lt_compat; lra|]. rewrite <- Rinv_1. apply Rinv_le_contravar; lra. }
      split; [apply Rmult_le_pos; lra|]. apply Rle_trans with (1844674407370955161600 * 1)%R; [|lra]. apply Rmult_le_compat; lra. }
    apply Rabs_le_inv in CV. change (bpow radix2 (-21)) with (/ 2097152)%R in CV. change (vl w) with (SF2R radix2 w). apply Rle_trans with (bpow radix2 80); [|apply bpow_le; discriminate]. change (bpow radix2 80) with 1208925819614629174706176%R. lra.
  - intros K. apply NE. apply map_eq_nil in K. exact K.
  - rewrite LB. exact NB.
  - rewrite LB in Q2. split; [apply number_nf; exact Q1|]. rewrite map_map in Q2. rewrite <- (rsum_perm (map (fun e => SF2R radix2 (snd e)) l)); [exact Q2|]. apply Permutation_map. exact HP.
Qed.

(** * The utilisations in words *)
Section Words.
  Context (A : arith) (one_digit : D A -> string).
  Notation lt := (core_lt A).
  Lemma core_lt_iff a b : lt a b = true <-> core_before (fst a) (fst b).
  Proof. unfold core_lt, core_before. lia. Qed.
  Lemma joined l : forall r, r <> EmptyString -> fold_left (fun result e => String.append (if String.eqb result "" then result else String.append result " ") (core_str A one_digit e)) l r =
    String.concat " " (r :: map (core_str A one_digit) l).
  Proof.
    induction l as [|e l IH]; intros r NR; [reflexivity|]. cbn [fold_left]. destruct (String.eqb_spec r ""); [congruence|].
    rewrite IH by (destruct r; [congruence|discriminate]). cbn [map]. generalize (map (core_str A one_digit) l) as m. intros m. cbn [String.concat].
    assert (AA : forall a b c, String.append (String.append a b) c = String.append a (String.append b c)) by (induction a as [|x a IHa]; intros b c; [reflexivity|cbn; rewrite IHa; reflexivity]).
    destruct m; [apply AA|]. rewrite !AA. reflexivity.
  Qed.
  Lemma joined_first l : l <> [] -> fold_left (fun result e => String.append (if String.eqb result "" then result else String.append result " ") (core_str A one_digit e)) l "" =
    String.concat " " (map (core_str A one_digit) l).
  Proof.
    destruct l as [|e l]; [congruence|]. intros _. cbn [fold_left String.eqb String.append]. rewrite joined; [reflexivity|]. discriminate.
  Qed.
  Definition core_le (a b : coord * D A) : Prop := lt b a = false.
  Lemma insert_sorted x l : StronglySorted (fun a b => lt a b = true) l -> ~ In (fst x) (map fst l) -> StronglySorted (fun a b => lt a b = true) (sort_insert lt x l).
  Proof.
    induction l as [|y l IH]; intros HS HN; cbn [sort_insert]; [repeat constructor|].
    assert (HS' := HS). apply StronglySorted_inv in HS as [HS HF]. cbn [map In] in HN. destruct (lt y x) eqn:E.
    - constructor; [apply IH; tauto|]. apply Forall_forall. intros z Hz. apply (Permutation_in _ (Permutation_sym (sort_insert_perm _ x l))) in Hz as [<-|Hz]; [exact E|]. rewrite Forall_forall in HF. exact (HF z Hz).
    - assert (XY : lt x y = true).
      { apply core_lt_iff. assert (NB : ~ core_before (fst y) (fst x)) by (rewrite <- core_lt_iff; congruence). assert (NQ : fst y <> fst x) by tauto. unfold core_before in *.
        destruct (fst x) as [a b c], (fst y) as [a' b' c']. cbn [c_dev c_row c_col] in *. assert (a <> a' \/ b <> b' \/ c <> c') by (destruct (Z.eq_dec a a'), (Z.eq_dec b b'), (Z.eq_dec c c'); subst; tauto). lia. }
      constructor; [exact HS'|]. constructor; [exact XY|]. eapply Forall_impl; [|exact HF]. cbn beta. intros z Hz. rewrite core_lt_iff in *. unfold core_before in *. lia.
  Qed.
  Lemma cores_sorted l : NoDup (map fst l) -> StronglySorted (fun a b => lt a b = true) (sort lt l).
  Proof.
    induction l as [|x l IH]; cbn [map sort]; intros HN; [constructor|]. apply NoDup_cons_iff in HN as [H1 H2]. apply insert_sorted; [exact (IH H2)|].
    intros K. apply H1. eapply Permutation_in; [apply Permutation_map, Permutation_sym, sort_perm|exact K].
  Qed.
  Theorem words_spec ds : NoDup (map fst (ds_eth A ds)) ->
    (ds_eth A ds = [] -> getEthBwUtilPerCoreStr A one_digit ds = "-"%string) /\
    (ds_eth A ds <> [] -> exists l, Permutation l (ds_eth A ds) /\ StronglySorted core_before (map fst l) /\ getEthBwUtilPerCoreStr A one_digit ds = String.concat " " (map (core_str A one_digit) l)).
  Proof.
    intros HN. unfold getEthBwUtilPerCoreStr. split; [intros ->; reflexivity|]. intros NE. exists (sort lt (ds_eth A ds)). split; [symmetry; apply sort_perm|]. split.
    - pose proof (cores_sorted _ HN) as S. revert S. generalize (sort lt (ds_eth A ds)). intros m S. induction S as [|x m S IH HF]; cbn [map]; constructor; [exact IH|].
      apply Forall_map. eapply Forall_impl; [|exact HF]. cbn beta. intros z. apply core_lt_iff.
    - assert (NS : sort lt (ds_eth A ds) <> []). { intros K. apply NE. apply Permutation_nil. rewrite <- K. symmetry. apply sort_perm. }
      destruct (ds_eth A ds) as [|e m] eqn:E; [congruence|]. rewrite <- E in *. apply joined_first. exact NS.
  Qed.
End Words.
Lemma sorted_same {X} (R : X -> X -> Prop) (irr : forall x, ~ R x x) (trans : forall x y z, R x y -> R y z -> R x z) l l' : StronglySorted R l -> StronglySorted R l' -> Permutation l l' -> l = l'.
Proof.
  revert l'. induction l as [|x l IH]; intros [|y l'] S S' P; [reflexivity|apply Permutation_nil in P; discriminate P|symmetry in P; apply Permutation_nil in P; discriminate P|].
  apply StronglySorted_inv in S as [S F]. apply StronglySorted_inv in S' as [S' F']. rewrite Forall_forall in F, F'.
  assert (E : x = y). { assert (I1 : In x (y :: l')) by (eapply Permutation_in; [exact P|left; reflexivity]). assert (I2 : In y (x :: l)) by (eapply Permutation_in; [symmetry; exact P|left; reflexivity]).
    destruct I1 as [->|I1]; [reflexivity|]. destruct I2 as [->|I2]; [reflexivity|]. exfalso. apply (irr x). apply (trans x y x); [apply F; exact I2|apply F'; exact I1]. }
  subst y. f_equal. apply IH; [exact S|exact S'|]. apply Permutation_cons_inv with x. exact P.
Qed.
Theorem words_order A one_digit (ds : dstats A) l : NoDup (map fst (ds_eth A ds)) -> Permutation l (ds_eth A ds) -> getEthBwUtilPerCoreStr A one_digit (reordered A ds l) = getEthBwUtilPerCoreStr A one_digit ds.
Proof.
  intros HN HP. assert (HN' : NoDup (map fst l)) by (eapply Permutation_NoDup; [apply Permutation_map, Permutation_sym, HP|exact HN]).
  assert (E : sort (core_lt A) l = sort (core_lt A) (ds_eth A ds)).
  { apply (sorted_same (fun a b => core_lt A a b = true)).
    - intros x K. apply core_lt_iff in K. unfold core_before in K. lia.
    - intros x y z K1 K2. rewrite core_lt_iff in *. unfold core_before in *. lia.
    - apply cores_sorted. exact HN'.
    - apply cores_sorted. exact HN.
    - rewrite <- (sort_perm _ l), <- (sort_perm _ (ds_eth A ds)). exact HP. }
  unfold getEthBwUtilPerCoreStr. cbn [reordered ds_eth]. destruct l as [|a l], (ds_eth A ds) as [|b m]; [reflexivity|apply Permutation_nil in HP; discriminate HP|symmetry in HP; apply Permutation_nil in HP; discriminate HP|]. rewrite E. reflexivity.
Qed.
Lemma signed_text n : int_text n (signed n).
Proof. unfold int_text, signed. destruct (n <? 0) eqn:E; [right|left]; (split; [lia|]); [eexists; split; [|reflexivity]|]; apply decimal_numeral; lia. Qed.
Theorem core_text A one_digit (e : coord * D A) : core_words (fst e) (one_digit (snd e)) (core_str A one_digit e).
Proof. exists (signed (c_dev (fst e))), (signed (c_row (fst e))), (signed (c_col (fst e))). repeat (split; [apply signed_text|]). reflexivity. Qed.
Theorem run_words ord bord : bucket_order bord -> forall d, made d -> forall cpt wl, proper wl -> wl_next wl <= 2 ^ 32 -> proper_cpt cpt ->
  forall model stt id ds one_digit, runSinglePerfSim f32A ord bord d model cpt wl = Ok (Stats stt) -> has_stats d id -> stats_get f32A stt id = Some ds ->
  exists l, Permutation l (ds_eth f32A ds) /\ StronglySorted core_before (map fst l) /\
    forall l', Permutation l' (ds_eth f32A ds) ->
      getEthBwUtilPerCoreStr f32A one_digit (reordered f32A ds l') = match l with [] => "-" | _ => String.concat " " (map (core_str f32A one_digit) l) end.
Proof.
  intros HB d HM cpt wl HW HN HC model stt id ds one_digit HR HI HD. destruct (run_eth_float ord bord HB d HM cpt wl HW HN HC model stt id ds HR HI HD) as (N1 & _ & _).
  destruct (words_spec f32A one_digit ds N1) as [W0 W1]. destruct (ds_eth f32A ds) as [|e m] eqn:E.
  - exists []. split; [constructor|]. split; [constructor|]. intros l' HP. rewrite words_order; [exact (W0 eq_refl)|rewrite E; constructor|rewrite E; exact HP].
  - destruct (W1 ltac:(discriminate)) as (l & P & S & W). exists l. split; [exact P|]. split; [exact S|]. intros l' HP. rewrite words_order; [|rewrite E; exact N1|rewrite E; exact HP]. rewrite W.
    destruct l as [|x l]; [apply Permutation_nil in P; discriminate P|reflexivity].
Qed.
