(* Overall averages and maxima in the results of a run (C60). *)
From Coq Require Import ZArith Arith QArith Qreals Reals Lra Lia Bool String List Floats.SpecFloat ZifyBool ZifyNat.
From Flocq Require Import Core IEEE754.BinarySingleNaN Relative Plus_error.
From Verif Require Import Base Arith Util Device SpecDevice Workload SpecWorkload Rates Stats Engine SpecEngine SpecStats SpecSummary UtilProofs TrackerProofs FloatProofs FloatProofs2 StatsAvg StatsRat StatsRun.
Import ListNotations.
Local Open Scope list_scope.
Open Scope Z_scope.
Ltac Zify.zify_post_hook ::= idtac.

(** * The fields *)
Definition avg_of A (l : list (D A)) : D A := d_div A (dsum A l (dz A)) (d_ofZ A (Z.of_nat (List.length l))).
Definition max_of A (l : list (D A)) : D A := fold_left (d_max A) l (dz A).
Section Fields.
  Context (A : arith) (ord : Z -> list Z -> list Z) (bord : list bucket -> list bucket) (bord_perm : bucket_order bord).
  Context (d : device) (cpt : Z) (wl : workload (F A)) (HW : proper wl) (HC : proper_cpt cpt) (model : string) (id : Z) (HI : has_stats d id).
  Context (stt : stats A) (ds : dstats A) (HR : runSinglePerfSim A ord bord d model cpt wl = Ok (Stats stt)) (HD : stats_get A stt id = Some ds).
  Lemma run_fields :
    (forall fa ft, In (fa, ft) (average_fields A) -> fa ds = avg_of A (map ft (ds_ts A ds))) /\
    (forall fm ft, In (fm, ft) (maximum_fields A) -> fm ds = max_of A (map ft (ds_ts A ds))) /\
    ds_err A ds = d_div A (d_mul A (d_lit A 100 1) (d_of_f A (f_ofZ A (ds_est A ds - ds_golden A ds)))) (d_ofZ A (ds_golden A ds)) /\
    0 <= ds_est A ds < 2 ^ 64 /\ 0 <= ds_golden A ds < 2 ^ 32.
  Proof.
    destruct (summarised A ord bord bord_perm d cpt wl HW HC model id HI (fun _ => True) (fun _ _ _ _ _ _ _ => I) I stt ds HR HD) as (ds1 & U & _ & RG & E).
    unfold untouched, overall in U. cbn [empty_ds ds_avg_ld ds_max_ld ds_avg_lu ds_max_lu ds_avg_nd ds_max_nd ds_avg_ld0 ds_avg_lu0 ds_max_ld0 ds_avg_ld1 ds_avg_lu1 ds_max_ld1 ds_avg_mc ds_congfree] in U.
    injection U as U1 U2 U3 U4 U5 U6 U7 U8 U9 U10 U11 U12 U13 _. unfold summary_device in E. apply bind_ok in E as (rw & _ & E). apply bind_ok in E as (et & _ & E). injection E as <-.
    assert (SM : forall f : tstats A -> D A, d_div A (sum_ts A f ds1 (dz A)) (d_ofZ A (Z.of_nat (List.length (ds_ts A ds1)))) = avg_of A (map f (ds_ts A ds1))).
    { intros f. unfold avg_of. rewrite map_length. f_equal. unfold sum_ts, dsum. generalize (ds_ts A ds1) as l. generalize (dz A) as x. intros x l. revert x. induction l as [|t l IH]; intros x; [reflexivity|exact (IH _)]. }
    assert (MM : forall f : tstats A -> D A, max_ts A f ds1 (dz A) = max_of A (map f (ds_ts A ds1))).
    { intros f. unfold max_of, max_ts. generalize (ds_ts A ds1) as l. generalize (dz A) as x. intros x l. revert x. induction l as [|t l IH]; intros x; [reflexivity|exact (IH _)]. }
    split; [|split; [|split; [reflexivity|exact RG]]].
    - intros fa ft H. unfold average_fields in H. cbn [In] in H.
      repeat destruct H as [H|H]; try (injection H as <- <-; cbn [ds_ts ds_avg_ld ds_avg_lu ds_avg_nd ds_avg_ld0 ds_avg_lu0 ds_avg_ld1 ds_avg_lu1 ds_avg_mc]; rewrite ?U1, ?U3, ?U5, ?U7, ?U8, ?U10, ?U11, ?U13; apply SM). destruct H.
    - intros fm ft H. unfold maximum_fields in H. cbn [In] in H.
      repeat destruct H as [H|H]; try (injection H as <- <-; cbn [ds_ts ds_max_ld ds_max_lu ds_max_nd ds_max_ld0 ds_max_ld1]; rewrite ?U2, ?U4, ?U6, ?U9, ?U12; apply MM). destruct H.
  Qed.
End Fields.

(** * Exact arithmetic *)
Lemma avg_exact l : l <> [] -> exists q, avg_of ratA (map (@Some Q) l) = Some q /\ (q == mean l)%Q.
Proof.
  intros NE. unfold avg_of. destruct (dsum_q l 0) as (s & E & ES). change (dz ratA) with (Some 0%Q). rewrite E. rewrite map_length. cbn [d_div ratA qx_div d_ofZ].
  assert (P : (0 < inject_Z (Z.of_nat (List.length l)))%Q) by (destruct l; [congruence|reflexivity]).
  destruct (Qeq_bool _ 0) eqn:EB; [apply Qeq_bool_eq in EB; rewrite EB in P; discriminate|]. eexists. split; [reflexivity|]. rewrite Qred_correct, ES. unfold mean. rewrite Qplus_0_l. reflexivity.
Qed.
Lemma max_exact l : forall a, exists q, fold_left (d_max ratA) (map (@Some Q) l) (Some a) = Some q /\ greatest (a :: l) q.
Proof.
  induction l as [|x l IH]; intros a; cbn [map fold_left].
  - exists a. split; [reflexivity|]. split; [exists a; split; [left|]; reflexivity|]. intros x [<-|[]]. apply Qle_refl.
  - unfold d_max at 2. cbn [d_lt ratA qx_lt]. destruct (Qle_bool x a) eqn:E; cbn [negb].
    + destruct (IH a) as (q & E1 & (y & Hy & Ey) & G). exists q. split; [exact E1|]. apply Qle_bool_iff in E. split.
      * exists y. split; [destruct Hy as [<-|Hy]; [left; reflexivity|right; right; exact Hy]|exact Ey].
      * intros z [<-|[<-|Hz]]; [apply G; left; reflexivity|apply Qle_trans with a; [exact E|apply G; left; reflexivity]|apply G; right; exact Hz].
    + destruct (IH x) as (q & E1 & (y & Hy & Ey) & G). exists q. split; [exact E1|]. assert (L : (a <= x)%Q).
      { apply Qnot_lt_le. intros K. apply Qlt_le_weak, Qle_bool_iff in K. congruence. } split.
      * exists y. split; [right; exact Hy|exact Ey].
      * intros z [<-|Hz]; [apply Qle_trans with x; [exact L|apply G; left; reflexivity]|apply G; exact Hz].
Qed.
Theorem run_means_exact ord bord : bucket_order bord -> forall d cpt wl, proper wl -> proper_cpt cpt ->
  forall model stt id ds, runSinglePerfSim ratA ord bord d model cpt wl = Ok (Stats stt) -> has_stats d id -> stats_get ratA stt id = Some ds ->
  (forall fa ft l, In (fa, ft) (average_fields ratA) -> map ft (ds_ts ratA ds) = map (@Some Q) l -> l <> [] -> exists q, fa ds = Some q /\ (q == mean l)%Q) /\
  (forall fm ft l, In (fm, ft) (maximum_fields ratA) -> map ft (ds_ts ratA ds) = map (@Some Q) l -> exists q, fm ds = Some q /\ greatest (0%Q :: l) q) /\
  (0 < ds_golden ratA ds -> exists q, ds_err ratA ds = Some q /\ (q == 100 * inject_Z (ds_est ratA ds - ds_golden ratA ds) / inject_Z (ds_golden ratA ds))%Q).
Proof.
  intros HB d cpt wl HW HC model stt id ds HR HI HD. destruct (run_fields ratA ord bord HB d cpt wl HW HC model id HI stt ds HR HD) as (E1 & E2 & E3 & _).
  split; [|split].
  - intros fa ft l HF EL NE. rewrite (E1 _ _ HF), EL. apply avg_exact. exact NE.
  - intros fm ft l HF EL. rewrite (E2 _ _ HF), EL. apply max_exact.
  - intros P. rewrite E3. cbn [d_div d_mul d_lit d_of_f f_ofZ d_ofZ ratA qx_div qx_bin]. destruct (Qeq_bool (inject_Z (ds_golden ratA ds)) 0) eqn:E.
    + apply Qeq_bool_eq in E. unfold Qeq, inject_Z in E. cbn in E. lia.
    + eexists. split; [reflexivity|]. rewrite !Qred_correct. reflexivity.
Qed.

(** * Doubles *)
Notation nf64 := (nnf prec64 emax64).
Notation uu := (bpow radix2 (-53)).
Notation rd64 := (round radix2 (SpecFloat.fexp prec64 emax64) ZnearestE).
Lemma uu_pos : (0 < uu)%R. Proof. apply bpow_gt_0. Qed.
Lemma uu_val : uu = (/ 9007199254740992)%R. Proof. reflexivity. Qed.
Lemma nf_format x : nf64 x -> generic_format radix2 (FLT_exp (SpecFloat.emin prec64 emax64) prec64) (vl x).
Proof. intros H. destruct (nnf_B prec64 emax64 x H) as (b & -> & _). rewrite vl_B. exact (generic_format_B2R prec64 emax64 b). Qed.
Lemma add_rel a b : nf64 a -> nf64 b -> (rd64 (vl a + vl b) <= (vl a + vl b) * (1 + uu) /\ (vl a + vl b) * (1 - uu) <= rd64 (vl a + vl b))%R.
Proof.
  intros Ha Hb. assert (Pa : (0 <= vl a)%R) by (apply (vl_nneg prec64 emax64), Ha). assert (Pb : (0 <= vl b)%R) by (apply (vl_nneg prec64 emax64), Hb).
  destruct (FLT_plus_error_N_ex radix2 (SpecFloat.emin prec64 emax64) prec64 (fun x => negb (Z.even x)) (vl a) (vl b) (nf_format a Ha) (nf_format b Hb)) as (eps & HE & EQ). change (rd64 (vl a + vl b) = ((vl a + vl b) * (1 + eps))%R) in EQ. rewrite EQ.
  assert (U : (u_ro radix2 prec64 / (1 + u_ro radix2 prec64) <= uu)%R).
  { assert (EU : u_ro radix2 prec64 = uu) by (unfold u_ro; change (bpow radix2 (- prec64 + 1)) with (/ 4503599627370496)%R; rewrite uu_val; lra). rewrite EU. pose proof uu_pos.
    apply Rmult_le_reg_r with (1 + uu)%R; [lra|]. unfold Rdiv. rewrite Rmult_assoc, Rinv_l by lra. assert (0 <= uu * uu)%R by (apply Rmult_le_pos; lra). lra. }
  assert (HE' : (Rabs eps <= uu)%R) by lra. apply Rabs_le_inv in HE'. split; apply Rmult_le_compat_l; lra.
Qed.
Definition moderate (x : spec_float) : Prop := nf64 x /\ (vl x <= bpow radix2 900)%R.
Lemma sum_rel l : Forall moderate l -> Z.of_nat (List.length l) <= 2 ^ 50 ->
  let n := Z.of_nat (List.length l) in let t := rsum (map vl l) in let s := dsum f32A l (dz f32A) in
  nf64 s /\ (0 <= t <= IZR n * bpow radix2 900)%R /\ (t * (1 - IZR n * uu) <= vl s <= t * (1 + 2 * IZR n * uu))%R.
Proof.
  induction l as [|x l IH] using rev_ind; intros HF HL n t s.
  - split; [exact (nnf_zero prec64 emax64)|]. unfold t, s, n. cbn [map rsum fold_right List.length dsum fold_left]. change (vl (dz f32A)) with 0%R. rewrite !Rmult_0_l. lra.
  - apply Forall_app in HF as [HF HX]. apply Forall_inv in HX as [NX BX]. rewrite app_length in *. cbn [List.length] in *. specialize (IH HF ltac:(lia)). cbv zeta in IH.
    set (k := Z.of_nat (List.length l)) in *. set (t0 := rsum (map vl l)) in *. set (s0 := dsum f32A l (dz f32A)) in *. destruct IH as (NS & (T1 & T2) & L & U).
    assert (EN : IZR n = (IZR k + 1)%R) by (rewrite <- plus_IZR; f_equal; unfold n, k; rewrite ?app_length; cbn [List.length]; lia). assert (K0 : (0 <= IZR k)%R) by (apply IZR_le; unfold k; lia).
    assert (KB : (IZR k + 1 <= 1125899906842624)%R) by (rewrite <- plus_IZR; apply IZR_le; change (2 ^ 50) with 1125899906842624 in HL; unfold k; lia).
    assert (ET : t = (t0 + vl x)%R). { unfold t, t0. rewrite map_app. cbn [map]. clear. induction (map vl l) as [|y m IH]; cbn [app rsum fold_right]; [lra|]. change (fold_right Rplus 0%R (m ++ [vl x])) with (rsum (m ++ [vl x])). rewrite IH. unfold rsum. lra. }
    assert (ES : s = SFadd prec64 emax64 s0 x) by (unfold s, s0, dsum; rewrite fold_left_app; reflexivity).
    assert (PX : (0 <= vl x)%R) by (apply (vl_nneg prec64 emax64), NX). assert (PS : (0 <= vl s0)%R) by (apply (vl_nneg prec64 emax64), NS).
    pose proof (bpow_gt_0 radix2 900) as B9. pose proof uu_pos as UP.
    assert (KU : (IZR k * uu <= / 8)%R) by (rewrite uu_val; lra).
    assert (TB : (0 <= t <= IZR n * bpow radix2 900)%R) by (rewrite ET, EN; lra).
    destruct (add_rel s0 x NS NX) as [RU RL].
    assert (S2 : (vl s0 + vl x <= t * (1 + 2 * IZR k * uu))%R). { rewrite ET. assert (0 <= vl x * (2 * IZR k * uu))%R by (apply Rmult_le_pos; [lra|]; apply Rmult_le_pos; lra). lra. }
    assert (S1 : (t * (1 - IZR k * uu) <= vl s0 + vl x)%R). { rewrite ET. assert (0 <= vl x * (IZR k * uu))%R by (apply Rmult_le_pos; [lra|]; apply Rmult_le_pos; lra). lra. }
    assert (RB : (rd64 (vl s0 + vl x) < bpow radix2 emax64)%R).
    { apply Rle_lt_trans with (bpow radix2 960); [|apply bpow_lt; reflexivity]. apply Rle_trans with (1 := RU). apply Rle_trans with (t * 2 * 2)%R.
      - apply Rmult_le_compat; [lra|lra| |rewrite uu_val; lra]. apply Rle_trans with (1 := S2). apply Rmult_le_compat_l; [apply TB|lra].
      - apply Rle_trans with (IZR n * bpow radix2 900 * 2 * 2)%R; [lra|]. apply Rle_trans with (1125899906842624 * bpow radix2 900 * 4)%R; [nra|]. replace (bpow radix2 960) with (bpow radix2 60 * bpow radix2 900)%R by (rewrite <- bpow_plus; reflexivity). change (bpow radix2 60) with 1152921504606846976%R. lra. }
    destruct (add_nneg prec64 emax64 eq_refl eq_refl s0 x NS NX) as [NA CA]. rewrite Rmin_left in CA by lra.
    assert (NF : nf64 (SFadd prec64 emax64 s0 x)) by (apply (nneg_fin prec64 emax64); [exact NA|rewrite CA; exact RB]). rewrite (nnf_cl prec64 emax64) in CA by exact NF.
    rewrite ES. split; [exact NF|]. split; [exact TB|]. rewrite CA, EN. split.
    + apply Rle_trans with (2 := RL). apply Rle_trans with (t * (1 - IZR k * uu) * (1 - uu))%R; [|apply Rmult_le_compat_r; [rewrite uu_val; lra|exact S1]].
      rewrite Rmult_assoc. apply Rmult_le_compat_l; [apply TB|]. assert (0 <= IZR k * uu * uu)%R by (apply Rmult_le_pos; [apply Rmult_le_pos|]; lra). lra.
    + apply Rle_trans with (1 := RU). apply Rle_trans with (t * (1 + 2 * IZR k * uu) * (1 + uu))%R; [apply Rmult_le_compat_r; [lra|exact S2]|].
      rewrite Rmult_assoc. apply Rmult_le_compat_l; [apply TB|]. assert (IZR k * uu * uu <= / 8 * uu)%R by (apply Rmult_le_compat_r; lra). lra.
Qed.

Lemma avg_near l : Forall moderate l -> l <> [] -> Z.of_nat (List.length l) <= 2 ^ 50 ->
  nf64 (avg_of f32A l) /\ near (2 * Z.of_nat (List.length l) + 3) (avg_of f32A l) (rsum (map vl l) / IZR (Z.of_nat (List.length l))).
Proof.
  intros HF NE HL. destruct (sum_rel l HF HL) as (NS & (T1 & T2) & L & U). set (n := Z.of_nat (List.length l)) in *. set (t := rsum (map vl l)) in *. unfold avg_of. fold n. set (s := dsum f32A l (dz f32A)) in *.
  assert (Hn : 1 <= n) by (destruct l; [congruence|cbn [List.length] in n; lia]). change (2 ^ 50) with 1125899906842624 in HL.
  assert (RN : (1 <= IZR n <= 1125899906842624)%R) by (split; apply IZR_le; lia).
  destruct (ofZ_exact prec64 emax64 eq_refl eq_refl n) as [NN VN]; [split; [lia|change (2 ^ prec64) with 9007199254740992; lia]|].
  change (d_ofZ f32A n) with (sf_ofZ prec64 emax64 n). change (d_div f32A s (sf_ofZ prec64 emax64 n)) with (SFdiv prec64 emax64 s (sf_ofZ prec64 emax64 n)).
  destruct (div_nneg prec64 emax64 eq_refl eq_refl s _ NS NN) as [ND CD]; [rewrite VN; lra|]. rewrite VN in CD.
  destruct (error_N_FLT radix2 (SpecFloat.emin prec64 emax64) prec64 eq_refl (fun x => negb (Z.even x)) (vl s / IZR n)%R) as (eps & eta & HE & HA & _ & EQ).
  change (rd64 (vl s / IZR n) = (vl s / IZR n * (1 + eps) + eta)%R) in EQ. change (/ 2 * bpow radix2 (- prec64 + 1))%R with (/ 2 * / 4503599627370496)%R in HE.
  change (SpecFloat.emin prec64 emax64) with (-1074) in HA. pose proof (bpow_gt_0 radix2 (-1074)) as P74. assert (HE' : (Rabs eps <= uu)%R) by (rewrite uu_val; lra). apply Rabs_le_inv in HE'. apply Rabs_le_inv in HA.
  pose proof uu_pos as UP. assert (NU : (IZR n * uu <= / 8)%R) by (rewrite uu_val; lra). assert (NU0 : (uu <= IZR n * uu)%R) by (rewrite <- (Rmult_1_l uu) at 1; apply Rmult_le_compat_r; lra).
  set (q := (t / IZR n)%R). assert (Q0 : (0 <= q)%R) by (apply Rmult_le_pos; [exact T1|left; apply Rinv_0_lt_compat; lra]).
  assert (QL : (q * (1 - IZR n * uu) <= vl s / IZR n <= q * (1 + 2 * IZR n * uu))%R).
  { unfold q, Rdiv. assert (IP : (0 < / IZR n)%R) by (apply Rinv_0_lt_compat; lra). split.
    - replace (t * / IZR n * (1 - IZR n * uu))%R with (t * (1 - IZR n * uu) * / IZR n)%R by ring. apply Rmult_le_compat_r; lra.
    - replace (t * / IZR n * (1 + 2 * IZR n * uu))%R with (t * (1 + 2 * IZR n * uu) * / IZR n)%R by ring. apply Rmult_le_compat_r; lra. }
  assert (R2 : (rd64 (vl s / IZR n) <= q * (1 + (2 * IZR n + 3) * uu) + bpow radix2 (-1074))%R).
  { rewrite EQ. apply Rplus_le_compat; [|lra]. apply Rle_trans with (q * (1 + 2 * IZR n * uu) * (1 + uu))%R.
    - apply Rmult_le_compat; [|rewrite uu_val in *; lra|lra|lra]. apply Rle_trans with (2 := proj1 QL). apply Rmult_le_pos; lra.
    - rewrite Rmult_assoc. apply Rmult_le_compat_l; [exact Q0|]. assert (IZR n * uu * uu <= / 8 * uu)%R by (apply Rmult_le_compat_r; lra). lra. }
  assert (R1 : (q * (1 - (2 * IZR n + 3) * uu) - bpow radix2 (-1074) <= rd64 (vl s / IZR n))%R).
  { rewrite EQ. apply Rplus_le_compat; [|lra]. apply Rle_trans with (q * (1 - IZR n * uu) * (1 - uu))%R.
    - rewrite Rmult_assoc. apply Rmult_le_compat_l; [exact Q0|]. assert (0 <= IZR n * uu * uu)%R by (apply Rmult_le_pos; [apply Rmult_le_pos|]; lra). lra.
    - apply Rmult_le_compat; [apply Rmult_le_pos; lra|rewrite uu_val; lra|lra|lra]. }
  assert (QB : (q <= bpow radix2 900)%R). { unfold q. apply Rmult_le_reg_r with (IZR n); [lra|]. unfold Rdiv. rewrite Rmult_assoc, Rinv_l by lra. lra. }
  assert (RB : (rd64 (vl s / IZR n) < bpow radix2 emax64)%R).
  { apply Rle_lt_trans with (bpow radix2 902); [|apply bpow_lt; reflexivity]. apply Rle_trans with (1 := R2). apply Rle_trans with (q * 2 + bpow radix2 900)%R.
    - apply Rplus_le_compat; [apply Rmult_le_compat_l; [exact Q0|]; rewrite uu_val in *; lra|apply bpow_le; discriminate].
    - replace (bpow radix2 902) with (bpow radix2 2 * bpow radix2 900)%R by (rewrite <- bpow_plus; reflexivity). change (bpow radix2 2) with 4%R. lra. }
  rewrite Rmin_left in CD by lra. assert (NF : nf64 (SFdiv prec64 emax64 s (sf_ofZ prec64 emax64 n))) by (apply (nneg_fin prec64 emax64); [exact ND|rewrite CD; exact RB]). rewrite (nnf_cl prec64 emax64) in CD by exact NF.
  split; [exact NF|]. unfold near. fold q. match goal with |- context [SF2R radix2 ?x] => change (SF2R radix2 x) with (vl (SFdiv prec64 emax64 s (sf_ofZ prec64 emax64 n))) end. rewrite CD. apply Rabs_le. rewrite plus_IZR, mult_IZR. lra.
Qed.
Lemma max_float l : Forall nf64 l -> forall a, nf64 a -> let m := fold_left (d_max f32A) l a in In m (a :: l) /\ forall x, In x (a :: l) -> (vl x <= vl m)%R.
Proof.
  induction 1 as [|x l NX NL IH]; intros a NA m.
  - split; [left; reflexivity|]. intros x [<-|[]]. apply Rle_refl.
  - unfold m. cbn [fold_left]. change (d_max f32A a x) with (if SFltb a x then x else a). destruct (SFltb a x) eqn:E.
    + destruct (IH x NX) as [I1 I2]. split; [right; exact I1|]. apply (ltb_vl prec64 emax64) in E; try assumption. intros y [<-|Hy]; [apply Rle_trans with (vl x); [lra|apply I2; left; reflexivity]|apply I2; exact Hy].
    + destruct (IH a NA) as [I1 I2]. split; [destruct I1 as [I1|I1]; [left; exact I1|right; right; exact I1]|]. apply (ltb_vl_false prec64 emax64) in E; try assumption.
      intros y [<-|[<-|Hy]]; [apply I2; left; reflexivity|apply Rle_trans with (vl a); [exact E|apply I2; left; reflexivity]|apply I2; right; exact Hy].
Qed.
Lemma number_nf x : number64 x <-> nf64 x.
Proof.
  split.
  - intros [V [->|(m & e & ->)]]; (split; [split; [exact V|reflexivity]|reflexivity]).
  - intros [[V S] F]. split; [exact V|]. destruct x as [s|s| |s m e]; cbn in F; try discriminate F; subst s; [left; reflexivity|right; do 2 eexists; reflexivity].
Qed.
Theorem run_means_float ord bord : bucket_order bord -> forall d cpt wl, proper wl -> proper_cpt cpt ->
  forall model stt id ds, runSinglePerfSim f32A ord bord d model cpt wl = Ok (Stats stt) -> has_stats d id -> stats_get f32A stt id = Some ds ->
  forall n, n = Z.of_nat (List.length (ds_ts f32A ds)) -> 0 < n <= 2 ^ 50 ->
  (forall fa ft, In (fa, ft) (average_fields f32A) -> Forall (fun t => number64 (ft t) /\ (SF2R radix2 (ft t) <= bpow radix2 900)%R) (ds_ts f32A ds) ->
    number64 (fa ds) /\ near (2 * n + 3) (fa ds) (rsum (map (fun t => SF2R radix2 (ft t)) (ds_ts f32A ds)) / IZR n)) /\
  (forall fm ft, In (fm, ft) (maximum_fields f32A) -> Forall (fun t => number64 (ft t)) (ds_ts f32A ds) ->
    (fm ds = S754_zero false \/ exists t, In t (ds_ts f32A ds) /\ fm ds = ft t) /\
    forall t, In t (ds_ts f32A ds) -> (SF2R radix2 (ft t) <= SF2R radix2 (fm ds))%R).
Proof.
  intros HB d cpt wl HW HC model stt id ds HR HI HD n EN RN. destruct (run_fields f32A ord bord HB d cpt wl HW HC model id HI stt ds HR HD) as (E1 & E2 & _).
  split.
  - intros fa ft HF HN. rewrite (E1 _ _ HF). assert (EL : Z.of_nat (@List.length spec_float (map ft (ds_ts f32A ds))) = n) by (rewrite EN; f_equal; apply map_length).
    destruct (avg_near (map ft (ds_ts f32A ds))) as [N1 N2].
    + apply Forall_forall. intros x Hx. apply in_map_iff in Hx as (t & <- & Ht). rewrite Forall_forall in HN. destruct (HN t Ht) as [K1 K2]. split; [apply number_nf; exact K1|exact K2].
    + intros K. apply (f_equal (@List.length spec_float)) in K. cbn [List.length] in K. lia.
    + rewrite EL. lia.
    + rewrite EL in N2. rewrite map_map in N2. split; [apply number_nf; exact N1|exact N2].
  - intros fm ft HF HN. rewrite (E2 _ _ HF). destruct (max_float (map ft (ds_ts f32A ds))) with (a := dz f32A) as [M1 M2].
    + apply Forall_forall. intros x Hx. apply in_map_iff in Hx as (t & <- & Ht). rewrite Forall_forall in HN. apply number_nf. exact (HN t Ht).
    + exact (nnf_zero prec64 emax64).
    + fold (max_of f32A (map ft (ds_ts f32A ds))) in M1, M2. split.
      * destruct M1 as [M1|M1]; [left; rewrite <- M1; reflexivity|right]. apply in_map_iff in M1 as (t & K & Ht). exists t. auto.
      * intros t Ht. apply M2. right. apply in_map. exact Ht.
Qed.
