(* The end cycle of a transfer in binary32 (C26, C33): how far rounding can move it. *)
From Coq Require Import ZArith Reals Bool List Lia Lra Floats.SpecFloat.
From Flocq Require Import Core IEEE754.BinarySingleNaN Relative.
From Verif Require Import Base Arith FloatProofs FloatProofs2.
Import ListNotations.
Open Scope Z_scope.

Notation rnd32 := (round radix2 (SpecFloat.fexp prec32 emax32) ZnearestE).
Definition u32r : R := (/ 16777216)%R.     (* 2^-24, half a unit in the last place of 1 *)

Lemma rnd32_err x : (/ 2 <= x)%R -> (x * (1 - u32r) <= rnd32 x <= x * (1 + u32r))%R.
Proof.
  intros H. pose proof (relative_error_N_FLT radix2 (SpecFloat.emin prec32 emax32) prec32 eq_refl (fun x => negb (Z.even x)) x) as E.
  assert (B : (/ 2 * bpow radix2 (- prec32 + 1) = u32r)%R). { unfold u32r. replace (bpow radix2 (- prec32 + 1)) with (/ 8388608)%R by (cbn; lra). lra. }
  rewrite B in E. assert (HX : (bpow radix2 (SpecFloat.emin prec32 emax32 + prec32 - 1) <= Rabs x)%R).
  { rewrite Rabs_pos_eq by lra. apply Rle_trans with (2 := H). change (/ 2)%R with (bpow radix2 (-1)). apply bpow_le. discriminate. }
  specialize (E HX). rewrite (Rabs_pos_eq x) in E by lra. apply Rabs_le_inv in E.
  change (round radix2 (FLT_exp (SpecFloat.emin prec32 emax32) prec32) (Znearest (fun x => negb (Z.even x))) x) with (rnd32 x) in E. lra.
Qed.
Lemma ceil_spec x : nnf prec32 emax32 x -> nnf prec32 emax32 (sf_ceil prec32 emax32 x) /\ vl (sf_ceil prec32 emax32 x) = IZR (Zceil (vl x)).
Proof.
  intros N. pose proof (nnf_lt prec32 emax32 x N) as [P L]. destruct N as [[V S] FN]. destruct x as [s|s| |s m e]; try discriminate.
  - cbn [sf_ceil]. split; [split; [split|]; assumption|]. cbn. symmetry. apply (f_equal IZR). apply (Zceil_IZR 0).
  - cbn [nneg] in S. subst s. cbn [sf_ceil].
    assert (EQ : sf_ceilZ false m e = Zceil (vl (S754_finite false m e))).
    { unfold sf_ceilZ, vl. cbn [SF2R cond_Zopp]. unfold F2R. cbn [Fnum Fexp]. destruct (Z.leb_spec 0 e).
      - rewrite <- (IZR_Zpower radix2) by assumption. rewrite <- mult_IZR. rewrite Zceil_IZR. reflexivity.
      - assert (HD : 0 < 2 ^ (- e)) by (apply Z.pow_pos_nonneg; lia). replace (IZR (Zpos m) * bpow radix2 e)%R with (IZR (Zpos m) / IZR (2 ^ (- e)))%R.
        + symmetry. apply Zceil_imp. set (q := (Zpos m + 2 ^ (- e) - 1) / 2 ^ (- e)).
          pose proof (Z.div_mod (Zpos m + 2 ^ (- e) - 1) (2 ^ (- e)) ltac:(lia)) as DM. pose proof (Z.mod_pos_bound (Zpos m + 2 ^ (- e) - 1) (2 ^ (- e)) HD) as MB. fold q in DM.
          assert (HR : (0 < IZR (2 ^ (- e)))%R) by (apply IZR_lt; assumption). unfold Rdiv. split.
          * apply Rmult_lt_reg_r with (1 := HR). rewrite Rmult_assoc, Rinv_l, Rmult_1_r by lra. rewrite <- mult_IZR. apply IZR_lt. nia.
          * apply Rmult_le_reg_r with (1 := HR). rewrite Rmult_assoc, Rinv_l, Rmult_1_r by lra. rewrite <- mult_IZR. apply IZR_le. nia.
        + unfold Rdiv. f_equal. replace e with (- (- e)) at 2 by lia. rewrite bpow_opp. f_equal. rewrite <- (IZR_Zpower radix2) by lia. reflexivity. }
    rewrite EQ. set (x := S754_finite false m e) in *. assert (N : nnf prec32 emax32 x) by (split; [split; [exact V|reflexivity]|exact FN]).
    assert (C0 : 0 <= Zceil (vl x)) by (apply le_IZR; apply Rle_trans with (2 := Zceil_ub _); exact P).
    destruct (ofZ_nneg prec32 emax32 _ _ (Zceil (vl x)) C0) as [N1 C1]. fold (sf_ofZ prec32 emax32 (Zceil (vl x))).
    assert (RX : rnd32 (IZR (Zceil (vl x))) = IZR (Zceil (vl x))).
    { destruct (Z_le_gt_dec 0 e) as [HE|HE].
      - assert (HI : IZR (Zceil (vl x)) = vl x). { unfold x, vl. cbn [SF2R cond_Zopp]. unfold F2R. cbn [Fnum Fexp]. rewrite <- (IZR_Zpower radix2) by assumption. rewrite <- mult_IZR. rewrite Zceil_IZR. reflexivity. }
        rewrite HI. apply rnd_vl; apply N.
      - apply (rnd_Z prec32 emax32 _ _). rewrite Z.abs_eq by assumption. apply le_IZR. apply IZR_le. apply Zceil_glb. unfold x, vl. cbn [SF2R cond_Zopp]. unfold F2R. cbn [Fnum Fexp].
        apply Rle_trans with (IZR (Zpos m) * 1)%R; [apply Rmult_le_compat_l; [apply IZR_le; lia|]; change 1%R with (bpow radix2 0); apply bpow_le; lia|].
        rewrite Rmult_1_r. apply IZR_le. unfold valid, SpecFloat.valid_binary, bounded, canonical_mantissa in V. apply andb_prop in V as [V _]. apply Zeq_bool_eq in V.
        unfold SpecFloat.fexp in V. rewrite Digits.Zpos_digits2_pos in V. assert (HDg : Digits.Zdigits radix2 (Zpos m) <= 24) by (unfold prec32, SpecFloat.emin in V; lia).
        pose proof (Digits.Zpower_gt_Zdigits radix2 24 (Zpos m) HDg) as HP. unfold prec32. change (Z.pow radix2 24) with (2 ^ 24) in HP. lia. }
    assert (LT : (IZR (Zceil (vl x)) < bpow radix2 emax32)%R).
    { destruct (Z_le_gt_dec (Zceil (vl x)) (2 ^ 24)) as [HL|HL]; [apply Rle_lt_trans with (IZR (2 ^ 24)); [apply IZR_le; assumption|]; change (IZR (2 ^ 24)) with (IZR (Zpower radix2 24)); rewrite IZR_Zpower by discriminate; apply bpow_lt; reflexivity|].
      destruct (Z_le_gt_dec 0 e) as [HE|HE].
      - assert (HI : IZR (Zceil (vl x)) = vl x). { unfold x, vl. cbn [SF2R cond_Zopp]. unfold F2R. cbn [Fnum Fexp]. rewrite <- (IZR_Zpower radix2) by assumption. rewrite <- mult_IZR. rewrite Zceil_IZR. reflexivity. }
        rewrite HI. exact L.
      - rewrite <- RX. exfalso. apply Zgt_not_le in HL. apply HL. apply Zceil_glb. unfold x, vl. cbn [SF2R cond_Zopp]. unfold F2R. cbn [Fnum Fexp].
        apply Rle_trans with (IZR (Zpos m) * 1)%R; [apply Rmult_le_compat_l; [apply IZR_le; lia|]; change 1%R with (bpow radix2 0); apply bpow_le; lia|].
        rewrite Rmult_1_r. apply IZR_le. unfold valid, SpecFloat.valid_binary, bounded, canonical_mantissa in V. apply andb_prop in V as [V _]. apply Zeq_bool_eq in V.
        unfold SpecFloat.fexp in V. rewrite Digits.Zpos_digits2_pos in V. assert (HDg : Digits.Zdigits radix2 (Zpos m) <= 24) by (unfold prec32, SpecFloat.emin in V; lia).
        pose proof (Digits.Zpower_gt_Zdigits radix2 24 (Zpos m) HDg) as HP. change (Z.pow radix2 24) with (2 ^ 24) in HP. lia. }
    rewrite RX in C1. rewrite Rmin_left in C1 by lra.
    assert (N2 : nnf prec32 emax32 (sf_ofZ prec32 emax32 (Zceil (vl x)))) by (apply nneg_fin; [exact N1|rewrite C1; exact LT]).
    split; [exact N2|]. rewrite <- (nnf_cl prec32 emax32) by exact N2. exact C1.
Qed.

Lemma rnd32_int z : 0 <= z -> exists n, rnd32 (IZR z) = IZR n.
Proof.
  intros H. destruct (Z_le_gt_dec z (2 ^ 24)) as [L|L].
  - exists z. apply (rnd_Z prec32 emax32 _ _). rewrite Z.abs_eq by assumption. exact L.
  - assert (HM : 24 <= mag radix2 (IZR z)).
    { apply Z.lt_le_incl. apply mag_gt_bpow. rewrite Rabs_pos_eq by (apply IZR_le; lia). rewrite <- (IZR_Zpower radix2) by discriminate. apply IZR_le. change (Zpower radix2 24) with (2 ^ 24). lia. }
    assert (HC : 0 <= cexp radix2 (SpecFloat.fexp prec32 emax32) (IZR z)) by (unfold cexp, SpecFloat.fexp, SpecFloat.emin, prec32, emax32; lia).
    eexists. unfold round, F2R. cbn [Fnum Fexp]. rewrite <- (IZR_Zpower radix2) by exact HC. rewrite <- mult_IZR. reflexivity.
Qed.
Lemma rnd32_low z : 0 <= z -> (IZR (z - z / 2 ^ 24) <= rnd32 (IZR z))%R /\ (z <= 2 ^ 24 -> rnd32 (IZR z) = IZR z).
Proof.
  intros H. split; [|intros L; apply (rnd_Z prec32 emax32 _ _); rewrite Z.abs_eq by assumption; exact L].
  destruct (rnd32_int z H) as [n E]. rewrite E. apply IZR_le. destruct (Z.eq_dec z 0) as [->|NZ].
  - rewrite (rnd_Z prec32 emax32 _ _ 0) in E by discriminate. apply eq_IZR in E. subst n. discriminate.
  - assert (B : (/ 2 <= IZR z)%R) by (apply Rle_trans with 1%R; [lra|apply IZR_le; lia]). apply rnd32_err in B as [B _]. rewrite E in B.
    assert (HZ : (IZR (16777216 * (z - n)) <= IZR z)%R). { rewrite mult_IZR, minus_IZR. unfold u32r in B. lra. }
    apply le_IZR in HZ. change (2 ^ 24) with 16777216. assert (z - n <= z / 16777216) by (apply Z.div_le_lower_bound; lia). lia.
Qed.
Lemma to_uint_ok bits x z : nneg prec32 emax32 x -> f_to_uint f32A bits x = Ok z -> z = Zfloor (vl x) /\ nnf prec32 emax32 x.
Proof.
  intros N H. unfold f_to_uint in H. cbn [f32A f_trunc] in H. destruct (sf_trunc x) as [w|] eqn:T; [|discriminate]. destruct (trunc_nneg prec32 emax32 _ _ N T) as [-> F].
  destruct (_ && _); [|discriminate]. injection H as <-. split; [reflexivity|]. split; assumption.
Qed.
Lemma vl_zero x : nnf prec32 emax32 x -> vl x = 0%R -> x = S754_zero false.
Proof.
  intros [[V S] FN] H. destruct x as [s|s| |s m e]; try discriminate; cbn [nneg] in S; subst s; [reflexivity|]. exfalso.
  assert (0 < vl (S754_finite false m e))%R by (apply F2R_gt_0; reflexivity). lra.
Qed.
Lemma ceil_lt r : (IZR (Zceil r) < r + 1)%R.
Proof. unfold Zceil. rewrite opp_IZR. pose proof (Zfloor_ub (- r)). lra. Qed.
Notation ofz := (sf_ofZ prec32 emax32).
Lemma ofz_up z : 0 <= z < 2 ^ 34 -> nnf prec32 emax32 (ofz z) /\ vl (ofz z) = rnd32 (IZR z) /\ (vl (ofz z) <= IZR z * (1 + u32r))%R.
Proof.
  intros H. destruct (ofZ_fin prec32 emax32 _ _ z) as [N E]; [lia|change (2 ^ (emax32 - 1)) with (2 ^ 127); assert (2 ^ 34 < 2 ^ 127) by reflexivity; lia|]. split; [exact N|]. split; [exact E|].
  rewrite E. destruct (Z.eq_dec z 0) as [->|NZ]; [rewrite (rnd_Z prec32 emax32 _ _ 0) by discriminate; lra|].
  apply rnd32_err. apply Rle_trans with 1%R; [lra|apply IZR_le; lia].
Qed.
Theorem end32 bw first c m b e : nnf prec32 emax32 bw -> 0 <= first -> 0 <= c -> first + c < 2 ^ 34 ->
  f_to_uint f32A 64 (SFmul prec32 emax32 (ofz c) bw) = Ok m -> 0 <= b <= m -> b < 2 ^ 34 ->
  f_to_uint f32A 64 (SFadd prec32 emax32 (ofz first) (sf_ceil prec32 emax32 (SFdiv prec32 emax32 (ofz b) bw))) = Ok e ->
  (rnd32 (IZR first) <= IZR e)%R /\ e <= first + c + 8192.
Proof.
  intros NB Hf Hc Hs Hm Hb Hb34 He.
  pose proof (nnf_lt prec32 emax32 _ NB) as [PB _].
  destruct (ofz_up c ltac:(lia)) as (NC & EC & UC). destruct (ofz_up b ltac:(lia)) as (Nb & Eb & Ub). destruct (ofz_up first ltac:(lia)) as (Nf & Ef & Uf).
  assert (C0 : (0 <= IZR c)%R) by (apply IZR_le; lia). assert (F0 : (0 <= IZR first)%R) by (apply IZR_le; lia). assert (B0 : (0 <= IZR b)%R) by (apply IZR_le; lia).
  assert (S34 : (IZR first + IZR c <= 17179869184)%R) by (rewrite <- plus_IZR; apply IZR_le; change (2 ^ 34) with 17179869184 in Hs; lia).
  destruct (mul_nneg prec32 emax32 _ _ _ _ NC NB) as [NM EM]. destruct (to_uint_ok _ _ _ NM Hm) as [Vm FM]. rewrite (nnf_cl prec32 emax32 _ FM) in EM.
  assert (UM : (IZR m <= rnd32 (vl (ofz c) * vl bw))%R). { apply Rle_trans with (vl (SFmul prec32 emax32 (ofz c) bw)); [rewrite Vm; apply Zfloor_lb|]. rewrite EM. apply Rmin_l. }
  destruct (Req_dec (vl bw) 0) as [Z0|NZ].
  { exfalso. assert (m = 0). { rewrite Z0, Rmult_0_r in UM. rewrite (rnd_0 prec32 emax32) in UM. apply le_IZR in UM. lia. }
    assert (b = 0) by lia. subst b. rewrite (vl_zero _ NB Z0) in He. unfold f_to_uint in He. cbn [f32A f_trunc] in He.
    replace (SFdiv prec32 emax32 (ofz 0) (S754_zero false)) with S754_nan in He by reflexivity. cbn [sf_ceil] in He. destruct (ofz first); cbn in He; discriminate. }
  assert (P : (0 < vl bw)%R) by lra.
  destruct (div_nneg prec32 emax32 _ _ _ _ Nb NB NZ) as [ND ED].
  assert (UD : (b = 0 /\ rnd32 (vl (ofz b) / vl bw) = 0%R) \/ (0 < b /\ (rnd32 (vl (ofz b) / vl bw) <= IZR c * (1 + u32r) * (1 + u32r) * (1 + u32r) * (1 + u32r))%R)).
  { destruct (Z.eq_dec b 0) as [->|Hb0].
    - left. split; [reflexivity|]. rewrite Eb, (rnd_Z prec32 emax32 _ _ 0) by discriminate. unfold Rdiv. rewrite Rmult_0_l. apply rnd_0.
    - right. split; [lia|]. assert (M1 : (1 <= IZR m)%R) by (apply IZR_le; lia). set (p := (vl (ofz c) * vl bw)%R) in *.
      assert (P2 : (/ 2 <= p)%R). { destruct (Rle_or_lt (/ 2) p) as [|L]; [assumption|]. exfalso. assert (rnd32 p <= rnd32 (/ 2))%R by (apply (rnd_le prec32 emax32 _); lra). assert (H2 : (/ 2 <= / 2)%R) by lra. apply rnd32_err in H2. unfold u32r in H2. lra. }
      apply rnd32_err in P2 as [_ P2]. assert (LB : (IZR b <= IZR m)%R) by (apply IZR_le; lia).
      assert (C1 : (1 <= IZR c)%R). { apply IZR_le. destruct (Z.eq_dec c 0) as [->|]; [|lia]. exfalso. unfold p in UM. rewrite EC, (rnd_Z prec32 emax32 _ _ 0), Rmult_0_l, (rnd_0 prec32 emax32) in UM by discriminate. lra. }
      assert (U0 : (0 < u32r < 1 / 1000)%R) by (unfold u32r; lra).
      assert (Q : (vl (ofz b) / vl bw <= IZR c * (1 + u32r) * (1 + u32r) * (1 + u32r))%R).
      { apply Rmult_le_reg_r with (1 := P). unfold Rdiv. rewrite Rmult_assoc, Rinv_l, Rmult_1_r by lra. apply Rle_trans with (1 := Ub).
        apply Rle_trans with (p * (1 + u32r) * (1 + u32r))%R; [apply Rmult_le_compat_r; lra|]. unfold p. apply Rle_trans with (IZR c * (1 + u32r) * vl bw * (1 + u32r) * (1 + u32r))%R; [|right; ring].
        apply Rmult_le_compat_r; [lra|]. apply Rmult_le_compat_r; [lra|]. apply Rmult_le_compat_r; lra. }
      apply Rle_trans with (rnd32 (IZR c * (1 + u32r) * (1 + u32r) * (1 + u32r))); [apply (rnd_le prec32 emax32 _); exact Q|]. apply rnd32_err.
      apply Rle_trans with (IZR c); [lra|]. assert (G : forall x, (0 <= x -> x <= x * (1 + u32r))%R) by (intros x Hx; nra).
      apply Rle_trans with (1 := G _ C0). assert (0 <= IZR c * (1 + u32r))%R by nra. apply Rle_trans with (1 := G _ H). apply G. nra. }
  assert (U0 : (u32r = / 16777216)%R) by reflexivity.
  assert (BIG : (IZR c * (1 + u32r) * (1 + u32r) * (1 + u32r) * (1 + u32r) <= IZR c * (1 + 5 * u32r))%R).
  { rewrite !Rmult_assoc. apply Rmult_le_compat_l; [exact C0|]. rewrite U0. lra. }
  assert (TOP : (1000000000000 < bpow radix2 emax32)%R). { apply Rlt_trans with (bpow radix2 100); [|apply bpow_lt; reflexivity]. cbn. lra. }
  assert (FD : nnf prec32 emax32 (SFdiv prec32 emax32 (ofz b) bw)).
  { apply nneg_fin; [exact ND|]. rewrite ED. apply Rle_lt_trans with (1 := Rmin_l _ _). destruct UD as [[_ ->]|[_ L]]; [lra|]. apply Rle_lt_trans with (1 := L). apply Rle_lt_trans with (1 := BIG). rewrite U0. lra. }
  rewrite (nnf_cl prec32 emax32 _ FD) in ED. destruct (ceil_spec _ FD) as [FC EC'].
  pose proof (nnf_lt prec32 emax32 _ FC) as [PC _]. pose proof (nnf_lt prec32 emax32 _ Nf) as [Pf _].
  destruct (add_nneg prec32 emax32 _ _ _ _ Nf FC) as [NA EA]. destruct (to_uint_ok _ _ _ NA He) as [Ve FA]. rewrite (nnf_cl prec32 emax32 _ FA) in EA.
  assert (VLT : (vl (SFadd prec32 emax32 (ofz first) (sf_ceil prec32 emax32 (SFdiv prec32 emax32 (ofz b) bw))) < bpow radix2 emax32)%R) by (apply (nnf_lt prec32 emax32 _ FA)).
  assert (EA' : vl (SFadd prec32 emax32 (ofz first) (sf_ceil prec32 emax32 (SFdiv prec32 emax32 (ofz b) bw))) = rnd32 (vl (ofz first) + vl (sf_ceil prec32 emax32 (SFdiv prec32 emax32 (ofz b) bw)))).
  { clear -EA VLT. rewrite EA in VLT |- *. unfold Rmin in *. destruct (Rle_dec _ _); [reflexivity|lra]. }
  split.
  - destruct (rnd32_int first Hf) as [n En]. rewrite En. apply IZR_le. rewrite Ve. apply Zfloor_lub. rewrite EA'. rewrite <- En.
    apply Rle_trans with (rnd32 (rnd32 (IZR first))); [right; symmetry; rewrite <- Ef; apply rnd_vl; apply Nf|]. apply (rnd_le prec32 emax32 _). rewrite Ef. lra.
  - apply le_IZR. rewrite Ve. apply Rle_trans with (1 := Zfloor_lb _). rewrite EA'. rewrite !plus_IZR.
    set (s := (vl (ofz first) + vl (sf_ceil prec32 emax32 (SFdiv prec32 emax32 (ofz b) bw)))%R) in *.
    assert (US : (s <= IZR first * (1 + u32r) + IZR c * (1 + 5 * u32r) + 1)%R).
    { unfold s. apply Rle_trans with (IZR first * (1 + u32r) + (vl (SFdiv prec32 emax32 (ofz b) bw) + 1))%R.
      - apply Rplus_le_compat; [exact Uf|]. rewrite EC'. left. apply ceil_lt.
      - assert (vl (SFdiv prec32 emax32 (ofz b) bw) <= IZR c * (1 + 5 * u32r))%R; [|lra]. rewrite ED. apply Rle_trans with (1 := Rmin_l _ _). destruct UD as [[_ ->]|[_ L]]; [rewrite U0; lra|lra]. }
    destruct (Rle_or_lt (/ 2) s) as [L|L].
    + apply rnd32_err in L as [_ L]. apply Rle_trans with (1 := L). apply Rle_trans with ((IZR first * (1 + u32r) + IZR c * (1 + 5 * u32r) + 1) * (1 + u32r))%R; [apply Rmult_le_compat_r; [rewrite U0; lra|exact US]|]. rewrite U0. lra.
    + apply Rle_trans with (rnd32 (/ 2)); [apply (rnd_le prec32 emax32 _); lra|]. assert (H2 : (/ 2 <= / 2)%R) by lra. apply rnd32_err in H2. rewrite U0 in H2. lra.
Qed.
