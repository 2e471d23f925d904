(* The end cycle of a transfer in binary32, exactly, up to cycle 2^24 (C89), and how it moves with the bandwidth. *)
From Coq Require Import ZArith Reals Bool List Lia Lra Floats.SpecFloat.
From Flocq Require Import Core IEEE754.BinarySingleNaN Relative.
From Verif Require Import Base Arith FloatProofs FloatProofs2 EndFloat.
Import ListNotations.
Open Scope Z_scope.

(* the cycles that [b] bytes take *)
Definition cycles_for (b : Z) (bw : spec_float) : Z := Zceil (rnd32 (rnd32 (IZR b) / vl bw)).

Theorem end_exact bw first c m b e : nnf prec32 emax32 bw -> 0 <= first -> 0 <= c <= 2 ^ 20 -> first + c < 2 ^ 24 ->
  f_to_uint f32A 64 (SFmul prec32 emax32 (ofz c) bw) = Ok m -> 0 <= b <= m -> b < 2 ^ 34 ->
  f_to_uint f32A 64 (SFadd prec32 emax32 (ofz first) (sf_ceil prec32 emax32 (SFdiv prec32 emax32 (ofz b) bw))) = Ok e ->
  (0 < vl bw)%R /\ e = first + cycles_for b bw /\ 0 <= cycles_for b bw <= c + 1 /\ (1 <= b -> 1 <= cycles_for b bw).
Proof.
  intros NB Hf Hc Hs Hm Hb Hb34 He. change (2 ^ 20) with 1048576 in Hc. change (2 ^ 24) with 16777216 in Hs.
  pose proof (nnf_lt prec32 emax32 _ NB) as [PB TB].
  assert (L34 : 2 ^ 34 = 17179869184) by reflexivity.
  destruct (ofz_up c ltac:(lia)) as (NC & EC & UC). destruct (ofz_up b ltac:(lia)) as (Nb & Eb & Ub). destruct (ofz_up first ltac:(lia)) as (Nf & Ef & Uf).
  assert (C0 : (0 <= IZR c)%R) by (apply IZR_le; lia). assert (F0 : (0 <= IZR first)%R) by (apply IZR_le; lia). assert (B0 : (0 <= IZR b)%R) by (apply IZR_le; lia).
  destruct (mul_nneg prec32 emax32 _ _ _ _ NC NB) as [NM EM]. destruct (to_uint_ok _ _ _ NM Hm) as [Vm FM]. rewrite (nnf_cl prec32 emax32 _ FM) in EM.
  assert (UM : (IZR m <= rnd32 (vl (ofz c) * vl bw))%R). { apply Rle_trans with (vl (SFmul prec32 emax32 (ofz c) bw)); [rewrite Vm; apply Zfloor_lb|]. rewrite EM. apply Rmin_l. }
  destruct (Req_dec (vl bw) 0) as [Z0|NZ].
  { exfalso. assert (m = 0). { rewrite Z0, Rmult_0_r in UM. rewrite (rnd_0 prec32 emax32) in UM. apply le_IZR in UM. lia. }
    assert (b = 0) by lia. subst b. rewrite (vl_zero _ NB Z0) in He. unfold f_to_uint in He. cbn [f32A f_trunc] in He.
    replace (SFdiv prec32 emax32 (ofz 0) (S754_zero false)) with S754_nan in He by reflexivity. cbn [sf_ceil] in He. destruct (ofz first); cbn in He; discriminate. }
  assert (P : (0 < vl bw)%R) by lra. split; [exact P|].
  destruct (div_nneg prec32 emax32 _ _ _ _ Nb NB NZ) as [ND ED].
  assert (UD : (b = 0 /\ rnd32 (vl (ofz b) / vl bw) = 0%R) \/ (0 < b /\ (rnd32 (vl (ofz b) / vl bw) <= IZR c * (1 + u32r) * (1 + u32r) * (1 + u32r) * (1 + u32r))%R)).
  { destruct (Z.eq_dec b 0) as [->|Hb0].
    - left. split; [reflexivity|]. rewrite Eb, (rnd_Z prec32 emax32 _ _ 0) by discriminate. unfold Rdiv. rewrite Rmult_0_l. apply rnd_0.
    - right. split; [lia|]. assert (M1 : (1 <= IZR m)%R) by (apply IZR_le; lia). set (p := (vl (ofz c) * vl bw)%R) in *.
      assert (P2 : (/ 2 <= p)%R). { destruct (Rle_or_lt (/ 2) p) as [|L]; [assumption|]. exfalso. assert (rnd32 p <= rnd32 (/ 2))%R by (apply (rnd_le prec32 emax32 _); lra). assert (H2 : (/ 2 <= / 2)%R) by lra. apply rnd32_err in H2. unfold u32r in H2. lra. }
      apply rnd32_err in P2 as [_ P2]. assert (LB : (IZR b <= IZR m)%R) by (apply IZR_le; lia).
      assert (C1 : (1 <= IZR c)%R). { apply IZR_le. destruct (Z.eq_dec c 0) as [->|]; [|lia]. exfalso. unfold p in UM. rewrite EC, (rnd_Z prec32 emax32 _ _ 0), Rmult_0_l, (rnd_0 prec32 emax32) in UM by discriminate. lra. }
      assert (U0 : (0 < u32r < 1 / 1000)%R) by (unfold u32r; lra).
      assert (Q : (vl (ofz b) / vl bw <= IZR c * (1 + u32r) * (1 + u32r) * (1 + u32r))%R).
      { apply Rmult_le_reg_r with (1 := P). unfold Rdiv. rewrite Rmult_assoc, Rinv_l, Rmult_1_r by lra. apply Rle_trans with (1 := Ub).
        apply Rle_trans with (p * (1 + u32r) * (1 + u32r))%R; [apply Rmult_le_compat_r; lra|]. unfold p. apply Rle_trans with (IZR c * (1 + u32r) * vl bw * (1 + u32r) * (1 + u32r))%R; [|right; ring].
        apply Rmult_le_compat_r; [lra|]. apply Rmult_le_compat_r; [lra|]. apply Rmult_le_compat_r; lra. }
      apply Rle_trans with (rnd32 (IZR c * (1 + u32r) * (1 + u32r) * (1 + u32r))); [apply (rnd_le prec32 emax32 _); exact Q|]. apply rnd32_err.
      apply Rle_trans with (IZR c); [lra|]. assert (G : forall x, (0 <= x -> x <= x * (1 + u32r))%R) by (intros x Hx; nra).
      apply Rle_trans with (1 := G _ C0). assert (0 <= IZR c * (1 + u32r))%R by nra. apply Rle_trans with (1 := G _ H). apply G. nra. }
  assert (U0 : (u32r = / 16777216)%R) by reflexivity.
  assert (BIG : (IZR c * (1 + u32r) * (1 + u32r) * (1 + u32r) * (1 + u32r) <= IZR c * (1 + 5 * u32r))%R).
  { rewrite !Rmult_assoc. apply Rmult_le_compat_l; [exact C0|]. rewrite U0. lra. }
  assert (CM : (IZR c <= 1048576)%R) by (apply IZR_le; lia).
  assert (UQ : (rnd32 (vl (ofz b) / vl bw) <= IZR c + / 2)%R). { destruct UD as [[_ ->]|[_ L]]; [lra|]. apply Rle_trans with (1 := L). apply Rle_trans with (1 := BIG). rewrite U0. lra. }
  assert (TOP : (1000000000000 < bpow radix2 emax32)%R). { apply Rlt_trans with (bpow radix2 100); [|apply bpow_lt; reflexivity]. cbn. lra. }
  assert (FD : nnf prec32 emax32 (SFdiv prec32 emax32 (ofz b) bw)).
  { apply nneg_fin; [exact ND|]. rewrite ED. apply Rle_lt_trans with (1 := Rmin_l _ _). lra. }
  rewrite (nnf_cl prec32 emax32 _ FD) in ED. destruct (ceil_spec _ FD) as [FC EC'].
  pose proof (nnf_lt prec32 emax32 _ FD) as [PD LD].
  assert (ED' : vl (SFdiv prec32 emax32 (ofz b) bw) = rnd32 (vl (ofz b) / vl bw)).
  { clear -ED LD. rewrite ED in LD |- *. unfold Rmin in *. destruct (Rle_dec _ _); [reflexivity|lra]. }
  assert (EQ : Zceil (vl (SFdiv prec32 emax32 (ofz b) bw)) = cycles_for b bw) by (unfold cycles_for; rewrite ED', Eb; reflexivity).
  rewrite EQ in EC'. set (q := cycles_for b bw) in *.
  assert (Q0 : 0 <= q). { rewrite <- EQ. apply le_IZR. apply Rle_trans with (2 := Zceil_ub _). exact PD. }
  assert (Q1 : q <= c + 1). { rewrite <- EQ. apply Zceil_glb. rewrite ED', plus_IZR. lra. }
  destruct (add_nneg prec32 emax32 _ _ _ _ Nf FC) as [NA EA]. destruct (to_uint_ok _ _ _ NA He) as [Ve FA]. rewrite (nnf_cl prec32 emax32 _ FA) in EA.
  rewrite Ef, (proj2 (rnd32_low first Hf)), EC', <- plus_IZR, (proj2 (rnd32_low (first + q) ltac:(lia))) in EA by (change (2 ^ 24) with 16777216; lia).
  assert (S24 : (IZR (first + q) <= 16777216)%R) by (apply IZR_le; lia). rewrite Rmin_left in EA by lra.
  split; [rewrite Ve, EA; apply Zfloor_IZR|]. split; [lia|]. intros B1.
  assert (PX : (bpow radix2 (-128) <= vl (ofz b) / vl bw)%R).
  { apply Rmult_le_reg_r with (1 := P). unfold Rdiv. rewrite Rmult_assoc, Rinv_l, Rmult_1_r by lra.
    apply Rle_trans with (bpow radix2 (-128) * bpow radix2 128)%R; [apply Rmult_le_compat_l; [apply bpow_ge_0|left; exact TB]|].
    rewrite <- bpow_plus. change (bpow radix2 (-128 + 128)) with 1%R. rewrite Eb. rewrite <- (rnd_Z prec32 emax32 _ _ 1) by discriminate. apply (rnd_le prec32 emax32 _). apply IZR_le. lia. }
  apply (rnd_le prec32 emax32 _) in PX. rewrite round_generic in PX; [|apply valid_rnd_N|apply generic_format_bpow; cbv; discriminate].
  pose proof (bpow_gt_0 radix2 (-128)). assert (0 < q); [|lia]. apply lt_IZR. apply Rlt_le_trans with (vl (SFdiv prec32 emax32 (ofz b) bw)); [rewrite ED'; lra|rewrite <- EQ; apply Zceil_ub].
Qed.

Lemma cycles_mono b b' bw bw' : 0 <= b <= b' -> (0 < vl bw' <= vl bw)%R -> cycles_for b bw <= cycles_for b' bw'.
Proof.
  intros Hb Hw. unfold cycles_for. apply Zceil_le. apply (rnd_le prec32 emax32 _).
  assert (R0 : (0 <= rnd32 (IZR b))%R) by (rewrite <- (rnd_0 prec32 emax32); apply (rnd_le prec32 emax32 _); apply IZR_le; lia).
  assert (RB : (rnd32 (IZR b) <= rnd32 (IZR b'))%R) by (apply (rnd_le prec32 emax32 _); apply IZR_le; lia).
  unfold Rdiv. apply Rle_trans with (rnd32 (IZR b) * / vl bw')%R.
  - apply Rmult_le_compat_l; [exact R0|]. apply Rinv_le_contravar; lra.
  - apply Rmult_le_compat_r; [|exact RB]. left. apply Rinv_0_lt_compat. lra.
Qed.

(* the bytes of [c] cycles *)
Lemma bytes_mono bw bw' c m m' : nnf prec32 emax32 bw -> nnf prec32 emax32 bw' -> (vl bw' <= vl bw)%R -> 0 <= c < 2 ^ 34 ->
  f_to_uint f32A 64 (SFmul prec32 emax32 (ofz c) bw) = Ok m -> f_to_uint f32A 64 (SFmul prec32 emax32 (ofz c) bw') = Ok m' -> 0 <= m' <= m.
Proof.
  intros N N' L Hc Hm Hm'. destruct (ofz_up c Hc) as (NC & EC & UC).
  destruct (mul_nneg prec32 emax32 _ _ _ _ NC N) as [NM EM]. destruct (to_uint_ok _ _ _ NM Hm) as [Vm FM]. rewrite (nnf_cl prec32 emax32 _ FM) in EM.
  destruct (mul_nneg prec32 emax32 _ _ _ _ NC N') as [NM' EM']. destruct (to_uint_ok _ _ _ NM' Hm') as [Vm' FM']. rewrite (nnf_cl prec32 emax32 _ FM') in EM'.
  pose proof (nnf_lt prec32 emax32 _ NC) as [PC _]. pose proof (nnf_lt prec32 emax32 _ FM') as [PM _].
  split; [rewrite Vm'; apply Zfloor_lub; exact PM|]. rewrite Vm, Vm'. apply Zfloor_le. rewrite EM, EM'.
  apply Rle_min_compat_r. apply (rnd_le prec32 emax32 _). apply Rmult_le_compat_l; assumption.
Qed.
