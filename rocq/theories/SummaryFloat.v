(* Relative errors of the DRAM and Ethernet utilisation in floats (C59). *)
From Coq Require Import ZArith QArith Qreals Reals Lra Lia Bool String List Floats.SpecFloat.
From Flocq Require Import Core IEEE754.BinarySingleNaN Relative.
From Verif Require Import Base Arith Util Device SpecDevice Workload SpecWorkload Rates Stats SpecStats SpecSummary FactoryProofs FloatProofs FloatProofs2.
Import ListNotations.
Local Open Scope list_scope.
Open Scope Z_scope.

Definition ee : R := (/ 1073741824)%R.     (* 2^-30 *)
(* x is y up to the relative error k 2^-30 *)
Definition cls (k x y : R) : Prop := (0 <= y /\ y * (1 - k * ee) <= x <= y * (1 + k * ee))%R.
Section Cls.
  Open Scope R_scope.
  Lemma cls_pos k x y : k <= 1000 -> cls k x y -> 0 <= x.
  Proof. unfold cls, ee. intros K (H & L & _). apply Rle_trans with (2 := L). apply Rmult_le_pos; lra. Qed.
  Lemma cls_mono k j x y : k <= j -> cls k x y -> cls j x y.
  Proof. unfold cls, ee. intros K (H & L & U). split; [exact H|]. nra. Qed.
  Lemma cls_mul k j x y z w : 0 <= k <= 1000 -> 0 <= j <= 1000 -> cls k x y -> cls j z w -> cls (k + j + 1) (x * z) (y * w).
  Proof.
    intros HK HJ HX HZ. assert (X0 := cls_pos _ _ _ (proj2 HK) HX). assert (Z0 := cls_pos _ _ _ (proj2 HJ) HZ). destruct HX as (Y & L & U), HZ as (W & L' & U').
    assert (YW : 0 <= y * w) by (apply Rmult_le_pos; assumption). assert (KJ : 0 <= k * j <= 1000000) by nra.
    split; [exact YW|]. split.
    - apply Rle_trans with ((y * (1 - k * ee)) * (w * (1 - j * ee))).
      + replace ((y * (1 - k * ee)) * (w * (1 - j * ee))) with (y * w * ((1 - k * ee) * (1 - j * ee))) by ring. apply Rmult_le_compat_l; [exact YW|]. unfold ee. nra.
      + apply Rmult_le_compat; try assumption; apply Rmult_le_pos; unfold ee; lra.
    - apply Rle_trans with ((y * (1 + k * ee)) * (w * (1 + j * ee))); [apply Rmult_le_compat; assumption|].
      replace ((y * (1 + k * ee)) * (w * (1 + j * ee))) with (y * w * ((1 + k * ee) * (1 + j * ee))) by ring. apply Rmult_le_compat_l; [exact YW|]. unfold ee. nra.
  Qed.
  Lemma cls_inv j z w : 0 <= j <= 1000 -> 0 < w -> cls j z w -> cls (j + 1) (/ z) (/ w) /\ 0 < z.
  Proof.
    intros HJ HW (W & L & U). assert (P1 : 0 < 1 - j * ee) by (unfold ee; lra). assert (P2 : 0 < 1 + j * ee) by (unfold ee; lra).
    assert (ZP : 0 < z) by (apply Rlt_le_trans with (2 := L); apply Rmult_lt_0_compat; assumption). assert (IW : 0 < / w) by (apply Rinv_0_lt_compat; assumption).
    split; [|exact ZP]. split; [lra|]. split.
    - apply Rle_trans with (/ (w * (1 + j * ee))); [|apply Rinv_le; assumption]. rewrite Rinv_mult. apply Rmult_le_compat_l; [lra|].
      apply Rmult_le_reg_r with (1 + j * ee); [assumption|]. rewrite Rinv_l by lra. unfold ee in *. nra.
    - apply Rle_trans with (/ (w * (1 - j * ee))); [apply Rinv_le; [apply Rmult_lt_0_compat; assumption|assumption]|]. rewrite Rinv_mult. apply Rmult_le_compat_l; [lra|].
      apply Rmult_le_reg_r with (1 - j * ee); [assumption|]. rewrite Rinv_l by lra. unfold ee in *. nra.
  Qed.
  Lemma cls_trans k j x y z : 0 <= k <= 1000 -> 0 <= j <= 1000 -> cls k x y -> cls j y z -> cls (k + j + 1) x z.
  Proof.
    intros HK HJ (Y & L & U) (W & L' & U'). assert (KJ : 0 <= k * j <= 1000000) by nra. split; [exact W|]. assert (P1 : 0 <= 1 - k * ee) by (unfold ee; lra). assert (P2 : 0 <= 1 + k * ee) by (unfold ee; lra). split.
    - apply Rle_trans with (z * (1 - j * ee) * (1 - k * ee)); [|apply Rle_trans with (2 := L); apply Rmult_le_compat_r; assumption]. rewrite Rmult_assoc. apply Rmult_le_compat_l; [exact W|]. unfold ee. nra.
    - apply Rle_trans with (z * (1 + j * ee) * (1 + k * ee)); [apply Rle_trans with (1 := U); apply Rmult_le_compat_r; assumption|]. rewrite Rmult_assoc. apply Rmult_le_compat_l; [exact W|]. unfold ee. nra.
  Qed.
End Cls.

Ltac at_most n H := apply (cls_mono _ n) in H; [|lra].

Section Fmt.
  Context (prec emax : Z) (k : R) (HP : 0 < prec) (HM : prec < emax) (HE : 120 <= emax) (HX : 3 - emax - prec + prec - 1 <= -100).
  Context (HK : (bpow radix2 (- prec) <= k * ee)%R).
  Notation rnd := (round radix2 (SpecFloat.fexp prec emax) ZnearestE).
  Lemma rnd_cls r : (r = 0 \/ bpow radix2 (-100) <= r)%R -> cls k (rnd r) r.
  Proof.
    intros [->|H].
    - rewrite round_0 by typeclasses eauto. unfold cls, ee. lra.
    - pose proof (bpow_gt_0 radix2 (-100)) as P0. pose proof (relative_error_N_FLT radix2 (SpecFloat.emin prec emax) prec HP (fun x => negb (Z.even x)) r) as E.
      assert (B : (/ 2 * bpow radix2 (- prec + 1) = bpow radix2 (- prec))%R). { rewrite bpow_plus. cbn. lra. }
      rewrite B in E. assert (HR : (bpow radix2 (SpecFloat.emin prec emax + prec - 1) <= Rabs r)%R).
      { rewrite Rabs_pos_eq by lra. apply Rle_trans with (2 := H). apply bpow_le. unfold SpecFloat.emin. lia. }
      specialize (E HR). rewrite (Rabs_pos_eq r) in E by lra. apply Rabs_le_inv in E.
      change (round radix2 (FLT_exp (SpecFloat.emin prec emax) prec) (Znearest (fun x => negb (Z.even x))) r) with (rnd r) in E.
      assert (M : (bpow radix2 (- prec) * r <= k * ee * r)%R) by (apply Rmult_le_compat_r; lra). unfold cls. lra.
  Qed.
  Lemma rnd_lt r : (r <= bpow radix2 100 -> rnd r < bpow radix2 emax)%R.
  Proof.
    intros H. apply Rle_lt_trans with (bpow radix2 100); [|apply bpow_lt; lia].
    rewrite <- (round_generic radix2 (SpecFloat.fexp prec emax) ZnearestE (bpow radix2 100)).
    - apply round_le; [apply fexp_correct; exact HP|typeclasses eauto|exact H].
    - apply generic_format_bpow. unfold SpecFloat.fexp, SpecFloat.emin. lia.
  Qed.
  Lemma op_cls s r : nneg prec emax s -> cl emax s = Rmin (rnd r) (bpow radix2 emax) -> (r = 0 \/ bpow radix2 (-100) <= r)%R -> (r <= bpow radix2 100)%R ->
    nnf prec emax s /\ cls k (vl s) r.
  Proof.
    intros N C L U. pose proof (rnd_lt r U) as T. rewrite Rmin_left in C by lra. assert (NF : nnf prec emax s) by (apply nneg_fin; [exact N|rewrite C; exact T]).
    split; [exact NF|]. rewrite <- (nnf_cl _ _ _ NF), C. apply rnd_cls. exact L.
  Qed.
End Fmt.
Notation nf32 := (nnf prec32 emax32).
Notation nf64 := (nnf prec64 emax64).
Lemma u24 : (bpow radix2 (- prec32) <= 64 * ee)%R. Proof. unfold ee. cbn. lra. Qed.
Lemma u53 : (bpow radix2 (- prec64) <= 1 * ee)%R. Proof. unfold ee. cbn. lra. Qed.
Lemma op32 s r : nneg prec32 emax32 s -> cl emax32 s = Rmin (round radix2 (SpecFloat.fexp prec32 emax32) ZnearestE r) (bpow radix2 emax32) ->
  (r = 0 \/ bpow radix2 (-100) <= r)%R -> (r <= bpow radix2 100)%R -> nf32 s /\ cls 64 (vl s) r.
Proof. apply op_cls; try apply u24; unfold prec32, emax32; lia. Qed.
Lemma op64 s r : nneg prec64 emax64 s -> cl emax64 s = Rmin (round radix2 (SpecFloat.fexp prec64 emax64) ZnearestE r) (bpow radix2 emax64) ->
  (r = 0 \/ bpow radix2 (-100) <= r)%R -> (r <= bpow radix2 100)%R -> nf64 s /\ cls 1 (vl s) r.
Proof. apply op_cls; try apply u53; unfold prec64, emax64; lia. Qed.
Lemma big100 : bpow radix2 100 = IZR (2 ^ 100). Proof. reflexivity. Qed.
Lemma small100 : bpow radix2 (-100) = (/ IZR (2 ^ 100))%R. Proof. reflexivity. Qed.
Lemma int_range n : 0 <= n < 2 ^ 64 -> (IZR n = 0 \/ bpow radix2 (-100) <= IZR n)%R /\ (IZR n <= bpow radix2 100)%R.
Proof.
  intros H. split.
  - destruct (Z.eq_dec n 0) as [->|N]; [left; reflexivity|right]. apply Rle_trans with 1%R; [|apply IZR_le; lia]. rewrite small100. change (2 ^ 100) with 1267650600228229401496703205376. lra.
  - rewrite big100. apply IZR_le. change (2 ^ 64) with 18446744073709551616 in H. change (2 ^ 100) with 1267650600228229401496703205376. lia.
Qed.
Lemma ofZ64 n : 0 <= n < 2 ^ 64 -> nf64 (d_ofZ f32A n) /\ cls 1 (vl (d_ofZ f32A n)) (IZR n).
Proof. intros H. destruct (ofZ_nneg prec64 emax64 eq_refl eq_refl n ltac:(lia)) as [N C]. destruct (int_range n H). apply op64; assumption. Qed.
Lemma ofZ32 n : 0 <= n < 2 ^ 64 -> nf32 (f_ofZ f32A n) /\ cls 64 (vl (f_ofZ f32A n)) (IZR n).
Proof. intros H. destruct (ofZ_nneg prec32 emax32 eq_refl eq_refl n ltac:(lia)) as [N C]. destruct (int_range n H). apply op32; assumption. Qed.
Lemma hundred : nf64 (d_lit f32A 100 1) /\ vl (d_lit f32A 100 1) = 100%R.
Proof. change (d_lit f32A 100 1) with (S754_finite false 7036874417766400 (-46)). split; [split; [split; reflexivity|reflexivity]|]. unfold vl, SF2R, F2R. cbn. lra. Qed.
(* a bandwidth in bytes per cycle *)
Definition bandwidth_close (b : spec_float) (q : R) : Prop := nf32 b /\ cls 256 (vl b) q /\ (1 <= q <= 65536)%R.
Lemma ratio_float n c b q : 0 <= n < 2 ^ 64 -> 0 < c < 2 ^ 64 -> bandwidth_close b q ->
  let x := d_mul f32A (d_div f32A (d_ofZ f32A n) (d_of_f f32A (f_mul f32A (f_ofZ f32A c) b))) (d_lit f32A 100 1) in
  nf64 x /\ cls 512 (vl x) (100 * IZR n / (IZR c * q)).
Proof.
  intros Hn Hc (NB & CB & HQ) x.
  assert (RC : (1 <= IZR c <= 18446744073709551616)%R) by (split; apply IZR_le; [lia|change (2 ^ 64) with 18446744073709551616 in Hc; lia]).
  assert (RN : (0 <= IZR n <= 18446744073709551616)%R) by (split; apply IZR_le; [lia|change (2 ^ 64) with 18446744073709551616 in Hn; lia]).
  destruct (ofZ64 n Hn) as [NN CN]. destruct (ofZ32 c ltac:(lia)) as [NC CC].
  destruct (mul_nneg prec32 emax32 eq_refl eq_refl _ _ NC NB) as [NM EM].
  assert (CM := cls_mul 64 256 _ _ _ _ ltac:(lra) ltac:(lra) CC CB).
  assert (CQ : (1 <= IZR c * q <= 18446744073709551616 * 65536)%R) by (split; [rewrite <- (Rmult_1_l 1)|]; apply Rmult_le_compat; lra).
  set (m := (vl (f_ofZ f32A c) * vl b)%R) in *.
  assert (MR : (/ 2 <= m <= 18446744073709551616 * 65536 * 2)%R). { destruct CM as (_ & L & U). unfold ee in *. nra. }
  destruct (op32 _ m NM EM) as [NM' CM'].
  { right. rewrite small100. change (2 ^ 100) with 1267650600228229401496703205376. lra. }
  { rewrite big100. change (2 ^ 100) with 1267650600228229401496703205376. lra. }
  assert (CM2 := cls_trans 64 (64 + 256 + 1) _ _ _ ltac:(lra) ltac:(lra) CM' CM). at_most 386%R CM2.
  destruct (conv_up _ NM') as [NV EV].
  destruct (cls_inv 386 _ (IZR c * q) ltac:(lra) ltac:(lra) CM2) as [CI PI]. at_most 387%R CI.
  assert (CQ2 := cls_mul 1 387 _ _ _ _ ltac:(lra) ltac:(lra) CN CI). at_most 389%R CQ2.
  change (SFmul prec32 emax32 (f_ofZ f32A c) b) with (f_mul f32A (f_ofZ f32A c) b) in *.
  change (sf_conv prec64 emax64 (f_mul f32A (f_ofZ f32A c) b)) with (d_of_f f32A (f_mul f32A (f_ofZ f32A c) b)) in *.
  rewrite <- EV in CQ2, PI. set (dd := d_of_f f32A (f_mul f32A (f_ofZ f32A c) b)) in *.
  destruct (div_nneg prec64 emax64 eq_refl eq_refl (d_ofZ f32A n) dd NN NV ltac:(lra)) as [ND ED].
  unfold Rdiv in ED. set (r := (vl (d_ofZ f32A n) * / vl dd)%R) in *.
  assert (IQ : (/ (18446744073709551616 * 65536) <= / (IZR c * q) <= 1)%R). { split; [apply Rinv_le; lra|]. rewrite <- Rinv_1. apply Rinv_le; lra. }
  assert (RR : (r = 0 \/ / 1208925819614629174706176 / 2 <= r)%R /\ (r <= 18446744073709551616 * 2)%R).
  { destruct CQ2 as (_ & L & U). destruct (Z.eq_dec n 0) as [->|N].
    - rewrite !Rmult_0_l in L, U. split; [left|]; lra.
    - assert (1 <= IZR n)%R by (apply IZR_le; lia). assert (A1 : (/ (18446744073709551616 * 65536) <= IZR n * / (IZR c * q))%R) by (rewrite <- (Rmult_1_l (/ (_ * 65536))); apply Rmult_le_compat; lra).
      assert (A2 : (IZR n * / (IZR c * q) <= 18446744073709551616 * 1)%R) by (apply Rmult_le_compat; lra). unfold ee in *. split; [right|]; nra. }
  destruct RR as [R1 R2].
  destruct (op64 _ r ND ED) as [ND' CD'].
  { destruct R1 as [R1|R1]; [left; exact R1|right]. rewrite small100. change (2 ^ 100) with 1267650600228229401496703205376. lra. }
  { rewrite big100. change (2 ^ 100) with 1267650600228229401496703205376. lra. }
  assert (CD := cls_trans 1 389 _ _ _ ltac:(lra) ltac:(lra) CD' CQ2). at_most 391%R CD.
  destruct hundred as [NH VH].
  destruct (mul_nneg prec64 emax64 eq_refl eq_refl _ _ ND' NH) as [NX EX]. rewrite VH in EX.
  assert (C100 : cls 0 100 100) by (unfold cls; lra).
  assert (CX := cls_mul 391 0 _ _ _ _ ltac:(lra) ltac:(lra) CD C100). at_most 392%R CX.
  set (v := vl (SFdiv prec64 emax64 (d_ofZ f32A n) dd)) in *.
  assert (V : (v = 0 \/ / 1208925819614629174706176 / 4 <= v)%R /\ (v <= 18446744073709551616 * 4)%R).
  { destruct CD' as (_ & L & U). split; [destruct R1 as [R1|R1]; [left; rewrite R1 in *; lra|right]|]; unfold ee in *; nra. }
  destruct V as [V1 V2].
  destruct (op64 _ (v * 100) NX EX) as [NX' CX'].
  { destruct V1 as [V1|V1]; [left; rewrite V1; lra|right]. rewrite small100. change (2 ^ 100) with 1267650600228229401496703205376. lra. }
  { rewrite big100. change (2 ^ 100) with 1267650600228229401496703205376. lra. }
  assert (CF := cls_trans 1 392 _ _ _ ltac:(lra) ltac:(lra) CX' CX).
  split; [exact NX'|]. replace (100 * IZR n / (IZR c * q))%R with (IZR n * / (IZR c * q) * 100)%R by (unfold Rdiv; ring).
  eapply cls_mono; [|exact CF]. lra.
Qed.
