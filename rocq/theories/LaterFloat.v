(* The end cycle of a transfer that runs later (C87): below cycle 2^24 the binary32 sum of the first cycle and the number of cycles is exact. *)
From Coq Require Import ZArith Reals Bool List Lia Lra Floats.SpecFloat.
From Flocq Require Import Core IEEE754.BinarySingleNaN Relative.
From Verif Require Import Base Arith FloatProofs FloatProofs2 EndFloat.
Open Scope Z_scope.

Lemma trunc_some x : nnf prec32 emax32 x -> sf_trunc x = Some (Zfloor (vl x)).
Proof.
  intros [N F]. destruct (sf_trunc x) as [z|] eqn:E.
  - destruct (trunc_nneg prec32 emax32 _ _ N E) as [-> _]. reflexivity.
  - destruct x as [s|s| |s m e]; try discriminate.
Qed.
(* an exact sum *)
Lemma exact_sum a x X : 0 <= a -> 0 <= X -> a + X <= 2 ^ 24 -> nnf prec32 emax32 x -> vl x = IZR X ->
  f_to_uint f32A 64 (SFadd prec32 emax32 (ofz a) x) = Ok (a + X).
Proof.
  intros Ha HX HS NX EX. change (2 ^ 24) with 16777216 in HS. destruct (ofz_up a) as (Na & Ea & _); [change (2 ^ 34) with 17179869184; lia|].
  rewrite (proj2 (rnd32_low a Ha)) in Ea by (change (2 ^ 24) with 16777216; lia).
  destruct (add_nneg prec32 emax32 _ _ _ _ Na NX) as [NS ES]. rewrite Ea, EX, <- plus_IZR in ES. rewrite (proj2 (rnd32_low (a + X) ltac:(lia))) in ES by (change (2 ^ 24) with 16777216; lia).
  assert (T : (IZR (a + X) < bpow radix2 emax32)%R).
  { apply Rle_lt_trans with (IZR 16777216); [apply IZR_le; lia|]. apply Rlt_trans with (bpow radix2 100); [cbn; lra|apply bpow_lt; reflexivity]. }
  rewrite Rmin_left in ES by lra. assert (FS : nnf prec32 emax32 (SFadd prec32 emax32 (ofz a) x)) by (apply nneg_fin; [exact NS|rewrite ES; exact T]).
  rewrite (nnf_cl prec32 emax32 _ FS) in ES. unfold f_to_uint. cbn [f32A f_trunc]. rewrite (trunc_some _ FS), ES, Zfloor_IZR.
  replace ((0 <=? a + X) && (a + X <? 2 ^ 64))%bool with true; [reflexivity|]. symmetry. apply andb_true_iff. change (2 ^ 64) with 18446744073709551616. split; [apply Z.leb_le|apply Z.ltb_lt]; lia.
Qed.
Theorem later_end32 bw first c m b e K : nnf prec32 emax32 bw -> 0 <= first -> 0 <= c -> 0 <= K -> first + c + 8192 + K < 2 ^ 24 ->
  f_to_uint f32A 64 (SFmul prec32 emax32 (ofz c) bw) = Ok m -> 0 <= b <= m -> b < 2 ^ 34 ->
  f_to_uint f32A 64 (SFadd prec32 emax32 (ofz first) (sf_ceil prec32 emax32 (SFdiv prec32 emax32 (ofz b) bw))) = Ok e ->
  f_to_uint f32A 64 (SFadd prec32 emax32 (ofz (first + K)) (sf_ceil prec32 emax32 (SFdiv prec32 emax32 (ofz b) bw))) = Ok (e + K) /\
  first <= e <= first + c + 8192.
Proof.
  intros NB Hf Hc HK HS Hm Hb Hb34 He. change (2 ^ 24) with 16777216 in HS.
  assert (H34 : first + c < 2 ^ 34) by (change (2 ^ 34) with 17179869184; lia).
  destruct (end32 bw first c m b e NB Hf Hc H34 Hm Hb Hb34 He) as [LO UP].
  rewrite (proj2 (rnd32_low first Hf)) in LO by (change (2 ^ 24) with 16777216; lia). apply le_IZR in LO.
  split; [|split; assumption].
  destruct (ofz_up b ltac:(lia)) as (Nb & _). destruct (ofz_up first) as (Nf & Ef & _); [change (2 ^ 34) with 17179869184; lia|].
  destruct (Req_dec (vl bw) 0) as [Z0|NZ].
  { exfalso. rewrite (vl_zero _ NB Z0) in Hm, He. destruct (ofz_up c) as (NC & _); [lia|]. assert (m = 0).
    { destruct NC as [[_ SC] FC]. destruct (ofz c) as [s|s| |s p q]; try discriminate; unfold f_to_uint in Hm; cbn in Hm; congruence. }
    assert (b = 0) by lia. subst b. unfold f_to_uint in He. cbn [f32A f_trunc] in He.
    replace (SFdiv prec32 emax32 (ofz 0) (S754_zero false)) with S754_nan in He by reflexivity. cbn [sf_ceil] in He. destruct (ofz first); cbn in He; discriminate. }
  destruct (div_nneg prec32 emax32 _ _ _ _ Nb NB NZ) as [ND _].
  set (q := SFdiv prec32 emax32 (ofz b) bw) in *.
  assert (FD : nnf prec32 emax32 q).
  { split; [exact ND|]. destruct q as [s|s| |s p r]; try reflexivity; exfalso; unfold f_to_uint in He; cbn [f32A f_trunc sf_ceil] in He; destruct Nf as [_ Ff]; destruct (ofz first) as [s'|s'| |s' p' r']; cbn in He; discriminate. }
  destruct (ceil_spec _ FD) as [FC EC]. set (X := Zceil (vl q)) in *. set (x := sf_ceil prec32 emax32 q) in *.
  assert (X0 : 0 <= X). { apply le_IZR. rewrite <- EC. apply (nnf_lt prec32 emax32 _ FC). }
  assert (XU : first + X <= 2 ^ 24).
  { destruct (Z_le_gt_dec (first + X) (2 ^ 24)) as [|G]; [assumption|]. exfalso. destruct (add_nneg prec32 emax32 _ _ _ _ Nf FC) as [NA EA]. destruct (to_uint_ok _ _ _ NA He) as [Ve FA]. rewrite (nnf_cl prec32 emax32 _ FA) in EA.
    assert (L : (IZR (2 ^ 24) <= vl (SFadd prec32 emax32 (ofz first) x))%R).
    { rewrite EA. apply Rmin_glb.
      - rewrite <- (proj2 (rnd32_low (2 ^ 24) ltac:(lia))) by lia. apply (rnd_le prec32 emax32 _). rewrite Ef, EC. rewrite (proj2 (rnd32_low first Hf)) by (change (2 ^ 24) with 16777216; lia). rewrite <- plus_IZR. apply IZR_le. lia.
      - change (2 ^ 24) with 16777216. apply Rle_trans with (bpow radix2 100); [cbn; lra|apply bpow_le; discriminate]. }
    assert (2 ^ 24 <= e) by (rewrite Ve; apply Zfloor_lub; exact L). change (2 ^ 24) with 16777216 in *. lia. }
  rewrite (exact_sum first x X Hf X0 XU FC EC) in He. injection He as <-.
  rewrite (exact_sum (first + K) x X ltac:(lia) X0 ltac:(change (2 ^ 24) with 16777216; lia) FC EC). f_equal. lia.
Qed.
