(* Float facts on the interpolated bandwidth. *)
From Coq Require Import ZArith Reals Lra Lia Bool List String Floats.SpecFloat.
From Flocq Require Import Core IEEE754.BinarySingleNaN Relative Sterbenz.
From Verif Require Import Base Arith Util Device Workload Rates TrackerProofs FloatProofs FloatProofs2.
Import ListNotations.
Local Open Scope list_scope.
Open Scope Z_scope.

Notation rd := (round radix2 (SpecFloat.fexp prec32 emax32) ZnearestE).
Notation nn32 := (nneg prec32 emax32).
Notation nf32 := (nnf prec32 emax32).
Notation nf64 := (nnf prec64 emax64).

Lemma rd_err x : (0 <= x)%R -> (Rabs (rd x - x) <= x * bpow radix2 (-24) + bpow radix2 (-150))%R.
Proof.
  intros Hx. destruct (error_N_FLT radix2 (SpecFloat.emin prec32 emax32) prec32 eq_refl (fun z => negb (Z.even z)) x) as (eps & eta & H1 & H2 & _ & H3).
  change (round radix2 (FLT_exp (SpecFloat.emin prec32 emax32) prec32) (Znearest (fun z => negb (Z.even z))) x) with (rd x) in H3.
  replace (/ 2 * bpow radix2 (- prec32 + 1))%R with (bpow radix2 (-24)) in H1 by (change (/ 2)%R with (bpow radix2 (-1)); rewrite <- bpow_plus; reflexivity).
  replace (/ 2 * bpow radix2 (SpecFloat.emin prec32 emax32))%R with (bpow radix2 (-150)) in H2 by (change (/ 2)%R with (bpow radix2 (-1)); rewrite <- bpow_plus; reflexivity).
  rewrite H3. replace (x * (1 + eps) + eta - x)%R with (x * eps + eta)%R by ring.
  eapply Rle_trans; [apply Rabs_triang|]. apply Rplus_le_compat; [|assumption]. rewrite Rabs_mult, (Rabs_pos_eq x) by assumption. apply Rmult_le_compat_l; assumption.
Qed.
Lemma nnf_inj p e x y : nnf p e x -> nnf p e y -> vl x = vl y -> x = y.
Proof.
  intros Nx Ny E. destruct (nnf_B _ _ _ Nx) as (bx & -> & Fx & Sx & Vx & _). destruct (nnf_B _ _ _ Ny) as (by_ & -> & Fy & Sy & Vy & _).
  rewrite Vx, Vy in E. f_equal. apply B2R_Bsign_inj; congruence.
Qed.
Definition nnfb (x : spec_float) : bool :=
  SpecFloat.valid_binary prec32 emax32 x && match x with S754_zero false | S754_finite false _ _ => true | _ => false end.
Lemma nnfb_ok x : nnfb x = true -> nf32 x.
Proof. unfold nnfb. rewrite andb_true_iff. intros [V H]. destruct x as [[]|[]| |[] m e]; try discriminate; (split; [split; [exact V|reflexivity]|reflexivity]). Qed.
Lemma one_ok : nf32 (f_one f32A) /\ vl (f_one f32A) = 1%R.
Proof. apply (ofZ_exact prec32 emax32 _ _ 1). split; [lia|]. discriminate. Qed.
Lemma d_one_ok : nf64 (d_lit f32A 1 1) /\ vl (d_lit f32A 1 1) = 1%R.
Proof. change (d_lit f32A 1 1) with (sf_ofZ prec64 emax64 1). apply (ofZ_exact prec64 emax64 _ _ 1). split; [lia|]. discriminate. Qed.

(** * The ratio of packets after the first *)
Lemma steady_ok n : 1 <= n < 2 ^ 32 ->
  let st := f_div f32A (f_ofZ f32A (u64 (n - 1))) (f_ofZ f32A n) in
  nf32 st /\ (vl st = 0 \/ / 2 <= vl st <= 1)%R.
Proof.
  intros Hn st. assert (U : u64 (n - 1) = n - 1) by (unfold u64; apply Z.mod_small; lia). subst st. rewrite U. cbn [f_div f_ofZ f32A].
  destruct (ofZ_fin prec32 emax32 _ _ (n - 1) ltac:(lia)) as [N1 V1]; [change (2 ^ (emax32 - 1)) with (2 ^ 127); lia|].
  destruct (ofZ_fin prec32 emax32 _ _ n ltac:(lia)) as [N2 V2]; [change (2 ^ (emax32 - 1)) with (2 ^ 127); lia|].
  assert (G1 : (1 <= vl (sf_ofZ prec32 emax32 n))%R).
  { rewrite V2. rewrite <- (rnd_1 prec32 emax32 _ _). apply rnd_le; [typeclasses eauto|]. apply IZR_le; lia. }
  assert (G2 : (vl (sf_ofZ prec32 emax32 (n - 1)) <= vl (sf_ofZ prec32 emax32 n))%R).
  { rewrite V1, V2. apply rnd_le; [typeclasses eauto|]. apply IZR_le; lia. }
  destruct (div_le_1 prec32 emax32 _ _ _ _ N1 N2 ltac:(lra) G2) as [N3 L3]. split; [assumption|].
  destruct (Z.eq_dec n 1) as [->|Hn1]; [left; reflexivity|]. right. split; [|assumption].
  destruct (div_nneg prec32 emax32 _ _ _ _ N1 N2 ltac:(lra)) as [_ E]. rewrite (nnf_cl prec32 emax32) in E by assumption.
  assert (G3 : (/ 2 <= vl (sf_ofZ prec32 emax32 (n - 1)) / vl (sf_ofZ prec32 emax32 n))%R).
  { apply Rmult_le_reg_r with (vl (sf_ofZ prec32 emax32 n)); [lra|]. unfold Rdiv. rewrite Rmult_assoc, Rinv_l, Rmult_1_r by lra.
    destruct (Z_le_gt_dec n (2 ^ 24)) as [L|L].
    - rewrite V1, V2. rewrite !(rnd_Z prec32 emax32 _ _) by (change (2 ^ prec32) with (2 ^ 24); lia). rewrite minus_IZR. apply (IZR_le 2) in Hn1 || assert (2 <= IZR n)%R by (apply IZR_le; lia). lra.
    - rewrite V1, V2. assert (H0 : (16777216 <= IZR n)%R) by (apply IZR_le; lia). pose proof (rd_err (IZR n) ltac:(lra)) as E1. pose proof (rd_err (IZR (n - 1)) ltac:(rewrite minus_IZR; lra)) as E2.
      rewrite minus_IZR in *. apply Rabs_le_inv in E1, E2. change (bpow radix2 (-24)) with (/ 16777216)%R in *.
      assert (bpow radix2 (-150) <= 1)%R by (change 1%R with (bpow radix2 0); apply bpow_le; lia). lra. }
  destruct (Rle_dec (/2) (vl (SFdiv prec32 emax32 (sf_ofZ prec32 emax32 (n - 1)) (sf_ofZ prec32 emax32 n)))) as [OK|NO]; [assumption|exfalso]. rewrite E in NO.
  apply NO. apply Rmin_glb.
  - replace (/ 2)%R with (rd (/2)); [apply rnd_le; [typeclasses eauto|assumption]|]. apply round_generic; [typeclasses eauto|]. change (/ 2)%R with (bpow radix2 (-1)). apply generic_format_bpow. vm_compute. discriminate.
  - change (/ 2)%R with (bpow radix2 (-1)). apply bpow_le. vm_compute; discriminate.
Qed.
Lemma gf32 x : nf32 x -> generic_format radix2 (SpecFloat.fexp prec32 emax32) (vl x).
Proof. intros N. destruct (nnf_B _ _ _ N) as (b & -> & _ & _ & V & _). rewrite V. apply generic_format_B2R. Qed.
Lemma gf_up r : generic_format radix2 (SpecFloat.fexp prec32 emax32) r -> generic_format radix2 (SpecFloat.fexp prec64 emax64) r.
Proof. apply generic_inclusion_mag. intros _. unfold SpecFloat.fexp, SpecFloat.emin, prec32, emax32, prec64, emax64. lia. Qed.
Lemma first_ok st : nf32 st -> (vl st = 0 \/ / 2 <= vl st <= 1)%R ->
  let fr := f_of_d f32A (d_sub f32A (d_lit f32A 1 1) (d_of_f f32A st)) in nf32 fr /\ vl fr = (1 - vl st)%R.
Proof.
  intros N HS fr. destruct (conv_up st N) as [N1 V1]. destruct d_one_ok as [N2 V2].
  assert (B : (0 <= vl st <= 1)%R) by lra.
  assert (G : generic_format radix2 (SpecFloat.fexp prec32 emax32) (1 - vl st)).
  { assert (G1 : generic_format radix2 (SpecFloat.fexp prec32 emax32) 1) by (rewrite <- (proj2 one_ok); apply gf32, one_ok).
    destruct HS as [->|HS]; [rewrite Rminus_0_r; assumption|]. apply sterbenz; [typeclasses eauto|typeclasses eauto|assumption|apply gf32; assumption|lra]. }
  destruct (sub_nn prec64 emax64 _ _ _ _ N2 N1) as (N3 & _ & V3); [rewrite V1, V2; lra|]. rewrite V1, V2 in V3.
  rewrite round_generic in V3; [|typeclasses eauto|apply gf_up; assumption].
  destruct (conv_down_le _ _ N3 (proj1 one_ok)) as (N4 & _ & V4); [rewrite V3, (proj2 one_ok); lra|].
  change (f_of_d f32A (d_sub f32A (d_lit f32A 1 1) (d_of_f f32A st))) with (sf_conv prec32 emax32 (SFsub prec64 emax64 (d_lit f32A 1 1) (sf_conv prec64 emax64 st))) in fr.
  subst fr. split; [assumption|]. rewrite V4, V3. apply round_generic; [typeclasses eauto|assumption].
Qed.
(* the two assertions *)
Lemma ratios_ok st fr : nf32 st -> nf32 fr -> vl fr = (1 - vl st)%R ->
  d_lt f32A (d_of_f f32A (f_add f32A st fr)) (d_lit f32A 10001 10000) = true /\ d_lt f32A (d_lit f32A 999 1000) (d_of_f f32A (f_add f32A st fr)) = true.
Proof.
  intros N1 N2 E. destruct (add_bound prec32 emax32 _ _ _ _ _ N1 N2 (proj1 one_ok)) as (N3 & _ & V3); [rewrite (proj2 one_ok); lra|].
  replace (vl st + vl fr)%R with 1%R in V3 by lra. rewrite (rnd_1 prec32 emax32 _ _) in V3.
  assert (X : f_add f32A st fr = f_one f32A) by (apply (nnf_inj prec32 emax32); [exact N3|apply one_ok|rewrite (proj2 one_ok); exact V3]).
  rewrite X. split; vm_compute; reflexivity.
Qed.

(** * One interval of the table *)
Definition pair_ok (M : spec_float) (lo hi : Z * spec_float) : bool :=
  let vd := f_sub f32A (snd hi) (snd lo) in
  (0 <=? fst lo) && (fst lo <? fst hi) && (fst hi <=? 2 ^ 24) && nnfb (snd lo) && nnfb (snd hi) && negb (SFltb (snd hi) (snd lo)) &&
  nnfb (f_add f32A vd (snd lo)) && negb (SFltb M (f_add f32A vd (snd lo))) &&
  (negb (SFltb (snd lo) (f_one f32A)) || ((fst lo =? 0) && negb (SFltb vd (f_one f32A)))).
(* the next larger float *)
Definition next (M : spec_float) : spec_float := match M with S754_finite s m e => S754_finite s (m + 1) e | _ => M end.
Definition max_ok (M : spec_float) : bool :=
  nnfb M && nnfb (next M) && negb (SFltb M (f_one f32A)) && match M with S754_finite _ m e => (-100 <=? e) && (2 ^ 23 <=? Zpos m) | _ => false end.
Lemma next_ok M : max_ok M = true -> nf32 M /\ nf32 (next M) /\ (1 <= vl M)%R /\
  (vl M * (1 + bpow radix2 (-24)) + bpow radix2 (-148) <= vl (next M))%R /\ (vl (next M) <= vl M * (1 + bpow radix2 (-23)))%R.
Proof.
  unfold max_ok. rewrite !andb_true_iff. intros (((H1 & H2) & H3) & H4). apply nnfb_ok in H1, H2. split; [assumption|]. split; [assumption|].
  apply negb_true_iff in H3. apply (ltb_vl_false prec32 emax32 _ _ _ H1 (proj1 one_ok)) in H3 || apply (ltb_vl_false prec32 emax32 _ _ H1 (proj1 one_ok)) in H3. rewrite (proj2 one_ok) in H3. split; [assumption|].
  destruct M as [|s| |s m e]; try discriminate. apply andb_true_iff in H4 as [H4 H5]. apply Z.leb_le in H4, H5.
  destruct H1 as [[V S] _]. cbn in S. subst s. assert (Hm : Zpos m <= 2 ^ 24 - 1).
  { assert (D : Digits.Zdigits radix2 (Zpos m) <= 24).
    { pose proof V as HB. unfold valid in HB. cbn [SpecFloat.valid_binary] in HB. unfold SpecFloat.bounded in HB. apply andb_true_iff in HB as [HB1 _].
      unfold SpecFloat.canonical_mantissa in HB1. apply Zeq_bool_eq in HB1. rewrite Digits.Zpos_digits2_pos in HB1. unfold SpecFloat.fexp, SpecFloat.emin, prec32, emax32 in HB1. lia. }
    pose proof (Digits.Zpower_gt_Zdigits radix2 24 (Zpos m) D) as D2. cbn [Z.abs] in D2. change (radix2 ^ 24) with (2 ^ 24) in D2. lia. }
  cbn [next]. unfold vl. cbn [SF2R cond_Zopp]. unfold F2R. cbn [Fnum Fexp]. rewrite Pos2Z.inj_add, plus_IZR.
  pose proof (bpow_gt_0 radix2 e) as P. apply IZR_le in H5, Hm. rewrite minus_IZR in Hm. change (2 ^ 23) with 8388608 in H5. change (2 ^ 24) with 16777216 in Hm.
  assert (T : (bpow radix2 (-148) <= bpow radix2 e * / 16777216)%R).
  { change (/ 16777216)%R with (bpow radix2 (-24)). rewrite <- bpow_plus. apply bpow_le. lia. }
  change (bpow radix2 (-24)) with (/ 16777216)%R. change (bpow radix2 (-23)) with (/ 8388608)%R.
  set (p := bpow radix2 e) in *. set (q := IZR (Zpos m)) in *. clearbody p q.
  split; nra.
Qed.
Lemma rd_bpow k : -149 <= k <= 100 -> rd (bpow radix2 k) = bpow radix2 k.
Proof. intros H. apply round_generic; [typeclasses eauto|]. apply generic_format_bpow. unfold SpecFloat.fexp, SpecFloat.emin, prec32, emax32. lia. Qed.
Lemma rd_ge k r : -149 <= k <= 100 -> (bpow radix2 k <= r)%R -> (bpow radix2 k <= rd r)%R.
Proof. intros Hk H. rewrite <- (rd_bpow k Hk). apply rnd_le; [typeclasses eauto|assumption]. Qed.
(* the bandwidth of a long sequence of packets of this size *)
Lemma steady_bw_ok M lo hi p : nf32 M -> pair_ok M lo hi = true -> 1 <= p -> fst lo <= p <= fst hi ->
  let delta := f_ofZ f32A (u64 (fst hi - fst lo)) in
  let pct := f_div f32A (f_ofZ f32A (u64 (p - fst lo))) delta in
  let sb := f_add f32A (f_mul f32A (f_sub f32A (snd hi) (snd lo)) pct) (snd lo) in
  nf32 sb /\ (bpow radix2 (-24) <= vl sb <= vl M)%R.
Proof.
  intros NM HP H1 H2 delta pct sb. unfold pair_ok in HP. rewrite !andb_true_iff, !negb_true_iff in HP. destruct HP as ((((((((P1 & P2) & P3) & P4) & P5) & P6) & P7) & P8) & P9).
  apply Z.leb_le in P1, P3. apply Z.ltb_lt in P2. apply nnfb_ok in P4, P5, P7. set (lv := snd lo) in *. set (hv := snd hi) in *.
  apply (ltb_vl_false prec32 emax32 hv lv P5 P4) in P6. apply (ltb_vl_false prec32 emax32 M _ NM P7) in P8.
  assert (U1 : u64 (fst hi - fst lo) = fst hi - fst lo) by (unfold u64; apply Z.mod_small; lia). assert (U2 : u64 (p - fst lo) = p - fst lo) by (unfold u64; apply Z.mod_small; lia).
  subst sb pct delta. rewrite U1, U2. cbn [f_add f_sub f_mul f_div f_ofZ f32A] in *. set (sb := SFadd prec32 emax32 _ lv).
  destruct (ofZ_exact prec32 emax32 _ _ (fst hi - fst lo)) as [Nd Vd]; [change (2 ^ prec32) with (2 ^ 24); lia|].
  destruct (ofZ_exact prec32 emax32 _ _ (p - fst lo)) as [Np Vp]; [change (2 ^ prec32) with (2 ^ 24); lia|].
  assert (D1 : (1 <= IZR (fst hi - fst lo) <= 16777216)%R) by (split; apply IZR_le; lia).
  assert (D2 : (0 <= IZR (p - fst lo) <= IZR (fst hi - fst lo))%R) by (split; apply IZR_le; lia).
  destruct (div_le_1 prec32 emax32 _ _ _ _ Np Nd) as [Nq Lq]; [rewrite Vd; lra|rewrite Vd, Vp; lra|]. set (q := SFdiv prec32 emax32 _ _) in *.
  destruct (sub_nn prec32 emax32 _ _ _ _ P5 P4 P6) as (Nv & _ & _). set (vd := SFsub prec32 emax32 hv lv) in *.
  destruct (mul_le_r prec32 emax32 _ _ _ _ Nv Nq Lq) as (Nm & Lm & Vm). set (m := SFmul prec32 emax32 vd q) in *.
  destruct (add_nneg prec32 emax32 _ _ _ _ Nm P4) as [Ns Vs]. destruct (add_nneg prec32 emax32 _ _ _ _ Nv P4) as [Nt Vt].
  rewrite (nnf_cl prec32 emax32 _ P7) in Vt.
  assert (Ls : (cl emax32 sb <= vl (SFadd prec32 emax32 vd lv))%R).
  { rewrite Vt. subst sb. rewrite Vs. apply Rle_min_compat_r. apply rnd_le; [typeclasses eauto|lra]. }
  pose proof (nnf_lt prec32 emax32 _ P7) as L7.
  assert (Nsb : nf32 sb) by (apply nneg_fin; [exact Ns|lra]). split; [assumption|]. rewrite <- (nnf_cl prec32 emax32 _ Nsb). split; [|lra].
  subst sb. rewrite Vs. apply Rmin_glb; [|apply bpow_le; vm_compute; discriminate]. apply rd_ge; [lia|].
  pose proof (nnf_lt prec32 emax32 _ Nm) as Lm0. pose proof (nnf_lt prec32 emax32 _ P4) as Ll0.
  apply orb_true_iff in P9 as [P9|P9].
  - apply negb_true_iff in P9. apply (ltb_vl_false prec32 emax32 _ _ P4 (proj1 one_ok)) in P9. rewrite (proj2 one_ok) in P9.
    assert (bpow radix2 (-24) <= 1)%R by (change 1%R with (bpow radix2 0); apply bpow_le; lia). lra.
  - apply andb_true_iff in P9 as [P9 P10]. apply Z.eqb_eq in P9. apply negb_true_iff in P10. apply (ltb_vl_false prec32 emax32 _ _ Nv (proj1 one_ok)) in P10. rewrite (proj2 one_ok) in P10.
    assert (Q : (bpow radix2 (-24) <= vl q)%R).
    { destruct (div_nneg prec32 emax32 _ _ _ _ Np Nd) as [_ E]; [rewrite Vd; lra|]. fold q in E. rewrite (nnf_cl prec32 emax32 _ Nq) in E. rewrite E.
      apply Rmin_glb; [|apply bpow_le; vm_compute; discriminate]. apply rd_ge; [lia|]. rewrite Vd, Vp. apply Rmult_le_reg_r with (IZR (fst hi - fst lo)); [lra|].
      unfold Rdiv. rewrite Rmult_assoc, Rinv_l, Rmult_1_r by lra. change (bpow radix2 (-24)) with (/ 16777216)%R.
      assert (1 <= IZR (p - fst lo))%R by (apply IZR_le; lia). lra. }
    assert (bpow radix2 (-24) <= vl m)%R; [|lra]. rewrite Vm. apply rd_ge; [lia|]. pose proof (bpow_gt_0 radix2 (-24)). nra.
Qed.
Lemma interp_pair_ok M lo hi p n : max_ok M = true -> pair_ok M lo hi = true -> 1 <= p -> fst lo <= p <= fst hi -> 1 <= n < 2 ^ 32 ->
  exists b, interp_pair f32A lo hi M p n = Ok b /\ nf32 b /\ (0 < vl b <= vl (next M))%R.
Proof.
  intros HM HP H1 H2 Hn. destruct (next_ok M HM) as (NM & NN & M1 & M2 & _).
  destruct (steady_bw_ok M lo hi p NM HP H1 H2) as (Nb & Bb). destruct (steady_ok n Hn) as (Ns & Bs). destruct (first_ok _ Ns Bs) as (Nf & Vf).
  destruct (ratios_ok _ _ Ns Nf Vf) as (A1 & A2). unfold interp_pair. cbv zeta.
  set (st := f_div f32A (f_ofZ f32A (u64 (n - 1))) (f_ofZ f32A n)) in *. set (fr := f_of_d f32A (d_sub f32A (d_lit f32A 1 1) (d_of_f f32A st))) in *.
  rewrite A1, A2. unfold tt_assert. cbn [bind]. eexists. split; [reflexivity|]. set (sb := f_add f32A (f_mul f32A _ _) (snd lo)) in Nb, Bb.
  change (nf32 (f_add f32A (f_mul f32A fr M) (f_mul f32A st sb)) /\ (0 < vl (f_add f32A (f_mul f32A fr M) (f_mul f32A st sb)) <= vl (next M))%R). clearbody sb st fr.
  assert (F1 : (0 <= vl fr <= 1)%R) by lra. assert (S1 : (0 <= vl st <= 1)%R) by lra.
  destruct (mul_le_l prec32 emax32 _ _ _ _ Nf NM ltac:(lra)) as (Na & La & Va). destruct (mul_le_l prec32 emax32 _ _ _ _ Ns Nb ltac:(lra)) as (Nc & Lc & Vc).
  cbn [f_add f_mul f32A]. set (a := SFmul prec32 emax32 fr M) in *. set (c := SFmul prec32 emax32 st sb) in *.
  pose proof (nnf_lt prec32 emax32 _ Na) as Pa. pose proof (nnf_lt prec32 emax32 _ Nc) as Pc.
  assert (UB : (vl a + vl c <= vl (next M))%R).
  { assert (P1 : (0 <= vl fr * vl M)%R) by nra. assert (P2 : (0 <= vl st * vl sb)%R) by (pose proof (bpow_gt_0 radix2 (-24)); nra).
    pose proof (rd_err _ P1) as E1. pose proof (rd_err _ P2) as E2. rewrite <- Va in E1. rewrite <- Vc in E2. apply Rabs_le_inv in E1, E2.
    assert (T : (bpow radix2 (-150) + bpow radix2 (-150) <= bpow radix2 (-148))%R).
    { replace (bpow radix2 (-148)) with (4 * bpow radix2 (-150))%R by (change 4%R with (bpow radix2 2); rewrite <- bpow_plus; reflexivity). pose proof (bpow_gt_0 radix2 (-150)). lra. }
    assert (S : (vl fr * vl M + vl st * vl sb <= vl M)%R) by nra. pose proof (bpow_gt_0 radix2 (-24)). nra. }
  destruct (add_bound prec32 emax32 _ _ _ _ _ Na Nc NN UB) as (Nr & Lr & Vr). split; [assumption|]. split; [|assumption].
  rewrite Vr. apply Rlt_le_trans with (bpow radix2 (-30)); [apply bpow_gt_0|]. apply rd_ge; [lia|].
  destruct Bs as [B0|B1].
  - assert (vl a = vl M) by (rewrite Va, Vf, B0, Rminus_0_r, Rmult_1_l; apply rnd_vl; [apply NM|apply NM]).
    assert (bpow radix2 (-30) <= 1)%R by (change 1%R with (bpow radix2 0); apply bpow_le; lia). lra.
  - assert (bpow radix2 (-30) <= vl c)%R; [|lra]. rewrite Vc. apply rd_ge; [lia|].
    assert (bpow radix2 (-30) <= / 2 * bpow radix2 (-24))%R by (change (/2)%R with (bpow radix2 (-1)); rewrite <- bpow_plus; apply bpow_le; lia). pose proof (bpow_gt_0 radix2 (-24)). nra.
Qed.
Fixpoint table_ok (M : spec_float) (l : list (Z * spec_float)) : bool :=
  match l with
  | [] => false
  | lo :: rest => match rest with
                  | [] => nnfb (snd lo) && SFltb (S754_zero false) (snd lo) && negb (SFltb M (snd lo))
                  | hi :: _ => pair_ok M lo hi && table_ok M rest
                  end
  end.
Lemma interp_loop_ok M p n : max_ok M = true -> 1 <= p -> 1 <= n < 2 ^ 32 ->
  forall l, table_ok M l = true -> (forall x r, l = x :: r -> fst x <= p) ->
  exists b, interp_loop f32A l M p n = Ok b /\ nf32 b /\ (0 < vl b <= vl (next M))%R.
Proof.
  intros HM Hp Hn l. induction l as [|lo l IH]; intros HT HF; [discriminate|]. specialize (HF lo l eq_refl) as HF0. destruct l as [|hi l].
  - cbn [table_ok] in HT. rewrite !andb_true_iff, negb_true_iff in HT. destruct HT as ((T1 & T2) & T3). apply nnfb_ok in T1. destruct (next_ok M HM) as (NM & NN & M1 & M2 & _).
    apply (ltb_vl prec32 emax32 _ _ (nnf_zero _ _) T1) in T2. apply (ltb_vl_false prec32 emax32 _ _ NM T1) in T3. cbn [interp_loop].
    exists (snd lo). split; [apply Z.leb_le in HF0; cbn in HF0 |- *; rewrite HF0; reflexivity|]. split; [assumption|]. change (vl (S754_zero false)) with 0%R in T2.
    split; [assumption|]. pose proof (bpow_gt_0 radix2 (-24)). pose proof (bpow_gt_0 radix2 (-148)). nra.
  - change (table_ok M (lo :: hi :: l)) with (pair_ok M lo hi && table_ok M (hi :: l)) in HT. apply andb_true_iff in HT as [T1 T2].
    change (interp_loop f32A (lo :: hi :: l) M p n) with (if (fst lo <=? p) && (p <=? fst hi) then interp_pair f32A lo hi M p n else interp_loop f32A (hi :: l) M p n).
    pose proof (proj2 (Z.leb_le _ _) HF0) as HL. cbn in HL |- *. rewrite HL. clear HL. destruct (Z.leb_spec p (fst hi)); cbn [andb].
    + apply interp_pair_ok; try assumption. lia.
    + apply IH; [assumption|]. intros x r E. injection E as <- <-. lia.
Qed.
Lemma tables_ok d : max_ok (max_noc_bandwidth f32A d) = true /\ table_ok (max_noc_bandwidth f32A d) (tbt f32A d) = true.
Proof. unfold max_noc_bandwidth, tbt. destruct (dv_class d); split; vm_compute; reflexivity. Qed.
Theorem interpolate_ok d p n : 1 <= p -> 1 <= n < 2 ^ 32 ->
  exists b, interpolateBW f32A (tbt f32A d) (max_noc_bandwidth f32A d) p n = Ok b /\ nf32 b /\
    (0 < vl b <= vl (max_noc_bandwidth f32A d) * (1 + bpow radix2 (-23)))%R.
Proof.
  intros Hp Hn. destruct (tables_ok d) as [T1 T2]. unfold interpolateBW, tt_assert. destruct (Z.ltb_spec 0 p); [|lia]. cbn [bind].
  destruct (interp_loop_ok _ p n T1 Hp Hn _ T2) as (b & E & N & B).
  - intros x r. unfold tbt. destruct (dv_class d); intros E; injection E as <- _; cbn [fst]; lia.
  - exists b. split; [assumption|]. split; [assumption|]. destruct (next_ok _ T1) as (_ & _ & _ & _ & U). lra.
Qed.
