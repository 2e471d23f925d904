(* Congestion in floats: the sums of the new rates stay within the capacities up to the rounding errors. First part: single values. *)
From Coq Require Import ZArith Arith Reals Lra Lia Bool List String Floats.SpecFloat.
From Flocq Require Import Core IEEE754.BinarySingleNaN Relative Plus_error.
From Verif Require Import Base Arith Util Device Workload Rates SpecRates TrackerProofs DepGenProofs FloatProofs FloatProofs2 RateFacts RateFloat RateFloat2 RateFloat3 RateFloat4 FiniteProofs.
Import ListNotations.
Local Open Scope list_scope.
Open Scope Z_scope.

(** * Units *)
Notation uu := (bpow radix2 (-24)).
Notation eta := (bpow radix2 (-150)).
Notation vv := (bpow radix2 (-22)).
Lemma units : (0 < uu)%R /\ (uu <= / 16000000)%R /\ vv = (4 * uu)%R /\ (0 < eta)%R /\ (eta <= uu * uu)%R /\ bpow radix2 (-149) = (2 * eta)%R /\ bpow radix2 (-140) = (1024 * eta)%R.
Proof.
  pose proof (bpow_gt_0 radix2 (-24)). pose proof (bpow_gt_0 radix2 (-150)). split; [assumption|]. split; [cbn; lra|].
  split; [change 4%R with (bpow radix2 2); rewrite <- bpow_plus; reflexivity|]. split; [assumption|].
  split; [rewrite <- !bpow_plus; apply bpow_le; discriminate|]. split.
  - change 2%R with (bpow radix2 1); rewrite <- bpow_plus; reflexivity.
  - change 1024%R with (bpow radix2 10); rewrite <- bpow_plus; reflexivity.
Qed.
Lemma rd_lo x : (0 <= x)%R -> (x * (1 - uu) - eta <= rd x)%R.
Proof. intros H. pose proof (rd_err x H) as E. apply Rabs_le_inv in E. lra. Qed.
Lemma rd_hi x : (0 <= x)%R -> (rd x <= x * (1 + uu) + eta)%R.
Proof. intros H. pose proof (rd_err x H) as E. apply Rabs_le_inv in E. lra. Qed.
Notation rd64 := (round radix2 (SpecFloat.fexp prec64 emax64) ZnearestE).
Lemma rd64_hi x : (0 <= x)%R -> (rd64 x <= x * (1 + uu * uu) + eta * eta)%R.
Proof.
  intros Hx. destruct (error_N_FLT radix2 (SpecFloat.emin prec64 emax64) prec64 eq_refl (fun z => negb (Z.even z)) x) as (eps & et & H1 & H2 & _ & H3).
  change (round radix2 (FLT_exp (SpecFloat.emin prec64 emax64) prec64) (Znearest (fun z => negb (Z.even z))) x) with (rd64 x) in H3.
  assert (B1 : (/ 2 * bpow radix2 (- prec64 + 1) <= uu * uu)%R) by (change (/ 2)%R with (bpow radix2 (-1)); rewrite <- !bpow_plus; apply bpow_le; discriminate).
  assert (B2 : (/ 2 * bpow radix2 (SpecFloat.emin prec64 emax64) <= eta * eta)%R) by (change (/ 2)%R with (bpow radix2 (-1)); rewrite <- !bpow_plus; apply bpow_le; discriminate).
  apply Rabs_le_inv in H1. apply Rabs_le_inv in H2. rewrite H3. nra.
Qed.

(** * The demand of a transfer *)
Lemma demand_lo st en x : 0 <= st < en -> en < 2 ^ 32 -> state_ok en x -> (vl (s_bw x) <= 128)%R ->
  (0 <= part st en x <= 1)%R /\ (part st en x * vl (s_bw x) <= (1 + 2 * vv) * vl (effective_demand f32A st en x) + bpow radix2 (-140))%R.
Proof.
  intros H1 H2 (N1 & N2 & _ & H3) HB. unfold effective_demand, part.
  assert (U1 : u32 (en - Z.max st (s_start x)) = en - Z.max st (s_start x)) by (unfold u32; apply Z.mod_small; lia).
  assert (U2 : u32 (en - st) = en - st) by (unfold u32; apply Z.mod_small; lia). rewrite U1, U2. cbn [f_mul f_div f_ofZ f32A].
  assert (L1 : (0 <= IZR (en - Z.max st (s_start x)))%R) by (apply IZR_le; lia). assert (L2 : (1 <= IZR (en - st))%R) by (apply IZR_le; lia).
  assert (L3 : (IZR (en - Z.max st (s_start x)) <= IZR (en - st))%R) by (apply IZR_le; lia).
  destruct (ofZ_fin prec32 emax32 _ _ (en - Z.max st (s_start x)) ltac:(lia)) as [Na Va]; [change (2 ^ (emax32 - 1)) with (2 ^ 127); lia|].
  destruct (ofZ_fin prec32 emax32 _ _ (en - st) ltac:(lia)) as [Nb Vb]; [change (2 ^ (emax32 - 1)) with (2 ^ 127); lia|].
  pose proof (rd_lo _ L1) as R1. pose proof (rd_hi (IZR (en - st)) ltac:(lra)) as R2. rewrite <- Va in R1. rewrite <- Vb in R2.
  set (X := sf_ofZ prec32 emax32 (en - Z.max st (s_start x))) in *. set (Y := sf_ofZ prec32 emax32 (en - st)) in *.
  assert (G1 : (1 <= vl Y)%R).
  { rewrite Vb, <- (rnd_1 prec32 emax32 _ _). apply rnd_le; [typeclasses eauto|assumption]. }
  assert (LXY : (vl X <= vl Y)%R) by (rewrite Va, Vb; apply rnd_le; [typeclasses eauto|assumption]).
  destruct (div_le_1 prec32 emax32 _ _ X Y Na Nb) as [Nd Ld]; [lra|assumption|].
  destruct (mul_le_l prec32 emax32 _ _ _ _ Nd N2 Ld) as (_ & _ & EM).
  destruct (div_nn prec32 emax32 _ _ X Y Na (proj1 Nb)) as [_ ED]; [right; rewrite (nnf_cl prec32 emax32 _ Nb); lra|].
  rewrite !(nnf_cl prec32 emax32 _ Nb), (nnf_cl prec32 emax32 _ Nd) in ED. pose proof (nnf_lt prec32 emax32 _ Nb) as PY. pose proof (nnf_lt prec32 emax32 _ Na) as PX. pose proof (nnf_lt prec32 emax32 _ N2) as PB. pose proof (nnf_lt prec32 emax32 _ Nd) as PD.
  destruct (Req_EM_T (vl Y) 0) as [E0|_]; [lra|]. destruct (Req_EM_T (vl Y) (bpow radix2 emax32)) as [E0|_]; [lra|].
  assert (Q1 : (0 <= vl X / vl Y)%R) by (apply Rmult_le_pos; [lra|left; apply Rinv_0_lt_compat; lra]).
  assert (Q2 : (vl X / vl Y <= 1)%R) by (apply Rmult_le_reg_r with (vl Y); [lra|]; unfold Rdiv; rewrite Rmult_assoc, Rinv_l by lra; lra).
  assert (TB : (1 < bpow radix2 emax32)%R) by (change 1%R with (bpow radix2 0); apply bpow_lt; reflexivity).
  rewrite Rmin_left in ED.
  2:{ apply Rle_trans with 1%R; [|lra]. rewrite <- (rnd_1 prec32 emax32 _ _). apply rnd_le; [typeclasses eauto|assumption]. }
  pose proof (rd_lo _ Q1) as R3. rewrite <- ED in R3. set (q := SFdiv prec32 emax32 X Y) in *.
  pose proof (rd_lo (vl q * vl (s_bw x)) ltac:(nra)) as R4. rewrite <- EM in R4. set (e := SFmul prec32 emax32 q (s_bw x)) in *. change (vl (SFmul prec32 emax32 q (@s_bw (F f32A) x))) with (vl e).
  destruct units as (U0 & U3 & -> & E0 & E1 & _ & ->). set (u := bpow radix2 (-24)) in *. set (et := bpow radix2 (-150)) in *.
  set (a := (IZR (en - Z.max st (s_start x)) / IZR (en - st))%R) in *.
  assert (A1 : (0 <= a)%R) by (apply Rmult_le_pos; [lra|left; apply Rinv_0_lt_compat; lra]).
  assert (A2 : (a <= 1)%R) by (unfold a; apply Rmult_le_reg_r with (IZR (en - st)); [lra|]; unfold Rdiv; rewrite Rmult_assoc, Rinv_l by lra; lra).
  split; [split; assumption|].
  assert (AX : (a * (1 - 3 * u) - et <= vl X / vl Y)%R).
  { assert (neg_r : forall r a b : R, (r <= 0 -> a <= b -> r * b <= r * a)%R) by (intros; nra). apply Rmult_le_reg_r with (vl Y); [lra|]. unfold Rdiv. rewrite (Rmult_assoc (vl X)), Rinv_l by lra. rewrite Rmult_1_r.
    assert (EX : (IZR (en - Z.max st (s_start x)) = a * IZR (en - st))%R) by (unfold a, Rdiv; rewrite Rmult_assoc, Rinv_l by lra; lra). rewrite EX in R1.
    set (y := IZR (en - st)) in *. set (Yv := vl Y) in *. clear - neg_r R1 R2 A1 A2 G1 U0 U3 E0 E1 L2.
    assert (Eu : (et <= u)%R) by nra. assert (Yb : (Yv <= y * (1 + 2 * u))%R) by nra.
    destruct (Rle_or_lt (a * (1 - 3 * u) - et) 0) as [C|C]; [|].
    - apply Rle_trans with ((a * (1 - 3 * u) - et) * 1)%R; [apply neg_r; assumption|].
      assert (P : (a * 1 <= a * y)%R) by (apply Rmult_le_compat_l; assumption). assert (P2 : (a * (1 - u) <= a * y * (1 - u))%R) by (apply Rmult_le_compat_r; lra). nra.
    - apply Rle_trans with ((a * (1 - 3 * u) - et) * (y * (1 + 2 * u)))%R; [apply Rmult_le_compat_l; lra|].
      assert (P : (0 <= a * y)%R) by nra. assert (K : ((1 - 3 * u) * (1 + 2 * u) <= 1 - u)%R) by nra.
      assert ((a * y) * ((1 - 3 * u) * (1 + 2 * u)) <= (a * y) * (1 - u))%R by (apply Rmult_le_compat_l; assumption).
      assert (et <= et * (y * (1 + 2 * u)))%R by nra. nra. }
  set (b := vl (s_bw x)) in *. change (vl (s_bw x)) with b in R4. change (a * b <= (1 + 2 * (4 * u)) * vl e + 1024 * et)%R. set (z := (vl X / vl Y)%R) in *. clearbody z a b. set (qv := vl q) in *. set (ev := vl e) in *. clearbody qv ev u et. clear - R3 R4 A1 A2 AX U0 U3 E0 E1 HB PB Q1 Q2.
  assert (Eu : (et <= u)%R) by nra.
  assert (B1 : (a * (1 - 4 * u) - 2 * et <= qv)%R).
  { assert (T : ((a * (1 - 3 * u) - et) * (1 - u) <= z * (1 - u))%R) by (apply Rmult_le_compat_r; lra). assert (K : (1 - 4 * u <= (1 - 3 * u) * (1 - u))%R) by nra.
    assert (a * (1 - 4 * u) <= a * ((1 - 3 * u) * (1 - u)))%R by (apply Rmult_le_compat_l; assumption). assert (0 <= et * u)%R by nra. lra. }
  assert (B2 : (a * b * (1 - 5 * u) - 257 * et <= ev)%R).
  { apply Rle_trans with (2 := R4). assert (T : ((a * (1 - 4 * u) - 2 * et) * (b * (1 - u)) <= qv * (b * (1 - u)))%R) by (apply Rmult_le_compat_r; [apply Rmult_le_pos; lra|assumption]).
    assert (P : (0 <= a * b)%R) by (apply Rmult_le_pos; lra). assert (K : (1 - 5 * u <= (1 - 4 * u) * (1 - u))%R) by nra. assert ((a * b) * (1 - 5 * u) <= (a * b) * ((1 - 4 * u) * (1 - u)))%R by (apply Rmult_le_compat_l; assumption).
    assert (Z : (b * (1 - u) <= 128)%R) by nra. assert (2 * et * (b * (1 - u)) <= 2 * et * 128)%R by (apply Rmult_le_compat_l; lra). lra. }
  assert (P : (0 <= a * b)%R) by (apply Rmult_le_pos; lra). assert (K : (1 <= (1 + 8 * u) * (1 - 5 * u))%R) by nra.
  assert (a * b * 1 <= a * b * ((1 + 8 * u) * (1 - 5 * u)))%R by (apply Rmult_le_compat_l; assumption).
  assert ((1 + 8 * u) * (a * b * (1 - 5 * u) - 257 * et) <= (1 + 8 * u) * ev)%R by (apply Rmult_le_compat_l; lra). assert (u * et <= / 16000000 * et)%R by (apply Rmult_le_compat_r; lra). lra.
Qed.

(** * Sums *)
Definition rsum (l : list spec_float) : R := fold_right (fun x acc => (vl x + acc)%R) 0%R l.
Lemma sum_lo xs : forall a, nf32 a -> Forall nf32 xs -> nf32 (fold_left (f_add f32A) xs a) ->
  (vl a + rsum xs <= vl (fold_left (f_add f32A) xs a) * (1 + uu) ^ List.length xs)%R.
Proof.
  destruct units as (U0 & _). induction xs as [|x xs IH]; intros a Na HF HN; cbn [fold_left rsum fold_right List.length pow]; [lra|]. inversion HF as [|? ? Nx HF']; subst.
  destruct (add_nn prec32 emax32 _ _ a x (proj1 Na) (proj1 Nx)) as [N E].
  assert (Nf : nf32 (f_add f32A a x)).
  { apply nneg_fin; [exact N|]. cbn [fold_left] in HN. destruct (sum_ok xs (f_add f32A a x) N) as [_ L]; [eapply Forall_impl; [|exact HF']; intros y Hy; apply Hy|].
    rewrite (nnf_cl prec32 emax32 _ HN) in L. pose proof (nnf_lt prec32 emax32 _ HN). eapply Rle_lt_trans; [exact L|lra]. }
  pose proof (IH _ Nf HF' HN) as H. cbn [fold_left] in HN. fold (rsum xs).
  assert (S : (vl a + vl x <= vl (f_add f32A a x) * (1 + uu))%R).
  { rewrite !(nnf_cl prec32 emax32) in E by assumption. change (SFadd prec32 emax32 a x) with (f_add f32A a x) in E.
    destruct (Rle_or_lt (rd (vl a + vl x)) (bpow radix2 emax32)) as [EE|EE]; [rewrite Rmin_left in E by exact EE|rewrite Rmin_right in E by (left; exact EE)]; [|pose proof (nnf_lt prec32 emax32 _ Nf); lra].
    destruct (FLT_plus_error_N_round_ex radix2 (SpecFloat.emin prec32 emax32) prec32 (fun z => negb (Z.even z)) (vl a) (vl x)) as (eps & H1 & H2); [exact (gf32 _ Na)|exact (gf32 _ Nx)|].
    change (round radix2 (FLT_exp (SpecFloat.emin prec32 emax32) prec32) (Znearest (fun z => negb (Z.even z))) (vl a + vl x)) with (rd (vl a + vl x)) in H2. rewrite <- E in H2. rewrite H2.
    apply Rmult_le_compat_l; [apply (nnf_lt prec32 emax32 _ Nf)|]. apply Rabs_le_inv in H1. assert (EU : u_ro radix2 prec32 = uu) by (unfold u_ro; change (/ 2)%R with (bpow radix2 (-1)); rewrite <- bpow_plus; reflexivity). rewrite EU in H1. lra. }
  assert (PX : (0 <= rsum xs)%R) by (clear - HF'; induction HF' as [|y l Hy HF IH]; cbn [rsum fold_right]; [lra|]; fold (rsum l); pose proof (nnf_lt prec32 emax32 _ Hy); lra).
  set (s := vl (f_add f32A a x)) in *. set (D := vl (fold_left (f_add f32A) xs (f_add f32A a x))) in *. set (p := ((1 + uu) ^ List.length xs)%R) in *.
  apply Rle_trans with ((s + rsum xs) * (1 + uu))%R; [nra|]. apply Rle_trans with (D * p * (1 + uu))%R; [apply Rmult_le_compat_r; lra|]. lra.
Qed.

(** * The new rate *)
Lemma apply_arith (b ov rv wv m u et : R) : (0 <= ov <= 1 -> 0 <= b <= 128 -> 0 <= rv -> 0 <= wv -> 0 < u -> u <= / 16000000 -> 0 < et -> et <= u * u -> rv <= 1 ->
  (1 - ov) * (1 - u) - et <= rv -> wv <= (1 - rv) * (1 + u * u) + et * et -> m <= b * wv * (1 + u * u) + et * et ->
  m * (1 + u) + et <= b * (ov + 4 * u) + 2 * et)%R.
Proof.
  intros Ho Hb Hr Hw U0 U1 E0 E1 Hr1 R1 R2 R3. assert (S0 : (0 < u * u)%R) by (apply Rmult_lt_0_compat; assumption). assert (S1 : (u * u <= u * / 16000000)%R) by (apply Rmult_le_compat_l; lra).
  assert (EE : (et * et <= et * / 16000000)%R) by (apply Rmult_le_compat_l; lra).
  assert (W1 : ((1 - rv) * (u * u) <= 1 * (u * u))%R) by (apply Rmult_le_compat_r; lra). assert (O1 : (0 <= ov * u)%R) by (apply Rmult_le_pos; lra).
  assert (W : (wv <= ov + u + 3 * (u * u))%R) by lra. assert (W2 : (wv <= 1 + 2 * (u * u))%R) by lra.
  assert (B1 : (b * wv <= b * (ov + u + 3 * (u * u)))%R) by (apply Rmult_le_compat_l; lra). assert (B2 : (b * wv <= b * (1 + 2 * (u * u)))%R) by (apply Rmult_le_compat_l; lra).
  assert (Z : (b * (u * u) <= b * (u * / 16000000))%R) by (apply Rmult_le_compat_l; lra). assert (Z0 : (0 <= b * u)%R) by (apply Rmult_le_pos; lra).
  assert (B3 : (b * wv <= b * 2)%R) by (apply Rmult_le_compat_l; lra).
  assert (M0 : (b * wv * (u * u) <= b * 2 * (u * u))%R) by (apply Rmult_le_compat_r; lra).
  assert (M1 : (m <= b * ov + b * u * (1 + / 1000) + et * / 16000000)%R) by lra.
  assert (M2 : (m <= b * (1 + / 1000) + et * / 16000000)%R) by (assert (b * u <= b * / 16000000)%R by (apply Rmult_le_compat_l; lra); assert (b * ov <= b * 1)%R by (apply Rmult_le_compat_l; lra); lra).
  assert (M3 : (m * u <= (b * (1 + / 1000) + et * / 16000000) * u)%R) by (apply Rmult_le_compat_r; lra). assert (U2 : (et * u <= et * / 16000000)%R) by (apply Rmult_le_compat_l; lra). lra.
Qed.
Lemma apply_hi d bw o : nf32 bw -> nn32 o -> (cl32 o < 1)%R -> (vl bw <= 128)%R -> (vl (apply_derate f32A d bw o) <= vl bw * (vl o + vv) + bpow radix2 (-149))%R.
Proof.
  intros Nb No L HB. assert (T1 : (1 < bpow radix2 emax32)%R) by (change 1%R with (bpow radix2 0); apply bpow_lt; reflexivity).
  assert (Fo : nf32 o) by (apply nneg_fin; [assumption|lra]). destruct (apply_ok d bw o Nb No L) as [HN _]. rewrite (nnf_cl prec32 emax32) in L by assumption. pose proof (nnf_lt prec32 emax32 _ Fo) as Po. pose proof (nnf_lt prec32 emax32 _ Nb) as Pb.
  assert (G : (vl (SFmul prec32 emax32 bw o) <= vl bw * (vl o + vv) + bpow radix2 (-149))%R).
  { destruct (mul_le_r prec32 emax32 _ _ _ _ Nb Fo ltac:(lra)) as (_ & _ & ->). pose proof (rd_hi (vl bw * vl o) ltac:(nra)) as R.
    destruct units as (U0 & U3 & -> & E0 & E1 & -> & _). assert ((vl bw * vl o) <= vl bw)%R by nra. nra. }
  unfold apply_derate in *. destruct (dv_class d); [|exact G|]; clear G.
  all: destruct one_ok as [N1 V1]; destruct d_one_ok as [N2 V2].
  all: cbn [f_of_d d_mul d_of_f d_sub f_mul f_sub f32A] in *.
  all: destruct (sub_nn prec32 emax32 _ _ _ _ N1 Fo ltac:(lra)) as (Nr & Lr & Vr); rewrite V1 in Lr, Vr.
  all: change (f_one f32A) with (sf_ofZ prec32 emax32 1) in *; set (r := SFsub prec32 emax32 (sf_ofZ prec32 emax32 1) o) in *.
  all: destruct (mul_le_l prec32 emax32 _ _ _ _ N1 Nr ltac:(lra)) as (Nr1 & Lr1 & Vr1); set (r1 := SFmul prec32 emax32 (sf_ofZ prec32 emax32 1) r) in *.
  all: assert (Er : vl r1 = vl r) by (rewrite Vr1, V1, Rmult_1_l; apply (rnd_vl prec32 emax32); apply Nr).
  all: destruct (conv_up _ Nr1) as [Nu Vu]; set (u := sf_conv prec64 emax64 r1) in *.
  all: destruct (sub_nn prec64 emax64 _ _ _ _ N2 Nu ltac:(lra)) as (Nw & Lw & Vw); rewrite V2 in Lw, Vw; set (w := SFsub prec64 emax64 (d_lit f32A 1 1) u) in *.
  all: destruct (conv_up _ Nb) as [Nc Vc]; destruct (mul_le_r prec64 emax64 _ _ _ _ Nc Nw ltac:(lra)) as (Nm & Lm & Vm).
  all: destruct (conv_down_le _ bw Nm Nb ltac:(lra)) as (_ & _ & Vd); rewrite Vd, Vm, Vc.
  all: pose proof (rd_lo (1 - vl o)%R ltac:(lra)) as R1; rewrite <- Vr in R1.
  all: rewrite Vu, Er in Vw; pose proof (nnf_lt prec32 emax32 _ Nr) as Pr; pose proof (nnf_lt prec64 emax64 _ Nw) as Pw.
  all: pose proof (rd64_hi (1 - vl r)%R ltac:(lra)) as R2; rewrite <- Vw in R2.
  all: pose proof (rd64_hi (vl bw * vl w)%R ltac:(nra)) as R3.
  all: assert (P3 : (0 <= rd64 (vl bw * vl w))%R) by (apply (rnd_ge_0 prec64 emax64); [reflexivity|nra]).
  all: pose proof (rd_hi _ P3) as R4; set (m := rd64 (vl bw * vl w)) in *; destruct units as (U0 & U3 & -> & E0 & E1 & -> & _).
  all: set (uu := bpow radix2 (-24)) in *; set (et := bpow radix2 (-150)) in *; eapply Rle_trans; [exact R4|].
  all: set (b := vl bw) in *; set (ov := vl o) in *; set (rv := vl r) in *; set (wv := vl w) in *; clearbody b ov rv wv m uu et; clear - R1 R2 R3 Po Pb Pr Pw L HB U0 U3 E0 E1 Lr.
  all: exact (apply_arith b ov rv wv m uu et (conj (proj1 Po) (Rlt_le _ _ L)) (conj (proj1 Pb) HB) (proj1 Pr) (proj1 Pw) U0 U3 E0 E1 Lr R1 R2 R3).
Qed.
