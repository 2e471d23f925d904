(* More facts on the IEEE instance: operations with infinite operands, conversions between float and double. *)
From Coq Require Import ZArith Reals Lra Lia Bool Floats.SpecFloat.
From Flocq Require Import Core IEEE754.BinarySingleNaN Relative.
From Verif Require Import Base Arith FloatProofs.
Open Scope Z_scope.

Section Fmt.
Variables prec emax : Z.
Context (Hprec : FLX.Prec_gt_0 prec).
Context (Hmax : Prec_lt_emax prec emax).

Notation fexp := (SpecFloat.fexp prec emax).
Notation rnd := (round radix2 fexp ZnearestE).
Notation top := (bpow radix2 emax).
Notation cl := (cl emax).
Notation nneg := (nneg prec emax).
Notation nnf := (nnf prec emax).

Lemma rnd_top : rnd top = top.
Proof.
  apply round_generic; [typeclasses eauto|]. apply generic_format_bpow. unfold SpecFloat.fexp, SpecFloat.emin.
  unfold Prec_lt_emax, Prec_gt_0 in *. lia.
Qed.
Lemma rnd_1 : rnd 1 = 1%R.
Proof.
  apply (rnd_Z prec emax Hprec Hmax 1). unfold Prec_gt_0 in Hprec. assert (0 < 2 ^ prec) by (apply Z.pow_pos_nonneg; lia). lia.
Qed.
Lemma rnd_0 : rnd 0 = 0%R.
Proof. apply round_0. typeclasses eauto. Qed.
Lemma rnd_pos_le r x : valid prec emax x -> fin x -> (r <= vl x)%R -> (rnd r <= vl x)%R.
Proof. intros V F H. rewrite <- (rnd_vl prec emax x V F). apply rnd_le; assumption. Qed.
Lemma rnd_ge_vl r x : valid prec emax x -> fin x -> (vl x <= r)%R -> (vl x <= rnd r)%R.
Proof. intros V F H. rewrite <- (rnd_vl prec emax x V F). apply rnd_le; assumption. Qed.

Lemma nneg_cases x : nneg x -> (nnf x /\ cl x = vl x) \/ (x = S754_infinity false /\ cl x = top).
Proof.
  intros N. destruct x as [s|s| |s m e]; try (left; split; [split; [exact N|reflexivity]|reflexivity]).
  - destruct N as [_ N]. cbn in N. subst s. right. split; reflexivity.
  - destruct N as [_ []].
Qed.
Lemma nnf_cl x : nnf x -> cl x = vl x.
Proof. intros [_ F]. apply cl_fin. exact F. Qed.
Lemma nneg_inf : nneg (S754_infinity false).
Proof. split; reflexivity. Qed.
Lemma nneg_zero : nneg (S754_zero false).
Proof. split; reflexivity. Qed.
Lemma nnf_zero : nnf (S754_zero false).
Proof. split; [exact nneg_zero|reflexivity]. Qed.
Lemma nnf_lt x : nnf x -> (0 <= vl x < top)%R.
Proof. intros [N F]. split; [eapply vl_nneg; eassumption|]. rewrite <- (cl_fin emax) by assumption. apply (cl_inj_fin prec emax x N). assumption. Qed.
Lemma nneg_fin x : nneg x -> (cl x < top)%R -> nnf x.
Proof. intros N H. split; [assumption|]. apply (cl_inj_fin prec emax x N). assumption. Qed.

(* addition, infinity included *)
Lemma add_nn x y : nneg x -> nneg y ->
  nneg (SFadd prec emax x y) /\ cl (SFadd prec emax x y) = Rmin (rnd (cl x + cl y)) top.
Proof.
  intros Nx Ny. pose proof (cl_nneg prec emax x Nx) as Cx. pose proof (cl_nneg prec emax y Ny) as Cy.
  assert (T : forall r, (top <= r)%R -> Rmin (rnd r) top = top).
  { intros r Hr. apply Rmin_right. rewrite <- rnd_top at 1. apply rnd_le; assumption. }
  destruct (nneg_cases _ Nx) as [[Fx Ex]|[-> Ex]], (nneg_cases _ Ny) as [[Fy Ey]|[-> Ey]].
  - rewrite Ex, Ey. apply add_nneg; assumption.
  - destruct Fx as [_ Fx]. destruct Nx as [Vx Sx]. rewrite Ey, T by lra.
    destruct x as [s|s| |s m e]; try discriminate; cbn [SFadd]; (split; [exact nneg_inf|reflexivity]).
  - destruct Fy as [_ Fy]. destruct Ny as [Vy Sy]. rewrite Ex, T by lra.
    destruct y as [s|s| |s m e]; try discriminate; cbn [SFadd]; (split; [exact nneg_inf|reflexivity]).
  - rewrite Ex, T by lra. cbn [SFadd Bool.eqb]. split; [exact nneg_inf|reflexivity].
Qed.
Lemma add_le x y x' y' : nneg x -> nneg y -> nneg x' -> nneg y' -> (cl x <= cl x')%R -> (cl y <= cl y')%R ->
  (cl (SFadd prec emax x y) <= cl (SFadd prec emax x' y'))%R.
Proof.
  intros. rewrite (proj2 (add_nn x y ltac:(assumption) ltac:(assumption))), (proj2 (add_nn x' y' ltac:(assumption) ltac:(assumption))).
  apply Rle_min_compat_r. apply rnd_le; [assumption|lra].
Qed.
Lemma add_grows x y : nneg x -> nneg y -> (cl x <= cl (SFadd prec emax x y))%R.
Proof.
  intros Nx Ny. rewrite (proj2 (add_nn x y Nx Ny)). pose proof (cl_nneg prec emax x Nx). pose proof (cl_nneg prec emax y Ny).
  apply Rmin_glb; [|lra]. replace (cl x) with (rnd (cl x)) at 1; [apply rnd_le; [assumption|lra]|].
  destruct (nneg_cases _ Nx) as [[[[V _] F] ->]|[-> ->]]; [apply rnd_vl; assumption|apply rnd_top].
Qed.

(* division of a finite number *)
Lemma div_nn x y : nnf x -> nneg y -> (0 < vl x \/ 0 < cl y)%R ->
  nneg (SFdiv prec emax x y) /\
  cl (SFdiv prec emax x y) = (if Req_EM_T (cl y) 0 then top else if Req_EM_T (cl y) top then 0 else Rmin (rnd (vl x / vl y)) top)%R.
Proof.
  intros Nx Ny HP. pose proof (bpow_gt_0 radix2 emax) as T. destruct (nneg_cases _ Ny) as [[Fy Ey]|[-> Ey]].
  - pose proof (nnf_lt _ Fy) as Ly. rewrite Ey. destruct (Req_EM_T (vl y) 0) as [E0|E0].
    + destruct y as [s|s| |s m e]; [|destruct Fy; discriminate| destruct Ny as [_ []]|].
      * destruct Ny as [_ Hs]. cbn in Hs. subst s.
        destruct x as [sx|sx| |sx mx ex]; [cbn in HP; lra|destruct Nx; discriminate|destruct Nx as [[_ []] _]|].
        destruct Nx as [[_ Hs] _]. cbn in Hs. subst sx. cbn [SFdiv xorb]. split; [exact nneg_inf|reflexivity].
      * exfalso. destruct Ny as [_ Hs]. cbn in Hs. subst s. cbn in E0. unfold F2R in E0. cbn in E0. apply Rmult_integral in E0. pose proof (bpow_gt_0 radix2 e).
        destruct E0 as [E0|E0]; [apply (eq_IZR (Zpos m) 0) in E0; discriminate|lra].
    + destruct (Req_EM_T (vl y) top); [lra|]. apply div_nneg; assumption.
  - rewrite Ey. destruct (Req_EM_T top 0); [lra|]. destruct (Req_EM_T top top); [|congruence].
    destruct Nx as [[Vx Hs] Fx]. destruct x as [sx|sx| |sx mx ex]; try discriminate; cbn in Hs; subst sx; cbn [SFdiv xorb]; (split; [exact nneg_zero|reflexivity]).
Qed.
Lemma div_anti x y y' : nnf x -> nneg y -> nneg y' -> (0 < vl x \/ 0 < cl y)%R -> (cl y <= cl y')%R ->
  (cl (SFdiv prec emax x y') <= cl (SFdiv prec emax x y))%R.
Proof.
  intros Nx Ny Ny' HP HL. pose proof (cl_nneg prec emax y Ny) as Cy. pose proof (cl_nneg prec emax y' Ny') as Cy'. pose proof (bpow_gt_0 radix2 emax) as T.
  pose proof (nnf_lt _ Nx) as Lx.
  destruct (div_nn x y Nx Ny HP) as [N1 E1]. destruct (div_nn x y' Nx Ny') as [N2 E2]; [lra|].
  pose proof (cl_nneg prec emax _ N1) as B1. pose proof (cl_nneg prec emax _ N2) as B2. rewrite E1, E2 in *. 
  destruct (Req_EM_T (cl y) 0); [lra|]. destruct (Req_EM_T (cl y') 0); [lra|]. destruct (Req_EM_T (cl y') top); [lra|]. destruct (Req_EM_T (cl y) top); [lra|].
  destruct (nneg_cases _ Ny) as [[_ Ey]|[_ Ey]]; [|lra]. destruct (nneg_cases _ Ny') as [[_ Ey']|[_ Ey']]; [|lra]. rewrite Ey, Ey' in *.
  apply Rle_min_compat_r. apply rnd_le; [assumption|]. unfold Rdiv. apply Rmult_le_compat_l; [lra|]. apply Rinv_le_contravar; lra.
Qed.
(* a quotient of a finite number is at least 1 when the divisor is not larger *)
Lemma div_ge_1 x y : nnf x -> nneg y -> (0 < vl x)%R -> (cl y <= vl x)%R -> (1 <= cl (SFdiv prec emax x y))%R.
Proof.
  intros Nx Ny HP HL. pose proof (cl_nneg prec emax y Ny) as Cy. pose proof (nnf_lt _ Nx) as Lx. pose proof (bpow_gt_0 radix2 emax) as T.
  assert (T1 : (1 <= top)%R). { change 1%R with (bpow radix2 0). apply bpow_le. unfold Prec_lt_emax, Prec_gt_0 in *. lia. }
  destruct (div_nn x y Nx Ny (or_introl HP)) as [_ ->]. destruct (Req_EM_T (cl y) 0); [lra|]. destruct (Req_EM_T (cl y) top); [lra|].
  destruct (nneg_cases _ Ny) as [[_ Ey]|[_ Ey]]; [|lra]. rewrite Ey in *. apply Rmin_glb; [|assumption]. rewrite <- rnd_1. apply rnd_le; [assumption|].
  apply Rmult_le_reg_r with (vl y); [lra|]. unfold Rdiv. rewrite Rmult_assoc, Rinv_l by lra. lra.
Qed.
(* a quotient of numbers x <= y is at most 1 *)
Lemma div_le_1 x y : nnf x -> nnf y -> (0 < vl y)%R -> (vl x <= vl y)%R -> nnf (SFdiv prec emax x y) /\ (vl (SFdiv prec emax x y) <= 1)%R.
Proof.
  intros Nx Ny HP HL. destruct (div_nneg prec emax Hprec Hmax x y Nx Ny ltac:(lra)) as [N E].
  assert (T1 : (1 < top)%R). { change 1%R with (bpow radix2 0). apply bpow_lt. unfold Prec_lt_emax, Prec_gt_0 in *. lia. }
  assert (R1 : (rnd (vl x / vl y) <= 1)%R).
  { rewrite <- rnd_1 at 1. apply rnd_le; [assumption|]. apply Rmult_le_reg_r with (vl y); [lra|]. unfold Rdiv. rewrite Rmult_assoc, Rinv_l by lra. lra. }
  rewrite Rmin_left in E by lra. assert (nnf (SFdiv prec emax x y)) by (apply nneg_fin; [assumption|lra]). split; [assumption|]. rewrite <- nnf_cl by assumption. lra.
Qed.
(* a product with a number at most 1 *)
Lemma mul_le_l x y : nnf x -> nnf y -> (vl x <= 1)%R -> nnf (SFmul prec emax x y) /\ (vl (SFmul prec emax x y) <= vl y)%R /\
  vl (SFmul prec emax x y) = rnd (vl x * vl y).
Proof.
  intros Nx Ny HL. destruct (mul_nneg prec emax Hprec Hmax x y Nx Ny) as [N E]. pose proof (nnf_lt _ Nx). pose proof (nnf_lt _ Ny).
  assert (R1 : (rnd (vl x * vl y) <= vl y)%R) by (destruct Ny as [[V _] F]; apply rnd_pos_le; [assumption|assumption|nra]).
  rewrite Rmin_left in E by lra. assert (nnf (SFmul prec emax x y)) by (apply nneg_fin; [assumption|lra]). rewrite nnf_cl in E by assumption. split; [assumption|]. lra.
Qed.
Lemma mul_le_r x y : nnf x -> nnf y -> (vl y <= 1)%R -> nnf (SFmul prec emax x y) /\ (vl (SFmul prec emax x y) <= vl x)%R /\
  vl (SFmul prec emax x y) = rnd (vl x * vl y).
Proof.
  intros Nx Ny HL. destruct (mul_nneg prec emax Hprec Hmax x y Nx Ny) as [N E]. pose proof (nnf_lt _ Nx). pose proof (nnf_lt _ Ny).
  assert (R1 : (rnd (vl x * vl y) <= vl x)%R) by (destruct Nx as [[V _] F]; apply rnd_pos_le; [assumption|assumption|nra]).
  rewrite Rmin_left in E by lra. assert (nnf (SFmul prec emax x y)) by (apply nneg_fin; [assumption|lra]). rewrite nnf_cl in E by assumption. split; [assumption|]. lra.
Qed.
(* a difference *)
Lemma sub_nn x y : nnf x -> nnf y -> (vl y <= vl x)%R -> nnf (SFsub prec emax x y) /\ (vl (SFsub prec emax x y) <= vl x)%R /\
  vl (SFsub prec emax x y) = rnd (vl x - vl y).
Proof.
  intros Nx Ny HL. destruct (sub_nneg prec emax Hprec Hmax x y Nx Ny HL) as [N E]. pose proof (nnf_lt _ Nx). pose proof (nnf_lt _ Ny).
  assert (R1 : (rnd (vl x - vl y) <= vl x)%R) by (destruct Nx as [[V _] F]; apply rnd_pos_le; [assumption|assumption|lra]).
  rewrite Rmin_left in E by lra. assert (nnf (SFsub prec emax x y)) by (apply nneg_fin; [assumption|lra]). rewrite nnf_cl in E by assumption. split; [assumption|]. lra.
Qed.
(* a sum below a representable bound *)
Lemma add_bound x y b : nnf x -> nnf y -> nnf b -> (vl x + vl y <= vl b)%R -> nnf (SFadd prec emax x y) /\ (vl (SFadd prec emax x y) <= vl b)%R /\
  vl (SFadd prec emax x y) = rnd (vl x + vl y).
Proof.
  intros Nx Ny Nb HL. destruct (add_nneg prec emax Hprec Hmax x y Nx Ny) as [N E]. pose proof (nnf_lt _ Nb) as Lb.
  assert (R1 : (rnd (vl x + vl y) <= vl b)%R) by (destruct Nb as [[V _] F]; apply rnd_pos_le; [assumption|assumption|lra]).
  rewrite Rmin_left in E by lra. assert (nnf (SFadd prec emax x y)) by (apply nneg_fin; [assumption|lra]). rewrite nnf_cl in E by assumption. split; [assumption|]. lra.
Qed.
(* integers *)
Lemma ofZ_fin z : 0 <= z -> z < 2 ^ (emax - 1) -> nnf (sf_ofZ prec emax z) /\ vl (sf_ofZ prec emax z) = rnd (IZR z).
Proof.
  intros H H1. destruct (ofZ_nneg prec emax Hprec Hmax z H) as [N E].
  assert (R1 : (rnd (IZR z) <= bpow radix2 (emax - 1))%R).
  { replace (bpow radix2 (emax - 1)) with (rnd (bpow radix2 (emax - 1))).
    - apply rnd_le; [assumption|]. rewrite <- (IZR_Zpower radix2) by (unfold Prec_lt_emax, Prec_gt_0 in *; lia). apply IZR_le. change (radix2 ^ (emax - 1)) with (2 ^ (emax - 1)). lia.
    - apply round_generic; [typeclasses eauto|]. apply generic_format_bpow. unfold SpecFloat.fexp, SpecFloat.emin. unfold Prec_lt_emax, Prec_gt_0 in *. lia. }
  assert (R2 : (bpow radix2 (emax - 1) < top)%R) by (apply bpow_lt; lia).
  rewrite Rmin_left in E by lra. assert (nnf (sf_ofZ prec emax z)) by (apply nneg_fin; [assumption|lra]). rewrite nnf_cl in E by assumption. split; assumption.
Qed.
Lemma ofZ_exact z : 0 <= z <= 2 ^ prec -> nnf (sf_ofZ prec emax z) /\ vl (sf_ofZ prec emax z) = IZR z.
Proof.
  intros H. destruct (ofZ_nneg prec emax Hprec Hmax z ltac:(lia)) as [N E]. rewrite (rnd_Z prec emax Hprec Hmax) in E by lia.
  assert (R2 : (IZR z < top)%R).
  { apply Rle_lt_trans with (bpow radix2 prec); [|apply bpow_lt; assumption]. rewrite <- (IZR_Zpower radix2) by (unfold Prec_gt_0 in *; lia). apply IZR_le. change (radix2 ^ prec) with (2 ^ prec). lia. }
  rewrite Rmin_left in E by lra. assert (nnf (sf_ofZ prec emax z)) by (apply nneg_fin; [assumption|lra]). rewrite nnf_cl in E by assumption. split; assumption.
Qed.
(* comparisons *)
Lemma ltb_vl x y : nnf x -> nnf y -> (SFltb x y = true <-> (vl x < vl y)%R).
Proof. intros Nx Ny. rewrite <- (nnf_cl x Nx), <- (nnf_cl y Ny). apply (ltb_cl prec emax); [apply Nx|apply Ny]. Qed.
Lemma ltb_vl_false x y : nnf x -> nnf y -> (SFltb x y = false <-> (vl y <= vl x)%R).
Proof. intros Nx Ny. rewrite <- (nnf_cl x Nx), <- (nnf_cl y Ny). apply (ltb_cl_false prec emax); [apply Nx|apply Ny]. Qed.
End Fmt.

(** * Conversions *)
Lemma conv_up x : nnf prec32 emax32 x -> nnf prec64 emax64 (sf_conv prec64 emax64 x) /\ vl (sf_conv prec64 emax64 x) = vl x.
Proof.
  intros [[V S] Fx]. destruct x as [s|s| |s m e]; try discriminate; cbn in S; subst s; cbn [sf_conv cond_Zopp].
  - split; [exact (nnf_zero _ _)|reflexivity].
  - destruct (normalize_nneg prec64 emax64 _ _ (Zpos m) e ltac:(lia)) as [N E].
    assert (G : generic_format radix2 (SpecFloat.fexp prec64 emax64) (F2R (Float radix2 (Zpos m) e))).
    { destruct (to_B _ _ _ V) as [b Eb]. pose proof (generic_format_B2R prec32 emax32 b) as G. rewrite <- (vl_B prec32 emax32 b), <- Eb in G. unfold vl in G. cbn [SF2R cond_Zopp] in G.
      revert G. apply generic_inclusion_mag. intros _. unfold SpecFloat.fexp, SpecFloat.emin, prec32, emax32, prec64, emax64. lia. }
    rewrite round_generic in E; [|typeclasses eauto|assumption].
    assert (L : (F2R (Float radix2 (Zpos m) e) < bpow radix2 emax32)%R).
    { pose proof (fin_lt prec32 emax32 _ V eq_refl) as L. unfold vl in L. cbn [SF2R cond_Zopp] in L. apply Rabs_def2 in L. apply L. }
    assert (L2 : (bpow radix2 emax32 < bpow radix2 emax64)%R) by (apply bpow_lt; reflexivity).
    pose proof (Rlt_trans _ _ _ L L2) as L3. rewrite Rmin_left in E by (apply Rlt_le; exact L3).
    assert (N2 : nnf prec64 emax64 (SpecFloat.binary_normalize prec64 emax64 (Zpos m) e false)) by (apply nneg_fin; [assumption|rewrite E; exact L3]).
    split; [exact N2|]. rewrite <- (nnf_cl prec64 emax64) by exact N2. exact E.
Qed.
Lemma conv_down x : nnf prec64 emax64 x -> nneg prec32 emax32 (sf_conv prec32 emax32 x) /\
  cl emax32 (sf_conv prec32 emax32 x) = Rmin (round radix2 (SpecFloat.fexp prec32 emax32) ZnearestE (vl x)) (bpow radix2 emax32).
Proof.
  intros [[V S] Fx]. destruct x as [s|s| |s m e]; try discriminate; cbn in S; subst s; cbn [sf_conv cond_Zopp].
  - split; [exact (nneg_zero _ _)|]. unfold cl, vl. cbn [SF2R]. rewrite round_0 by typeclasses eauto. rewrite Rmin_left; [reflexivity|]. left. apply bpow_gt_0.
  - destruct (normalize_nneg prec32 emax32 _ _ (Zpos m) e ltac:(lia)) as [N E]. split; [assumption|exact E].
Qed.
Lemma conv_down_le x b : nnf prec64 emax64 x -> nnf prec32 emax32 b -> (vl x <= vl b)%R -> nnf prec32 emax32 (sf_conv prec32 emax32 x) /\ (vl (sf_conv prec32 emax32 x) <= vl b)%R /\
  vl (sf_conv prec32 emax32 x) = round radix2 (SpecFloat.fexp prec32 emax32) ZnearestE (vl x).
Proof.
  intros Nx Nb HL. destruct (conv_down x Nx) as [N E]. pose proof (nnf_lt prec32 emax32 _ Nb) as Lb.
  assert (R1 : (round radix2 (SpecFloat.fexp prec32 emax32) ZnearestE (vl x) <= vl b)%R) by (destruct Nb as [[V _] F]; apply rnd_pos_le; [typeclasses eauto|assumption|assumption|lra]).
  rewrite Rmin_left in E by lra. assert (N2 : nnf prec32 emax32 (sf_conv prec32 emax32 x)) by (apply nneg_fin; [assumption|lra]).
  rewrite (nnf_cl prec32 emax32) in E by assumption. split; [assumption|]. lra.
Qed.
Lemma conv_down_mono x y : nnf prec64 emax64 x -> nnf prec64 emax64 y -> (vl x <= vl y)%R -> (cl emax32 (sf_conv prec32 emax32 x) <= cl emax32 (sf_conv prec32 emax32 y))%R.
Proof.
  intros Nx Ny HL. rewrite (proj2 (conv_down x Nx)), (proj2 (conv_down y Ny)). apply Rle_min_compat_r. apply rnd_le; [typeclasses eauto|assumption].
Qed.
