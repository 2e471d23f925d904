(* Proofs about schedule scaling in binary32 arithmetic (C17). *)
From Coq Require Import ZArith Reals Lra Lia ZifyBool Bool String List Floats.SpecFloat.
From Flocq Require Import Core IEEE754.BinarySingleNaN.
From Flocq.Prop Require Import Relative.
From Verif Require Import Base Arith Util Device Workload SpecWorkload WorkloadProofs FloatProofs.
Import ListNotations.
Ltac Zify.zify_post_hook ::= idtac.
Open Scope Z_scope.

Notation fexp32 := (SpecFloat.fexp prec32 emax32).
Notation rnd32 := (round radix2 fexp32 ZnearestE).

Lemma bpow_IZR e : 0 <= e -> bpow radix2 e = IZR (2 ^ e).
Proof. intros. rewrite <- (IZR_Zpower radix2) by assumption. reflexivity. Qed.
Lemma rnd32_le a b : (a <= b)%R -> (rnd32 a <= rnd32 b)%R.
Proof. apply (rnd_le prec32 emax32 _). Qed.
Lemma rnd32_ge_0 a : (0 <= a)%R -> (0 <= rnd32 a)%R.
Proof. apply (rnd_ge_0 prec32 emax32 _). Qed.
Lemma rnd32_Z z : Z.abs z <= 2 ^ 24 -> rnd32 (IZR z) = IZR z.
Proof. apply (rnd_Z prec32 emax32 _ _). Qed.
Lemma rnd32_F2R m e : Z.abs m < 2 ^ 24 -> -149 <= e -> rnd32 (F2R (Float radix2 m e)) = F2R (Float radix2 m e).
Proof.
  intros Hm He. apply round_generic; [typeclasses eauto|].
  apply generic_format_FLT with (emin := -149) (prec := 24). exists (Float radix2 m e); auto.
Qed.
Lemma rnd32_2_32 : rnd32 (IZR (2 ^ 32)) = IZR (2 ^ 32).
Proof.
  replace (IZR (2 ^ 32)) with (F2R (Float radix2 1 32)); [apply rnd32_F2R; lia|].
  unfold F2R. cbn [Fnum Fexp]. rewrite bpow_IZR by lia. lra.
Qed.

Lemma ofZ_u32 o : 0 <= o < 2 ^ 32 ->
  nnf prec32 emax32 (sf_ofZ prec32 emax32 o) /\ vl (sf_ofZ prec32 emax32 o) = rnd32 (IZR o).
Proof.
  intros H. destruct (ofZ_nneg prec32 emax32 _ _ o) as [N C]; [lia|].
  assert (B : (rnd32 (IZR o) < bpow radix2 emax32)%R).
  { apply Rle_lt_trans with (IZR (2 ^ 32)).
    - rewrite <- rnd32_2_32. apply rnd32_le. apply IZR_le. lia.
    - rewrite bpow_IZR by (cbv; discriminate). apply IZR_lt. reflexivity. }
  rewrite Rmin_left in C by lra.
  assert (FN : fin (sf_ofZ prec32 emax32 o)) by (apply (cl_inj_fin prec32 emax32 _); auto; rewrite C; exact B).
  split; [split; auto|]. rewrite <- (cl_fin emax32); auto.
Qed.

Lemma scale_cases s : nonneg_scale s ->
  (s = S754_zero true) \/ (nnf prec32 emax32 s /\ vl s = scale_value s).
Proof.
  intros [V [->|[->|[m [e ->]]]]]; auto; right.
  - repeat split; auto.
  - split; [repeat split; auto|]. unfold vl, SF2R, F2R. cbn [cond_Zopp Fnum Fexp scale_value]. now rewrite bpow_powerRZ.
Qed.

Lemma scale_value_nonneg s : (0 <= scale_value s)%R.
Proof.
  destruct s as [|[]| |[] m e]; cbn [scale_value]; try lra. apply Rmult_le_pos.
  - apply IZR_le. lia.
  - apply powerRZ_le. lra.
Qed.

Lemma scale_offset_eq s o : nonneg_scale s -> 0 <= o < 2 ^ 32 ->
  scale_offset f32A s o =
    let r := Zfloor (rnd32 (rnd32 (IZR o) * scale_value s)) in
    if r <? 2 ^ 32 then Ok r else UB "float to integer"%string.
Proof.
  intros Hs Ho. destruct (ofZ_u32 o Ho) as [Nx Vx].
  unfold scale_offset, f_to_uint. cbn [f32A f_trunc f_mul f_ofZ].
  destruct (scale_cases s Hs) as [->|[Ns Vs]].
  - assert (E : exists b, SFmul prec32 emax32 (sf_ofZ prec32 emax32 o) (S754_zero true) = S754_zero b).
    { destruct Nx as [[_ Nx] Fx]. destruct (sf_ofZ prec32 emax32 o); cbn; eauto; try discriminate. }
    destruct E as [b ->]. cbn [sf_trunc scale_value]. rewrite Rmult_0_r, round_0 by typeclasses eauto.
    replace (Zfloor 0) with 0 by (symmetry; apply (Zfloor_IZR 0)). reflexivity.
  - destruct (mul_nneg prec32 emax32 _ _ _ _ Nx Ns) as [NM CM]. rewrite Vx, Vs in CM.
    cbn zeta. set (p := rnd32 (rnd32 (IZR o) * scale_value s)) in *.
    assert (P0 : (0 <= p)%R).
    { apply rnd32_ge_0. apply Rmult_le_pos; [apply rnd32_ge_0; apply IZR_le; lia|apply scale_value_nonneg]. }
    set (x := SFmul prec32 emax32 (sf_ofZ prec32 emax32 o) s) in *.
    destruct (Rlt_dec p (bpow radix2 emax32)) as [L|L].
    + rewrite Rmin_left in CM by lra.
      assert (FN : fin x) by (apply (cl_inj_fin prec32 emax32 _); auto; rewrite CM; exact L).
      rewrite (trunc_fin prec32 emax32 x (conj NM FN)).
      rewrite (cl_fin emax32) in CM by auto. rewrite CM.
      assert (0 <= Zfloor p) by (apply Zfloor_lub; exact P0).
      destruct (Z.leb_spec 0 (Zfloor p)); [|lia]. reflexivity.
    + rewrite Rmin_right in CM by lra.
      assert (FN : ~ fin x) by (rewrite <- (cl_inj_fin prec32 emax32 _ NM); rewrite CM; lra).
      replace (Zfloor p <? 2 ^ 32) with false.
      * destruct x as [|[]| |]; try reflexivity; exfalso; apply FN; reflexivity.
      * symmetry. apply Z.ltb_ge. apply Zfloor_lub. apply Rle_trans with (bpow radix2 emax32); [|lra].
        rewrite bpow_IZR by (cbv; discriminate). apply IZR_le. vm_compute. discriminate.
Qed.

Lemma scale_mono_raw s o1 o2 : 0 <= o1 <= o2 ->
  Zfloor (rnd32 (rnd32 (IZR o1) * scale_value s)) <= Zfloor (rnd32 (rnd32 (IZR o2) * scale_value s)).
Proof.
  intros H. apply Zfloor_le. apply rnd32_le. apply Rmult_le_compat_r; [apply scale_value_nonneg|].
  apply rnd32_le. apply IZR_le. lia.
Qed.
Theorem scale_monotone s o1 o2 r2 : nonneg_scale s -> 0 <= o1 <= o2 -> o2 < 2 ^ 32 ->
  scale_offset f32A s o2 = Ok r2 -> exists r1, scale_offset f32A s o1 = Ok r1 /\ 0 <= r1 <= r2.
Proof.
  intros Hs H1 H2. rewrite !scale_offset_eq by (auto; lia). cbn zeta.
  pose proof (scale_mono_raw s o1 o2 H1) as M. intros E.
  destruct (Z.ltb_spec (Zfloor (rnd32 (rnd32 (IZR o2) * scale_value s))) (2 ^ 32)); [|discriminate].
  injection E as <-. destruct (Z.ltb_spec (Zfloor (rnd32 (rnd32 (IZR o1) * scale_value s))) (2 ^ 32)); [|lia].
  eexists. split; [reflexivity|]. split; [|exact M]. apply Zfloor_lub. apply rnd32_ge_0.
  apply Rmult_le_pos; [apply rnd32_ge_0; apply IZR_le; lia|apply scale_value_nonneg].
Qed.

Theorem scale_zero b o : 0 <= o < 2 ^ 32 -> scale_offset f32A (S754_zero b) o = Ok 0.
Proof.
  intros H. rewrite scale_offset_eq; auto.
  - cbn [scale_value]. rewrite Rmult_0_r, round_0 by typeclasses eauto.
    replace (Zfloor 0) with 0 by (symmetry; apply (Zfloor_IZR 0)). reflexivity.
  - split; [reflexivity|]. destruct b; auto.
Qed.
Lemma one_scale : nonneg_scale (f_one f32A) /\ scale_value (f_one f32A) = 1%R.
Proof.
  assert (E : f_one f32A = S754_finite false 8388608 (-23)) by (vm_compute; reflexivity).
  rewrite E. split; [split; [reflexivity|right; right; eauto]|].
  cbn [scale_value]. change 2%R with (IZR radix2). rewrite <- bpow_powerRZ. change (-23) with (- (23)).
  rewrite bpow_opp, bpow_IZR by lia. change (2 ^ 23) with 8388608. lra.
Qed.
Theorem scale_one o : 0 <= o <= 2 ^ 24 -> scale_offset f32A (f_one f32A) o = Ok o.
Proof.
  intros H. destruct one_scale as [N1 V1]. rewrite scale_offset_eq by (auto; lia). rewrite V1, Rmult_1_r.
  rewrite !rnd32_Z by lia. rewrite Zfloor_IZR. cbn zeta. destruct (Z.ltb_spec o (2 ^ 32)); [reflexivity|lia].
Qed.

Lemma rnd32_rel o : 0 <= o -> (rnd32 (IZR o) <= IZR o * (1 + / 16777216))%R.
Proof.
  intros Ho. destruct (Z.eq_dec o 0) as [->|N].
  - rewrite round_0 by typeclasses eauto. lra.
  - pose proof (relative_error_N_FLT radix2 (-149) 24 ltac:(lia) (fun x => negb (Z.even x)) (IZR o)) as R.
    assert (1 <= IZR o)%R by (apply IZR_le; lia).
    assert (HB : (bpow radix2 (-149 + 24 - 1) <= Rabs (IZR o))%R).
    { rewrite Rabs_pos_eq by lra. apply Rle_trans with (bpow radix2 0); [apply bpow_le; lia|]. cbn. lra. }
    specialize (R HB). rewrite (Rabs_pos_eq (IZR o)) in R by lra.
    change (FLT_exp (-149) 24) with fexp32 in R.
    apply Rabs_le_inv in R. replace (bpow radix2 (- (24) + 1)) with (/ 8388608)%R in R.
    + lra.
    + change (- (24) + 1) with (- (23)). rewrite bpow_opp. rewrite bpow_IZR by lia. reflexivity.
Qed.
Theorem scale_defined s o : nonneg_scale s -> 0 <= o < 2 ^ 32 ->
  (IZR o * scale_value s <= 2 ^ 32 - 512)%R -> exists r, scale_offset f32A s o = Ok r.
Proof.
  intros Hs Ho HB. rewrite scale_offset_eq by auto. cbn zeta.
  match goal with |- context [?r <? 2 ^ 32] => assert (L : r < 2 ^ 32) end.
  2: { apply Z.ltb_lt in L. rewrite L. eauto. }
  apply lt_IZR. eapply Rle_lt_trans; [apply Zfloor_lb|].
  apply Rle_lt_trans with (IZR (2 ^ 32 - 256)); [|apply IZR_lt; lia].
  assert (E : rnd32 (IZR (2 ^ 32 - 256)) = IZR (2 ^ 32 - 256)).
  { replace (IZR (2 ^ 32 - 256)) with (F2R (Float radix2 (2 ^ 24 - 1) 8)).
    - apply rnd32_F2R; lia.
    - unfold F2R. cbn [Fnum Fexp]. rewrite bpow_IZR by lia. rewrite <- mult_IZR. reflexivity. }
  rewrite <- E. apply rnd32_le. pose proof (rnd32_rel o ltac:(lia)) as R. pose proof (scale_value_nonneg s) as S0.
  apply Rle_trans with (IZR o * (1 + / 16777216) * scale_value s)%R.
  - apply Rmult_le_compat_r; auto.
  - change (2 ^ 32 - 256) with 4294967040. nra.
Qed.

(** ** Whole workloads *)
Lemma scale_phases (A : arith) s (wl wl' : workload (F A)) : scaleWorkloadSchedule A s wl = Ok wl' ->
  same_frame wl wl' /\
  Forall2 (fun p q => ph_id q = ph_id p /\
    Forall2 (fun a b => same_but_offset a b /\ scale_offset A s (t_off a) = Ok (t_off b)) (ph_trs p) (ph_trs q))
    (wl_phases wl) (wl_phases wl').
Proof.
  unfold scaleWorkloadSchedule. destruct (mapM _ (wl_phases wl)) as [ps| | | | | |] eqn:E; cbn [bind]; try discriminate.
  intros H. injection H as <-. split; [unfold same_frame; cbn; auto|]. cbn [with_phases wl_phases].
  apply mapM_Forall2 in E. eapply Forall2_imp; [exact E|]. intros p q Hpq. cbn beta in Hpq.
  destruct (mapM _ (ph_trs p)) as [ts| | | | | |] eqn:Et; cbn [bind] in Hpq; try discriminate. injection Hpq as <-. cbn.
  split; auto. apply mapM_Forall2 in Et. eapply Forall2_imp; [exact Et|]. intros a b Hab. cbn beta in Hab.
  destruct (scale_offset A s (t_off a)) as [r| | | | | |]; cbn [bind] in Hab; try discriminate. injection Hab as <-.
  unfold same_but_offset. cbn. intuition.
Qed.
Lemma scale_transfers (A : arith) s (wl wl' : workload (F A)) : scaleWorkloadSchedule A s wl = Ok wl' ->
  Forall2 (fun a b => same_but_offset a b /\ scale_offset A s (t_off a) = Ok (t_off b)) (all_transfers wl) (all_transfers wl').
Proof.
  intros H. apply scale_phases in H. destruct H as [_ H]. unfold all_transfers.
  eapply Forall2_flat_map; [exact H|]. cbn beta. intros a b [_ HF]. exact HF.
Qed.
Lemma scale_all_defined (A : arith) s (wl : workload (F A)) :
  Forall (fun t => exists r, scale_offset A s (t_off t) = Ok r) (all_transfers wl) ->
  exists wl', scaleWorkloadSchedule A s wl = Ok wl'.
Proof.
  intros HF. unfold scaleWorkloadSchedule. unfold all_transfers in HF.
  match goal with |- context [mapM ?f (wl_phases wl)] => destruct (mapM_all_ok f (wl_phases wl)) as [r Hr] end.
  - apply Forall_forall. intros p Hp.
    match goal with |- context [mapM ?f (ph_trs p)] => destruct (mapM_all_ok f (ph_trs p)) as [ts Hts] end.
    + apply Forall_forall. intros t Ht. rewrite Forall_forall in HF.
      destruct (HF t) as [r Hr]; [apply in_flat_map; eauto|]. rewrite Hr. cbn. eauto.
    + rewrite Hts. cbn. eauto.
  - rewrite Hr. cbn. eauto.
Qed.


Theorem schedule_order s (wl wl' : workload spec_float) : nonneg_scale s -> u32_offsets wl ->
  scaleWorkloadSchedule f32A s wl = Ok wl' ->
  forall i j a b a' b', nth_error (all_transfers wl) i = Some a -> nth_error (all_transfers wl) j = Some b ->
    nth_error (all_transfers wl') i = Some a' -> nth_error (all_transfers wl') j = Some b' ->
    t_off a <= t_off b -> t_off a' <= t_off b'.
Proof.
  intros Hs HU H i j a b a' b' Ha Hb Ha' Hb' HL. apply (scale_transfers f32A) in H.
  assert (HN : forall k x y, nth_error (all_transfers wl) k = Some x -> nth_error (all_transfers wl') k = Some y ->
    scale_offset f32A s (t_off x) = Ok (t_off y)).
  { intros k x y Hx Hy. exact (proj2 (Forall2_nth _ _ _ H k x y Hx Hy)). }
  pose proof (HN _ _ _ Ha Ha') as E1. pose proof (HN _ _ _ Hb Hb') as E2.
  unfold u32_offsets in HU. rewrite Forall_forall in HU.
  pose proof (HU a (nth_error_In _ _ Ha)). pose proof (HU b (nth_error_In _ _ Hb)).
  destruct (scale_monotone s (t_off a) (t_off b) (t_off b') Hs ltac:(lia) ltac:(lia) E2) as [r1 [Hr1 ?]].
  rewrite E1 in Hr1. injection Hr1 as <-. lia.
Qed.
Theorem schedule_defined s (wl : workload spec_float) : nonneg_scale s -> u32_offsets wl ->
  Forall (fun t => (IZR (t_off t) * scale_value s <= 2 ^ 32 - 512)%R) (all_transfers wl) ->
  exists wl', scaleWorkloadSchedule f32A s wl = Ok wl'.
Proof.
  intros Hs HU HF. apply (scale_all_defined f32A). unfold u32_offsets in HU. rewrite Forall_forall in *.
  intros t Ht. apply scale_defined; auto.
Qed.
Theorem schedule_zero b (wl : workload spec_float) : u32_offsets wl ->
  exists wl', scaleWorkloadSchedule f32A (S754_zero b) wl = Ok wl' /\ Forall (fun t => t_off t = 0) (all_transfers wl').
Proof.
  intros HU. unfold u32_offsets in HU.
  destruct (scale_all_defined f32A (S754_zero b) wl) as [wl' E].
  - eapply Forall_impl; [|exact HU]. intros t Ht. eexists. apply scale_zero. exact Ht.
  - exists wl'. split; auto. apply (scale_transfers f32A) in E. rewrite Forall_forall in *. intros t Ht.
    destruct (Forall2_In_r _ _ _ _ E Ht) as [a [Ha [_ HR]]]. rewrite scale_zero in HR by auto. congruence.
Qed.
Lemma scale_fixed (A : arith) s (wl : workload (F A)) :
  Forall (fun t => scale_offset A s (t_off t) = Ok (t_off t)) (all_transfers wl) -> scaleWorkloadSchedule A s wl = Ok wl.
Proof.
  intros HU. destruct (scale_all_defined A s wl) as [wl' E].
  - eapply Forall_impl; [|exact HU]. intros t Ht. eexists. exact Ht.
  - rewrite E. f_equal. apply scale_phases in E. destruct E as [(F1 & F2 & F3 & F4 & F5) HP].
    assert (EP : wl_phases wl' = wl_phases wl).
    { unfold all_transfers in HU. clear -HP HU. induction HP as [|p q ps qs [Hid Hpq] HF IH]; auto.
      cbn [flat_map] in HU. apply Forall_app in HU. destruct HU as [HU1 HU2]. f_equal; auto.
      destruct p as [pi pt], q as [qi qt]; cbn [ph_id ph_trs] in *. f_equal; auto.
      clear -Hpq HU1. induction Hpq as [|a b l l' [HS HR] HF IH]; auto. inversion HU1; subst. f_equal; auto.
      assert (EO : t_off b = t_off a) by congruence. unfold same_but_offset in HS.
      destruct a, b; cbn in *. f_equal; intuition congruence. }
    destruct wl, wl'; cbn in *. congruence.
Qed.
Theorem schedule_one (wl : workload spec_float) : Forall (fun t => 0 <= t_off t <= 2 ^ 24) (all_transfers wl) ->
  scaleWorkloadSchedule f32A (f_one f32A) wl = Ok wl.
Proof.
  intros HU. apply (scale_fixed f32A). eapply Forall_impl; [|exact HU]. intros t Ht. apply scale_one. exact Ht.
Qed.
