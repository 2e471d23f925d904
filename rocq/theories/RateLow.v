(* Lower bounds on congested rates (C37). *)
From Coq Require Import ZArith Arith Reals Lra Lia Bool List String Floats.SpecFloat.
From Flocq Require Import Core IEEE754.BinarySingleNaN Relative.
From Verif Require Import Base Arith Util Device Workload Rates Engine SpecEngine SpecRates TrackerProofs DepGenProofs FloatProofs FloatProofs2 RateFacts RateFloat RateFloat2 RateFloat3 RateFloat4 EndFloat.
Import ListNotations.
Local Open Scope list_scope.
Open Scope Z_scope.

(** * Rounding loses little *)
Definition tiny : R := (/ 1024)%R.
Notation rnd64 := (round radix2 (SpecFloat.fexp prec64 emax64) ZnearestE).
Lemma rnd_low prec emax x : 12 <= prec -> 100 <= emax -> (bpow radix2 (-60) <= x)%R -> (x * (1 - tiny) <= round radix2 (SpecFloat.fexp prec emax) ZnearestE x)%R.
Proof.
  intros HP HE H. pose proof (bpow_gt_0 radix2 (-60)) as P. pose proof (relative_error_N_FLT radix2 (SpecFloat.emin prec emax) prec ltac:(lia) (fun x => negb (Z.even x)) x) as E.
  assert (HX : (bpow radix2 (SpecFloat.emin prec emax + prec - 1) <= Rabs x)%R).
  { rewrite Rabs_pos_eq by lra. apply Rle_trans with (2 := H). apply bpow_le. unfold SpecFloat.emin. lia. }
  specialize (E HX). rewrite (Rabs_pos_eq x) in E by lra.
  assert (B : (/ 2 * bpow radix2 (- prec + 1) <= tiny)%R).
  { apply Rle_trans with (/ 2 * bpow radix2 (-9))%R; [apply Rmult_le_compat_l; [lra|apply bpow_le; lia]|]. unfold tiny. cbn. lra. }
  change (round radix2 (FLT_exp (SpecFloat.emin prec emax) prec) (Znearest (fun x => negb (Z.even x))) x) with (round radix2 (SpecFloat.fexp prec emax) ZnearestE x) in E.
  apply Rabs_le_inv in E. assert (/ 2 * bpow radix2 (- prec + 1) * x <= tiny * x)%R by (apply Rmult_le_compat_r; lra). lra.
Qed.
Lemma rnd32_low x : (bpow radix2 (-60) <= x)%R -> (x * (1 - tiny) <= rnd32 x)%R.
Proof. apply rnd_low; unfold prec32, emax32; lia. Qed.
Lemma rnd64_low x : (bpow radix2 (-60) <= x)%R -> (x * (1 - tiny) <= rnd64 x)%R.
Proof. apply rnd_low; unfold prec64, emax64; lia. Qed.
Lemma p60 : bpow radix2 (-60) = (/ 1152921504606846976)%R.
Proof. cbn. lra. Qed.

(** * Applying a factor *)
Lemma apply_low d bw o : nf32 bw -> nf32 o -> (vl o < 1)%R -> (bpow radix2 (-23) <= vl o)%R -> (bpow radix2 (-24) <= vl bw)%R ->
  (vl bw * vl o * (3 / 8) <= vl (apply_derate f32A d bw o))%R.
Proof.
  intros Nb Fo L Lo Lb.
  assert (P23 : bpow radix2 (-23) = (/ 8388608)%R) by (cbn; lra). assert (P24 : bpow radix2 (-24) = (/ 16777216)%R) by (cbn; lra). rewrite P23 in Lo. rewrite P24 in Lb. pose proof p60 as P60.
  assert (PR : (/ 16777216 * / 8388608 <= vl bw * vl o)%R) by (apply Rmult_le_compat; lra). assert (PP : (0 < vl bw * vl o)%R) by nra.
  unfold apply_derate. destruct (dv_class d).
  2:{ cbn [f_mul f32A]. destruct (mul_le_r prec32 emax32 _ _ _ _ Nb Fo ltac:(lra)) as (_ & _ & V). rewrite V. pose proof (rnd32_low (vl bw * vl o) ltac:(rewrite P60; lra)). unfold tiny in *. lra. }
  all: destruct one_ok as [N1 V1]; destruct d_one_ok as [N2 V2].
  all: cbn [f_of_d d_mul d_of_f d_sub f_mul f_sub f32A].
  all: destruct (sub_nn prec32 emax32 _ _ _ _ N1 Fo ltac:(lra)) as (Nr & Lr & Vr); rewrite V1 in Lr, Vr.
  all: change (f_one f32A) with (sf_ofZ prec32 emax32 1) in *; set (r := SFsub prec32 emax32 (sf_ofZ prec32 emax32 1) o) in *.
  all: destruct (mul_le_l prec32 emax32 _ _ _ _ N1 Nr ltac:(lra)) as (Nr1 & Lr1 & _); set (r1 := SFmul prec32 emax32 (sf_ofZ prec32 emax32 1) r) in *.
  all: destruct (conv_up _ Nr1) as [Nu Vu]; set (u := sf_conv prec64 emax64 r1) in *.
  all: destruct (sub_nn prec64 emax64 _ _ _ _ N2 Nu ltac:(lra)) as (Nw & Lw & Vw); rewrite V2 in Lw, Vw; set (w := SFsub prec64 emax64 (d_lit f32A 1 1) u) in *.
  all: destruct (conv_up _ Nb) as [Nc Vc]; destruct (mul_le_r prec64 emax64 _ _ _ _ Nc Nw ltac:(lra)) as (Nm & Lm & Vm).
  all: destruct (conv_down_le _ bw Nm Nb ltac:(lra)) as (H1 & H2 & H3).
  all: assert (UR : (vl r <= 1 - vl o / 2)%R).
  1,3: rewrite Vr; destruct (Rle_or_lt (/ 2) (1 - vl o)) as [C|C];
      [pose proof (proj2 (rnd32_err (1 - vl o) C)) as E; unfold u32r in E; lra|
       apply Rle_trans with (rnd32 (/ 2)); [apply rnd_le; [typeclasses eauto|lra]|]; change (/ 2)%R with (bpow radix2 (-1)); rewrite round_generic;
         [change (bpow radix2 (-1)) with (/ 2)%R; lra|typeclasses eauto|apply generic_format_bpow; unfold SpecFloat.fexp, SpecFloat.emin, prec32, emax32; lia]].
  all: assert (LW : (vl o / 2 * (1 - tiny) <= vl w)%R).
  1,3: rewrite Vw, Vu; apply Rle_trans with (rnd64 (vl o / 2)); [apply rnd64_low; rewrite P60; lra|apply rnd_le; [typeclasses eauto|lra]].
  all: assert (LM : (vl bw * vl o / 2 * (1 - tiny) * (1 - tiny) <= vl (SFmul prec64 emax64 (sf_conv prec64 emax64 bw) w))%R).
  1,3: rewrite Vm, Vc; apply Rle_trans with (rnd64 (vl bw * (vl o / 2 * (1 - tiny))));
      [replace (vl bw * vl o / 2 * (1 - tiny) * (1 - tiny))%R with (vl bw * (vl o / 2 * (1 - tiny)) * (1 - tiny))%R by (unfold Rdiv; ring); apply rnd64_low; rewrite P60; unfold tiny; lra|
       apply rnd_le; [typeclasses eauto|apply Rmult_le_compat_l; lra]].
  all: change (vl bw * vl o * (3 / 8) <= vl (sf_conv prec32 emax32 (SFmul prec64 emax64 (sf_conv prec64 emax64 bw) w)))%R; rewrite H3; set (q := vl (SFmul prec64 emax64 (sf_conv prec64 emax64 bw) w)) in *.
  all: apply Rle_trans with (q * (1 - tiny))%R; [|apply rnd32_low; rewrite P60; unfold tiny in LM; lra].
  all: set (pp := (vl bw * vl o)%R) in *; unfold tiny in *; lra.
Qed.

(** * The demand on one resource *)
Lemma sum_bound xs : forall k a, Forall (fun x => nn32 x /\ (cl32 x <= 64)%R) xs -> nn32 a -> (cl32 a <= IZR (64 * k))%R -> 0 <= k -> k + Z.of_nat (List.length xs) <= 2 ^ 18 ->
  (cl32 (fold_left (f_add f32A) xs a) <= IZR (64 * (k + Z.of_nat (List.length xs))))%R.
Proof.
  change (2 ^ 18) with 262144. induction xs as [|x xs IH]; intros k a HF Na Ha Hk HL; cbn [fold_left List.length] in *; [rewrite Z.add_0_r; exact Ha|].
  inversion HF as [|? ? [Nx Lx] HF']; subst. replace (k + Z.of_nat (S (List.length xs))) with ((k + 1) + Z.of_nat (List.length xs)) by lia.
  destruct (add_nn prec32 emax32 _ _ a x Na Nx) as [N E]. apply IH; [assumption|exact N| |lia|lia]. change (f_add f32A a x) with (SFadd prec32 emax32 a x). rewrite E. eapply Rle_trans; [apply Rmin_l|].
  rewrite <- (rnd_Z prec32 emax32 _ _ (64 * (k + 1))); [|change (2 ^ prec32) with 16777216; lia]. apply rnd_le; [typeclasses eauto|]. replace (64 * (k + 1)) with (64 * k + 64) by ring. rewrite plus_IZR. lra.
Qed.
Lemma amounts_count st en f sts live l : (forall i x, In i live -> nth_error sts i = Some x -> NoDup (f x)) ->
  (List.length (amounts f32A (ops_of f32A st en f sts live) l) <= List.length live)%nat.
Proof.
  intros H. unfold ops_of. induction live as [|i live IH]; [cbn; lia|]. cbn [flat_map List.length]. rewrite amounts_app, app_length.
  assert (G : (List.length (amounts f32A (match nth_error sts i with Some x => map (fun id => (id, effective_demand f32A st en x)) (f x) | None => [] end) l) <= 1)%nat).
  { destruct (nth_error sts i) as [x|] eqn:E; [|cbn; lia]. specialize (H i x (or_introl eq_refl) E). unfold amounts. rewrite map_length.
    generalize (effective_demand f32A st en x) as e. intros e. induction (f x) as [|y ys IHy]; [cbn; lia|]. inversion H as [|? ? NI ND]; subst. cbn [map filter fst]. destruct (Z.eqb_spec y (Z.of_nat l)) as [->|N]; [|apply IHy; exact ND].
    cbn [List.length]. assert (Z0 : filter (fun o : Z * F f32A => fst o =? Z.of_nat l) (map (fun id => (id, e)) ys) = []); [|rewrite Z0; cbn; lia].
    clear - NI. induction ys as [|z ys IH]; [reflexivity|]. cbn [map filter fst]. destruct (Z.eqb_spec z (Z.of_nat l)) as [->|N]; [exfalso; apply NI; left; reflexivity|]. apply IH. intros C. apply NI. right. exact C. }
  assert (IH' : (List.length (amounts f32A (flat_map (fun i0 => match nth_error sts i0 with Some x => map (fun id => (id, effective_demand f32A st en x)) (f x) | None => [] end) live) l) <= List.length live)%nat).
  { apply IH. intros j x Hj. apply H. right. exact Hj. }
  lia.
Qed.
Definition grid_max (n : Z) (g : list (F f32A)) : Prop := forall l x, nth_error g l = Some x -> (cl32 x <= IZR (64 * n))%R.
Lemma bumped_max {X} (t : list X) ops g n : bumped f32A ops (map (fun _ => f_zero f32A) t) g -> (forall l, Forall (fun x => nn32 x /\ (cl32 x <= 64)%R) (amounts f32A ops l)) ->
  (forall l, Z.of_nat (List.length (amounts f32A ops l)) <= n) -> n <= 2 ^ 18 -> grid_max n g.
Proof.
  intros (L & _ & H) HA HC Hn l x Hx. assert (HL : (l < List.length (map (fun _ => f_zero f32A) t))%nat) by (rewrite <- L; apply nth_error_Some; congruence).
  apply nth_error_Some in HL. destruct (nth_error (map _ t) l) as [y|] eqn:Hy; [|congruence]. pose proof (H _ _ Hy) as E. apply zero_list in Hy. subst y. rewrite Hx in E. injection E as ->.
  specialize (HC l). apply Rle_trans with (IZR (64 * (0 + Z.of_nat (List.length (amounts f32A ops l))))); [|apply IZR_le; lia].
  apply sum_bound; [apply HA|exact (nneg_zero _ _)|rewrite (nnf_cl prec32 emax32 _ (nnf_zero _ _)); apply Rle_refl|lia|rewrite Z.add_0_l; eapply Z.le_trans; [exact HC|exact Hn]].
Qed.
Definition bounded_live (en : Z) (sts : list state) (live : list nat) : Prop := forall i x, In i live -> nth_error sts i = Some x -> (vl (s_bw x) <= 64)%R.
Lemma amounts_low st en f sts live l : 0 <= st < en -> en < 2 ^ 32 -> live_ok en sts live -> bounded_live en sts live ->
  Forall (fun x => nn32 x /\ (cl32 x <= 64)%R) (amounts f32A (ops_of f32A st en f sts live) l).
Proof.
  intros H1 H2 HL HB. apply Forall_forall. intros a Ha. unfold amounts in Ha. apply in_map_iff in Ha as ([id e] & <- & Ha). apply filter_In in Ha as [Ha _].
  unfold ops_of in Ha. apply in_flat_map in Ha as (i & Hi & Ha). destruct (nth_error sts i) as [x|] eqn:Hx; [|destruct Ha]. apply in_map_iff in Ha as (k & E & _). injection E as _ <-. cbn [snd].
  destruct (demand_ok st en x H1 H2 (HL i x Hi Hx)) as [N L]. pose proof (HB i x Hi Hx) as B. split; [apply N|]. exact (Rle_trans _ _ _ (Req_le _ _ (nnf_cl prec32 emax32 _ N)) (Rle_trans _ _ _ L B)).
Qed.
Lemma grids_max d st en sts live g n : 0 <= st < en -> en < 2 ^ 32 -> live_ok en sts live -> bounded_live en sts live ->
  (forall i x, In i live -> nth_error sts i = Some x -> NoDup (nius f32A d x) /\ NoDup (s_route x)) -> Z.of_nat (List.length live) <= n -> n <= 2 ^ 18 ->
  foldM (add_demand f32A d st en sts) live (zero_grids f32A d) = Ok g -> grid_max n (g_niu g) /\ grid_max n (g_link g).
Proof.
  intros H1 H2 HL HB HN HC Hn H. apply demand_spec in H as (B1 & B2 & _). cbn [zero_grids g_niu g_link] in B1, B2.
  split; [eapply bumped_max; [exact B1| | |exact Hn]|eapply bumped_max; [exact B2| | |exact Hn]]; intros l; try (apply amounts_low; assumption).
  - pose proof (amounts_count st en (nius f32A d) sts live l (fun i x a b => proj1 (HN i x a b))). lia.
  - pose proof (amounts_count st en s_route sts live l (fun i x a b => proj2 (HN i x a b))). lia.
Qed.

(** * The factors *)
Section Low.
  Context (n : Z) (c : R) (Hn : 1 <= n <= 2 ^ 18) (Hc1 : (c <= IZR (64 * n))%R) (Hc2 : (IZR (64 * n) <= 4194304 * c)%R).
  Let share := (c / IZR (64 * n))%R.
  Lemma size : (64 <= IZR (64 * n))%R.
  Proof. apply (IZR_le 64). lia. Qed.
  Lemma share_low : (/ 4194304 <= share)%R.
  Proof. pose proof size. unfold share, Rdiv. apply Rmult_le_reg_r with (IZR (64 * n)); [lra|]. rewrite Rmult_assoc, Rinv_l by lra. lra. Qed.
  Lemma share_high : (share <= 1)%R.
  Proof. pose proof size. unfold share, Rdiv. apply Rmult_le_reg_r with (IZR (64 * n)); [lra|]. rewrite Rmult_assoc, Rinv_l by lra. lra. Qed.
  Lemma factor_low a q : nf32 a -> (c <= vl a)%R -> nn32 q -> (cl32 q <= IZR (64 * n))%R -> nn32 (SFdiv prec32 emax32 a q) /\ (share * (1 - tiny) <= cl32 (SFdiv prec32 emax32 a q))%R.
  Proof.
    intros Na Ha Nq Hq. pose proof size as SZ. pose proof share_low as SL. pose proof share_high as SH. assert (Pa : (0 < vl a)%R) by lra.
    split; [apply div_nn; try assumption; try typeclasses eauto; left; assumption|].
    destruct (ofZ_exact prec32 emax32 _ _ (64 * n)) as [No Vo]; [change (2 ^ prec32) with 16777216; change (2 ^ 18) with 262144 in Hn; lia|].
    eapply Rle_trans; [|apply (div_anti prec32 emax32 _ _ a q (sf_ofZ prec32 emax32 (64 * n)) Na Nq (proj1 No)); [left; assumption|rewrite (nnf_cl prec32 emax32 _ No), Vo; exact Hq]].
    rewrite (proj2 (div_nneg prec32 emax32 _ _ a _ Na No ltac:(rewrite Vo; lra))), Vo. pose proof p60 as P60.
    assert (S1 : (share * (1 - tiny) <= rnd32 share)%R) by (apply rnd32_low; rewrite P60; lra).
    apply Rmin_glb.
    - eapply Rle_trans; [exact S1|]. apply rnd_le; [typeclasses eauto|]. unfold share, Rdiv. apply Rmult_le_compat_r; [apply Rlt_le, Rinv_0_lt_compat; lra|assumption].
    - apply Rle_trans with 1%R; [unfold tiny; lra|]. change 1%R with (bpow radix2 0). apply bpow_le. vm_compute. discriminate.
  Qed.
  Theorem new_bw_low d g x b : new_bw f32A d g x = Ok b -> grid_ok (g_niu g) -> grid_ok (g_link g) -> grid_max n (g_niu g) -> grid_max n (g_link g) ->
    nf32 (t_rate (s_tr x)) -> nf32 (s_bw x) -> (bpow radix2 (-24) <= vl (s_bw x))%R ->
    (c <= vl (link_bandwidth f32A d))%R -> (c <= vl (t_rate (s_tr x)))%R -> (forall ty, (c <= vl (abs_rate f32A d ty))%R) ->
    (vl (s_bw x) * share / 4 <= vl b)%R.
  Proof.
    intros H G1 G2 M1 M2 NR NB LB C1 C2 C3. destruct (new_bw_factors d g x b H G1 G2 NR) as (m & sid & sdem & K & Em & Es & Ed & EK & Nm & Nd & NK & NL & HS & ->).
    pose proof share_low as SL. pose proof share_high as SH. pose proof size as SZ.
    assert (DM : (cl32 m <= IZR (64 * n))%R).
    { destruct (max_link_ok _ _ G2 _ _ (nneg_zero _ _) Em) as (_ & _ & _ & [->|(id & _ & E)]); [change (cl32 (S754_zero false)) with 0%R; lra|]. apply grid_get_nth in E as [E _]. exact (M2 _ _ E). }
    assert (DS : (cl32 sdem <= IZR (64 * n))%R) by (apply grid_get_nth in Ed as [E _]; exact (M1 _ _ E)).
    destruct (factor_low (link_bandwidth f32A d) m (proj1 (link_bandwidth_ok d)) C1 Nm DM) as [NL' LL]. destruct (factor_low (t_rate (s_tr x)) sdem NR C2 Nd DS) as [NS LS].
    assert (LK : (share * (1 - tiny) <= cl32 K)%R).
    { destruct (sink_derate_ok d _ _ _ G1 EK) as [_ HK]. destruct (t_dst (s_tr x)) as [e|mc].
      - destruct HK as (id & dem & ty & _ & Hg & _ & Ndem & ->). apply grid_get_nth in Hg as [Hg _]. apply (factor_low (abs_rate f32A d ty) dem (proj1 (abs_rate_ok d ty)) (C3 ty) Ndem). exact (M1 _ _ Hg).
      - subst K. apply Rle_trans with 1%R; [unfold tiny; lra|]. change (cl32 inf32) with (bpow radix2 128). change 1%R with (bpow radix2 0). apply bpow_le. discriminate. }
    assert (HSS : nn32 (f_div f32A (t_rate (s_tr x)) sdem) \/ f_div f32A (t_rate (s_tr x)) sdem = S754_nan) by (left; exact NS).
    destruct (choose_eq d (s_bw x) _ _ _ NL NK HSS) as (o & No & Eo & D).
    assert (LO : (share * (1 - tiny) <= cl32 o)%R).
    { rewrite Eo. apply Rmin_glb; [exact LL|]. pose proof (Rmin_glb _ _ _ LS LK) as G. change (f_div f32A (t_rate (s_tr x)) sdem) with (SFdiv prec32 emax32 (t_rate (s_tr x)) sdem). destruct (SFdiv prec32 emax32 (t_rate (s_tr x)) sdem); [exact G|exact G|exact LL|exact G]. }
    pose proof (nnf_lt prec32 emax32 _ NB) as [PB _]. assert (P24 : bpow radix2 (-24) = (/ 16777216)%R) by (cbn; lra). assert (P23 : bpow radix2 (-23) = (/ 8388608)%R) by (cbn; lra).
    destruct D as [[D1 ->]|[_ ->]].
    - assert (Fo : nf32 o). { apply nneg_fin; [assumption|]. apply Rlt_trans with (1 := D1). change 1%R with (bpow radix2 0). apply bpow_lt. reflexivity. }
      rewrite (nnf_cl prec32 emax32 _ Fo) in LO, D1. assert (T : (share * (3 / 4) <= share * (1 - tiny))%R) by (apply Rmult_le_compat_l; unfold tiny; lra).
      eapply Rle_trans; [|apply apply_low; [assumption|assumption|assumption|rewrite P23; lra|assumption]].
      assert (vl (s_bw x) * (share * (1 - tiny)) <= vl (s_bw x) * vl o)%R by (apply Rmult_le_compat_l; lra). assert (0 <= vl (s_bw x) * share)%R by (apply Rmult_le_pos; lra). unfold tiny in *. lra.
    - assert (vl (s_bw x) * share <= vl (s_bw x) * 1)%R by (apply Rmult_le_compat_l; lra). lra.
  Qed.
End Low.
