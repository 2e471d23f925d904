(* The conversions from binary32 to integers in the simulation are defined (C22). *)
From Coq Require Import ZArith Arith Reals String List Bool Lia Lra ZifyBool ZifyNat Floats.SpecFloat.
From Flocq Require Import Core IEEE754.BinarySingleNaN.
From Verif Require Import Base Arith Util Device SpecDevice Workload SpecWorkload DepTracker Rates Stats Engine TrackerProofs StepProofs SpecEngine SpecRates UtilProofs WorkloadProofs
  FloatProofs FloatProofs2 RateFloat RateFloat4 EndFloat EngineFloat IngestTotal SafeProofs.
Import ListNotations.
Local Open Scope list_scope.
Open Scope Z_scope.
Ltac Zify.zify_post_hook ::= idtac.

Lemma to_uint_safe bits x : nnf prec32 emax32 x -> (vl x < IZR (2 ^ bits))%R -> f_to_uint f32A bits x = Ok (Zfloor (vl x)).
Proof.
  intros N L. pose proof (nnf_lt prec32 emax32 _ N) as [P _]. unfold f_to_uint. cbn [f32A f_trunc].
  destruct (sf_trunc x) as [z|] eqn:T.
  - destruct N as [N FN]. destruct (trunc_nneg prec32 emax32 _ _ N T) as [-> _]. assert (H0 : 0 <= Zfloor (vl x)) by (apply Zfloor_lub; exact P).
    assert (H1 : Zfloor (vl x) < 2 ^ bits) by (apply lt_IZR; apply Rle_lt_trans with (1 := Zfloor_lb _); exact L).
    apply Z.leb_le in H0. apply Z.ltb_lt in H1. rewrite H0, H1. reflexivity.
  - exfalso. destruct N as [_ FN]. destruct x; try discriminate.
Qed.
Lemma rnd_pow2 k r : 0 <= k <= 120 -> (r <= IZR (2 ^ k))%R -> (rnd32 r <= IZR (2 ^ k))%R.
Proof.
  intros K H. assert (E : IZR (2 ^ k) = bpow radix2 k) by (change 2 with (radix_val radix2); rewrite <- (IZR_Zpower radix2) by lia; reflexivity). rewrite E in *.
  apply Rle_trans with (rnd32 (bpow radix2 k)); [apply (rnd_le prec32 emax32 _); exact H|]. right. apply round_generic; [apply valid_rnd_N|]. apply generic_format_bpow. unfold SpecFloat.fexp, SpecFloat.emin, prec32, emax32. lia.
Qed.
Lemma of_range z k : 0 <= z <= 2 ^ k -> 0 <= k <= 32 -> nnf prec32 emax32 (ofz z) /\ (0 <= vl (ofz z) <= IZR (2 ^ k))%R.
Proof.
  intros Hz Hk. destruct (ofz_up z) as (N & E & _); [change (2 ^ 34) with 17179869184; assert (2 ^ k <= 2 ^ 32) by (apply Z.pow_le_mono_r; lia); change (2 ^ 32) with 4294967296 in *; lia|].
  split; [exact N|]. split; [apply (nnf_lt prec32 emax32 _ N)|]. rewrite E. apply rnd_pow2; [lia|]. apply IZR_le. apply Hz.
Qed.
Lemma in_range x r k : nneg prec32 emax32 x -> cl emax32 x = Rmin (rnd32 r) (bpow radix2 emax32) -> (r <= IZR (2 ^ k))%R -> 0 <= k <= 60 -> nnf prec32 emax32 x /\ (0 <= vl x <= IZR (2 ^ k))%R.
Proof.
  intros N E R1 K. assert (TOP : (IZR (2 ^ 60) < bpow radix2 emax32)%R). { change 2 with (radix_val radix2). rewrite (IZR_Zpower radix2) by lia. apply bpow_lt. reflexivity. }
  assert (P := rnd_pow2 k r ltac:(lia) R1). assert (B : (IZR (2 ^ k) <= IZR (2 ^ 60))%R) by (apply IZR_le; apply Z.pow_le_mono_r; lia).
  assert (N1 : nnf prec32 emax32 x) by (apply nneg_fin; [exact N|rewrite E; apply Rle_lt_trans with (1 := Rmin_l _ _); lra]).
  split; [exact N1|]. split; [apply (nnf_lt prec32 emax32 _ N1)|]. rewrite <- (nnf_cl prec32 emax32 _ N1), E. apply Rle_trans with (1 := Rmin_l _ _). exact P.
Qed.

(* the delay between a transfer and its group parent on another chip *)
Lemma packet_delay_ok lat psize : 0 <= lat <= 2 ^ 20 -> 0 <= psize < 2 ^ 32 -> exists dl,
  f_to_uint f32A 32 (f_add f32A (f_ofZ f32A lat) (f_add f32A (f_ofZ f32A 600) (f_mul f32A (f_lit f32A 1055 10000) (f_ofZ f32A psize)))) = Ok dl.
Proof.
  intros HL HP. cbn [f32A f_add f_ofZ f_mul f_lit]. set (l := sf_lit prec32 emax32 1055 10000).
  assert (NL : nnf prec32 emax32 l /\ (0 <= vl l <= / 8)%R).
  { assert (E : l = S754_finite false 14159970 (-27)) by reflexivity. split; [apply nnfb_ok; reflexivity|]. rewrite E. unfold vl, SF2R, F2R. cbn. lra. }
  destruct NL as [NL VL]. change (2 ^ 20) with 1048576 in HL. change (2 ^ 32) with 4294967296 in HP.
  destruct (of_range psize 32 ltac:(change (2 ^ 32) with 4294967296; lia) ltac:(lia)) as [NP VP]. destruct (of_range lat 20 ltac:(change (2 ^ 20) with 1048576; lia) ltac:(lia)) as [NA VA]. destruct (of_range 600 10 ltac:(change (2 ^ 10) with 1024; lia) ltac:(lia)) as [N6 V6].
  change (2 ^ 32) with 4294967296 in VP. change (2 ^ 20) with 1048576 in VA. change (2 ^ 10) with 1024 in V6.
  destruct (mul_nneg prec32 emax32 _ _ _ _ NL NP) as [NM EM]. destruct (in_range _ _ 29 NM EM) as [N1 V1]; [change (2 ^ 29) with 536870912; nra|lia|].
  destruct (add_nneg prec32 emax32 _ _ _ _ N6 N1) as [NM2 EM2]. change (2 ^ 29) with 536870912 in V1. destruct (in_range _ _ 30 NM2 EM2) as [N2 V2]; [change (2 ^ 30) with 1073741824; lra|lia|].
  destruct (add_nneg prec32 emax32 _ _ _ _ NA N2) as [NM3 EM3]. change (2 ^ 30) with 1073741824 in V2. destruct (in_range _ _ 31 NM3 EM3) as [N3 V3]; [change (2 ^ 31) with 2147483648; lra|lia|].
  eexists. apply to_uint_safe; [exact N3|]. apply Rle_lt_trans with (1 := proj2 V3). apply IZR_lt. reflexivity.
Qed.

(* bytes moved in one timestep *)
Lemma moved_ok c bw : nnf prec32 emax32 bw -> (vl bw <= 1024)%R -> 0 <= c < 2 ^ 32 ->
  exists m, f_to_uint f32A 64 (SFmul prec32 emax32 (ofz c) bw) = Ok m /\ 0 <= m /\ (0 < m -> (0 < vl bw)%R).
Proof.
  intros NB UB HC. destruct (of_range c 32 ltac:(lia) ltac:(lia)) as [NC VC]. change (2 ^ 32) with 4294967296 in VC.
  pose proof (nnf_lt prec32 emax32 _ NB) as [PB _]. destruct (mul_nneg prec32 emax32 _ _ _ _ NC NB) as [NM EM].
  destruct (in_range _ _ 42 NM EM) as [N1 V1]; [change (2 ^ 42) with 4398046511104; nra|lia|].
  exists (Zfloor (vl (SFmul prec32 emax32 (ofz c) bw))). split; [apply to_uint_safe; [exact N1|apply Rle_lt_trans with (1 := proj2 V1); apply IZR_lt; reflexivity]|].
  split; [apply Zfloor_lub; apply V1|]. intros Hm. destruct (Rle_lt_or_eq_dec _ _ PB) as [|Z0]; [assumption|]. exfalso.
  rewrite (nnf_cl prec32 emax32 _ N1) in EM. rewrite <- Z0, Rmult_0_r, (rnd_0 prec32 emax32) in EM. rewrite Rmin_left in EM by (apply bpow_ge_0). rewrite EM in Hm. rewrite (Zfloor_IZR 0) in Hm. lia.
Qed.
(* the end cycle *)
Theorem end32_ok bw first c m b : nnf prec32 emax32 bw -> 0 <= first -> 0 <= c -> first + c < 2 ^ 34 ->
  f_to_uint f32A 64 (SFmul prec32 emax32 (ofz c) bw) = Ok m -> 0 < b <= m -> b < 2 ^ 34 ->
  exists e, f_to_uint f32A 64 (SFadd prec32 emax32 (ofz first) (sf_ceil prec32 emax32 (SFdiv prec32 emax32 (ofz b) bw))) = Ok e.
Proof.
  intros NB Hf Hc Hs Hm Hb Hb34.
  pose proof (nnf_lt prec32 emax32 _ NB) as [PB _].
  destruct (ofz_up c ltac:(lia)) as (NC & EC & UC). destruct (ofz_up b ltac:(lia)) as (Nb & Eb & Ub). destruct (ofz_up first ltac:(lia)) as (Nf & Ef & Uf).
  assert (C0 : (0 <= IZR c)%R) by (apply IZR_le; lia). assert (F0 : (0 <= IZR first)%R) by (apply IZR_le; lia). assert (B0 : (0 <= IZR b)%R) by (apply IZR_le; lia).
  assert (S34 : (IZR first + IZR c <= 17179869184)%R) by (rewrite <- plus_IZR; apply IZR_le; change (2 ^ 34) with 17179869184 in Hs; lia).
  destruct (mul_nneg prec32 emax32 _ _ _ _ NC NB) as [NM EM]. destruct (to_uint_ok _ _ _ NM Hm) as [Vm FM]. rewrite (nnf_cl prec32 emax32 _ FM) in EM.
  assert (UM : (IZR m <= rnd32 (vl (ofz c) * vl bw))%R). { apply Rle_trans with (vl (SFmul prec32 emax32 (ofz c) bw)); [rewrite Vm; apply Zfloor_lb|]. rewrite EM. apply Rmin_l. }
  assert (NZ : vl bw <> 0%R). { intros Z0. rewrite Z0, Rmult_0_r in UM. rewrite (rnd_0 prec32 emax32) in UM. apply le_IZR in UM. lia. }
  assert (P : (0 < vl bw)%R) by lra.
  destruct (div_nneg prec32 emax32 _ _ _ _ Nb NB NZ) as [ND ED].
  assert (U0 : (u32r = / 16777216)%R) by reflexivity.
  assert (UD : (vl (ofz b) / vl bw <= IZR c * (1 + u32r) * (1 + u32r) * (1 + u32r))%R).
  { assert (M1 : (1 <= IZR m)%R) by (apply IZR_le; lia). set (p := (vl (ofz c) * vl bw)%R) in *.
    assert (P2 : (/ 2 <= p)%R). { destruct (Rle_or_lt (/ 2) p) as [|L]; [assumption|]. exfalso. assert (rnd32 p <= rnd32 (/ 2))%R by (apply (rnd_le prec32 emax32 _); lra). assert (H2 : (/ 2 <= / 2)%R) by lra. apply rnd32_err in H2. unfold u32r in H2. lra. }
    apply rnd32_err in P2 as [_ P2]. assert (LB : (IZR b <= IZR m)%R) by (apply IZR_le; lia).
    apply Rmult_le_reg_r with (1 := P). unfold Rdiv. rewrite Rmult_assoc, Rinv_l, Rmult_1_r by lra. apply Rle_trans with (1 := Ub).
    apply Rle_trans with (p * (1 + u32r) * (1 + u32r))%R; [apply Rmult_le_compat_r; [rewrite U0; lra|]; lra|]. unfold p. apply Rle_trans with (IZR c * (1 + u32r) * vl bw * (1 + u32r) * (1 + u32r))%R; [|right; ring].
    apply Rmult_le_compat_r; [rewrite U0; lra|]. apply Rmult_le_compat_r; [rewrite U0; lra|]. apply Rmult_le_compat_r; lra. }
  destruct (in_range _ _ 35 ND ED) as [FD VD]; [apply Rle_trans with (1 := UD); change (2 ^ 35) with 34359738368; rewrite !Rmult_assoc, U0; nra|lia|].
  destruct (ceil_spec _ FD) as [FC EC']. pose proof (nnf_lt prec32 emax32 _ FC) as [PC _]. pose proof (nnf_lt prec32 emax32 _ Nf) as [Pf _].
  destruct (add_nneg prec32 emax32 _ _ _ _ Nf FC) as [NA EA].
  destruct (in_range _ _ 37 NA EA) as [FA VA]; [|lia|].
  - rewrite EC'. pose proof (ceil_lt (vl (SFdiv prec32 emax32 (ofz b) bw))). change (2 ^ 35) with 34359738368 in VD. change (2 ^ 37) with 137438953472. rewrite U0 in Uf. lra.
  - eexists. apply to_uint_safe; [exact FA|]. apply Rle_lt_trans with (1 := proj2 VA). apply IZR_lt. reflexivity.
Qed.

(* one live transfer *)
Lemma credited_safe (A : arith) cpt curr sot tk (x : tstate (F A)) : 0 <= cpt < 2 ^ 32 -> safe (credited_cycles A cpt curr sot tk x) /\
  forall c, credited_cycles A cpt curr sot tk x = Ok c -> 0 <= c < 2 ^ 32.
Proof.
  intros HC. unfold credited_cycles. cbv zeta. pose proof (u32_range (curr - s_start x)) as U.
  assert (B : 0 <= Z.min cpt (u32 (curr - s_start x)) < 2 ^ 32) by lia. destruct (s_dep x) as [k|]; [|split; [exact I|intros c [= <-]; exact B]].
  pose proof (safe_end tk (Some k)) as SE. destruct (end_cycle tk (Some k)) as [e| | | | | |]; try contradiction; cbn [bind]; [|split; [exact I|discriminate]].
  destruct (_ && _); [|split; [exact I|intros c [= <-]; exact B]]. split.
  - apply safe_bind; [apply safe_assert|]. intros _ _. apply safe_bind; [apply safe_assert|]. intros; exact I.
  - intros c H. apply bind_ok in H as (? & _ & H). apply bind_ok in H as (? & _ & H). injection H as <-. apply u32_range.
Qed.
Lemma adv_safe cpt curr sot tk (x : tstate (F f32A)) : proper_cpt cpt -> nnf prec32 emax32 (s_bw x) -> (vl (s_bw x) <= 1024)%R ->
  0 <= s_start x < 2 ^ 32 -> 0 <= sot < 2 ^ 32 -> 0 <= s_done x < t_bytes (s_tr x) -> t_bytes (s_tr x) < 2 ^ 32 ->
  safe (adv f32A cpt curr sot tk x).
Proof.
  intros [C1 C2] NB UB HS HT HDn HBy. unfold adv. destruct (credited_safe f32A cpt curr sot tk x ltac:(lia)) as [SC KC].
  apply safe_bind; [exact SC|]. intros c Ec. specialize (KC c Ec). destruct (moved_ok c (s_bw x) NB UB KC) as (m & Em & M0 & _).
  apply safe_bind; [match goal with |- safe ?e => change e with (f_to_uint f32A 64 (SFmul prec32 emax32 (ofz c) (s_bw x))) end; rewrite Em; exact I|].
  intros m' Em'. assert (m' = m) by (assert (Ok m' = Ok m) by (rewrite <- Em'; exact Em); congruence). subst m'. cbv zeta.
  destruct (Z.eqb_spec (t_bytes (s_tr x)) (u64 (s_done x + Z.min (u64 (t_bytes (s_tr x) - s_done x)) m))) as [E|]; [|exact I].
  apply safe_bind; [|intros; exact I]. change (2 ^ 32) with 4294967296 in *.
  assert (U : u64 (t_bytes (s_tr x) - s_done x) = t_bytes (s_tr x) - s_done x) by (apply u64_id; change (2 ^ 64) with 18446744073709551616; lia). rewrite U in *.
  set (b := Z.min (t_bytes (s_tr x) - s_done x) m) in *. rewrite u64_id in E by (change (2 ^ 64) with 18446744073709551616; lia).
  destruct (end32_ok (s_bw x) (Z.max (s_start x) sot) c m b NB) as (e & Ee); try lia; try exact Em; try (change (2 ^ 34) with 17179869184; lia).
  match goal with |- safe ?t => change t with (f_to_uint f32A 64 (SFadd prec32 emax32 (ofz (Z.max (s_start x) sot)) (sf_ceil prec32 emax32 (SFdiv prec32 emax32 (ofz b) (s_bw x))))) end. rewrite Ee. exact I.
Qed.
(* the bandwidth of a live transfer *)
Lemma noc_max d : (real (max_noc_bandwidth f32A d) <= 128)%R.
Proof.
  unfold real. destruct d as [cl]. unfold max_noc_bandwidth, tbt. cbn [dv_class].
  destruct cl; vm_compute (fold_left _ _ _); unfold SF2R, F2R; cbn; lra.
Qed.
Lemma bounded_bw d st en sts live g0 c sts' g : timestep_window st en -> sound_live en sts live -> computeCurrentTransferRate f32A d st en sts live g0 c = Ok (sts', g) ->
  forall i x, In i live -> nth_error sts' i = Some x -> nnf prec32 emax32 (s_bw x) /\ (vl (s_bw x) <= 1024)%R.
Proof.
  intros HW HL H i y Hi Hy. destruct (rates_shape _ _ _ _ _ _ _ _ _ HW HL H) as [_ HI]. destruct (HI i Hi) as (x & b0 & b & Hx & Hx' & Hu & N0 & L0 & NR & Nb & Lb & _).
  rewrite Hy in Hx'. injection Hx' as ->. cbn [with_bw s_bw]. split; [exact Nb|]. apply Rle_trans with (1 := Lb).
  destruct HL as [_ HS]. destruct (HS i x Hi Hx) as [HT _]. destruct (uncongested_ok d (s_tr x) HT) as (b' & nb & Eb & En & _ & _ & _ & _ & Vb). rewrite Hu in Eb. injection Eb as <-.
  rewrite Vb. apply Rle_trans with (1 := Rmin_r _ _). destruct HT as (T1 & T2 & _). destruct (interpolated d (t_psize (s_tr x)) (t_npkts (s_tr x)) T1 T2) as (b1 & E1 & _ & B1).
  assert (Ok b1 = Ok nb) as [= ->] by (rewrite <- E1; exact En). change (real nb) with (vl nb) in B1. pose proof (noc_max d) as M. cbn in B1. lra.
Qed.
