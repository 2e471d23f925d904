(* The rates of a timestep in floats (C38, C39, C54, second half of C40). *)
From Coq Require Import ZArith Arith Reals Lra Lia Bool List String Floats.SpecFloat.
From Flocq Require Import Core IEEE754.BinarySingleNaN.
From Verif Require Import Base Arith Util Device Workload Rates Engine SpecEngine SpecRates TrackerProofs DepGenProofs FloatProofs FloatProofs2 RateFacts RateFloat RateFloat2 RateFloat3.
Import ListNotations.
Local Open Scope list_scope.
Open Scope Z_scope.

Lemma number_nf x : number x <-> nf32 x.
Proof.
  unfold number, nnf, nneg, fin, valid. change 24 with prec32. change 128 with emax32. split.
  - intros [V [->|(m & e & ->)]]; cbn [is_finite_SF]; auto.
  - intros [V F]. destruct x as [[]|[]| |[] m e]; destruct V as [V V']; try discriminate F; try discriminate V'; try contradiction V'.
    + split; [reflexivity|left; reflexivity].
    + split; [exact V|right; eauto].
Qed.
Lemma le_cl x y : nn32 x -> nn32 y -> le_float x y <-> (cl32 x <= cl32 y)%R.
Proof.
  intros Nx Ny. assert (E : SFleb x y = negb (SFltb y x)).
  { unfold SFleb, SFltb. destruct x as [[]|[]| |[] mx ex], y as [[]|[]| |[] my ey]; try reflexivity; destruct Nx as [_ Nx], Ny as [_ Ny]; try discriminate Nx; try discriminate Ny; try contradiction.
    unfold SFcompare. rewrite (Z.compare_antisym ex ey). destruct (ex ?= ey); cbn [CompOpp]; try reflexivity. replace (Pos.compare_cont Eq mx my) with (CompOpp (Pos.compare_cont Eq my mx)) by exact (Pos.compare_cont_antisym my mx Eq). destruct (Pos.compare_cont Eq my mx); reflexivity. }
  unfold le_float. rewrite E. split; intros H.
  - apply negb_true_iff in H. apply (ltb_cl_false prec32 emax32 y x Ny Nx) in H. lra.
  - apply negb_true_iff. apply (ltb_cl_false prec32 emax32 y x Ny Nx). lra.
Qed.
Lemma le_vl x y : nf32 x -> nf32 y -> le_float x y <-> (vl x <= vl y)%R.
Proof. intros Nx Ny. rewrite le_cl by (apply Nx || apply Ny). rewrite !(nnf_cl prec32 emax32) by assumption. reflexivity. Qed.

(** * C38 *)
Theorem interpolated d p n : 1 <= p < 2 ^ 32 -> 1 <= n < 2 ^ 32 ->
  exists b, interpolateBW f32A (tbt f32A d) (max_noc_bandwidth f32A d) p n = Ok b /\ number b /\
    (0 < real b <= real (max_noc_bandwidth f32A d) * (1 + bpow radix2 (-23)))%R.
Proof.
  intros Hp Hn. destruct (interpolate_ok d p n) as (b & H1 & H2 & H3); [lia|lia|]. exists b. split; [assumption|]. split; [apply number_nf; assumption|exact H3].
Qed.

(** * The uncongested bandwidth *)
Lemma ffmin_ok a b : nf32 a -> nf32 b -> nf32 (f_fmin f32A a b) /\ vl (f_fmin f32A a b) = Rmin (vl a) (vl b).
Proof.
  intros Na Nb. unfold f_fmin. cbn [f_nan f_lt f32A]. assert (Ea : sf_isnan a = false) by (destruct a; try reflexivity; destruct Na as [_ C]; discriminate C).
  assert (Eb : sf_isnan b = false) by (destruct b; try reflexivity; destruct Nb as [_ C]; discriminate C). rewrite Ea, Eb. destruct (SFltb b a) eqn:E.
  - apply (ltb_cl prec32 emax32) in E; [|apply Nb|apply Na]. rewrite !(nnf_cl prec32 emax32) in E by assumption. split; [assumption|]. rewrite Rmin_right; lra.
  - apply (ltb_cl_false prec32 emax32) in E; [|apply Nb|apply Na]. rewrite !(nnf_cl prec32 emax32) in E by assumption. split; [assumption|]. rewrite Rmin_left; lra.
Qed.
Lemma uncongested_ok d t : sound_transfer t -> exists b nb, uncongested_bw f32A d t = Ok b /\
  interpolateBW f32A (tbt f32A d) (max_noc_bandwidth f32A d) (t_psize t) (t_npkts t) = Ok nb /\ nf32 nb /\ (0 < vl nb)%R /\
  nf32 b /\ (vl b <= vl (t_rate t))%R /\ vl b = Rmin (vl (t_rate t)) (vl nb).
Proof.
  intros (Hp & Hn & HR). apply number_nf in HR. destruct (interpolate_ok d (t_psize t) (t_npkts t)) as (nb & H1 & H2 & H3); [lia|lia|].
  destruct (ffmin_ok _ _ HR H2) as (Nb & Vb).
  exists (f_fmin f32A (t_rate t) nb), nb. split; [exact (f_equal (fun o => bind o (fun noc => Ok (f_fmin f32A (t_rate t) noc))) H1)|]. split; [exact H1|]. split; [assumption|]. split; [apply H3|]. split; [exact Nb|]. split; [rewrite Vb; apply Rmin_l|exact Vb].
Qed.
Lemma sound_uncongested d t b : sound_transfer t -> uncongested_bw f32A d t = Ok b -> nf32 b /\ (vl b <= vl (t_rate t))%R.
Proof. intros H E. destruct (uncongested_ok d t H) as (b' & nb & E' & _ & _ & _ & N & L & _). rewrite E in E'. injection E' as <-. auto. Qed.

(* the states in which the congestion model starts *)
Lemma started_live d en sts live sts1 : sound_live en sts live -> updateTransferBandwidth f32A d sts live = Ok sts1 -> live_ok en sts1 live.
Proof.
  intros [ND HS] H. apply update_spec in H as (_ & _ & HI). intros i y Hi Hy. destruct (HI i Hi) as (x & b & Hx & Hb & Hx1). rewrite Hy in Hx1. injection Hx1 as ->.
  destruct (HS i x Hi Hx) as [HT Hst]. destruct (sound_uncongested _ _ _ HT Hb) as [Nb Lb]. unfold state_ok. cbn [with_bw s_tr s_bw s_start]. split; [apply number_nf; apply HT|]. auto.
Qed.
Lemma rates_shape d st en sts live g0 c sts' g : timestep_window st en -> sound_live en sts live -> computeCurrentTransferRate f32A d st en sts live g0 c = Ok (sts', g) ->
  (if c then grid_ok (g_niu g) /\ grid_ok (g_link g) else g = g0) /\
  forall i, In i live -> exists x b0 b, nth_error sts i = Some x /\ nth_error sts' i = Some (with_bw x b) /\ uncongested_bw f32A d (s_tr x) = Ok b0 /\
    nf32 b0 /\ (vl b0 <= vl (t_rate (s_tr x)))%R /\ nf32 (t_rate (s_tr x)) /\ nf32 b /\ (vl b <= vl b0)%R /\ (if c then new_bw f32A d g (with_bw x b0) = Ok b else b = b0).
Proof.
  intros [HW1 HW2] HL H. pose proof HL as [ND HS]. pose proof (rate_spec _ _ _ _ _ _ _ _ _ _ ND H) as (_ & _ & HI).
  assert (HG : if c then grid_ok (g_niu g) /\ grid_ok (g_link g) else g = g0).
  { unfold computeCurrentTransferRate in H. apply bind_ok in H as (sts1 & H1 & H). destruct c; [|injection H as _ <-; reflexivity].
    pose proof (started_live _ _ _ _ _ HL H1) as HL1. apply congestion_spec in H as (HD & _); [|assumption]. eapply grids_ok; [| |exact HL1|exact HD]; assumption. }
  split; [exact HG|]. intros i Hi. destruct (HI i Hi) as (x & b0 & b & Hx & Hb0 & Hx' & Hb). exists x, b0, b. destruct (HS i x Hi Hx) as [HT Hst]. destruct (sound_uncongested _ _ _ HT Hb0) as [N0 L0].
  assert (NR : nf32 (t_rate (s_tr x))) by (apply number_nf; apply HT).
  assert (HB : nf32 b /\ (vl b <= vl b0)%R).
  { destruct c; [|subst b; split; [assumption|lra]]. destruct HG as [G1 G2]. apply (new_bw_ok d g (with_bw x b0) b Hb G1 G2); assumption. }
  tauto.
Qed.

(** * C39 *)
Theorem rates_bounded d st en sts live g0 c sts' g : timestep_window st en -> sound_live en sts live ->
  computeCurrentTransferRate f32A d st en sts live g0 c = Ok (sts', g) ->
  forall i x, In i live -> nth_error sts' i = Some x -> number (s_bw x) /\ le_float (s_bw x) (t_rate (s_tr x)).
Proof.
  intros HW HL H i y Hi Hy. destruct (rates_shape _ _ _ _ _ _ _ _ _ HW HL H) as [_ HI]. destruct (HI i Hi) as (x & b0 & b & _ & Hx' & _ & N0 & L0 & NR & Nb & Lb & _).
  rewrite Hy in Hx'. injection Hx' as ->. cbn [with_bw s_bw s_tr]. split; [apply number_nf; assumption|]. apply le_vl; [assumption|assumption|exact (Rle_trans _ _ _ Lb L0)].
Qed.
Theorem congestion_never_raises d st en sts live g0 g0' sts1 sts2 g1 g2 : timestep_window st en -> sound_live en sts live ->
  computeCurrentTransferRate f32A d st en sts live g0 false = Ok (sts1, g1) ->
  computeCurrentTransferRate f32A d st en sts live g0' true = Ok (sts2, g2) ->
  forall i x1 x2, In i live -> nth_error sts1 i = Some x1 -> nth_error sts2 i = Some x2 -> le_float (s_bw x2) (s_bw x1).
Proof.
  intros HW HL H1 H2 i y1 y2 Hi Hy1 Hy2. destruct (rates_shape _ _ _ _ _ _ _ _ _ HW HL H1) as [_ I1]. destruct (rates_shape _ _ _ _ _ _ _ _ _ HW HL H2) as [_ I2].
  destruct (I1 i Hi) as (x & b0 & b & Hx & Hx' & Hb0 & N0 & L0 & NR & Nb & Lb & Eb). destruct (I2 i Hi) as (z & c0 & c & Hz & Hz' & Hc0 & M0 & _ & _ & Mc & Lc & _).
  rewrite Hx in Hz. injection Hz as <-. rewrite Hb0 in Hc0. injection Hc0 as <-. rewrite Hy1 in Hx'. rewrite Hy2 in Hz'. injection Hx' as ->. injection Hz' as ->. cbn [with_bw s_bw]. subst b. apply le_vl; assumption.
Qed.

(** * C54 *)
Lemma insert_sub (l1 l2 : list nat) k : sub (l1 ++ l2) (l1 ++ k :: l2).
Proof. apply sub_app; [apply sub_refl|constructor; apply sub_refl]. Qed.
Lemma sub_nodup {X} (l l' : list X) : sub l l' -> NoDup l' -> NoDup l.
Proof. intros H. induction H; intros N; [constructor|inversion N; auto|inversion N; subst; constructor; [intros C; eapply sub_in in C; [|eassumption]; contradiction|auto]]. Qed.
(* two updates of the same states agree on the transfers of both *)
Lemma demand_ext d st en live : forall sts sts' g, (forall i, In i live -> nth_error sts i = nth_error sts' i) ->
  foldM (add_demand f32A d st en sts) live g = foldM (add_demand f32A d st en sts') live g.
Proof.
  induction live as [|i live IH]; intros sts sts' g HE; [reflexivity|]. cbn [foldM]. assert (E : add_demand f32A d st en sts g i = add_demand f32A d st en sts' g i).
  { unfold add_demand, vec_get. rewrite (HE i) by (left; reflexivity). reflexivity. }
  rewrite E. destruct (add_demand f32A d st en sts' g i); cbn [bind]; try reflexivity. apply IH. intros j Hj. apply HE. right. assumption.
Qed.
Theorem more_congestion d st en sts l1 k l2 g0 g0' sts1 sts2 g1 g2 : timestep_window st en -> sound_live en sts (l1 ++ k :: l2) ->
  computeCurrentTransferRate f32A d st en sts (l1 ++ l2) g0 true = Ok (sts1, g1) ->
  computeCurrentTransferRate f32A d st en sts (l1 ++ k :: l2) g0' true = Ok (sts2, g2) ->
  (forall l x1 x2, nth_error (g_link g1) l = Some x1 -> nth_error (g_link g2) l = Some x2 -> le_float x1 x2) /\
  (forall l x1 x2, nth_error (g_niu g1) l = Some x1 -> nth_error (g_niu g2) l = Some x2 -> le_float x1 x2) /\
  forall i x1 x2, In i (l1 ++ l2) -> nth_error sts1 i = Some x1 -> nth_error sts2 i = Some x2 -> le_float (s_bw x2) (s_bw x1).
Proof.
  intros HW HL H1 H2. pose proof (insert_sub l1 l2 k) as HS. set (lv := l1 ++ l2) in *. set (lv' := l1 ++ k :: l2) in *.
  assert (HL1 : sound_live en sts lv).
  { destruct HL as [ND HX]. split; [eapply sub_nodup; eassumption|]. intros i x Hi Hx. apply (HX i); [eapply sub_in; eassumption|assumption]. }
  destruct (rates_shape _ _ _ _ _ _ _ _ _ HW HL1 H1) as [[G1 G2] I1]. destruct (rates_shape _ _ _ _ _ _ _ _ _ HW HL H2) as [[G1' G2'] I2].
  assert (HGL : grid_le (g_niu g1) (g_niu g2) /\ grid_le (g_link g1) (g_link g2)).
  { pose proof H1 as E1. pose proof H2 as E2. unfold computeCurrentTransferRate in E1, E2. apply bind_ok in E1 as (u1 & U1 & E1). apply bind_ok in E2 as (u2 & U2 & E2).
    pose proof (started_live _ _ _ _ _ HL U2) as OK2. apply congestion_spec in E1 as (D1 & _); [|apply HL1]. apply congestion_spec in E2 as (D2 & _); [|apply HL].
    assert (EE : forall i, In i lv -> nth_error u1 i = nth_error u2 i).
    { intros i Hi. apply update_spec in U1 as (_ & _ & J1). apply update_spec in U2 as (_ & _ & J2). destruct (J1 i Hi) as (x & b & X1 & X2 & X3). destruct (J2 i (sub_in _ _ _ HS Hi)) as (x' & b' & Y1 & Y2 & Y3). congruence. }
    rewrite (demand_ext d st en lv u1 u2 _ EE) in D1. destruct HW as [HW1 HW2]. eapply grids_le; [| |exact OK2|exact HS|exact D1|exact D2]; assumption. }
  destruct HGL as [L1 L2]. split; [|split].
  - intros l x1 x2 E1 E2. apply le_cl; [eapply G2; eassumption|eapply G2'; eassumption|]. eapply (proj2 L2); eassumption.
  - intros l x1 x2 E1 E2. apply le_cl; [eapply G1; eassumption|eapply G1'; eassumption|]. eapply (proj2 L1); eassumption.
  - intros i y1 y2 Hi Hy1 Hy2. destruct (I1 i Hi) as (x & b0 & b & Hx & Hx' & Hb0 & N0 & L0 & NR & Nb & Lb & Eb). destruct (I2 i (sub_in _ _ _ HS Hi)) as (z & c0 & c & Hz & Hz' & Hc0 & M0 & _ & _ & Mc & Lc & Ec).
    rewrite Hx in Hz. injection Hz as <-. rewrite Hb0 in Hc0. injection Hc0 as <-. rewrite Hy1 in Hx'. rewrite Hy2 in Hz'. injection Hx' as ->. injection Hz' as ->. cbn [with_bw s_bw].
    apply le_vl; [assumption|assumption|]. eapply (new_bw_mono d g1 g2 (with_bw x b0) b c Eb Ec); assumption.
Qed.

(** * C40: a transfer that meets no over-subscribed resource *)
Lemma choose_keep d bw L S K : nn32 L -> nn32 K -> (nn32 S /\ (1 <= cl32 S)%R \/ S = S754_nan) -> (1 <= cl32 L)%R -> (1 <= cl32 K)%R -> choose d bw L S K = bw.
Proof.
  intros NL NK HS HL HK. unfold choose. destruct (f_lt f32A L (f_one f32A)) eqn:E1; [apply lt_one in E1; [lra|assumption]|]. cbn [orb].
  destruct (f_lt f32A (f_min f32A S K) (f_one f32A)) eqn:E2; [exfalso|reflexivity]. destruct HS as [[NS HS]|HS].
  - destruct (fmin_ok S K NS NK) as [N E]. apply lt_one in E2; [|exact N]. rewrite E in E2. pose proof (Rmin_glb _ _ _ HS HK). lra.
  - subst S. unfold f_min in E2. cbn [f_lt f32A] in E2. rewrite lt_nan_r in E2. rewrite lt_nan_l in E2. discriminate.
Qed.
Theorem keeps_bandwidth d st en sts live g0 sts' g : timestep_window st en -> sound_live en sts live ->
  computeCurrentTransferRate f32A d st en sts live g0 true = Ok (sts', g) ->
  forall i x, In i live -> nth_error sts i = Some x ->
  (forall id dem, In id (s_route x) -> grid_get (g_link g) id = Ok dem -> le_float dem (link_bandwidth f32A d)) ->
  (forall id dem, niu_of d (t_src (s_tr x)) (src_niu_type (t_noc (s_tr x))) = Ok id -> grid_get (g_niu g) id = Ok dem -> le_float dem (t_rate (s_tr x))) ->
  (forall c id dem ty, t_dst (s_tr x) = Unicast c -> niu_of d c (sink_niu_type (t_noc (s_tr x))) = Ok id -> grid_get (g_niu g) id = Ok dem ->
     getCoreType d c = Ok ty -> le_float dem (abs_rate f32A d ty)) ->
  exists x', nth_error sts' i = Some x' /\ uncongested_bw f32A d (s_tr x) = Ok (s_bw x').
Proof.
  intros HW HL H i x Hi Hx HC1 HC2 HC3. destruct (rates_shape _ _ _ _ _ _ _ _ _ HW HL H) as [[G1 G2] HI]. destruct (HI i Hi) as (z & b0 & b & Hz & Hx' & Hb0 & N0 & L0 & NR & Nb & Lb & Eb).
  rewrite Hx in Hz. injection Hz as <-. exists (with_bw x b). split; [exact Hx'|]. cbn [with_bw s_bw]. assert (Ebb : b = b0); [|rewrite Ebb; exact Hb0].
  destruct (new_bw_factors d g (with_bw x b0) b Eb G1 G2 NR) as (m & sid & sdem & K & Em & Es & Ed & EK & Nm & Nd & NK & NL & HS & ->). cbn [with_bw s_tr s_route s_bw] in *.
  destruct (link_bandwidth_ok d) as [Nl Pl]. apply choose_keep; try assumption.
  - destruct HS as [HS|(HS & _)]; [left; split; [exact HS|]|right; exact HS]. assert (LE : (cl32 sdem <= vl (t_rate (s_tr x)))%R).
    { pose proof (HC2 sid sdem Es Ed) as LE. apply le_cl in LE; [|exact Nd|apply NR]. rewrite (nnf_cl prec32 emax32 _ NR) in LE. exact LE. }
    pose proof (nnf_lt prec32 emax32 _ NR) as PR. pose proof (cl_nneg prec32 emax32 _ Nd) as PD.
    destruct (Req_dec (vl (t_rate (s_tr x))) 0) as [E0|E0].
    + exfalso. assert (E1 : cl32 sdem = 0%R) by lra. assert (Fd : nf32 sdem) by (apply nneg_fin; [assumption|rewrite E1; apply bpow_gt_0]). rewrite (nnf_cl prec32 emax32 _ Fd) in E1.
      pose proof (zero_of _ NR E0) as Z0. pose proof (zero_of _ Fd E1) as Z1. change (nn32 (SFdiv prec32 emax32 (t_rate (s_tr x)) sdem)) in HS. rewrite Z0, Z1 in HS. destruct HS as [_ []].
    + apply div_ge_1; try assumption; try typeclasses eauto. destruct PR as [[PR|PR] _]; [exact PR|exfalso; apply E0; symmetry; exact PR].
  - apply div_ge_1; try assumption; try typeclasses eauto. pose proof (max_link_ok _ _ G2 _ _ (nneg_zero _ _) Em) as (_ & _ & _ & HM).
    destruct HM as [->|(id & Hid & E)]; [cbn; lra|]. pose proof (HC1 id m Hid E) as LE. apply le_cl in LE; [|exact Nm|apply Nl]. rewrite (nnf_cl prec32 emax32 _ Nl) in LE. exact LE.
  - pose proof (proj2 (sink_derate_ok _ _ _ _ G1 EK)) as HK. remember (t_dst (s_tr x)) as dst eqn:Edst.
    change (match t_dst (s_tr x) with
            | Unicast c => exists id dem ty, niu_of d c (sink_niu_type (t_noc (s_tr x))) = Ok id /\ grid_get (g_niu g) id = Ok dem /\ getCoreType d c = Ok ty /\
                nn32 dem /\ K = f_div f32A (abs_rate f32A d ty) dem
            | Multicast m => K = inf32
            end) in HK. rewrite <- Edst in HK. destruct dst as [c|mc].
    + destruct HK as (id & dem & ty & K1 & K2 & K3 & K4 & ->). destruct (abs_rate_ok d ty) as [Na Pa]. apply div_ge_1; try assumption; try typeclasses eauto.
      pose proof (HC3 c id dem ty eq_refl K1 K2 K3) as LE. apply le_cl in LE; [|exact K4|apply Na]. rewrite (nnf_cl prec32 emax32 _ Na) in LE. exact LE.
    + subst K. cbn [cl inf32]. change 1%R with (bpow radix2 0). apply bpow_le. unfold emax32. lia.
Qed.
