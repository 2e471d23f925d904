(* Congestion in floats: the sums of the new rates stay within the capacities up to the rounding errors. Second part: links, sources, sinks. *)
From Coq Require Import ZArith Arith Reals Lra Lia Bool List String Floats.SpecFloat.
From Flocq Require Import Core IEEE754.BinarySingleNaN.
From Verif Require Import Base Arith Util Device Workload Rates SpecRates TrackerProofs DepGenProofs FloatProofs FloatProofs2 RateFacts RateFloat RateFloat2 RateFloat3 RateFloat4 FiniteProofs CapacityFloat.
Import ListNotations.
Local Open Scope list_scope.
Open Scope Z_scope.

(** * The factors *)
Lemma div_hi C m D : nf32 C -> nn32 m -> nf32 D -> (0 < vl C)%R -> (0 < vl D <= cl32 m)%R -> (cl32 (f_div f32A C m) <= vl C / vl D * (1 + uu) + eta)%R.
Proof.
  intros NC Nm ND PC [PD LD]. pose proof (nnf_lt prec32 emax32 _ ND) as TD. change (f_div f32A C m) with (SFdiv prec32 emax32 C m).
  eapply Rle_trans; [apply (div_anti prec32 emax32 _ _ C D m NC (proj1 ND) Nm); [left; exact PC|rewrite (nnf_cl prec32 emax32 _ ND); exact LD]|].
  destruct (div_nn prec32 emax32 _ _ C D NC (proj1 ND) (or_introl PC)) as [_ E]. rewrite E, !(nnf_cl prec32 emax32 _ ND).
  destruct (Req_EM_T (vl D) 0) as [E0|_]; [lra|]. destruct (Req_EM_T (vl D) (bpow radix2 emax32)) as [E0|_]; [lra|].
  eapply Rle_trans; [apply Rmin_l|]. apply rd_hi. apply Rmult_le_pos; [lra|left; apply Rinv_0_lt_compat; lra].
Qed.
Lemma choose_hi d bw L S K r : nf32 bw -> (vl bw <= 128)%R -> nn32 L -> nn32 K -> nn32 S \/ S = S754_nan ->
  (Rmin (cl32 L) (match S with S754_nan => cl32 L | _ => Rmin (cl32 S) (cl32 K) end) <= r)%R -> (vl (choose d bw L S K) <= vl bw * (r + vv) + bpow radix2 (-149))%R.
Proof.
  intros Nb HB NL NK HS HR. pose proof (nnf_lt prec32 emax32 _ Nb) as Pb. pose proof (bpow_gt_0 radix2 (-22)). pose proof (bpow_gt_0 radix2 (-149)).
  destruct (choose_eq d bw L S K NL NK HS) as (o & No & Eo & C). rewrite <- Eo in HR. destruct C as [[C ->]|[C ->]].
  - eapply Rle_trans; [apply apply_hi; assumption|]. apply Rplus_le_compat_r. apply Rmult_le_compat_l; [lra|]. apply Rplus_le_compat_r.
    assert (Fo : nf32 o) by (apply nneg_fin; [assumption|apply Rlt_trans with (1 := C); change 1%R with (bpow radix2 0); apply bpow_lt; reflexivity]). rewrite <- (nnf_cl prec32 emax32 _ Fo). exact HR.
  - assert (vl bw * 1 <= vl bw * (r + vv))%R by (apply Rmult_le_compat_l; lra). lra.
Qed.

(** * Sums *)
Definition eff (st en : Z) (x : tstate spec_float) : spec_float := effective_demand f32A st en x.
Definition reps (st en : Z) (times : tstate spec_float -> nat) (sts : list (tstate spec_float)) (live : list nat) : list spec_float :=
  flat_map (fun i => match nth_error sts i with Some x => repeat (eff st en x) (times x) | None => [] end) live.
Lemma rsum_app a b : rsum (a ++ b) = (rsum a + rsum b)%R.
Proof. unfold rsum. induction a as [|x a IH]; cbn [app fold_right]; [lra|]. rewrite IH. lra. Qed.
Lemma rsum_repeat x n : rsum (repeat x n) = (INR n * vl x)%R.
Proof. induction n as [|n IH]; cbn [repeat rsum fold_right]; [cbn; lra|]. unfold rsum in IH. rewrite IH, S_INR. lra. Qed.
Lemma reps_length st en times sts live : List.length (reps st en times sts live) = uses times sts live.
Proof. induction live as [|i live IH]; [reflexivity|]. cbn [reps flat_map uses fold_right]. rewrite app_length. fold (reps st en times sts live). rewrite IH. fold (uses times sts live). destruct (nth_error sts i); [rewrite repeat_length; reflexivity|reflexivity]. Qed.
Lemma reps_ok st en times (sts : list (tstate spec_float)) live : 0 <= st < en -> en < 2 ^ 32 -> (forall i (x : tstate spec_float), In i live -> nth_error sts i = Some x -> state_ok en x /\ (vl (s_bw x) <= 128)%R) ->
  Forall (fun y => nf32 y /\ (vl y <= 128)%R) (reps st en times sts live).
Proof.
  intros H1 H2 HL. apply Forall_forall. intros y Hy. unfold reps in Hy. apply in_flat_map in Hy as (i & Hi & Hy). change (F f32A) with spec_float in *. destruct (nth_error sts i) as [x|] eqn:Hx; [|destruct Hy].
  apply repeat_spec in Hy. subst y. destruct (HL i x Hi Hx) as [HS HB]. destruct (demand_ok st en x H1 H2 HS) as [N L]. split; [exact N|]. eapply Rle_trans; [exact L|exact HB].
Qed.
Notation ww := (bpow radix2 (-19)).
Lemma bernoulli x n : (0 < x)%R -> (1 + INR n * x <= (1 + x) ^ n)%R.
Proof. intros H. exact (poly n x H). Qed.
Lemma growth n : ((1 + 2 * vv) * (1 + uu) ^ (n + 1) + 4 * vv * INR n <= (1 + ww) ^ (n + 1))%R.
Proof.
  destruct units as (U0 & U1 & EV & _). assert (EW : ww = (32 * uu)%R) by (change 32%R with (bpow radix2 5); rewrite <- bpow_plus; reflexivity). rewrite EV, EW. set (u := bpow radix2 (-24)) in *. clearbody u. clear EV EW.
  assert (S : (u * u <= u * / 16000000)%R) by (apply Rmult_le_compat_l; lra).
  assert (K : ((1 + u) * (1 + 16 * u) <= 1 + 32 * u)%R) by lra.
  apply Rle_trans with (((1 + u) * (1 + 16 * u)) ^ (n + 1))%R; [|apply pow_incr; split; [apply Rmult_le_pos; lra|exact K]]. rewrite Rpow_mult_distr.
  pose proof (bernoulli (16 * u) (n + 1) ltac:(lra)) as B. pose proof (pow_R1_Rle (1 + u) (n + 1) ltac:(lra)) as P. rewrite plus_INR in B. cbn [INR] in B. set (p := ((1 + u) ^ (n + 1))%R) in *. pose proof (pos_INR n) as Hn.
  assert (B2 : (p * (1 + (INR n + 1) * (16 * u)) <= p * (1 + 16 * u) ^ (n + 1))%R) by (apply Rmult_le_compat_l; lra).
  assert (NU : (0 <= INR n * u)%R) by (apply Rmult_le_pos; lra). assert (NU2 : (1 * (INR n * u) <= p * (INR n * u))%R) by (apply Rmult_le_compat_r; lra). assert (PU : (0 <= p * u)%R) by (apply Rmult_le_pos; lra). lra.
Qed.
Lemma capacity st en (times : tstate spec_float -> nat) (sts sts' : list (tstate spec_float)) live cap B : 0 <= st < en -> en < 2 ^ 32 -> (0 <= cap)%R -> (B <= 2 * cap)%R -> (forall x b, times (with_bw x b) = times x) ->
  (forall i (x : tstate spec_float), In i live -> nth_error sts i = Some x -> state_ok en x /\ (vl (s_bw x) <= 128)%R /\ (times x <> O -> (vl (s_bw x) <= B)%R)) ->
  (forall i, In i live -> exists x, nth_error sts i = Some x) ->
  let D := vl (fold_left (f_add f32A) (reps st en times sts live) (f_zero f32A)) in
  (forall i (x : tstate spec_float), In i live -> nth_error sts i = Some x -> exists b : spec_float, nth_error sts' i = Some (with_bw x b) /\ (0 <= vl b <= vl (s_bw x))%R /\
     (times x <> O -> (cap < D)%R -> (vl b <= vl (s_bw x) * (cap / D * (1 + uu) + eta + vv) + bpow radix2 (-149))%R)) ->
  let n := uses times sts' live in
  (float_load st en times sts' live <= cap * ((1 + ww) ^ (n + 1) - vv * INR n) + INR n * bpow radix2 (-138))%R.
Proof.
  intros H1 H2 HC HBC HT HL HE D HV n. destruct units as (U0 & U1 & EV & E0 & E1 & E149 & E140).
  assert (E138 : bpow radix2 (-138) = (4096 * eta)%R) by (change 4096%R with (bpow radix2 12); rewrite <- bpow_plus; reflexivity).
  assert (En : uses times sts live = n).
  { subst n. assert (G : forall l, incl l live -> uses times sts l = uses times sts' l); [|apply G, incl_refl]. induction l as [|i l IH]; intros HI; [reflexivity|]. cbn [uses fold_right].
    fold (uses times sts l). fold (uses times sts' l). assert (Hi : In i live) by (apply HI; left; reflexivity). destruct (HE i Hi) as [x Hx]. destruct (HV i x Hi Hx) as (b & Hx' & _). rewrite Hx, Hx', HT. rewrite IH; [reflexivity|]. intros j Hj. apply HI. right. exact Hj. }
  set (rho := (cap / D * (1 + uu) + eta + vv)%R) in *.
  assert (P0 : forall l, incl l live -> let W := float_load st en times sts l in let m := INR (uses times sts l) in
    (float_load st en times sts' l <= W)%R /\ ((cap < D)%R -> (0 <= rho)%R -> (float_load st en times sts' l <= W * rho + m * (2 * eta))%R) /\
    (W <= (1 + 2 * vv) * rsum (reps st en times sts l) + m * (1024 * eta))%R /\ (W <= m * B)%R).
  { induction l as [|i l IH]; intros HI; cbn zeta.
    - cbn [float_load fold_right uses reps flat_map rsum INR]. split; [lra|]. split; [intros; lra|]. split; lra.
    - destruct IH as (I1 & I2 & I3 & I4); [intros j Hj; apply HI; right; exact Hj|]. cbn [float_load fold_right uses reps flat_map]. fold (float_load st en times sts' l). fold (float_load st en times sts l). fold (uses times sts l). fold (reps st en times sts l).
      assert (Hi : In i live) by (apply HI; left; reflexivity). destruct (HE i Hi) as [x Hx]. destruct (HV i x Hi Hx) as (b & Hx' & V1 & V2). destruct (HL i x Hi Hx) as (HS & HB & HB2). change (F f32A) with spec_float in *. rewrite Hx, Hx', HT.
      change (part st en (with_bw x b)) with (part st en x). change (real (s_bw (with_bw x b))) with (vl b). change (real (s_bw x)) with (vl (s_bw x)).
      destruct (demand_lo st en x H1 H2 HS HB) as [PA PD]. rewrite rsum_app, rsum_repeat, plus_INR. rewrite E140 in PD. rewrite E149 in V2.
      set (a := part st en x) in *. set (bw := vl (s_bw x)) in *. change (effective_demand f32A st en x) with (eff st en x) in *. set (e := vl (eff st en x)) in *. set (t := INR (times x)) in *.
      assert (Pt : (0 <= t)%R) by apply pos_INR. set (W := float_load st en times sts l) in *. set (W' := float_load st en times sts' l) in *. set (m := INR (uses times sts l)) in *. set (Rr := rsum (reps st en times sts l)) in *.
      change (vl (@s_bw (F f32A) x)) with bw in *.
      assert (T1 : (t * (a * vl b) <= t * (a * bw))%R) by (apply Rmult_le_compat_l; [assumption|]; apply Rmult_le_compat_l; lra).
      split; [lra|]. split; [|split].
      + intros HCD HR. specialize (I2 HCD HR). destruct (Nat.eq_dec (times x) 0) as [Z0|Z0]; [unfold t; rewrite Z0; cbn [INR]; lra|]. specialize (V2 Z0 HCD).
        assert (T2 : (t * (a * vl b) <= t * (a * (bw * rho + 2 * eta)))%R) by (apply Rmult_le_compat_l; [assumption|]; apply Rmult_le_compat_l; lra).
        assert (T3 : (t * (a * (2 * eta)) <= t * (1 * (2 * eta)))%R) by (apply Rmult_le_compat_l; [assumption|]; apply Rmult_le_compat_r; lra). lra.
      + assert (T2 : (t * (a * bw) <= t * ((1 + 2 * vv) * e + 1024 * eta))%R) by (apply Rmult_le_compat_l; assumption). lra.
      + destruct (Nat.eq_dec (times x) 0) as [Z0|Z0]; [unfold t; rewrite Z0; cbn [INR]; lra|]. specialize (HB2 Z0). assert (Pb : (0 <= bw)%R) by (apply (nnf_lt prec32 emax32 _ (proj1 (proj2 HS)))).
        assert (T2 : (t * (a * bw) <= t * (1 * B))%R) by (apply Rmult_le_compat_l; [assumption|]; apply Rmult_le_compat; lra). lra. }
  destruct (P0 live (incl_refl _)) as (Q1 & Q2 & Q3 & Q4). cbn zeta in Q1, Q2, Q3, Q4. rewrite En in Q2, Q3, Q4. clear P0.
  pose proof (reps_ok st en times sts live H1 H2 (fun i x A B => let '(conj h1 (conj h2 _)) := HL i x A B in conj h1 h2)) as RO. destruct (demand_sum _ RO) as [ND LD].
  pose proof (sum_lo (reps st en times sts live) (f_zero f32A) (nnf_zero prec32 emax32)) as SL. rewrite reps_length, En in SL. specialize (SL ltac:(eapply Forall_impl; [|exact RO]; intros y Hy; apply Hy) ND). change (vl (f_zero f32A)) with 0%R in SL. rewrite Rplus_0_l in SL. fold D in SL.
  pose proof (nnf_lt prec32 emax32 _ ND) as PD. fold D in PD. pose proof (growth n) as G. pose proof (pos_INR n) as Hn. set (N := INR n) in *. rewrite E138.
  set (W := float_load st en times sts live) in *. set (W' := float_load st en times sts' live) in *. set (Rr := rsum (reps st en times sts live)) in *.
  assert (Pp : (0 <= (1 + uu) ^ n)%R) by (apply pow_le; lra). assert (EP : ((1 + uu) ^ (n + 1) = (1 + uu) ^ n * (1 + uu))%R) by (rewrite pow_add, pow_1; reflexivity). set (p := ((1 + uu) ^ n)%R) in *. set (g := ((1 + ww) ^ (n + 1))%R) in *.
  rewrite EP in G. assert (G2 : (cap * ((1 + 2 * vv) * (p * (1 + uu)) + 4 * vv * N) <= cap * g)%R) by (apply Rmult_le_compat_l; assumption). subst rho. clear HV. rewrite EV in *. set (u := bpow radix2 (-24)) in *. set (et := bpow radix2 (-150)) in *.
  assert (NE : (0 <= N * et)%R) by (apply Rmult_le_pos; lra). assert (CN : (0 <= cap * (u * N))%R) by (apply Rmult_le_pos; [assumption|]; apply Rmult_le_pos; lra).
  assert (CP : (0 <= cap * p)%R) by (apply Rmult_le_pos; assumption). assert (CPU : (0 <= cap * p * u)%R) by (apply Rmult_le_pos; lra). assert (CPUU : (0 <= cap * p * u * u)%R) by (apply Rmult_le_pos; lra).
  destruct (Rle_or_lt D cap) as [HD|HD].
  - assert (T : (D * p <= cap * p)%R) by (apply Rmult_le_compat_r; assumption). assert (T2 : ((1 + 2 * (4 * u)) * Rr <= (1 + 2 * (4 * u)) * (cap * p))%R) by (apply Rmult_le_compat_l; lra). lra.
  - assert (DP : (0 < D)%R) by lra. assert (Cd : (0 <= cap / D)%R) by (apply Rmult_le_pos; [lra|left; apply Rinv_0_lt_compat; lra]). assert (Cd1 : (cap / D * D = cap)%R) by (unfold Rdiv; rewrite Rmult_assoc, Rinv_l by lra; lra).
    assert (Cd2 : (cap / D <= 1)%R) by (apply Rmult_le_reg_r with D; [assumption|]; rewrite Cd1; lra).
    assert (HR : (0 <= cap / D * (1 + u))%R) by (apply Rmult_le_pos; lra). specialize (Q2 HD ltac:(lra)). set (k := (cap / D)%R) in *. clear HR.
    assert (T1 : (W <= (1 + 2 * (4 * u)) * (D * p) + N * (1024 * et))%R) by (assert ((1 + 2 * (4 * u)) * Rr <= (1 + 2 * (4 * u)) * (D * p))%R by (apply Rmult_le_compat_l; lra); lra).
    assert (T2 : (W * (k * (1 + u)) <= ((1 + 2 * (4 * u)) * (D * p) + N * (1024 * et)) * (k * (1 + u)))%R) by (apply Rmult_le_compat_r; [apply Rmult_le_pos; lra|assumption]).
    assert (T3 : ((1 + 2 * (4 * u)) * (D * p) * (k * (1 + u)) = cap * ((1 + 2 * (4 * u)) * (p * (1 + u))))%R) by (rewrite <- Cd1; ring).
    assert (T4 : (N * (1024 * et) * (k * (1 + u)) <= N * (1024 * et) * 2)%R).
    { apply Rmult_le_compat_l; [lra|]. assert (k * (1 + u) <= 1 * (1 + u))%R by (apply Rmult_le_compat_r; lra). lra. }
    assert (T5 : (W * (et + 4 * u) <= N * (2 * cap) * (5 * u))%R).
    { assert (Eu : (et <= u)%R) by (apply Rle_trans with (1 := E1); assert (u * u <= u * 1)%R by (apply Rmult_le_compat_l; lra); lra).
      apply Rle_trans with (N * (2 * cap) * (et + 4 * u))%R; [apply Rmult_le_compat_r; [lra|]; apply Rle_trans with (1 := Q4); apply Rmult_le_compat_l; assumption|]. apply Rmult_le_compat_l; [apply Rmult_le_pos; lra|lra]. }
    lra.
Qed.
Lemma sub_repeat {X} (x : X) a b : (a <= b)%nat -> sub (repeat x a) (repeat x b).
Proof. revert b. induction a as [|a IH]; intros b H; cbn [repeat]; [constructor|]. destruct b as [|b]; [lia|]. cbn [repeat]. apply sub_keep. apply IH. lia. Qed.
Lemma reps_sub st en times mult (sts : list (tstate spec_float)) live : (forall i x, In i live -> nth_error sts i = Some x -> (times x <= mult x)%nat) ->
  sub (reps st en times sts live) (reps st en mult sts live).
Proof.
  intros H. unfold reps. induction live as [|i live IH]; cbn [flat_map]; [constructor|]. apply sub_app; [|apply IH; intros j x Hj; apply H; right; exact Hj].
  destruct (nth_error sts i) as [x|] eqn:Hx; [|constructor]. apply sub_repeat, (H i); [left; reflexivity|exact Hx].
Qed.
Lemma amounts_reps st en (f : tstate spec_float -> list Z) (sts : list (tstate spec_float)) live id : 0 <= id ->
  amounts f32A (ops_of f32A st en f sts live) (Z.to_nat id) = reps st en (fun x => count_occ Z.eq_dec (f x) id) sts live.
Proof.
  intros Hid. unfold ops_of, reps. change (F f32A) with spec_float. induction live as [|i live IH]; cbn [flat_map]; [reflexivity|]. rewrite amounts_app. change (F f32A) with spec_float in *. rewrite IH. f_equal.
  destruct (nth_error sts i) as [x|]; [|reflexivity]. fold (eff st en x). unfold amounts. rewrite Z2Nat.id by assumption. generalize (f x) as ids. clear. intros ids. change (F f32A) with spec_float.
  induction ids as [|k ids IH]; cbn [map filter count_occ fst repeat]; [reflexivity|]. destruct (Z.eqb_spec k id) as [E|E]; destruct (Z.eq_dec k id) as [E'|E']; try contradiction; [|exact IH]. cbn [map snd repeat]. rewrite <- IH. reflexivity.
Qed.
(* an entry of a grid is the float sum of the demands *)
Lemma entry_sum {X} (t : list X) st en (f : tstate spec_float -> list Z) (sts : list (tstate spec_float)) live g id : bumped f32A (ops_of f32A st en f sts live) (map (fun _ => f_zero f32A) t) g ->
  forall i x, In i live -> nth_error sts i = Some x -> In id (f x) ->
  grid_get g id = Ok (fold_left (f_add f32A) (reps st en (fun x => count_occ Z.eq_dec (f x) id) sts live) (f_zero f32A)).
Proof.
  intros (L & HF & H) i x Hi Hx Hid. rewrite Forall_forall in HF. specialize (HF (id, effective_demand f32A st en x)). cbn [fst] in HF. change (F f32A) with spec_float in *.
  assert (HB : 0 <= id < Z.of_nat (List.length (map (fun _ => f_zero f32A) t))).
  { apply HF. unfold ops_of. apply in_flat_map. exists i. split; [assumption|]. change (F f32A) with spec_float in *. rewrite Hx. apply in_map_iff. exists id. auto. }
  rewrite <- amounts_reps by lia. unfold grid_get. destruct (Z.ltb_spec id 0); [lia|]. unfold vec_get. change (F f32A) with spec_float in *.
  rewrite (H (Z.to_nat id) (f_zero f32A)); [reflexivity|]. rewrite map_length in HB. rewrite nth_error_map. destruct (nth_error t (Z.to_nat id)) eqn:E; [reflexivity|]. apply nth_error_None in E. lia.
Qed.

(** * The capacities *)
Ltac const := match goal with |- context [vl ?x] => let y := eval vm_compute in x in change x with y end; unfold vl, SF2R, F2R; cbn; lra.
Lemma capacities d : exists M, (vl (max_noc_bandwidth f32A d) <= M)%R /\ (M * (1 + / 100) <= 2 * vl (link_bandwidth f32A d))%R /\ (1 <= vl (link_bandwidth f32A d))%R /\
  forall ty, (M * (1 + / 100) <= 2 * vl (abs_rate f32A d ty))%R /\ (1 <= vl (abs_rate f32A d ty))%R.
Proof.
  unfold max_noc_bandwidth, tbt, link_bandwidth, abs_rate. destruct (dv_class d); [exists 31%R|exists 31%R|exists 61%R].
  all: split; [const|]; split; [const|]; split; [const|]; intros []; split; const.
Qed.
Lemma setup d st en sts live g0 sts' g : timestep_window st en -> sound_live en sts live -> computeCurrentTransferRate f32A d st en sts live g0 true = Ok (sts', g) ->
  exists sts1 : list (tstate spec_float), bumped f32A (ops_of f32A st en (nius f32A d) sts1 live) (map (fun _ => f_zero f32A) (niu_table d)) (g_niu g) /\
    bumped f32A (ops_of f32A st en s_route sts1 live) (map (fun _ => f_zero f32A) (link_table d)) (g_link g) /\
    grid_ok (g_niu g) /\ grid_ok (g_link g) /\
    (forall i, In i live -> exists (x : tstate spec_float) ids, nth_error sts1 i = Some x /\ niu_ids f32A d (s_tr x) = Ok ids) /\
    (forall i (x : tstate spec_float), In i live -> nth_error sts1 i = Some x -> state_ok en x /\ (vl (s_bw x) <= 128)%R /\ (vl (s_bw x) <= 2 * vl (link_bandwidth f32A d))%R /\ (forall ty, (vl (s_bw x) <= 2 * vl (abs_rate f32A d ty))%R)) /\
    (forall i (x : tstate spec_float), In i live -> nth_error sts1 i = Some x -> exists b : spec_float, nth_error sts' i = Some (with_bw x b) /\ new_bw f32A d g x = Ok b).
Proof.
  intros [HW1 HW2] HL H. pose proof HL as [ND HS]. unfold computeCurrentTransferRate in H. apply bind_ok in H as (sts1 & H1 & H). cbn match in H.
  pose proof (started_live _ _ _ _ _ HL H1) as HL1. apply congestion_spec in H as (HD & _ & _ & HI); [|assumption]. pose proof (grids_ok d st en sts1 live g HW1 HW2 HL1 HD) as [G1 G2]. apply demand_spec in HD as (B1 & B2 & HN). cbn [zero_grids g_niu g_link] in B1, B2.
  exists sts1. split; [exact B1|]. split; [exact B2|]. split; [exact G1|]. split; [exact G2|]. split; [exact HN|]. split.
  - intros i x Hi Hx. split; [exact (HL1 i x Hi Hx)|]. apply update_spec in H1 as (_ & _ & HU). destruct (HU i Hi) as (y & b & Hy & Hb & Hx1). change (F f32A) with spec_float in *. rewrite Hx in Hx1. injection Hx1 as ->.
    destruct (HS i y Hi Hy) as [HT _]. cbn [with_bw s_bw]. split; [apply (uncongested_limit d _ _ HT Hb)|].
    destruct (uncongested_ok d _ HT) as (b' & nb & E' & EI & _ & _ & _ & _ & EV). rewrite Hb in E'. injection E' as <-. destruct HT as (Hp & Hn & _). destruct (interpolate_ok d (t_psize (s_tr y)) (t_npkts (s_tr y))) as (nb' & EI' & _ & _ & L); [lia|lia|].
    rewrite EI in EI'. injection EI' as <-. destruct (capacities d) as (M & M1 & M2 & _ & M3). assert (B23 : (bpow radix2 (-23) <= / 100)%R) by (cbn; lra). pose proof (bpow_gt_0 radix2 (-23)) as P23.
    assert (T : (vl b <= M * (1 + / 100))%R).
    { rewrite EV. apply Rle_trans with (1 := Rmin_r _ _). apply Rle_trans with (1 := L). pose proof (Rle_trans _ _ _ (Rlt_le _ _ (proj1 (conj P23 I))) B23). assert (0 <= vl (max_noc_bandwidth f32A d))%R by (destruct (interpolate_ok d 1 1) as (z & _ & _ & Z1 & Z2); [lia|lia|]; nra).
      apply Rmult_le_compat; lra. }
    split; [lra|]. intros ty. destruct (M3 ty). lra.
  - intros i x Hi Hx. destruct (HI i Hi) as (y & b & Hy & Hb & Hy'). change (F f32A) with spec_float in *. pose proof (eq_trans (eq_sym Hx) Hy) as EE. injection EE as <-. eauto.
Qed.
Lemma absorb cap (n : nat) L : (1 <= cap)%R -> (L <= cap * ((1 + ww) ^ (n + 1) - vv * INR n) + INR n * bpow radix2 (-138))%R -> (L <= cap * (1 + ww) ^ (n + 1))%R.
Proof.
  intros HC H. assert (E : (bpow radix2 (-138) <= vv)%R) by (apply bpow_le; discriminate). pose proof (pos_INR n) as Hn. pose proof (bpow_gt_0 radix2 (-22)) as PV. assert (T : (INR n * bpow radix2 (-138) <= INR n * vv)%R) by (apply Rmult_le_compat_l; assumption).
  assert (T2 : (1 * (INR n * vv) <= cap * (INR n * vv))%R) by (apply Rmult_le_compat_r; [apply Rmult_le_pos; lra|assumption]). lra.
Qed.
(* the float sum of the demands that count is at most the entry of the grid *)
Lemma entry_ge st en times mult (sts : list (tstate spec_float)) live : 0 <= st < en -> en < 2 ^ 32 ->
  (forall i (x : tstate spec_float), In i live -> nth_error sts i = Some x -> state_ok en x /\ (vl (s_bw x) <= 128)%R) ->
  (forall i x, In i live -> nth_error sts i = Some x -> (times x <= mult x)%nat) ->
  let D := fold_left (f_add f32A) (reps st en times sts live) (f_zero f32A) in
  nf32 D /\ (vl D <= cl32 (fold_left (f_add f32A) (reps st en mult sts live) (f_zero f32A)))%R.
Proof.
  intros H1 H2 HL HT D. pose proof (reps_ok st en times sts live H1 H2 HL) as R1. pose proof (reps_ok st en mult sts live H1 H2 HL) as R2. destruct (demand_sum _ R1) as [N1 _]. split; [exact N1|]. fold D in N1.
  rewrite <- (nnf_cl prec32 emax32 D N1). apply sum_mono; [apply reps_sub; exact HT| |exact (nneg_zero _ _)|exact (nneg_zero _ _)|lra]. eapply Forall_impl; [|exact R2]. intros y Hy. apply Hy.
Qed.
Theorem links d st en sts live g0 sts' g : timestep_window st en -> sound_live en sts live -> computeCurrentTransferRate f32A d st en sts live g0 true = Ok (sts', g) ->
  forall l, (float_load st en (crosses l) sts' live <= vl (link_bandwidth f32A d) * (1 + ww) ^ (uses (crosses l) sts' live + 1))%R.
Proof.
  intros HW HL H l. destruct (setup _ _ _ _ _ _ _ _ HW HL H) as (sts1 & B1 & B2 & G1 & G2 & HN & HB & HI). destruct HW as [HW1 HW2]. destruct (link_bandwidth_ok d) as [Nl Pl]. destruct (capacities d) as (_ & _ & _ & C1 & _).
  apply absorb; [exact C1|]. apply (capacity st en (crosses l) sts1 sts' live _ (2 * vl (link_bandwidth f32A d))%R HW1 HW2); [lra|lra|reflexivity| | |].
  - intros i x Hi Hx. destruct (HB i x Hi Hx) as (S1 & S2 & S3 & _). auto.
  - intros i Hi. destruct (HN i Hi) as (x & _ & Hx & _). eauto.
  - intros i x Hi Hx. destruct (HI i x Hi Hx) as (b & Hx' & Hb). destruct (HB i x Hi Hx) as (S1 & S2 & _). exists b. split; [exact Hx'|].
    destruct (new_bw_ok d g x b Hb G1 G2 (proj1 S1) (proj1 (proj2 S1))) as [Nb Lb]. split; [split; [apply (nnf_lt prec32 emax32 _ Nb)|exact Lb]|]. intros HT HCD.
    assert (Hin : In l (s_route x)) by (apply (count_occ_In Z.eq_dec); unfold crosses in HT; lia). pose proof (entry_sum _ _ _ _ _ _ _ l B2 i x Hi Hx Hin) as ED.
    destruct (entry_ge st en (crosses l) (crosses l) sts1 live HW1 HW2) as [ND _]; [intros j y Hj Hy; destruct (HB j y Hj Hy) as (? & ? & _); auto|intros; lia|].
    change (fun x : tstate spec_float => count_occ Z.eq_dec (s_route x) l) with (@crosses spec_float l) in ED. set (D := fold_left (f_add f32A) (reps st en (crosses l) sts1 live) (f_zero f32A)) in *.
    destruct (new_bw_factors d g x b Hb G1 G2 (proj1 S1)) as (m & sid & sdem & K & Em & Es & Ed & EK & Nm & Nd & NK & NL & HS & ->).
    apply choose_hi; try assumption; [apply S1|destruct HS as [HS|(HS & _)]; auto|]. eapply Rle_trans; [apply Rmin_l|]. apply div_hi; try assumption. split; [lra|].
    pose proof (max_link_ok _ _ G2 _ _ (nneg_zero _ _) Em) as (_ & _ & HM & _). destruct (HM l Hin) as (y & Hy & Ny & Ly). change (F f32A) with spec_float in *. rewrite ED in Hy. injection Hy as <-. rewrite (nnf_cl prec32 emax32 _ ND) in Ly. exact Ly.
Qed.
Lemma same_core_eq a b : same_core a b = true -> a = b.
Proof. destruct a, b. unfold same_core. cbn. intros H. apply andb_true_iff in H as [H H3]. apply andb_true_iff in H as [H1 H2]. apply Z.eqb_eq in H1, H2, H3. congruence. Qed.
Lemma same_noc_eq a b : same_noc a b = true -> a = b.
Proof. destruct a, b; intros; try discriminate; reflexivity. Qed.
Theorem sources d st en sts live g0 sts' g : timestep_window st en -> sound_live en sts live -> computeCurrentTransferRate f32A d st en sts live g0 true = Ok (sts', g) ->
  forall c n rate, (0 <= rate)%R -> (forall i x, In i live -> nth_error sts' i = Some x -> leaves c n x = 1%nat -> (vl (t_rate (s_tr x)) <= rate)%R) ->
  (float_load st en (leaves c n) sts' live <= rate * (1 + ww) ^ (uses (leaves c n) sts' live + 1) + INR (uses (leaves c n) sts' live) * bpow radix2 (-138))%R.
Proof.
  intros HW HL H c n rate HR HRX. destruct (setup _ _ _ _ _ _ _ _ HW HL H) as (sts1 & B1 & B2 & G1 & G2 & HN & HB & HI). destruct HW as [HW1 HW2].
  assert (HRX1 : forall i x, In i live -> nth_error sts1 i = Some x -> leaves c n x <> 0%nat -> (vl (t_rate (s_tr x)) <= rate)%R).
  { intros i x Hi Hx HT. destruct (HI i x Hi Hx) as (b & Hx' & _). apply (HRX i _ Hi Hx'). unfold leaves in *. cbn [with_bw s_tr]. destruct (_ && _); [reflexivity|congruence]. }
  assert (ID : forall i x, In i live -> nth_error sts1 i = Some x -> leaves c n x <> 0%nat -> exists id, niu_of d c (src_niu_type n) = Ok id /\ niu_of d (t_src (s_tr x)) (src_niu_type (t_noc (s_tr x))) = Ok id /\ In id (nius f32A d x)).
  { intros i x Hi Hx HT. unfold leaves in HT. destruct (same_noc _ _ && same_core _ _) eqn:E; [|congruence]. apply andb_true_iff in E as [E1 E2]. apply same_noc_eq in E1. apply same_core_eq in E2.
    destruct (HN i Hi) as (y & ids & Hy & Hids). pose proof (eq_trans (eq_sym Hx) Hy) as EE. injection EE as <-. unfold nius. change (F f32A) with spec_float in *. rewrite Hids. unfold niu_ids in Hids. apply bind_ok in Hids as (a & Ha & Hids). apply bind_ok in Hids as (bs & _ & Hids). injection Hids as <-.
    exists a. split; [rewrite <- E1, <- E2; exact Ha|]. split; [exact Ha|left; reflexivity]. }
  set (k := uses (leaves c n) sts' live).
  assert (T : (float_load st en (leaves c n) sts' live <= rate * ((1 + ww) ^ (k + 1) - vv * INR k) + INR k * bpow radix2 (-138))%R).
  2:{ assert (0 <= rate * (vv * INR k))%R by (apply Rmult_le_pos; [assumption|]; apply Rmult_le_pos; [apply bpow_ge_0|apply pos_INR]). lra. }
  apply (capacity st en (leaves c n) sts1 sts' live rate rate HW1 HW2); [assumption|lra|reflexivity| | |].
  - intros i x Hi Hx. destruct (HB i x Hi Hx) as (S1 & S2 & _). split; [exact S1|]. split; [exact S2|]. intros HT. pose proof (HRX1 i x Hi Hx HT) as LR. destruct S1 as (_ & _ & S1 & _). exact (Rle_trans _ _ _ S1 LR).
  - intros i Hi. destruct (HN i Hi) as (x & _ & Hx & _). eauto.
  - intros i x Hi Hx. destruct (HI i x Hi Hx) as (b & Hx' & Hb). destruct (HB i x Hi Hx) as (S1 & S2 & _). exists b. split; [exact Hx'|].
    destruct (new_bw_ok d g x b Hb G1 G2 (proj1 S1) (proj1 (proj2 S1))) as [Nb Lb]. split; [split; [apply (nnf_lt prec32 emax32 _ Nb)|exact Lb]|]. intros HT HCD.
    destruct (ID i x Hi Hx HT) as (id & E1 & E2 & Hin). pose proof (entry_sum _ _ _ _ _ _ _ id B1 i x Hi Hx Hin) as ED.
    destruct (entry_ge st en (leaves c n) (fun x => count_occ Z.eq_dec (nius f32A d x) id) sts1 live HW1 HW2) as [ND LD]; [intros j y Hj Hy; destruct (HB j y Hj Hy) as (? & ? & _); auto| |].
    { intros j y Hj Hy. destruct (Nat.eq_dec (leaves c n y) 0) as [->|HT']; [lia|]. destruct (ID j y Hj Hy HT') as (id' & E1' & _ & E3'). assert (id' = id) by congruence. subst id'. apply (count_occ_In Z.eq_dec) in E3'. unfold leaves. destruct (_ && _); lia. }
    set (D := fold_left (f_add f32A) (reps st en (leaves c n) sts1 live) (f_zero f32A)) in *.
    pose proof (HRX1 i x Hi Hx HT) as LR. destruct S1 as (NR & NB & LB & S1). pose proof (nnf_lt prec32 emax32 _ NR) as PR. pose proof (nnf_lt prec32 emax32 _ NB) as PB.
    destruct (new_bw_factors d g x b Hb G1 G2 NR) as (m & sid & sdem & K & Em & Es & Ed & EK & Nm & Nd & NK & NL & HS & Eb).
    change (F f32A) with spec_float in *. destruct (Req_dec (vl (t_rate (s_tr x))) 0) as [R0|R0].
    { assert (Zb : vl (s_bw x) = 0%R) by lra. assert (Z2 : (vl b <= 0)%R) by (rewrite Zb in Lb; exact Lb). pose proof (bpow_gt_0 radix2 (-149)). rewrite Zb, Rmult_0_l. lra. }
    assert (PR' : (0 < vl (t_rate (s_tr x)))%R) by (destruct PR as [[PR|PR] _]; [exact PR|exfalso; apply R0; symmetry; exact PR]). rewrite Eb. destruct HS as [HS|(_ & HS & _)]; [|lra].
    apply choose_hi; try assumption; [left; assumption|]. rewrite not_nan by assumption. eapply Rle_trans; [apply Rmin_r|]. eapply Rle_trans; [apply Rmin_l|].
    change (F f32A) with spec_float in *. assert (sid = id) by congruence. subst sid. rewrite ED in Ed. injection Ed as <-.
    apply Rle_trans with (vl (t_rate (s_tr x)) / vl D * (1 + uu) + eta)%R; [apply div_hi; try assumption; split; [lra|exact LD]|].
    destruct units as (U0 & _). apply Rplus_le_compat_r. apply Rmult_le_compat_r; [lra|]. apply Rmult_le_compat_r; [left; apply Rinv_0_lt_compat; lra|exact LR].
Qed.
Theorem sinks d st en sts live g0 sts' g : timestep_window st en -> sound_live en sts live -> computeCurrentTransferRate f32A d st en sts live g0 true = Ok (sts', g) ->
  forall c n ty, getCoreType d c = Ok ty ->
  (float_load st en (enters c n) sts' live <= vl (abs_rate f32A d ty) * (1 + ww) ^ (uses (enters c n) sts' live + 1))%R.
Proof.
  intros HW HL H c n ty Hty. destruct (setup _ _ _ _ _ _ _ _ HW HL H) as (sts1 & B1 & B2 & G1 & G2 & HN & HB & HI). destruct HW as [HW1 HW2]. destruct (abs_rate_ok d ty) as [Na Pa]. destruct (capacities d) as (M & _ & _ & _ & C1). specialize (C1 ty).
  assert (ID : forall i x, In i live -> nth_error sts1 i = Some x -> enters c n x <> 0%nat -> exists id, niu_of d c (sink_niu_type n) = Ok id /\ t_dst (s_tr x) = Unicast c /\ t_noc (s_tr x) = n /\ In id (nius f32A d x)).
  { intros i x Hi Hx HT. unfold enters in HT. destruct (t_dst (s_tr x)) as [c'|m] eqn:Ed; [|congruence]. destruct (same_noc _ _ && same_core _ _) eqn:E; [|congruence]. apply andb_true_iff in E as [E1 E2]. apply same_noc_eq in E1. apply same_core_eq in E2. subst c'.
    destruct (HN i Hi) as (y & ids & Hy & Hids). pose proof (eq_trans (eq_sym Hx) Hy) as EE. injection EE as <-. unfold nius. change (F f32A) with spec_float in *. rewrite Hids. unfold niu_ids, sink_ids in Hids. change (F f32A) with spec_float in *. rewrite Ed in Hids.
    apply bind_ok in Hids as (a & Ha & Hids). apply bind_ok in Hids as (bs & Hbs & Hids). injection Hids as <-. apply bind_ok in Hbs as (b & Hb & Hbs). injection Hbs as <-.
    exists b. split; [rewrite <- E1; exact Hb|]. split; [reflexivity|]. split; [exact E1|]. right; left; reflexivity. }
  apply absorb; [apply C1|]. apply (capacity st en (enters c n) sts1 sts' live _ (2 * vl (abs_rate f32A d ty))%R HW1 HW2); [lra|lra|reflexivity| | |].
  - intros i x Hi Hx. destruct (HB i x Hi Hx) as (S1 & S2 & _ & S3). auto.
  - intros i Hi. destruct (HN i Hi) as (x & _ & Hx & _). eauto.
  - intros i x Hi Hx. destruct (HI i x Hi Hx) as (b & Hx' & Hb). destruct (HB i x Hi Hx) as (S1 & S2 & _). exists b. split; [exact Hx'|].
    destruct (new_bw_ok d g x b Hb G1 G2 (proj1 S1) (proj1 (proj2 S1))) as [Nb Lb]. split; [split; [apply (nnf_lt prec32 emax32 _ Nb)|exact Lb]|]. intros HT HCD.
    destruct (ID i x Hi Hx HT) as (id & E1 & E2 & En & Hin). pose proof (entry_sum _ _ _ _ _ _ _ id B1 i x Hi Hx Hin) as ED.
    destruct (entry_ge st en (enters c n) (fun x => count_occ Z.eq_dec (nius f32A d x) id) sts1 live HW1 HW2) as [ND LD]; [intros j y Hj Hy; destruct (HB j y Hj Hy) as (? & ? & _); auto| |].
    { intros j y Hj Hy. destruct (Nat.eq_dec (enters c n y) 0) as [->|HT']; [lia|]. destruct (ID j y Hj Hy HT') as (id' & E1' & _ & _ & E3'). assert (id' = id) by congruence. subst id'. apply (count_occ_In Z.eq_dec) in E3'. assert (U : (enters c n y <= 1)%nat) by (unfold enters; destruct (t_dst (s_tr y)); [destruct (_ && _)|]; lia). lia. }
    set (D := fold_left (f_add f32A) (reps st en (enters c n) sts1 live) (f_zero f32A)) in *.
    destruct (new_bw_factors d g x b Hb G1 G2 (proj1 S1)) as (m & sid & sdem & K & Em & Es & Ed & EK & Nm & Nd & NK & NL & HS & Eb).
    pose proof (proj2 (sink_derate_ok _ _ _ _ G1 EK)) as HK. change (F f32A) with spec_float in *. rewrite E2 in HK. destruct HK as (id2 & dem & ty2 & K1 & K2 & K3 & K4 & K5). rewrite En in K1. assert (id2 = id) by congruence. subst id2. assert (ty2 = ty) by congruence. subst ty2. rewrite ED in K2. injection K2 as <-.
    rewrite Eb. destruct HS as [HS|(Z1 & Z2 & Z3)].
    + apply choose_hi; try assumption; [apply S1|left; assumption|]. rewrite not_nan by assumption. eapply Rle_trans; [apply Rmin_r|]. eapply Rle_trans; [apply Rmin_r|]. rewrite K5. apply div_hi; try assumption. split; [lra|exact LD].
    + destruct S1 as (NR & NB & LB & S1). pose proof (nnf_lt prec32 emax32 _ NB) as PB. change (F f32A) with spec_float in *. assert (Zb : vl (s_bw x) = 0%R) by lra. pose proof (bpow_gt_0 radix2 (-149)). rewrite <- Eb. rewrite Zb, Rmult_0_l. change (F f32A) with spec_float in *. rewrite Zb in Lb. lra.
Qed.
