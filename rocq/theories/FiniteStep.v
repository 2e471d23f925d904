(* The statistics of a timestep in floats: numbers, close to the exact averages (C43, C82). *)
From Coq Require Import ZArith Arith Reals Lra Lia Bool String List Floats.SpecFloat ZifyBool ZifyNat.
From Flocq Require Import Core IEEE754.BinarySingleNaN Relative.
From Verif Require Import Base Arith Util Device SpecDevice Workload SpecWorkload Rates Stats Engine UtilProofs TrackerProofs DeviceProofs FactoryProofs SpecEngine SpecRates SpecStats SpecSummary SpecFinite
  FloatProofs FloatProofs2 RateFloat RateFloat2 RateFloat4 StatsAvg StatsRat StatsFloat StatsRun MeanProofs ReportProofs FiniteProofs.
Import ListNotations.
Local Open Scope list_scope.
Open Scope Z_scope.
Ltac Zify.zify_post_hook ::= idtac.

(** * Formulas for the maxima *)
Section A.
  Context (A : arith).
  Definition dmaxl (l : list (D A)) (x : D A) : D A := fold_left (d_fmax A) l x.
  Lemma link_fold_max id m l : forall t, let t' := fold_left (link_acc A id m) l t in
    ts_max_ld A t' = dmaxl (map (dem A) (lsel A (link_on id) l)) (ts_max_ld A t) /\
    ts_max_ld0 A t' = dmaxl (map (dem A) (lsel A (on0 id) l)) (ts_max_ld0 A t) /\
    ts_max_ld1 A t' = dmaxl (map (dem A) (lsel A (on1 id) l)) (ts_max_ld1 A t) /\
    ts_max_nd A t' = ts_max_nd A t /\ ts_link A t' = ts_link A t /\ ts_niu A t' = ts_niu A t.
  Proof.
    induction l as [|[a [x y]] l IH]; intros t; [cbn; auto 10|]. cbn [fold_left]. cbv zeta in *. specialize (IH (link_acc A id m t (a, (x, y)))).
    destruct IH as (I1 & I2 & I3 & I4 & I5 & I6). rewrite I1, I2, I3, I4, I5, I6.
    unfold lsel. cbn [filter fst]. unfold on0, on1. change (link_on id a) with (on_device id (l_coord a)). change (on_noc0 a) with (noc0_link (l_type a)). cbn [link_acc].
    destruct (on_device id (l_coord a)), (noc0_link (l_type a)); cbn [andb negb]; auto 10.
  Qed.
  Lemma niu_fold_max id l : forall t, let t' := fold_left (niu_acc A id) l t in
    ts_max_nd A t' = dmaxl (map (fun x => d_of_f A (snd x)) (filter (fun x => niu_on id (fst x)) l)) (ts_max_nd A t) /\
    ts_max_ld A t' = ts_max_ld A t /\ ts_max_ld0 A t' = ts_max_ld0 A t /\ ts_max_ld1 A t' = ts_max_ld1 A t /\ ts_link A t' = ts_link A t /\ ts_niu A t' = ts_niu A t.
  Proof.
    induction l as [|[a x] l IH]; intros t; [cbn; auto 10|]. cbn [fold_left]. cbv zeta in *. specialize (IH (niu_acc A id t (a, x))).
    destruct IH as (I1 & I2 & I3 & I4 & I5 & I6). rewrite I1, I2, I3, I4, I5, I6. cbn [filter fst].
    change (niu_on id a) with (on_device id (n_coord a)). cbn [niu_acc]. destruct (on_device id (n_coord a)); auto 10.
  Qed.
  Lemma timestep_maxima d g live id s e : let t := device_timestep A d g live id (fresh_ts A s e) in
    let m := link_bandwidth A d in
    ts_max_ld A t = d_mul A (dmaxl (map (dem A) (lsel A (link_on id) (lrows A d g))) (dz A)) (pct A m) /\
    ts_max_ld0 A t = d_mul A (dmaxl (map (dem A) (lsel A (on0 id) (lrows A d g))) (dz A)) (pct A m) /\
    ts_max_ld1 A t = d_mul A (dmaxl (map (dem A) (lsel A (on1 id) (lrows A d g))) (dz A)) (pct A m) /\
    ts_max_nd A t = d_mul A (dmaxl (map (fun x => d_of_f A (snd x)) (filter (fun x => niu_on id (fst x)) (combine (niu_table d) (g_niu g)))) (dz A)) (pct A m) /\
    ts_link A t = (if id =? MESH_DEVICE then g_link g else []) /\ ts_niu A t = (if id =? MESH_DEVICE then g_niu g else []).
  Proof.
    cbv zeta. unfold device_timestep. cbn [ts_max_ld ts_max_ld0 ts_max_ld1 ts_max_nd ts_link ts_niu]. fold (lrows A d g).
    set (t0 := fold_left (link_acc A id (link_bandwidth A d)) (lrows A d g) (fresh_ts A s e)).
    match goal with |- context [fold_left (niu_acc A id) ?l ?t] => set (t1 := t); destruct (niu_fold_max id l t1) as (N1 & N2 & N3 & N4 & N5 & N6) end.
    rewrite N1, N2, N3, N4, N5, N6. unfold t1. cbn [ts_max_ld ts_max_ld0 ts_max_ld1 ts_max_nd ts_link ts_niu].
    destruct (link_fold_max id (link_bandwidth A d) (lrows A d g) (fresh_ts A s e)) as (I1 & I2 & I3 & I4 & I5 & I6). fold t0 in I1, I2, I3, I4, I5, I6.
    rewrite I1, I2, I3, I4, I5, I6. cbn [fresh_ts ts_link ts_niu]. auto 10.
  Qed.
End A.
Lemma fmax_float l : Forall nf64 l -> forall a, nf64 a -> let m := dmaxl f32A l a in In m (a :: l) /\ forall x, In x (a :: l) -> (vl x <= vl m)%R.
Proof.
  intros HF a NA. assert (E : dmaxl f32A l a = fold_left (d_max f32A) l a).
  { unfold dmaxl. revert a NA. induction HF as [|x l NX NL IH]; intros a NA; [reflexivity|]. cbn [fold_left].
    assert (EM : d_fmax f32A a x = d_max f32A a x).
    { unfold d_fmax, d_max. destruct NA as [[_ S] Fa], NX as [[_ S'] Fx]. cbn [d_nan f32A sf_isnan]. destruct a; try discriminate Fa; destruct x; try discriminate Fx; reflexivity. }
    assert (NM : nf64 (d_max f32A a x)) by (unfold d_max; destruct (d_lt f32A a x); assumption).
    rewrite <- EM in NM. rewrite (IH _ NM). rewrite EM. reflexivity. }
  cbv zeta. rewrite E. apply max_float; assumption.
Qed.

(** * Percentages *)
(* r is 100 / (m * n), up to 2^-23 *)
Definition recip (m : spec_float) (n : Z) (r : spec_float) : bool :=
  match m, r with
  | S754_finite false mm e, S754_finite false mp ep =>
      (0 <=? - (e + ep)) && (Z.abs (Zpos mp * Zpos mm * n - 100 * 2 ^ (- (e + ep))) * 2 ^ 23 <=? 100 * 2 ^ (- (e + ep))) && SpecFloat.valid_binary prec64 emax64 r
  | _, _ => false
  end.
Lemma recip_ok m n r : recip m n r = true -> 0 < n -> (0 < vl m)%R -> nf64 r /\ (100 * (1 - bpow radix2 (-23)) <= vl r * (vl m * IZR n) <= 100 * (1 + bpow radix2 (-23)))%R.
Proof.
  unfold recip. destruct m as [| | |[] mm e]; try discriminate. destruct r as [| | |[] mp ep]; try discriminate. rewrite !andb_true_iff. intros [[H1 H2] H3] Hn _.
  split; [split; [split; [exact H3|reflexivity]|reflexivity]|]. set (k := - (e + ep)) in *. apply Z.leb_le in H1, H2.
  assert (EV : (vl (S754_finite false mp ep) * (vl (S754_finite false mm e) * IZR n) * IZR (2 ^ k) = IZR (Zpos mp * Zpos mm * n))%R).
  { unfold vl, SF2R, F2R. cbn [Fnum Fexp cond_Zopp]. change (2 ^ k) with (Zpower radix2 k). rewrite (IZR_Zpower radix2) by exact H1. rewrite !mult_IZR.
    replace (IZR (Z.pos mp) * bpow radix2 ep * (IZR (Z.pos mm) * bpow radix2 e * IZR n) * bpow radix2 k)%R with (IZR (Z.pos mp) * IZR (Z.pos mm) * IZR n * (bpow radix2 ep * bpow radix2 e * bpow radix2 k))%R by ring.
    rewrite <- !bpow_plus. replace (ep + e + k) with 0 by (unfold k; lia). cbn [bpow]. ring. }
  set (x := (vl (S754_finite false mp ep) * (vl (S754_finite false mm e) * IZR n))%R) in *. set (z := Zpos mp * Zpos mm * n) in *.
  assert (P : (0 < IZR (2 ^ k))%R) by (apply IZR_lt; apply Z.pow_pos_nonneg; lia). set (w := 2 ^ k) in *. clearbody z w x. change (2 ^ 23) with 8388608 in H2.
  assert (Q1 : (z - 100 * w) * 8388608 <= 100 * w) by lia. assert (Q2 : -100 * w <= (z - 100 * w) * 8388608) by lia.
  apply IZR_le in Q1, Q2. rewrite ?opp_IZR, ?mult_IZR, ?minus_IZR, ?mult_IZR in Q1, Q2. rewrite <- EV in Q1, Q2. change (bpow radix2 (-23)) with (/ 8388608)%R.
  split; apply Rmult_le_reg_r with (IZR w); try exact P; lra.
Qed.
Definition u22 : R := bpow radix2 (-22).
(* an average: the sum of at most 2^15 values *)
Lemma average_field l m n r : Forall (fun y => nf64 y /\ (vl y <= bpow radix2 32)%R) l -> Z.of_nat (List.length l) <= 2 ^ 16 -> recip m n r = true -> 0 < n -> (1 <= vl m)%R ->
  let x := d_mul f32A (dsum f32A l (dz f32A)) r in
  nf64 x /\ (vl x <= bpow radix2 60)%R /\ (Rabs (vl x - 100 * rsum (map vl l) / (vl m * IZR n)) <= 100 * rsum (map vl l) / (vl m * IZR n) * u22 + bpow radix2 (-1074))%R.
Proof.
  intros HF HL HR Hn Hm x. destruct (recip_ok m n r HR Hn ltac:(lra)) as [NR [RL RU]]. change (2 ^ 16) with 65536 in HL.
  destruct (sum_rel l) as (NS & _ & SL & SU).
  { eapply Forall_impl; [|exact HF]. intros y [Ny Ly]. split; [exact Ny|]. apply Rle_trans with (1 := Ly). apply bpow_le. discriminate. }
  { change (2 ^ 50) with 1125899906842624. lia. }
  set (k := Z.of_nat (List.length l)) in *. set (t := rsum (map vl l)) in *. set (s := dsum f32A l (dz f32A)) in *.
  assert (T : (0 <= t <= IZR k * bpow radix2 32)%R).
  { unfold t, k. clear - HF. induction HF as [|y l [Ny Ly] HF IH]; [cbn; lra|]. cbn [map rsum fold_right List.length]. fold (rsum (map vl l)). rewrite Nat2Z.inj_succ. unfold Z.succ. rewrite plus_IZR. pose proof (vl_nneg prec64 emax64 y (proj1 Ny)). lra. }
  assert (KB : (0 <= IZR k <= 65536)%R) by (split; apply IZR_le; unfold k in *; lia). change (bpow radix2 32) with 4294967296%R in T.
  assert (N1 : (1 <= IZR n)%R) by (apply IZR_le; lia). set (w := (vl m * IZR n)%R) in *. assert (W : (1 <= w)%R) by (unfold w; rewrite <- (Rmult_1_l 1); apply Rmult_le_compat; lra).
  set (q := (100 * t / w)%R). assert (EQ : (100 * t = q * w)%R) by (unfold q; field; lra).
  assert (Q0 : (0 <= q)%R) by (unfold q; apply Rmult_le_pos; [lra|left; apply Rinv_0_lt_compat; lra]).
  assert (TB : (t <= 65536 * 4294967296)%R) by (apply Rle_trans with (1 := proj2 T); apply Rmult_le_compat_r; lra).
  assert (QB : (q <= 100 * (65536 * 4294967296))%R). { apply Rmult_le_reg_r with w; [lra|]. rewrite <- EQ. apply Rle_trans with (100 * (65536 * 4294967296) * 1)%R; [lra|]. apply Rmult_le_compat_l; lra. }
  (* s * r = q up to the errors of both *)
  assert (R0 : (0 <= vl r)%R) by (apply (vl_nneg prec64 emax64), NR). rewrite uu_val in SL, SU. change (bpow radix2 (-23)) with (/ 8388608)%R in RL, RU.
  assert (SL' : (t * (1 - / 137438953472) <= vl s)%R) by (apply Rle_trans with (2 := SL); apply Rmult_le_compat_l; lra).
  assert (SU' : (vl s <= t * (1 + 2 * / 137438953472))%R) by (apply Rle_trans with (1 := SU); apply Rmult_le_compat_l; lra).
  set (p := (vl s * vl r)%R).
  assert (PL : (q * (1 - / 8388608) * (1 - / 137438953472) <= p)%R).
  { apply Rmult_le_reg_r with w; [lra|]. replace (q * (1 - / 8388608) * (1 - / 137438953472) * w)%R with (q * w * ((1 - / 8388608) * (1 - / 137438953472)))%R by ring. rewrite <- EQ. unfold p.
    replace (vl s * vl r * w)%R with (vl s * (vl r * w))%R by ring. apply Rle_trans with (t * (1 - / 137438953472) * (100 * (1 - / 8388608)))%R; [lra|]. apply Rmult_le_compat; try lra; apply Rmult_le_pos; lra. }
  assert (PU : (p <= q * (1 + / 8388608) * (1 + 2 * / 137438953472))%R).
  { apply Rmult_le_reg_r with w; [lra|]. replace (q * (1 + / 8388608) * (1 + 2 * / 137438953472) * w)%R with (q * w * ((1 + / 8388608) * (1 + 2 * / 137438953472)))%R by ring. rewrite <- EQ. unfold p.
    replace (vl s * vl r * w)%R with (vl s * (vl r * w))%R by ring. apply Rle_trans with (t * (1 + 2 * / 137438953472) * (100 * (1 + / 8388608)))%R; [|lra]. assert (0 <= vl s)%R by (apply (vl_nneg prec64 emax64), NS). apply Rmult_le_compat; try lra; apply Rmult_le_pos; lra. }
  destruct (mul_nneg prec64 emax64 eq_refl eq_refl s r NS NR) as [NX CX]. fold p in CX.
  destruct (error_N_FLT radix2 (SpecFloat.emin prec64 emax64) prec64 eq_refl (fun x => negb (Z.even x)) p) as (eps & eta & HE & HA & _ & EP).
  change (rd64 p = (p * (1 + eps) + eta)%R) in EP. change (/ 2 * bpow radix2 (- prec64 + 1))%R with (/ 2 * / 4503599627370496)%R in HE. change (SpecFloat.emin prec64 emax64) with (-1074) in HA.
  apply Rabs_le_inv in HE, HA. pose proof (bpow_gt_0 radix2 (-1074)) as P74. assert (B74 : (bpow radix2 (-1074) <= 1)%R) by (change 1%R with (bpow radix2 0); apply bpow_le; discriminate).
  assert (P0 : (0 <= p)%R) by (apply Rmult_le_pos; [apply (vl_nneg prec64 emax64), NS|exact R0]).
  assert (PB : (p <= 2 * q)%R) by nra.
  assert (RB : (rd64 p <= bpow radix2 60)%R) by (rewrite EP; change (bpow radix2 60) with 1152921504606846976%R; nra).
  change (d_mul f32A s r) with (SFmul prec64 emax64 s r) in x.
  rewrite Rmin_left in CX by (apply Rle_trans with (1 := RB); apply bpow_le; discriminate).
  assert (NF : nf64 (SFmul prec64 emax64 s r)). { apply (nneg_fin prec64 emax64); [exact NX|]. rewrite CX. apply Rle_lt_trans with (1 := RB). apply bpow_lt. reflexivity. }
  rewrite (nnf_cl prec64 emax64) in CX by exact NF. unfold x. split; [exact NF|]. rewrite CX. split; [exact RB|]. fold q. rewrite EP. unfold u22. change (bpow radix2 (-22)) with (/ 4194304)%R. apply Rabs_le.
  assert (PE : (- (p * / 9007199254740992) <= p * eps <= p * / 9007199254740992)%R) by (split; nra). lra.
Qed.
Lemma maximum_field l m r : Forall (fun y => nf64 y /\ (vl y <= bpow radix2 32)%R) l -> recip m 1 r = true -> (1 <= vl m)%R ->
  let x := d_mul f32A (dmaxl f32A l (dz f32A)) r in
  nf64 x /\ (vl x <= bpow radix2 60)%R /\ exists y, rgreatest (map vl l) y /\ (Rabs (vl x - 100 * y / vl m) <= 100 * y / vl m * u22 + bpow radix2 (-1074))%R.
Proof.
  intros HF HR Hm x. assert (NZ : nf64 (dz f32A)) by exact (nnf_zero prec64 emax64).
  destruct (fmax_float l ltac:(eapply Forall_impl; [|exact HF]; intros y Hy; apply Hy) (dz f32A) NZ) as [HI HU]. set (y := dmaxl f32A l (dz f32A)) in *.
  assert (HY : nf64 y /\ (vl y <= bpow radix2 32)%R).
  { destruct HI as [<-|HI]; [split; [exact NZ|]; change (vl (dz f32A)) with 0%R; apply bpow_ge_0|]. rewrite Forall_forall in HF. exact (HF _ HI). }
  destruct (average_field [y] m 1 r) as (N & B & E); [constructor; [exact HY|constructor]|discriminate|exact HR|reflexivity|exact Hm|].
  assert (ES : dsum f32A [y] (dz f32A) = y).
  { unfold dsum. cbn [fold_left]. change (d_add f32A (dz f32A) y) with (SFadd prec64 emax64 (S754_zero false) y). destruct HY as [[[_ S] Fi] _]. destruct y as [b|b| |b mm e]; try discriminate Fi; cbn [SFadd]; [rewrite S; reflexivity|reflexivity]. }
  rewrite ES in N, B, E. fold x in N, B, E. split; [exact N|]. split; [exact B|]. exists (vl y). cbn [map rsum fold_right] in E. rewrite Rplus_0_r, Rmult_1_r in E. split; [|exact E].
  split; [destruct HI as [<-|HI]; [left; reflexivity|right; apply in_map; exact HI]|]. intros z Hz. apply in_map_iff in Hz as (v & <- & Hv). apply HU. right. exact Hv.
Qed.

(** * The devices *)
Definition chk_recip (d : device) : bool :=
  let m := link_bandwidth f32A d in
  SFleb (f_one f32A) m && recip m 1 (pct f32A m) &&
  forallb (fun n => recip m n (pct_over f32A m n)) (flat_map (fun p => [Z.of_nat p * 4; Z.of_nat p * 2]) [dv_chips d * (dv_rows d * dv_cols d); dv_rows d * dv_cols d]%nat).
Lemma documented_recip : forallb (fun x => chk_recip (snd x)) documented_devices = true.
Proof. vm_compute. reflexivity. Qed.
Lemma made_recip d : made d -> let m := link_bandwidth f32A d in (1 <= vl m)%R /\ recip m 1 (pct f32A m) = true /\
  forall id n, n = Z.of_nat (per d id) * 4 \/ n = Z.of_nat (per d id) * 2 -> recip m n (pct_over f32A m n) = true.
Proof.
  intros HM m. destruct (made_in d HM) as (name & HI). pose proof documented_recip as HC. rewrite forallb_forall in HC. specialize (HC _ HI). cbn [snd] in HC. unfold chk_recip in HC. cbv zeta in HC. fold m in HC.
  rewrite !andb_true_iff in HC. destruct HC as ((H1 & H2) & H3). split; [|split; [exact H2|]].
  - destruct one_ok as [N1 V1]. destruct (link_bandwidth_ok d) as [NM _]. fold m in NM. apply (proj1 (le_vl _ _ N1 NM)) in H1. rewrite V1 in H1. exact H1.
  - intros id n Hn. rewrite forallb_forall in H3. apply H3. apply in_flat_map. exists (per d id). split; [unfold per; destruct (id =? MESH_DEVICE); [left|right; left]; reflexivity|]. destruct Hn as [->| ->]; cbn [In]; auto.
Qed.

Lemma up_limited x : limited x -> nf64 (d_of_f f32A x) /\ (vl (d_of_f f32A x) <= bpow radix2 32)%R.
Proof. intros H. apply limited_nf in H as [N L]. destruct (conv_up x N) as [N' V']. split; [exact N'|]. exact (Rle_trans _ _ _ (Req_le _ _ V') L). Qed.
Lemma up_real x : limited x -> vl (d_of_f f32A x) = real x.
Proof. intros H. apply limited_nf in H as [N L]. exact (proj2 (conv_up x N)). Qed.
Lemma min_limited m x : nf32 m -> limited x -> limited (f_fmin f32A x m) /\ real (f_fmin f32A x m) = Rmin (real m) (real x).
Proof.
  intros NM H. apply limited_nf in H as [N L]. destruct (ffmin_ok x m N NM) as [NR VR]. change (real (f_fmin f32A x m)) with (vl (f_fmin f32A x m)). rewrite VR. split; [|apply Rmin_comm].
  apply limited_nf. split; [exact NR|]. rewrite VR. apply Rle_trans with (1 := Rmin_l _ _). exact L.
Qed.
Lemma map_forall {X Y} (P : X -> Prop) (f g : X -> Y) l : Forall P l -> (forall x, P x -> f x = g x) -> map f l = map g l.
Proof. intros H E. induction H as [|x l H1 H2 IH]; [reflexivity|]. cbn [map]. rewrite (E x H1), IH. reflexivity. Qed.
Lemma select_forall {X V} (P : V -> Prop) (p : X -> bool) t l : Forall P l -> Forall P (select p t l).
Proof.
  intros H. apply Forall_forall. intros x Hx. unfold select in Hx. apply in_map_iff in Hx as ([a v] & <- & Hx). apply filter_In in Hx as [Hx _]. apply in_combine_r in Hx. rewrite Forall_forall in H. exact (H _ Hx).
Qed.
Definition dem64 (x : spec_float) : Prop := nf64 x /\ (vl x <= bpow radix2 60)%R.
Definition averages64 (t : tstats f32A) : Prop :=
  dem64 (ts_avg_ld f32A t) /\ dem64 (ts_max_ld f32A t) /\ dem64 (ts_avg_nd f32A t) /\ dem64 (ts_max_nd f32A t) /\ dem64 (ts_avg_ld0 f32A t) /\ dem64 (ts_max_ld0 f32A t) /\
  dem64 (ts_avg_ld1 f32A t) /\ dem64 (ts_max_ld1 f32A t) /\ dem64 (ts_avg_lu f32A t) /\ dem64 (ts_avg_lu0 f32A t) /\ dem64 (ts_avg_lu1 f32A t) /\ dem64 (ts_avg_mc f32A t).
Lemma about_ok x r : nf64 x -> (Rabs (vl x - r) <= r * u22 + bpow radix2 (-1074))%R -> about x r.
Proof. intros N E. split; [apply MeanProofs.number_nf; exact N|exact E]. Qed.

Lemma niu_rows A id (t : list niu_attr) (g : list (F A)) : map (fun x => d_of_f A (snd x)) (filter (fun x => niu_on id (fst x)) (combine t g)) = map (d_of_f A) (select (niu_on id) t g).
Proof. unfold select. rewrite map_map. reflexivity. Qed.

Section D.
  Context (d : device) (HM : made d) (g : grids spec_float) (HG : limited_grids d g) (live : list nat) (id : Z) (HI : has_stats d id) (s e : Z).
  Let t := device_timestep f32A d g live id (fresh_ts f32A s e).
  Let m := link_bandwidth f32A d.
  Let bw := real m.
  Let links p := select p (link_table d) (g_link g).
  Let mcs p := select p (link_table d) (g_mc g).
  Let nius := select (niu_on id) (niu_table d) (g_niu g).
  Lemma row_floats p : map (dem f32A) (lsel f32A p (lrows f32A d g)) = map (d_of_f f32A) (links p) /\
    map (utl f32A m) (lsel f32A p (lrows f32A d g)) = map (d_of_f f32A) (map (fun x => f_fmin f32A x m) (links p)) /\
    map (mct f32A m) (lsel f32A p (lrows f32A d g)) = map (d_of_f f32A) (map (fun x => f_fmin f32A x m) (mcs p)).
  Proof.
    destruct HG as (_ & _ & _ & L1 & L2 & _). assert (LL : List.length (g_link g) = List.length (g_mc g)) by congruence.
    destruct (sel_fst p (link_table d) (g_link g) (g_mc g) LL) as [E1 E2]. unfold links, mcs. rewrite <- E1, <- E2, !map_map. split; [reflexivity|]. split; reflexivity.
  Qed.
  Lemma limited_links p : Forall limited (links p). Proof. apply select_forall. apply HG. Qed.
  Lemma limited_mcs p : Forall limited (mcs p). Proof. apply select_forall. apply HG. Qed.
  Lemma limited_nius : Forall limited nius. Proof. apply select_forall. apply HG. Qed.
  Lemma capped l : Forall limited l -> Forall limited (map (fun x => f_fmin f32A x m) l) /\ map real (map (fun x => f_fmin f32A x m) l) = map (Rmin bw) (map real l).
  Proof.
    intros H. destruct (link_bandwidth_ok d) as [NM _]. fold m in NM. split.
    - apply Forall_map. eapply Forall_impl; [|exact H]. intros x Hx. exact (proj1 (min_limited m x NM Hx)).
    - rewrite !map_map. apply (map_forall limited); [exact H|]. intros x Hx. exact (proj2 (min_limited m x NM Hx)).
  Qed.
  Lemma ups l : Forall limited l -> Forall (fun y => nf64 y /\ (vl y <= bpow radix2 32)%R) (map (d_of_f f32A) l) /\ map vl (map (d_of_f f32A) l) = map real l.
  Proof.
    intros H. split; [apply Forall_map; eapply Forall_impl; [|exact H]; exact up_limited|]. rewrite map_map. apply (map_forall limited); [exact H|exact up_real].
  Qed.
  Lemma avg_ok l n k : Forall limited l -> List.length l = Z.to_nat n -> 0 < n <= 2 ^ 16 -> 0 < k -> recip m (n * k) (pct_over f32A m (n * k)) = true -> (1 <= vl m)%R ->
    let x := d_mul f32A (dsum f32A (map (d_of_f f32A) l) (dz f32A)) (pct_over f32A m (n * k)) in dem64 x /\ about x (rpercent bw (map real l) / IZR k).
  Proof.
    intros HL EL Hn Hk HR Hm x. destruct (ups l HL) as [HU EU]. pose proof (eq_trans (map_length (d_of_f f32A) l) EL) as EL1. pose proof (eq_trans (map_length real l) EL) as EL2.
    assert (LE : Z.of_nat (Z.to_nat n) <= 2 ^ 16) by lia. pose proof (eq_ind_r (fun j => Z.of_nat j <= 2 ^ 16) LE EL1) as LE1.
    destruct (average_field (map (d_of_f f32A) l) m (n * k) _ HU LE1 HR ltac:(nia) Hm) as (N & B & E). fold x in N, B, E. split; [split; assumption|].
    apply about_ok; [exact N|]. replace (rpercent bw (map real l) / IZR k)%R with (100 * rsum (map vl (map (d_of_f f32A) l)) / (vl m * IZR (n * k)))%R; [exact E|].
    rewrite EU. unfold rpercent. rewrite EL2, Z2Nat.id by lia. rewrite mult_IZR. change bw with (vl m). field.
    repeat match goal with |- _ /\ _ => split end; first [lra|apply not_0_IZR; lia].
  Qed.
  Lemma max_ok l : Forall limited l -> recip m 1 (pct f32A m) = true -> (1 <= vl m)%R ->
    let x := d_mul f32A (dmaxl f32A (map (d_of_f f32A) l) (dz f32A)) (pct f32A m) in dem64 x /\ exists y, rgreatest (map real l) y /\ about x (100 * y / bw).
  Proof.
    intros HL HR Hm x. destruct (ups l HL) as [HU EU]. destruct (maximum_field (map (d_of_f f32A) l) m _ HU HR Hm) as (N & B & y & HY & E). fold x in N, B, E. split; [split; assumption|].
    exists y. rewrite EU in HY. split; [exact HY|]. apply about_ok; [exact N|exact E].
  Qed.
  Theorem float_timestep :
    averages64 t /\
    about (ts_avg_ld f32A t) (rpercent bw (map real (links (link_on id)))) /\
    about (ts_avg_lu f32A t) (rpercent bw (map (Rmin bw) (map real (links (link_on id))))) /\
    about (ts_avg_mc f32A t) (rpercent bw (map (Rmin bw) (map real (mcs (link_on id))))) /\
    about (ts_avg_ld0 f32A t) (rpercent bw (map real (links (fun a => link_on id a && on_noc0 a)))) /\
    about (ts_avg_lu0 f32A t) (rpercent bw (map (Rmin bw) (map real (links (fun a => link_on id a && on_noc0 a))))) /\
    about (ts_avg_ld1 f32A t) (rpercent bw (map real (links (fun a => link_on id a && negb (on_noc0 a))))) /\
    about (ts_avg_lu1 f32A t) (rpercent bw (map (Rmin bw) (map real (links (fun a => link_on id a && negb (on_noc0 a)))))) /\
    about (ts_avg_nd f32A t) (rpercent bw (map real nius) / (if id =? MESH_DEVICE then 1 else IZR (Z.of_nat (dv_chips d)))) /\
    (exists y, rgreatest (map real (links (link_on id))) y /\ about (ts_max_ld f32A t) (100 * y / bw)) /\
    (exists y, rgreatest (map real (links (fun a => link_on id a && on_noc0 a))) y /\ about (ts_max_ld0 f32A t) (100 * y / bw)) /\
    (exists y, rgreatest (map real (links (fun a => link_on id a && negb (on_noc0 a)))) y /\ about (ts_max_ld1 f32A t) (100 * y / bw)) /\
    (exists y, rgreatest (map real nius) y /\ about (ts_max_nd f32A t) (100 * y / bw)).
  Proof.
    destruct (timestep_fields f32A d g live id s e) as (F1 & F2 & F3 & F4 & F5 & F6 & F7 & F8). destruct (timestep_maxima f32A d g live id s e) as (M1 & M2 & M3 & M4 & _).
    fold t m in F1, F2, F3, F4, F5, F6, F7, F8, M1, M2, M3, M4. destruct (made_recip d HM) as (Hm & HR1 & HRn). fold m in Hm, HR1, HRn.
    pose proof (made_wf d HM) as WF. destruct (count_links d (wf_small d WF) id HI) as (K1 & K2 & K3 & K4). pose proof HG as (_ & _ & _ & L1 & L2 & L3).
    assert (SZ : gsize f32A d g id = Z.of_nat (per d id) * 4) by (unfold gsize; apply size_eq; [apply WF|exact L1]).
    assert (H2 : Z.of_nat (per d id) * 4 / 2 = Z.of_nat (per d id) * 2) by (replace (Z.of_nat (per d id) * 4) with (Z.of_nat (per d id) * 2 * 2) by lia; apply Z.div_mul; discriminate).
    rewrite SZ in F1, F2, F3, F4, F5, F6, F7. rewrite H2 in F3, F4, F5, F6.
    assert (PB : 0 < Z.of_nat (per d id) /\ Z.of_nat (per d id) * 4 <= 2 ^ 15).
    { destruct WF as (W1 & W2 & W3 & W4 & _). unfold per. destruct (id =? MESH_DEVICE); nia. }
    change (2 ^ 15) with 32768 in PB. change (2 ^ 16) with 65536 in *.
    pose proof (select_length (link_on id) (link_table d) (g_link g) L1) as S1. pose proof (select_length (on0 id) (link_table d) (g_link g) L1) as S2. pose proof (select_length (on1 id) (link_table d) (g_link g) L1) as S3.
    pose proof (select_length (link_on id) (link_table d) (g_mc g) L2) as S4. pose proof (select_length (niu_on id) (niu_table d) (g_niu g) L3) as S5.
    rewrite K1 in S1, S4. rewrite K2 in S2. rewrite K3 in S3. rewrite K4 in S5.
    destruct (row_floats (link_on id)) as (R1 & R2 & R3). destruct (row_floats (on0 id)) as (R4 & R5 & _). destruct (row_floats (on1 id)) as (R6 & R7 & _).
    rewrite R1 in F1, M1. rewrite R2 in F2. rewrite R3 in F7. rewrite R4 in F3, M2. rewrite R5 in F4. rewrite R6 in F5, M3. rewrite R7 in F6.
    assert (D1 : forall r : R, (r / 1 = r)%R) by (intros r; unfold Rdiv; rewrite Rinv_1, Rmult_1_r; reflexivity).
    assert (G1 : forall l n, Forall limited l -> List.length l = Z.to_nat n -> 0 < n <= 65536 -> recip m n (pct_over f32A m n) = true ->
      dem64 (d_mul f32A (dsum f32A (map (d_of_f f32A) l) (dz f32A)) (pct_over f32A m n)) /\ about (d_mul f32A (dsum f32A (map (d_of_f f32A) l) (dz f32A)) (pct_over f32A m n)) (rpercent bw (map real l))).
    { intros l n HL EL Hn HR. pose proof (avg_ok l n 1 HL EL Hn ltac:(lia)) as Q. rewrite Z.mul_1_r in Q. destruct (Q HR Hm) as [Q1 Q2]. rewrite D1 in Q2. split; assumption. }
    assert (G2 : forall l n, Forall limited l -> List.length l = Z.to_nat n -> 0 < n <= 65536 -> recip m n (pct_over f32A m n) = true ->
      dem64 (d_mul f32A (dsum f32A (map (d_of_f f32A) (map (fun x => f_fmin f32A x m) l)) (dz f32A)) (pct_over f32A m n)) /\
      about (d_mul f32A (dsum f32A (map (d_of_f f32A) (map (fun x => f_fmin f32A x m) l)) (dz f32A)) (pct_over f32A m n)) (rpercent bw (map (Rmin bw) (map real l)))).
    { intros l n HL EL Hn HR. destruct (capped l HL) as [C1 C2]. rewrite <- C2. apply G1; [exact C1|rewrite map_length; exact EL|exact Hn|exact HR]. }
    set (P := Z.of_nat (per d id)) in *.
    assert (N4 : (per d id * 4)%nat = Z.to_nat (P * 4)) by (unfold P; lia). assert (N2 : (per d id * 2)%nat = Z.to_nat (P * 2)) by (unfold P; lia).
    assert (B4 : 0 < P * 4 <= 65536) by lia. assert (B2 : 0 < P * 2 <= 65536) by lia.
    pose proof (HRn id _ (or_introl eq_refl)) as A4. pose proof (HRn id _ (or_intror eq_refl)) as A2.
    destruct (G1 (links (link_on id)) _ (limited_links _) (eq_trans S1 N4) B4 A4) as [X1 Y1]. rewrite <- F1 in X1, Y1.
    destruct (G2 (links (link_on id)) _ (limited_links _) (eq_trans S1 N4) B4 A4) as [X2 Y2]. rewrite <- F2 in X2, Y2.
    destruct (G2 (mcs (link_on id)) _ (limited_mcs _) (eq_trans S4 N4) B4 A4) as [X7 Y7]. rewrite <- F7 in X7, Y7.
    destruct (G1 (links (on0 id)) _ (limited_links _) (eq_trans S2 N2) B2 A2) as [X3 Y3]. rewrite <- F3 in X3, Y3.
    destruct (G2 (links (on0 id)) _ (limited_links _) (eq_trans S2 N2) B2 A2) as [X4 Y4]. rewrite <- F4 in X4, Y4.
    destruct (G1 (links (on1 id)) _ (limited_links _) (eq_trans S3 N2) B2 A2) as [X5 Y5]. rewrite <- F5 in X5, Y5.
    destruct (G2 (links (on1 id)) _ (limited_links _) (eq_trans S3 N2) B2 A2) as [X6 Y6]. rewrite <- F6 in X6, Y6.
    rewrite (niu_rows f32A) in F8, M4.
    assert (NL : Z.of_nat (List.length (g_niu g)) = Z.of_nat (per d id) * 4 * (if id =? MESH_DEVICE then 1 else Z.of_nat (dv_chips d)) /\ recip m (Z.of_nat (List.length (g_niu g))) (pct_over f32A m (Z.of_nat (List.length (g_niu g)))) = true).
    { assert (EN : Z.of_nat (List.length (g_niu g)) = Z.of_nat (per d MESH_DEVICE) * 4) by (rewrite L3, niu_table_length; unfold per; cbn [Z.eqb]; change (MESH_DEVICE =? MESH_DEVICE) with true; cbv iota; lia).
      split; [|rewrite EN; exact (HRn MESH_DEVICE _ (or_introl eq_refl))]. rewrite EN. unfold per. change (MESH_DEVICE =? MESH_DEVICE) with true. cbv iota. destruct (id =? MESH_DEVICE); lia. }
    destruct NL as [NL1 NL2]. fold P in NL1. pose proof (eq_trans F8 (f_equal (fun z => d_mul f32A (dsum f32A (map (d_of_f f32A) nius) (dz f32A)) (pct_over f32A m z)) NL1)) as F9. rewrite NL1 in NL2.
    assert (CH : 0 < (if id =? MESH_DEVICE then 1 else Z.of_nat (dv_chips d))) by (destruct WF as (W1 & _); destruct (id =? MESH_DEVICE); lia).
    destruct (avg_ok nius _ _ limited_nius (eq_trans S5 N4) B4 CH NL2 Hm) as [X8 Y8]. rewrite <- F9 in X8, Y8.
    destruct (max_ok (links (link_on id)) (limited_links _) HR1 Hm) as [Z1 V1]. rewrite <- M1 in Z1, V1.
    destruct (max_ok (links (on0 id)) (limited_links _) HR1 Hm) as [Z2 V2]. rewrite <- M2 in Z2, V2.
    destruct (max_ok (links (on1 id)) (limited_links _) HR1 Hm) as [Z3 V3]. rewrite <- M3 in Z3, V3.
    destruct (max_ok nius limited_nius HR1 Hm) as [Z4' V4'].
    pose proof (eq_ind_r (fun z => dem64 z) Z4' M4) as Z4. pose proof (eq_ind_r (fun z => exists y, rgreatest (map real nius) y /\ about z (100 * y / bw)) V4' M4) as V4.
    split; [unfold averages64; auto 15|]. change (fun a => link_on id a && on_noc0 a) with (on0 id). change (fun a => link_on id a && negb (on_noc0 a)) with (on1 id).
    replace (if id =? MESH_DEVICE then 1%R else IZR (Z.of_nat (dv_chips d))) with (IZR (if id =? MESH_DEVICE then 1 else Z.of_nat (dv_chips d))) by (destruct (id =? MESH_DEVICE); reflexivity).
    repeat match goal with |- _ /\ _ => split end; assumption.
  Qed.
End D.
