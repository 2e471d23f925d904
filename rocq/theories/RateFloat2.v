(* Float facts on congestion: rates stay between zero and the uncongested rate, and more demand never raises them. *)
From Coq Require Import ZArith Arith Reals Lra Lia Bool List String Floats.SpecFloat.
From Flocq Require Import Core IEEE754.BinarySingleNaN.
From Verif Require Import Base Arith Util Device Workload Rates TrackerProofs DepGenProofs FloatProofs FloatProofs2 RateFacts RateFloat.
Import ListNotations.
Local Open Scope list_scope.
Open Scope Z_scope.
Notation cl32 := (cl emax32).

(** * Constants *)
Lemma link_bandwidth_ok d : nf32 (link_bandwidth f32A d) /\ (0 < vl (link_bandwidth f32A d))%R.
Proof.
  assert (H : nnfb (link_bandwidth f32A d) = true /\ SFltb (S754_zero false) (link_bandwidth f32A d) = true).
  { unfold link_bandwidth. destruct (dv_class d); split; vm_compute; reflexivity. }
  destruct H as [H1 H2]. apply nnfb_ok in H1. split; [assumption|]. apply (ltb_vl prec32 emax32 _ _ (nnf_zero _ _) H1) in H2. exact H2.
Qed.
Lemma abs_rate_ok d t : nf32 (abs_rate f32A d t) /\ (0 < vl (abs_rate f32A d t))%R.
Proof.
  assert (H : nnfb (abs_rate f32A d t) = true /\ SFltb (S754_zero false) (abs_rate f32A d t) = true).
  { unfold abs_rate. destruct (dv_class d), t; split; vm_compute; reflexivity. }
  destruct H as [H1 H2]. apply nnfb_ok in H1. split; [assumption|]. apply (ltb_vl prec32 emax32 _ _ (nnf_zero _ _) H1) in H2. exact H2.
Qed.

(** * Minimum and maximum *)
Lemma fmin_ok a b : nn32 a -> nn32 b -> nn32 (f_min f32A a b) /\ cl32 (f_min f32A a b) = Rmin (cl32 a) (cl32 b).
Proof.
  intros Na Nb. unfold f_min. cbn [f_lt f32A]. destruct (SFltb b a) eqn:E.
  - apply (ltb_cl prec32 emax32) in E; [|assumption|assumption]. split; [assumption|]. rewrite Rmin_right; lra.
  - apply (ltb_cl_false prec32 emax32) in E; [|assumption|assumption]. split; [assumption|]. rewrite Rmin_left; lra.
Qed.
Lemma lt_nan_r a : SFltb a S754_nan = false.
Proof. destruct a as [[]|[]| |[] m e]; reflexivity. Qed.
Lemma lt_nan_l a : SFltb S754_nan a = false.
Proof. destruct a as [[]|[]| |[] m e]; reflexivity. Qed.

(** * Applying a factor below 1 *)
Lemma apply_ok d bw o : nf32 bw -> nn32 o -> (cl32 o < 1)%R -> nf32 (apply_derate f32A d bw o) /\ (vl (apply_derate f32A d bw o) <= vl bw)%R.
Proof.
  intros Nb No L. assert (T1 : (1 < bpow radix2 emax32)%R) by (change 1%R with (bpow radix2 0); apply bpow_lt; reflexivity).
  assert (Fo : nf32 o) by (apply nneg_fin; [assumption|lra]). rewrite (nnf_cl prec32 emax32) in L by assumption. pose proof (nnf_lt prec32 emax32 _ Fo) as Po.
  assert (G : nf32 (SFmul prec32 emax32 bw o) /\ (vl (SFmul prec32 emax32 bw o) <= vl bw)%R).
  { destruct (mul_le_r prec32 emax32 _ _ _ _ Nb Fo ltac:(lra)) as (H1 & H2 & _). auto. }
  unfold apply_derate. destruct (dv_class d); [|exact G|]; clear G.
  all: destruct one_ok as [N1 V1]; destruct d_one_ok as [N2 V2].
  all: cbn [f_of_d d_mul d_of_f d_sub f_mul f_sub f32A].
  all: destruct (sub_nn prec32 emax32 _ _ _ _ N1 Fo ltac:(lra)) as (Nr & Lr & _); rewrite V1 in Lr.
  all: change (f_one f32A) with (sf_ofZ prec32 emax32 1) in *; set (r := SFsub prec32 emax32 (sf_ofZ prec32 emax32 1) o) in *.
  all: destruct (mul_le_l prec32 emax32 _ _ _ _ N1 Nr ltac:(lra)) as (Nr1 & Lr1 & _); set (r1 := SFmul prec32 emax32 (sf_ofZ prec32 emax32 1) r) in *.
  all: destruct (conv_up _ Nr1) as [Nu Vu]; set (u := sf_conv prec64 emax64 r1) in *.
  all: destruct (sub_nn prec64 emax64 _ _ _ _ N2 Nu ltac:(lra)) as (Nw & Lw & _); rewrite V2 in Lw; set (w := SFsub prec64 emax64 (d_lit f32A 1 1) u) in *.
  all: destruct (conv_up _ Nb) as [Nc Vc]; destruct (mul_le_r prec64 emax64 _ _ _ _ Nc Nw ltac:(lra)) as (Nm & Lm & _).
  all: destruct (conv_down_le _ bw Nm Nb ltac:(lra)) as (H1 & H2 & _); split; assumption.
Qed.
Lemma apply_mono d bw o o' : nf32 bw -> nn32 o -> nn32 o' -> (cl32 o' <= cl32 o < 1)%R -> (vl (apply_derate f32A d bw o') <= vl (apply_derate f32A d bw o))%R.
Proof.
  intros Nb No No' [LL L]. assert (T1 : (1 < bpow radix2 emax32)%R) by (change 1%R with (bpow radix2 0); apply bpow_lt; reflexivity).
  destruct (apply_ok d bw o Nb No L) as [R1 _]. destruct (apply_ok d bw o' Nb No') as [R2 _]; [lra|].
  assert (Fo : nf32 o) by (apply nneg_fin; [assumption|lra]). assert (Fo' : nf32 o') by (apply nneg_fin; [assumption|lra]).
  rewrite !(nnf_cl prec32 emax32) in LL by assumption. rewrite (nnf_cl prec32 emax32) in L by assumption. pose proof (nnf_lt prec32 emax32 _ Fo) as Po. pose proof (nnf_lt prec32 emax32 _ Fo') as Po'. pose proof (nnf_lt prec32 emax32 _ Nb) as Pb.
  assert (G : (vl (SFmul prec32 emax32 bw o') <= vl (SFmul prec32 emax32 bw o))%R).
  { rewrite (proj2 (proj2 (mul_le_r prec32 emax32 _ _ _ _ Nb Fo ltac:(lra)))), (proj2 (proj2 (mul_le_r prec32 emax32 _ _ _ _ Nb Fo' ltac:(lra)))). apply rnd_le; [typeclasses eauto|nra]. }
  unfold apply_derate in *. destruct (dv_class d); [|exact G|]; clear G.
  all: rewrite <- !(nnf_cl prec32 emax32) by assumption; clear R1 R2.
  all: destruct one_ok as [N1 V1]; destruct d_one_ok as [N2 V2].
  all: cbn [f_of_d d_mul d_of_f d_sub f_mul f_sub f32A].
  all: destruct (sub_nn prec32 emax32 _ _ _ _ N1 Fo ltac:(lra)) as (Nr & Lr & Vr); destruct (sub_nn prec32 emax32 _ _ _ _ N1 Fo' ltac:(lra)) as (Nr' & Lr' & Vr'); rewrite V1 in Lr, Lr', Vr, Vr'.
  all: change (f_one f32A) with (sf_ofZ prec32 emax32 1) in *; set (r := SFsub prec32 emax32 (sf_ofZ prec32 emax32 1) o) in *; set (r' := SFsub prec32 emax32 (sf_ofZ prec32 emax32 1) o') in *.
  all: assert (C1 : (vl r <= vl r')%R) by (rewrite Vr, Vr'; apply rnd_le; [typeclasses eauto|lra]).
  all: destruct (mul_le_l prec32 emax32 _ _ _ _ N1 Nr ltac:(lra)) as (Nr1 & Lr1 & Vr1); destruct (mul_le_l prec32 emax32 _ _ _ _ N1 Nr' ltac:(lra)) as (Nr1' & Lr1' & Vr1').
  all: set (r1 := SFmul prec32 emax32 (sf_ofZ prec32 emax32 1) r) in *; set (r1' := SFmul prec32 emax32 (sf_ofZ prec32 emax32 1) r') in *.
  all: assert (C2 : (vl r1 <= vl r1')%R) by (rewrite Vr1, Vr1'; apply rnd_le; [typeclasses eauto|rewrite V1; lra]).
  all: destruct (conv_up _ Nr1) as [Nu Vu]; destruct (conv_up _ Nr1') as [Nu' Vu']; set (u := sf_conv prec64 emax64 r1) in *; set (u' := sf_conv prec64 emax64 r1') in *.
  all: destruct (sub_nn prec64 emax64 _ _ _ _ N2 Nu ltac:(lra)) as (Nw & Lw & Vw); destruct (sub_nn prec64 emax64 _ _ _ _ N2 Nu' ltac:(lra)) as (Nw' & Lw' & Vw'); rewrite V2 in Lw, Lw', Vw, Vw'.
  all: set (w := SFsub prec64 emax64 (d_lit f32A 1 1) u) in *; set (w' := SFsub prec64 emax64 (d_lit f32A 1 1) u') in *.
  all: assert (C3 : (vl w' <= vl w)%R) by (rewrite Vw, Vw'; apply rnd_le; [typeclasses eauto|lra]).
  all: destruct (conv_up _ Nb) as [Nc Vc]; destruct (mul_le_r prec64 emax64 _ _ _ _ Nc Nw ltac:(lra)) as (Nm & Lm & Vm); destruct (mul_le_r prec64 emax64 _ _ _ _ Nc Nw' ltac:(lra)) as (Nm' & Lm' & Vm').
  all: apply conv_down_mono; [assumption|assumption|]; rewrite Vm, Vm'; apply rnd_le; [typeclasses eauto|]; rewrite Vc; nra.
Qed.

(** * The decision of the congestion model *)
Definition choose (d : device) (bw L S K : spec_float) : spec_float :=
  if f_lt f32A L (f_one f32A) || f_lt f32A (f_min f32A S K) (f_one f32A) then apply_derate f32A d bw (f_min f32A L (f_min f32A S K)) else bw.
Lemma lt_one a : nn32 a -> (f_lt f32A a (f_one f32A) = true <-> (cl32 a < 1)%R).
Proof.
  intros N. destruct one_ok as [N1 V1]. cbn [f_lt f32A]. rewrite (ltb_cl prec32 emax32 a _ N (proj1 N1)).
  rewrite (nnf_cl prec32 emax32 _ N1). change (f_one f32A) with (f_one f32A) in V1. rewrite V1. reflexivity.
Qed.
(* the factor *)
Lemma choose_eq d bw L S K : nn32 L -> nn32 K -> nn32 S \/ S = S754_nan ->
  exists o, nn32 o /\ cl32 o = Rmin (cl32 L) (match S with S754_nan => cl32 L | _ => Rmin (cl32 S) (cl32 K) end) /\
    (((cl32 o < 1)%R /\ choose d bw L S K = apply_derate f32A d bw o) \/ ((1 <= cl32 o)%R /\ choose d bw L S K = bw)).
Proof.
  intros NL NK HS. unfold choose. destruct HS as [NS| ->].
  - destruct (fmin_ok S K NS NK) as [N1 E1]. destruct (fmin_ok L _ NL N1) as [N2 E2]. exists (f_min f32A L (f_min f32A S K)). split; [assumption|]. split.
    + rewrite E2, E1. destruct S; try reflexivity. destruct NS as [_ []].
    + pose proof (lt_one _ NL) as LL. pose proof (lt_one _ N1) as LN. rewrite E2. 
      destruct (f_lt f32A L (f_one f32A)) eqn:E.
      * left. cbn [orb]. split; [|reflexivity]. apply Rle_lt_trans with (cl32 L); [apply Rmin_l|tauto].
      * destruct (f_lt f32A (f_min f32A S K) (f_one f32A)) eqn:E'; cbn [orb].
        -- left. split; [|reflexivity]. apply Rle_lt_trans with (cl32 (f_min f32A S K)); [apply Rmin_r|tauto].
        -- right. split; [|reflexivity]. apply Rmin_glb; apply Rnot_lt_le; intros C; [apply LL in C|apply LN in C]; discriminate.
  - assert (E1 : f_min f32A S754_nan K = S754_nan) by (unfold f_min; cbn [f_lt f32A]; rewrite lt_nan_r; reflexivity).
    assert (E2 : f_min f32A L S754_nan = L) by (unfold f_min; cbn [f_lt f32A]; rewrite lt_nan_l; reflexivity). rewrite E1, E2.
    exists L. split; [assumption|]. split; [rewrite Rmin_left; lra|]. pose proof (lt_one _ NL) as LL.
    assert (E3 : f_lt f32A S754_nan (f_one f32A) = false) by (cbn [f_lt f32A]; apply lt_nan_l). rewrite E3, orb_false_r.
    destruct (f_lt f32A L (f_one f32A)); [left; split; [tauto|reflexivity]|right; split; [|reflexivity]]. apply Rnot_lt_le. intros C. apply LL in C. discriminate.
Qed.
Lemma choose_ok d bw L S K : nf32 bw -> nn32 L -> nn32 K -> nn32 S \/ S = S754_nan -> nf32 (choose d bw L S K) /\ (vl (choose d bw L S K) <= vl bw)%R.
Proof.
  intros Nb NL NK HS. destruct (choose_eq d bw L S K NL NK HS) as (o & No & _ & [[Lo ->]|[_ ->]]); [apply apply_ok; assumption|]. split; [assumption|lra].
Qed.
Lemma not_nan {X} S (a b : X) : nn32 S -> match S with S754_nan => a | _ => b end = b.
Proof. intros [_ N]. destruct S; [reflexivity|reflexivity|destruct N|reflexivity]. Qed.
Lemma choose_mono d bw L S K L' S' K' : nf32 bw -> nn32 L -> nn32 K -> nn32 S -> nn32 L' -> nn32 K' -> nn32 S' ->
  (cl32 L' <= cl32 L)%R -> (cl32 K' <= cl32 K)%R -> (cl32 S' <= cl32 S)%R -> (vl (choose d bw L' S' K') <= vl (choose d bw L S K))%R.
Proof.
  intros Nb NL NK NS NL' NK' NS' HL HK HS.
  destruct (choose_eq d bw L S K NL NK (or_introl NS)) as (o & No & Eo & C). destruct (choose_eq d bw L' S' K' NL' NK' (or_introl NS')) as (o' & No' & Eo' & C').
  assert (O : (cl32 o' <= cl32 o)%R).
  { rewrite Eo, Eo'. rewrite !not_nan by assumption.
    apply Rmin_glb; [eapply Rle_trans; [apply Rmin_l|assumption]|]. eapply Rle_trans; [apply Rmin_r|].
    apply Rmin_glb; [eapply Rle_trans; [apply Rmin_l|assumption]|eapply Rle_trans; [apply Rmin_r|assumption]]. }
  destruct C as [[C1 ->]|[C1 ->]], C' as [[C2 ->]|[C2 ->]].
  - apply apply_mono; [assumption|assumption|assumption|lra].
  - lra.
  - apply apply_ok; assumption.
  - lra.
Qed.
(* a transfer without bandwidth stays without *)
Lemma choose_zero d bw L S K : nf32 bw -> nn32 L -> nn32 K -> nn32 S \/ S = S754_nan -> vl bw = 0%R -> vl (choose d bw L S K) = 0%R.
Proof. intros Nb NL NK HS E. destruct (choose_ok d bw L S K Nb NL NK HS) as [N H]. pose proof (nnf_lt prec32 emax32 _ N). lra. Qed.
