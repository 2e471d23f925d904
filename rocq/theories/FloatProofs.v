(* Facts on the IEEE instance of the arithmetic, through Flocq: SpecFloat operations on non-negative
   numbers are the rounded real operations, cut off at infinity. *)
From Coq Require Import ZArith Reals Lra Lia Bool Floats.SpecFloat.
From Flocq Require Import Core IEEE754.BinarySingleNaN.
From Verif Require Import Base Arith.
Open Scope Z_scope.

Section Fmt.
Variables prec emax : Z.
Context (Hprec : FLX.Prec_gt_0 prec).
Context (Hmax : Prec_lt_emax prec emax).

Notation fexp := (SpecFloat.fexp prec emax).
Notation rnd := (round radix2 fexp ZnearestE).
Definition vl (x : spec_float) : R := SF2R radix2 x.
Definition valid (x : spec_float) : Prop := SpecFloat.valid_binary prec emax x = true.

(* not NaN and with sign bit 0 *)
Definition nneg (x : spec_float) : Prop :=
  valid x /\ match x with
             | S754_zero s | S754_infinity s | S754_finite s _ _ => s = false
             | S754_nan => False
             end.
Definition fin (x : spec_float) : Prop := is_finite_SF x = true.
Definition nnf (x : spec_float) : Prop := nneg x /\ fin x.

(* the value, infinity being 2^emax *)
Definition cl (x : spec_float) : R :=
  match x with S754_infinity false => bpow radix2 emax | _ => vl x end.

Lemma round_nearest_even_eq s m l : round_nearest_even m l = choice_mode mode_NE s m l.
Proof.
  case l; [reflexivity | intro c]. case c; [| reflexivity..].
  now simpl; unfold Round.cond_incr; case Z.even.
Qed.
Lemma binary_round_aux_eq sx mx ex lx :
  SpecFloat.binary_round_aux prec emax sx mx ex lx = binary_round_aux prec emax mode_NE sx mx ex lx.
Proof.
  unfold SpecFloat.binary_round_aux, binary_round_aux.
  set (mrse' := shr_fexp _ _ _). case mrse'; intros mrs' e'; simpl.
  now rewrite (round_nearest_even_eq sx).
Qed.
Lemma binary_round_eq s m e :
  SpecFloat.binary_round prec emax s m e = binary_round prec emax mode_NE s m e.
Proof.
  unfold SpecFloat.binary_round, binary_round, shl_align_fexp.
  set (mez := shl_align _ _ _); case mez as [mz ez]. apply binary_round_aux_eq.
Qed.
Lemma normalize_eq m e sz :
  SpecFloat.binary_normalize prec emax m e sz
  = B2SF (BinarySingleNaN.binary_normalize prec emax Hprec Hmax mode_NE m e sz).
Proof.
  case m as [ | p | p].
  - now simpl.
  - simpl; rewrite B2SF_SF2B; apply binary_round_eq.
  - simpl; rewrite B2SF_SF2B; apply binary_round_eq.
Qed.
Lemma mul_eq (x y : binary_float prec emax) :
  SFmul prec emax (B2SF x) (B2SF y) = B2SF (Bmult mode_NE x y).
Proof.
  case x as [sx|sx| |sx mx ex Bx]; case y as [sy|sy| |sy my ey By]; [now trivial.. | ].
  simpl. rewrite B2SF_SF2B. apply binary_round_aux_eq.
Qed.
Lemma add_eq (x y : binary_float prec emax) :
  SFadd prec emax (B2SF x) (B2SF y) = B2SF (Bplus mode_NE x y).
Proof.
  case x as [sx|sx| |sx mx ex Bx]; case y as [sy|sy| |sy my ey By];
    [now (trivial || simpl; case Bool.eqb).. | ].
  apply normalize_eq.
Qed.
Lemma sub_eq (x y : binary_float prec emax) :
  SFsub prec emax (B2SF x) (B2SF y) = B2SF (Bminus mode_NE x y).
Proof.
  case x as [sx|sx| |sx mx ex Bx]; case y as [sy|sy| |sy my ey By];
    [now (trivial || simpl; case Bool.eqb).. | ].
  simpl. unfold Zminus. rewrite <- cond_Zopp_negb. apply normalize_eq.
Qed.
Lemma div_eq (x y : binary_float prec emax) :
  SFdiv prec emax (B2SF x) (B2SF y) = B2SF (Bdiv mode_NE x y).
Proof.
  case x as [sx|sx| |sx mx ex Bx]; case y as [sy|sy| |sy my ey By];
    [now (trivial || simpl; case Bool.eqb).. | ].
  simpl. rewrite B2SF_SF2B. set (melz := SFdiv_core_binary _ _ _ _ _ _).
  case melz as [[mz ez] lz]. apply binary_round_aux_eq.
Qed.

(* pass to Flocq's dependent type *)
Lemma to_B x : valid x -> exists b : binary_float prec emax, x = B2SF b.
Proof. intros H. exists (SF2B x H). now rewrite B2SF_SF2B. Qed.
Lemma valid_B (b : binary_float prec emax) : valid (B2SF b).
Proof. apply valid_binary_B2SF. Qed.

Lemma vl_B (b : binary_float prec emax) : vl (B2SF b) = B2R b.
Proof. apply SF2R_B2SF. Qed.

Lemma emax_pos : (0 < bpow radix2 emax)%R.
Proof. apply bpow_gt_0. Qed.

Lemma cl_fin x : fin x -> cl x = vl x.
Proof. destruct x as [|[]| |]; try reflexivity; discriminate. Qed.

Lemma fin_lt x : valid x -> fin x -> (Rabs (vl x) < bpow radix2 emax)%R.
Proof.
  intros V _. destruct (to_B x V) as [b ->]. rewrite vl_B. apply abs_B2R_lt_emax.
Qed.

Lemma vl_nneg x : nneg x -> (0 <= vl x)%R.
Proof.
  intros [V H]. destruct x as [s|s| |s m e]; cbn; try lra; subst s.
  apply F2R_ge_0. simpl. lia.
Qed.
Lemma cl_nneg x : nneg x -> (0 <= cl x <= bpow radix2 emax)%R.
Proof.
  intros N. pose proof (vl_nneg _ N) as V. pose proof emax_pos as E. destruct N as [W H].
  destruct x as [s|[]| |s m e]; try (exfalso; exact H); try discriminate; cbn in *; try lra.
  split; [exact V|]. pose proof (fin_lt _ W eq_refl) as L. unfold vl in L. cbn in L. apply Rabs_def2 in L. lra.
Qed.
Lemma cl_inj_fin x : nneg x -> ((cl x < bpow radix2 emax)%R <-> fin x).
Proof.
  intros N. destruct N as [W H]. destruct x as [s|[]| |s m e]; try (exfalso; exact H); try discriminate.
  - split; [reflexivity|]. cbn. intros _. apply emax_pos.
  - split; [|discriminate]. cbn. lra.
  - split; [reflexivity|]. intros _. pose proof (fin_lt _ W eq_refl) as L. apply Rabs_def2 in L. cbn in *. lra.
Qed.

Lemma ltb_cl x y : nneg x -> nneg y -> (SFltb x y = true <-> (cl x < cl y)%R).
Proof.
  intros Nx Ny.
  destruct (is_finite_SF x) eqn:Fx; destruct (is_finite_SF y) eqn:Fy.
  - rewrite !cl_fin by assumption. destruct Nx as [Vx _], Ny as [Vy _].
    destruct (to_B x Vx) as [bx ->]. destruct (to_B y Vy) as [by_ ->].
    rewrite !vl_B. rewrite is_finite_SF_B2SF in Fx, Fy.
    change (SFltb (B2SF bx) (B2SF by_)) with (Bltb bx by_). rewrite Bltb_correct by assumption.
    case Rlt_bool_spec; intros; split; intros; try lra; discriminate.
  - assert (cl x < bpow radix2 emax)%R by (apply cl_inj_fin; assumption).
    destruct Nx as [Vx Hx], Ny as [Vy Hy].
    destruct y as [s|[]| |s m e]; try discriminate; try (exfalso; exact Hy). cbn [cl]. split; [auto|].
    intros _. destruct x as [s|[]| |s m e]; try discriminate; reflexivity.
  - assert (cl y < bpow radix2 emax)%R by (apply cl_inj_fin; assumption).
    destruct Nx as [Vx Hx], Ny as [Vy Hy].
    destruct x as [s|[]| |s m e]; try discriminate; try (exfalso; exact Hx). cbn [cl]. split; [|lra].
    destruct y as [s|[]| |s m e]; try discriminate; try (exfalso; exact Hy).
  - destruct Nx as [Vx Hx], Ny as [Vy Hy].
    destruct x as [s|[]| |s m e]; try discriminate; try (exfalso; exact Hx).
    destruct y as [s|[]| |s m e]; try discriminate; try (exfalso; exact Hy). cbn. split; [discriminate|lra].
Qed.
Lemma ltb_cl_false x y : nneg x -> nneg y -> (SFltb x y = false <-> (cl y <= cl x)%R).
Proof.
  intros Nx Ny. pose proof (ltb_cl x y Nx Ny) as H. destruct (SFltb x y).
  - split; [discriminate|]. intros. assert (cl x < cl y)%R by (apply H; reflexivity). lra.
  - split; [|reflexivity]. intros _. apply Rnot_lt_le. intros L. apply H in L. discriminate.
Qed.

Lemma rnd_ge_0 r : (0 <= r)%R -> (0 <= rnd r)%R.
Proof.
  intros. replace 0%R with (rnd 0) by (apply round_0; typeclasses eauto).
  apply round_le; [apply fexp_correct; exact Hprec | typeclasses eauto | assumption].
Qed.
Lemma rnd_le a b : (a <= b)%R -> (rnd a <= rnd b)%R.
Proof. intros. apply round_le; [apply fexp_correct; exact Hprec | typeclasses eauto | assumption]. Qed.
Lemma rnd_vl x : valid x -> fin x -> rnd (vl x) = vl x.
Proof.
  intros V F. destruct (to_B x V) as [b ->]. rewrite vl_B. apply round_generic; [typeclasses eauto|].
  apply generic_format_B2R.
Qed.

(* from a Flocq-style statement *)
Lemma nneg_intro (b : binary_float prec emax) r :
  (0 <= r)%R ->
  (if Rlt_bool (Rabs (rnd r)) (bpow radix2 emax)
   then B2R b = rnd r /\ is_finite b = true /\ Bsign b = false
   else B2SF b = S754_infinity false) ->
  nneg (B2SF b) /\ cl (B2SF b) = Rmin (rnd r) (bpow radix2 emax).
Proof.
  intros Hr H. pose proof (rnd_ge_0 r Hr) as R0.
  rewrite (Rabs_pos_eq _ R0) in H.
  destruct (Rlt_bool_spec (rnd r) (bpow radix2 emax)).
  - destruct H as (H1 & H2 & H3).
    split; [split|].
    + apply valid_B.
    + destruct b; cbn in *; try discriminate; assumption.
    + rewrite cl_fin by (unfold fin; now rewrite is_finite_SF_B2SF). rewrite vl_B, H1.
      rewrite Rmin_left; lra.
  - split; [split|].
    + apply valid_B.
    + now rewrite H.
    + rewrite H. cbn. rewrite Rmin_right; lra.
Qed.

Lemma nnf_B x : nnf x -> exists b : binary_float prec emax,
  x = B2SF b /\ is_finite b = true /\ Bsign b = false /\ vl x = B2R b /\ (0 <= B2R b)%R.
Proof.
  intros [N F]. pose proof (vl_nneg _ N) as P. destruct N as [V H]. destruct (to_B x V) as [b E].
  exists b. subst x. unfold fin in F. rewrite is_finite_SF_B2SF in F. rewrite vl_B in *.
  repeat split; try assumption. destruct b; cbn in *; try discriminate; assumption.
Qed.

Lemma mul_nneg x y : nnf x -> nnf y ->
  nneg (SFmul prec emax x y) /\
  cl (SFmul prec emax x y) = Rmin (rnd (vl x * vl y)) (bpow radix2 emax).
Proof.
  intros Nx Ny. destruct (nnf_B _ Nx) as (bx & -> & Fx & Sx & Vx & Px).
  destruct (nnf_B _ Ny) as (by_ & -> & Fy & Sy & Vy & Py).
  rewrite mul_eq, !vl_B. apply nneg_intro; [nra|].
  pose proof (Bmult_correct prec emax Hprec Hmax mode_NE bx by_) as H. cbn [round_mode] in H.
  destruct Rlt_bool.
  - destruct H as (H1 & H2 & H3). rewrite Fx, Fy in H2. cbn in H2.
    repeat split; try assumption. rewrite H3, Sx, Sy; [reflexivity|].
    destruct (Bmult mode_NE bx by_); cbn in *; congruence.
  - rewrite H. rewrite Sx, Sy. reflexivity.
Qed.
Lemma add_nneg x y : nnf x -> nnf y ->
  nneg (SFadd prec emax x y) /\
  cl (SFadd prec emax x y) = Rmin (rnd (vl x + vl y)) (bpow radix2 emax).
Proof.
  intros Nx Ny. destruct (nnf_B _ Nx) as (bx & -> & Fx & Sx & Vx & Px).
  destruct (nnf_B _ Ny) as (by_ & -> & Fy & Sy & Vy & Py).
  rewrite add_eq, !vl_B. apply nneg_intro; [lra|].
  pose proof (Bplus_correct prec emax Hprec Hmax mode_NE bx by_ Fx Fy) as H. cbn [round_mode] in H.
  destruct Rlt_bool.
  - destruct H as (H1 & H2 & H3). repeat split; try assumption. rewrite H3, Sx, Sy.
    destruct (Rcompare_spec (B2R bx + B2R by_) 0); try reflexivity; lra.
  - destruct H as (H1 & H2). rewrite H1, Sx. reflexivity.
Qed.
Lemma sub_nneg x y : nnf x -> nnf y -> (vl y <= vl x)%R ->
  nneg (SFsub prec emax x y) /\
  cl (SFsub prec emax x y) = Rmin (rnd (vl x - vl y)) (bpow radix2 emax).
Proof.
  intros Nx Ny L. destruct (nnf_B _ Nx) as (bx & -> & Fx & Sx & Vx & Px).
  destruct (nnf_B _ Ny) as (by_ & -> & Fy & Sy & Vy & Py).
  rewrite sub_eq, !vl_B in *. apply nneg_intro; [lra|].
  pose proof (Bminus_correct prec emax Hprec Hmax mode_NE bx by_ Fx Fy) as H. cbn [round_mode] in H.
  destruct Rlt_bool.
  - destruct H as (H1 & H2 & H3). repeat split; try assumption. rewrite H3, Sx, Sy.
    destruct (Rcompare_spec (B2R bx - B2R by_) 0); try reflexivity; lra.
  - destruct H as (H1 & H2). rewrite H1, Sx. reflexivity.
Qed.
Lemma div_nneg x y : nnf x -> nnf y -> vl y <> 0%R ->
  nneg (SFdiv prec emax x y) /\
  cl (SFdiv prec emax x y) = Rmin (rnd (vl x / vl y)) (bpow radix2 emax).
Proof.
  intros Nx Ny Z. destruct (nnf_B _ Nx) as (bx & -> & Fx & Sx & Vx & Px).
  destruct (nnf_B _ Ny) as (by_ & -> & Fy & Sy & Vy & Py).
  rewrite div_eq, !vl_B in *. apply nneg_intro; [|].
  - assert (0 < B2R by_)%R by lra. apply Rmult_le_pos; [assumption|].
    left. now apply Rinv_0_lt_compat.
  - pose proof (Bdiv_correct prec emax Hprec Hmax mode_NE bx by_ Z) as H. cbn [round_mode] in H.
    destruct Rlt_bool.
    + destruct H as (H1 & H2 & H3). rewrite Fx in H2.
      repeat split; try assumption. rewrite H3, Sx, Sy; [reflexivity|].
      destruct (Bdiv mode_NE bx by_); cbn in *; congruence.
    + rewrite H. rewrite Sx, Sy. reflexivity.
Qed.
Lemma normalize_nneg m e : 0 <= m ->
  nneg (SpecFloat.binary_normalize prec emax m e false) /\
  cl (SpecFloat.binary_normalize prec emax m e false)
  = Rmin (rnd (F2R (Float radix2 m e))) (bpow radix2 emax).
Proof.
  intros Hm. rewrite normalize_eq. 
  assert (P : (0 <= F2R (Float radix2 m e))%R) by (apply F2R_ge_0; exact Hm).
  apply nneg_intro; [exact P|].
  pose proof (binary_normalize_correct prec emax Hprec Hmax mode_NE m e false) as H. cbn [round_mode] in H.
  cbn zeta in H. destruct Rlt_bool.
  - destruct H as (H1 & H2 & H3). repeat split; try assumption. rewrite H3.
    destruct (Rcompare_spec (F2R (Float radix2 m e)) 0); try reflexivity; lra.
  - rewrite H. rewrite Rlt_bool_false by exact P. reflexivity.
Qed.
Lemma ofZ_nneg z : 0 <= z ->
  nneg (sf_ofZ prec emax z) /\ cl (sf_ofZ prec emax z) = Rmin (rnd (IZR z)) (bpow radix2 emax).
Proof.
  intros H. unfold sf_ofZ. pose proof (normalize_nneg z 0 H) as [N C]. split; [exact N|].
  rewrite C. unfold F2R. simpl. now rewrite Rmult_1_r.
Qed.

(* every natural number up to 2^prec is exact *)
Lemma rnd_Z z : Z.abs z <= 2 ^ prec -> rnd (IZR z) = IZR z.
Proof.
  intros H. apply round_generic; [typeclasses eauto|].
  destruct (Z.eq_dec (Z.abs z) (2 ^ prec)) as [E|E].
  - assert (G : generic_format radix2 fexp (bpow radix2 prec)).
    { apply generic_format_bpow. unfold SpecFloat.fexp, SpecFloat.emin. unfold Prec_lt_emax in Hmax.
      unfold Prec_gt_0 in Hprec. lia. }
    assert (P : bpow radix2 prec = IZR (2 ^ prec)).
    { rewrite <- IZR_Zpower; [reflexivity|]. unfold Prec_gt_0 in Hprec. lia. }
    destruct (Z_le_gt_dec 0 z).
    + rewrite Z.abs_eq in E by lia. rewrite E, <- P. exact G.
    + replace z with (- 2 ^ prec) by lia. rewrite opp_IZR, <- P. now apply generic_format_opp.
  - apply generic_format_FLT with (emin := SpecFloat.emin prec emax).
    exists (Float radix2 z 0).
    + unfold F2R. simpl. now rewrite Rmult_1_r.
    + simpl. unfold Prec_gt_0 in Hprec. lia.
    + simpl. unfold SpecFloat.emin. unfold Prec_lt_emax, Prec_gt_0 in *. lia.
Qed.

Lemma trunc_nneg x z : nneg x -> sf_trunc x = Some z -> z = Zfloor (vl x) /\ fin x.
Proof.
  intros [V S] H. destruct x as [s|s| |s m e]; cbn in *; try discriminate.
  - injection H as <-. split; [|reflexivity]. symmetry. apply Zfloor_IZR with (n := 0).
  - subst s. split; [|reflexivity]. injection H as <-. unfold F2R. cbn.
    destruct (Z.leb_spec 0 e).
    + rewrite <- (IZR_Zpower radix2) by assumption. rewrite <- mult_IZR.
      rewrite Zfloor_IZR. reflexivity.
    + symmetry. replace (IZR (Zpos m) * bpow radix2 e)%R with (IZR (Zpos m) / IZR (2 ^ (- e)))%R.
      * apply Zfloor_div. assert (0 < 2 ^ (- e)) by (apply Z.pow_pos_nonneg; lia). lia.
      * unfold Rdiv. f_equal. replace e with (- (- e)) at 2 by lia. rewrite bpow_opp.
        f_equal. rewrite <- (IZR_Zpower radix2) by lia. reflexivity.
Qed.
Lemma trunc_fin x : nnf x -> sf_trunc x = Some (Zfloor (vl x)).
Proof.
  intros [N F]. destruct (sf_trunc x) eqn:E.
  - now destruct (trunc_nneg _ _ N E) as [-> _].
  - destruct x; discriminate.
Qed.
End Fmt.

Global Instance prec32_gt_0 : FLX.Prec_gt_0 prec32 := eq_refl _.
Global Instance prec32_lt_emax : Prec_lt_emax prec32 emax32 := eq_refl _.
Global Instance prec64_gt_0 : FLX.Prec_gt_0 prec64 := eq_refl _.
Global Instance prec64_lt_emax : Prec_lt_emax prec64 emax64 := eq_refl _.
