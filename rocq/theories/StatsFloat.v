(* Utilisation of links in floats (C42). *)
From Coq Require Import ZArith Arith Reals Lra Lia Bool List String Floats.SpecFloat ZifyBool ZifyNat.
From Flocq Require Import Core IEEE754.BinarySingleNaN.
From Verif Require Import Base Arith Util Device SpecDevice Workload Rates Stats Engine SpecEngine SpecRates SpecStats UtilProofs DeviceProofs FactoryProofs
  FloatProofs FloatProofs2 RateFloat RateFloat2 StatsAvg.
Import ListNotations.
Local Open Scope list_scope.
Open Scope Z_scope.
Ltac Zify.zify_post_hook ::= idtac.
Notation rd64 := (round radix2 (SpecFloat.fexp prec64 emax64) ZnearestE).

Lemma le64 a b : (a <= b)%R -> (rd64 a <= rd64 b)%R.
Proof. apply rnd_le. reflexivity. Qed.

(* k times the float mm * 2^e, exact in double *)
Definition times (k : Z) (mm : positive) (e : Z) : spec_float := SpecFloat.binary_normalize prec64 emax64 (k * Zpos mm) e false.
Lemma times_ok k mm e : 0 <= k -> k * Zpos mm < 2 ^ 53 -> -1000 <= e <= 100 ->
  nf64 (times k mm e) /\ vl (times k mm e) = (IZR k * F2R (Float radix2 (Zpos mm) e))%R.
Proof.
  intros Hk Hm He. unfold times. destruct (normalize_nneg prec64 emax64 eq_refl eq_refl (k * Zpos mm) e ltac:(lia)) as [N C].
  assert (B : 0 <= k * Z.pos mm < 2 ^ 53) by (split; [nia|exact Hm]).
  assert (G : generic_format radix2 (SpecFloat.fexp prec64 emax64) (F2R (Float radix2 (k * Z.pos mm) e))).
  { apply (generic_format_FLT radix2 (SpecFloat.emin prec64 emax64) prec64). exists (Float radix2 (k * Z.pos mm) e); [reflexivity| |].
    - cbn [Fnum]. change (radix2 ^ prec64) with 9007199254740992. change (2 ^ 53) with 9007199254740992 in B. lia.
    - cbn [Fexp]. change (SpecFloat.emin prec64 emax64) with (-1074). lia. }
  rewrite (round_generic radix2 _ ZnearestE _ G) in C.
  assert (L : (F2R (Float radix2 (k * Z.pos mm) e) < bpow radix2 emax64)%R).
  { apply Rlt_le_trans with (bpow radix2 (53 + e)).
    - rewrite bpow_plus. unfold F2R. cbn [Fnum Fexp]. apply Rmult_lt_compat_r; [apply bpow_gt_0|]. rewrite <- (IZR_Zpower radix2) by lia. apply IZR_lt. apply B.
    - apply bpow_le. change emax64 with 1024. lia. }
  rewrite Rmin_left in C by (apply Rlt_le; exact L).
  assert (NF : nf64 (SpecFloat.binary_normalize prec64 emax64 (k * Z.pos mm) e false)) by (apply (nneg_fin prec64 emax64); [exact N|rewrite C; exact L]).
  split; [exact NF|]. rewrite (nnf_cl prec64 emax64) in C by exact NF. rewrite C. unfold F2R. cbn [Fnum Fexp]. rewrite mult_IZR. ring.
Qed.

Definition nnfb64 (x : spec_float) : bool :=
  SpecFloat.valid_binary prec64 emax64 x && match x with S754_zero false | S754_finite false _ _ => true | _ => false end.
Lemma nnfb64_ok x : nnfb64 x = true -> nf64 x.
Proof. unfold nnfb64. rewrite andb_true_iff. intros [V H]. destruct x as [[]|[]| |[] m e]; try discriminate; (split; [split; [exact V|reflexivity]|reflexivity]). Qed.

Section M.
  Context (mm : positive) (e : Z) (He : -1000 <= e <= 100).
  Let M := F2R (Float radix2 (Zpos mm) e).
  Lemma M_pos : (0 < M)%R. Proof. apply F2R_gt_0. reflexivity. Qed.
  Lemma dsum_bound l : forall j x, 0 <= j -> (j + Z.of_nat (List.length l)) * Zpos mm < 2 ^ 53 -> nf64 x -> (vl x <= IZR j * M)%R ->
    Forall (fun y => nf64 y /\ (vl y <= M)%R) l ->
    nf64 (dsum f32A l x) /\ (vl (dsum f32A l x) <= IZR (j + Z.of_nat (List.length l)) * M)%R.
  Proof.
    induction l as [|y l IH]; intros j x Hj HL Nx Lx HF; [cbn [dsum fold_left List.length]; rewrite Z.add_0_r; auto|].
    inversion HF as [|? ? [Ny Ly] HF']; subst. cbn [List.length] in *.
    change (dsum f32A (y :: l) x) with (dsum f32A l (SFadd prec64 emax64 x y)).
    destruct (times_ok (j + 1) mm e ltac:(lia) ltac:(nia) He) as [NB VB]. fold M in VB.
    destruct (add_bound prec64 emax64 eq_refl eq_refl x y (times (j + 1) mm e) Nx Ny NB) as (NA & LA & _).
    { rewrite VB, plus_IZR. lra. }
    replace (j + Z.of_nat (S (List.length l))) with (j + 1 + Z.of_nat (List.length l)) by lia. apply IH; [lia|nia|exact NA|rewrite <- VB; exact LA|exact HF'].
  Qed.
  Definition chk (n : Z) : bool :=
    let r := pct_over f32A (S754_finite false mm e) n in
    nnfb64 r && nnfb64 (SFmul prec64 emax64 (times n mm e) r) && negb (SFltb (d_lit f32A 100 1) (SFmul prec64 emax64 (times n mm e) r)).
  Lemma util_bound l n : chk n = true -> n * Zpos mm < 2 ^ 53 -> Z.of_nat (List.length l) = n -> Forall (fun y => nf64 y /\ (vl y <= M)%R) l ->
    percentage (d_mul f32A (dsum f32A l (dz f32A)) (pct_over f32A (S754_finite false mm e) n)).
  Proof.
    unfold chk. intros HC Hn HL HF. rewrite !andb_true_iff, negb_true_iff in HC. destruct HC as [[H1 H2] H3]. set (r := pct_over _ _ _) in *.
    apply nnfb64_ok in H1. apply nnfb64_ok in H2.
    destruct (dsum_bound l 0 (S754_zero false) ltac:(lia) ltac:(rewrite Z.add_0_l, HL; exact Hn) (nnf_zero _ _)) as [NS LS]; [rewrite Rmult_0_l; apply Rle_refl|exact HF|].
    rewrite Z.add_0_l, HL in LS. change (S754_zero false) with (dz f32A) in NS, LS. set (s := dsum f32A l (dz f32A)) in *. change (d_mul f32A s r) with (SFmul prec64 emax64 s r).
    destruct (times_ok n mm e ltac:(lia) Hn He) as [NB VB]. fold M in VB.
    destruct (mul_nneg prec64 emax64 eq_refl eq_refl s r NS H1) as [N1 C1]. destruct (mul_nneg prec64 emax64 eq_refl eq_refl (times n mm e) r NB H1) as [N2 C2].
    assert (HND : nf64 (d_lit f32A 100 1) /\ vl (d_lit f32A 100 1) = 100%R).
    { change (d_lit f32A 100 1) with (sf_ofZ prec64 emax64 100). apply (ofZ_exact prec64 emax64 eq_refl eq_refl 100). split; [lia|]. discriminate. }
    destruct HND as [N100 V100]. apply (ltb_vl_false prec64 emax64 _ _ N100 H2) in H3. rewrite V100 in H3.
    rewrite <- (nnf_cl prec64 emax64 _ H2), C2 in H3.
    assert (LE : (rd64 (vl s * vl r) <= rd64 (vl (times n mm e) * vl r))%R).
    { apply le64. apply Rmult_le_compat_r; [apply (vl_nneg prec64 emax64); apply H1|]. rewrite VB. exact LS. }
    assert (LC : (cl emax64 (SFmul prec64 emax64 s r) <= 100)%R).
    { rewrite C1. eapply Rle_trans; [|exact H3]. apply Rle_min_compat_r. exact LE. }
    assert (NF : nf64 (SFmul prec64 emax64 s r)).
    { apply (nneg_fin prec64 emax64); [exact N1|]. eapply Rle_lt_trans; [exact LC|]. apply Rle_lt_trans with (bpow radix2 10); [|apply bpow_lt; reflexivity]. change (bpow radix2 10) with 1024%R. lra. }
    rewrite (nnf_cl prec64 emax64) in LC by exact NF. pose proof (vl_nneg prec64 emax64 _ (proj1 NF)) as V0. clear - NF LC V0. destruct NF as [[V S] Fi]. split; [exact V|].
    split; [|split; [exact V0|exact LC]]. destruct (SFmul prec64 emax64 s r) as [b|b| |b m0 e0]; try discriminate Fi; [left; rewrite S; reflexivity|right; rewrite S; eauto].
  Qed.
  Lemma util_le x : not_negative x -> nf32 (S754_finite false mm e) ->
    nf64 (d_of_f f32A (f_fmin f32A x (S754_finite false mm e))) /\ (vl (d_of_f f32A (f_fmin f32A x (S754_finite false mm e))) <= M)%R.
  Proof.
    intros [V S] NM. assert (Q : nf32 (f_fmin f32A x (S754_finite false mm e)) /\ (vl (f_fmin f32A x (S754_finite false mm e)) <= M)%R).
    { unfold f_fmin. cbn [f_nan f32A f_lt sf_isnan]. destruct x as [b|b| |b m0 e0]; cbn [sf_isnan].
      - subst b. split.
        + destruct (SFltb _ _); [exact NM|apply nnf_zero].
        + destruct (SFltb _ _); [apply Rle_refl|]. apply Rlt_le, M_pos.
      - subst b. split; [exact NM|apply Rle_refl].
      - split; [exact NM|apply Rle_refl].
      - subst b. assert (NX : nf32 (S754_finite false m0 e0)) by (split; [split; [exact V|reflexivity]|reflexivity]).
        destruct (SFltb _ _) eqn:E; [split; [exact NM|apply Rle_refl]|]. split; [exact NX|].
        apply (ltb_vl_false prec32 emax32 _ _ NM NX) in E. exact E. }
    destruct Q as [Q1 Q2]. destruct (conv_up _ Q1) as [U1 U2]. split; [exact U1|]. exact (Rle_trans _ _ _ (Req_le _ _ U2) Q2).
  Qed.
End M.

Definition chk_dev (d : device) : bool :=
  match link_bandwidth f32A d with
  | S754_finite false mm e =>
      (-1000 <=? e) && (e <=? 100) && SpecFloat.valid_binary prec32 emax32 (S754_finite false mm e) &&
      forallb (fun n => (n * Zpos mm <? 2 ^ 53) && chk mm e n) (flat_map (fun p => [Z.of_nat p * 4; Z.of_nat p * 2]) [dv_chips d * (dv_rows d * dv_cols d); dv_rows d * dv_cols d]%nat)
  | _ => false
  end.
Lemma documented_chk : forallb (fun x => chk_dev (snd x)) documented_devices = true.
Proof. vm_compute. reflexivity. Qed.
Lemma made_in d : made d -> exists name, In (name, d) documented_devices.
Proof. intros (name & H). exists name. apply createDeviceModel_iff. exact H. Qed.
Lemma made_chk d : made d -> exists mm e, link_bandwidth f32A d = S754_finite false mm e /\ -1000 <= e <= 100 /\ nf32 (S754_finite false mm e) /\
  forall id, (Z.of_nat (per d id) * 4 * Zpos mm < 2 ^ 53 /\ chk mm e (Z.of_nat (per d id) * 4) = true) /\ (Z.of_nat (per d id) * 2 * Zpos mm < 2 ^ 53 /\ chk mm e (Z.of_nat (per d id) * 2) = true).
Proof.
  intros HM. destruct (made_in d HM) as (name & HI). pose proof documented_chk as HC. rewrite forallb_forall in HC. specialize (HC _ HI). cbn [snd] in HC.
  unfold chk_dev in HC. destruct (link_bandwidth f32A d) as [|?| |[] mm e]; try discriminate HC. rewrite !andb_true_iff in HC. destruct HC as (((H2 & H3) & H4) & H5).
  exists mm, e. split; [reflexivity|]. split; [lia|]. split; [split; [split; [exact H4|reflexivity]|reflexivity]|].
  intros id. rewrite forallb_forall in H5.
  assert (HP : In (per d id) [dv_chips d * (dv_rows d * dv_cols d); dv_rows d * dv_cols d]%nat) by (unfold per; destruct (id =? MESH_DEVICE); [left|right; left]; reflexivity).
  assert (H : forall n, In n [Z.of_nat (per d id) * 4; Z.of_nat (per d id) * 2] -> n * Zpos mm < 2 ^ 53 /\ chk mm e n = true).
  { intros n Hn. specialize (H5 n). rewrite andb_true_iff in H5. destruct H5 as [G1 G2]; [apply in_flat_map; exists (per d id); split; assumption|]. split; [apply Z.ltb_lt; exact G1|exact G2]. }
  split; apply H; cbn [In]; auto.
Qed.
Lemma made_wf d : made d -> wf_device d.
Proof.
  intros HM. destruct (made_in d HM) as (name & HI). assert (H : forallb (fun x => let d := snd x in
    Nat.ltb 0 (dv_chips d) && Nat.ltb 0 (dv_rows d) && Nat.ltb 0 (dv_cols d) && (Z.of_nat (dv_chips d) * Z.of_nat (dv_rows d) * Z.of_nat (dv_cols d) * 4 <=? 2 ^ 15) &&
    match dv_class d with ClsMultichip => true | _ => Nat.eqb (dv_chips d) 1 end) documented_devices = true) by (vm_compute; reflexivity).
  rewrite forallb_forall in H. specialize (H _ HI). cbn [snd] in H. cbv zeta in H. rewrite !andb_true_iff in H. destruct H as ((((H1 & H2) & H3) & H4) & H5).
  split; [apply Nat.ltb_lt; exact H1|]. split; [apply Nat.ltb_lt; exact H2|]. split; [apply Nat.ltb_lt; exact H3|]. split; [apply Z.leb_le; exact H4|].
  intros NC. destruct (dv_class d); try (apply Nat.eqb_eq; exact H5). congruence.
Qed.

Section D.
  Context (d : device) (HM : made d) (g : grids (F f32A)).
  Context (HL : List.length (g_link g) = List.length (link_table d)) (HLm : List.length (g_mc g) = List.length (link_table d)).
  Context (PL : Forall not_negative (g_link g)) (PM : Forall not_negative (g_mc g)).
  Lemma rows_pos p : Forall (fun x : lrow f32A => not_negative (fst (snd x)) /\ not_negative (snd (snd x))) (lsel f32A p (lrows f32A d g)).
  Proof.
    apply Forall_forall. intros x Hx. apply filter_In in Hx. destruct Hx as [Hx _]. destruct x as [a [u v]]. apply in_combine_r in Hx. rewrite Forall_forall in PL, PM. cbn [fst snd].
    split; [apply PL; eapply in_combine_l; exact Hx|apply PM; eapply in_combine_r; exact Hx].
  Qed.
  Lemma rows_len p : List.length (lsel f32A p (lrows f32A d g)) = List.length (filter p (link_table d)).
  Proof.
    unfold lsel, lrows. assert (H : List.length (combine (g_link g) (g_mc g)) = List.length (link_table d)) by (rewrite combine_length, HL, HLm; apply Nat.min_id).
    revert H. generalize (combine (g_link g) (g_mc g)) as rows. generalize (link_table d) as tbl.
    induction tbl as [|a l IH]; intros [|r rows] H; try discriminate H; [reflexivity|]. cbn [combine filter fst]. injection H as H. destruct (p a); cbn [List.length]; rewrite IH by exact H; reflexivity.
  Qed.
  Theorem utilisation id live s e : has_stats d id -> let t := device_timestep f32A d g live id (fresh_ts f32A s e) in
    percentage (ts_avg_lu f32A t) /\ percentage (ts_avg_lu0 f32A t) /\ percentage (ts_avg_lu1 f32A t) /\ percentage (ts_avg_mc f32A t).
  Proof.
    intros HI t. destruct (timestep_fields f32A d g live id s e) as (_ & F2 & _ & F4 & _ & F6 & F7 & _). fold t in F2, F4, F6, F7.
    destruct (made_chk d HM) as (mm & ex & EB & B2 & NM & CH). destruct (CH id) as [[L4 C4] [L2 C2]]. rewrite EB in *.
    pose proof (made_wf d HM) as WF. destruct (count_links d (wf_small d WF) id HI) as (K1 & K2 & K3 & _).
    assert (SZ : gsize f32A d g id = Z.of_nat (per d id) * 4) by (unfold gsize; apply size_eq; [apply WF|exact HL]).
    rewrite SZ in *.
    assert (H2 : Z.of_nat (per d id) * 4 / 2 = Z.of_nat (per d id) * 2) by (replace (Z.of_nat (per d id) * 4) with (Z.of_nat (per d id) * 2 * 2) by lia; apply Z.div_mul; discriminate).
    rewrite H2 in *. rewrite F2, F4, F6, F7.
    assert (U : forall p, Forall (fun y => nf64 y /\ (vl y <= F2R (Float radix2 (Zpos mm) ex))%R) (map (utl f32A (S754_finite false mm ex)) (lsel f32A p (lrows f32A d g)))).
    { intros p. pose proof (rows_pos p) as RP. apply Forall_map. eapply Forall_impl; [|exact RP]. intros x [Hx _]. unfold utl. apply util_le; assumption. }
    split; [apply util_bound; [exact B2|exact C4|exact L4|rewrite map_length, rows_len, K1; lia|apply U]|].
    split; [apply util_bound; [exact B2|exact C2|exact L2|rewrite map_length, rows_len, K2; lia|apply U]|].
    split; [apply util_bound; [exact B2|exact C2|exact L2|rewrite map_length, rows_len, K3; lia|apply U]|].
    apply util_bound; [exact B2|exact C4|exact L4|rewrite map_length, rows_len, K1; lia|].
    pose proof (rows_pos (link_on id)) as RP. apply Forall_map. eapply Forall_impl; [|exact RP]. intros x [_ Hx]. unfold mct. apply util_le; assumption.
  Qed.
End D.
