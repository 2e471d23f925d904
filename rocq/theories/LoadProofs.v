(* More and larger transfers never make the others end earlier (C91, C94): the rates. *)
From Coq Require Import ZArith Arith Reals String List Bool Lia Lra ZifyBool ZifyNat Sorting.Permutation Sorting.Sorted Floats.SpecFloat.
From Flocq Require Import Core IEEE754.BinarySingleNaN.
From Verif Require Import Base Arith Util Device Workload SpecWorkload DepTracker Rates Stats Engine UtilProofs
  WorkloadProofs SpecTracker TrackerProofs DepGenProofs StepProofs SpecEngine SpecRates EngineProofs RunProofs DepFacts EngineFacts EngineFacts2 EngineFacts3 EngineFacts4 EngineFacts5
  RateFacts FloatProofs FloatProofs2 RateFloat RateFloat2 RateFloat3 RateFloat4 EngineRates SpecAlone AloneProofs BehindProofs SpecLoad.
Import ListNotations.
Local Open Scope list_scope.
Open Scope Z_scope.
Ltac Zify.zify_post_hook ::= idtac.
Notation st32 := (tstate (F f32A)).

(** * Rates with more transfers, under other numbers *)
Lemma same_nth (l : list st32) i a b : nth_error l i = Some a -> nth_error l i = Some b -> a = b.
Proof. congruence. Qed.
Definition like (x x' : st32) : Prop := enlarges (s_tr x) (s_tr x') /\ s_route x' = s_route x /\ s_start x' = s_start x.
Definition fits (f : nat -> nat) (sts sts' : list st32) (live : list nat) : Prop :=
  forall i, In i live -> exists x x', nth_error sts i = Some x /\ nth_error sts' (f i) = Some x' /\ like x x'.

Lemma demand_like d st en (x x' : st32) g : like x x' -> s_bw x' = s_bw x ->
  add_niu_demand f32A d (effective_demand f32A st en x') x' g = add_niu_demand f32A d (effective_demand f32A st en x) x g /\ effective_demand f32A st en x' = effective_demand f32A st en x.
Proof.
  intros ((H1 & H2 & H3 & H4 & H5 & H6 & H7 & H8) & HR & HS) HB.
  assert (E : effective_demand f32A st en x' = effective_demand f32A st en x) by (unfold effective_demand; rewrite HS, HB; reflexivity).
  split; [|exact E]. rewrite E. unfold add_niu_demand. rewrite H3, H4, H7. reflexivity.
Qed.
Lemma demand_map d st en f : forall live (sts sts' : list st32) g,
  (forall i, In i live -> exists x x', nth_error sts i = Some x /\ nth_error sts' (f i) = Some x' /\ like x x' /\ s_bw x' = s_bw x) ->
  foldM (add_demand f32A d st en sts') (map f live) g = foldM (add_demand f32A d st en sts) live g.
Proof.
  induction live as [|i live IH]; intros sts sts' g H; [reflexivity|]. cbn [map foldM].
  assert (E : add_demand f32A d st en sts' g (f i) = add_demand f32A d st en sts g i).
  { destruct (H i (or_introl eq_refl)) as (x & x' & Hx & Hx' & HL & HB). destruct (demand_like d st en x x' (g_niu g) HL HB) as [E1 E2].
    unfold add_demand, vec_get. rewrite Hx, Hx'. cbn [bind]. rewrite E1, E2. destruct HL as ((_ & _ & _ & _ & _ & _ & _ & H8) & HR & _).
    change (@t_event (F f32A) (s_tr x') = t_event (s_tr x)) in H8. rewrite HR, H8. reflexivity. }
  rewrite E. destruct (add_demand f32A d st en sts g i); cbn [bind]; try reflexivity. apply IH. intros j Hj. apply H. right. exact Hj.
Qed.
Lemma new_bw_like d g (x x' : st32) : like x x' -> s_bw x' = s_bw x -> new_bw f32A d g x' = new_bw f32A d g x.
Proof.
  intros ((H1 & H2 & H3 & H4 & H5 & H6 & H7 & H8) & HR & HS) HB. unfold new_bw, sink_derate. rewrite HR, H3, H4, H5, H7, HB. reflexivity.
Qed.
(* a single packet has the highest bandwidth of the table *)
Lemma zero_times sb : nf32 sb -> SFmul prec32 emax32 (S754_zero false) sb = S754_zero false.
Proof. intros ([V S] & FI). destruct sb as [b|b| |b m e]; try discriminate; cbn in S; subst b; reflexivity. Qed.
Lemma single_pair M lo hi p : SFadd prec32 emax32 (SFmul prec32 emax32 (S754_finite false 8388608 (-23)) M) (S754_zero false) = M -> max_ok M = true -> pair_ok M lo hi = true -> 1 <= p -> fst lo <= p <= fst hi ->
  interp_pair f32A lo hi M p 1 = Ok M.
Proof.
  intros HU HM HP H1 H2. destruct (next_ok M HM) as (NM & _). destruct (steady_bw_ok M lo hi p NM HP H1 H2) as [Nb _]. unfold interp_pair. cbv zeta.
  set (sb := f_add f32A (f_mul f32A (f_sub f32A (snd hi) (snd lo)) (f_div f32A (f_ofZ f32A (u64 (p - fst lo))) (f_ofZ f32A (u64 (fst hi - fst lo))))) (snd lo)) in *.
  change (f_div f32A (f_ofZ f32A (u64 (1 - 1))) (f_ofZ f32A 1)) with (S754_zero false).
  change (f_of_d f32A (d_sub f32A (d_lit f32A 1 1) (d_of_f f32A (S754_zero false)))) with (S754_finite false 8388608 (-23)).
  change (tt_assert (d_lt f32A (d_of_f f32A (f_add f32A (S754_zero false) (S754_finite false 8388608 (-23)))) (d_lit f32A 10001 10000))) with (@Ok unit tt).
  change (tt_assert (d_lt f32A (d_lit f32A 999 1000) (d_of_f f32A (f_add f32A (S754_zero false) (S754_finite false 8388608 (-23)))))) with (@Ok unit tt).
  cbn [bind]. change (@Ok spec_float (SFadd prec32 emax32 (SFmul prec32 emax32 (S754_finite false 8388608 (-23)) M) (SFmul prec32 emax32 (S754_zero false) sb)) = Ok M).
  rewrite (zero_times sb Nb), HU. reflexivity.
Qed.
Lemma single_loop M p : SFadd prec32 emax32 (SFmul prec32 emax32 (S754_finite false 8388608 (-23)) M) (S754_zero false) = M -> max_ok M = true -> 1 <= p ->
  forall l, table_ok M l = true -> snd (last l (0, M)) = M -> (forall x r, l = x :: r -> fst x <= p) -> interp_loop f32A l M p 1 = Ok M.
Proof.
  intros HU HM Hp l. induction l as [|lo l IH]; intros HT HE HF; [discriminate|]. specialize (HF lo l eq_refl) as HF0. destruct l as [|hi l].
  - cbn [last] in HE. cbn [interp_loop]. apply Z.leb_le in HF0. cbn in HF0, HE |- *. rewrite HF0, HE. reflexivity.
  - change (table_ok M (lo :: hi :: l)) with (pair_ok M lo hi && table_ok M (hi :: l)) in HT. apply andb_true_iff in HT as [T1 T2].
    change (interp_loop f32A (lo :: hi :: l) M p 1) with (if (fst lo <=? p) && (p <=? fst hi) then interp_pair f32A lo hi M p 1 else interp_loop f32A (hi :: l) M p 1).
    pose proof (proj2 (Z.leb_le _ _) HF0) as HL. cbn in HL |- *. rewrite HL. clear HL. destruct (Z.leb_spec p (fst hi)); cbn [andb].
    + apply single_pair; try assumption. lia.
    + apply IH; [assumption|exact HE|]. intros x r E. injection E as <- <-. lia.
Qed.
Lemma single_bw d p : 1 <= p -> interpolateBW f32A (tbt f32A d) (max_noc_bandwidth f32A d) p 1 = Ok (max_noc_bandwidth f32A d).
Proof.
  intros Hp. destruct (tables_ok d) as [T1 T2]. unfold interpolateBW, tt_assert. destruct (Z.ltb_spec 0 p); [|lia]. cbn [bind]. apply single_loop; try assumption.
  - unfold max_noc_bandwidth, tbt. destruct (dv_class d); vm_compute; reflexivity.
  - unfold max_noc_bandwidth, tbt. destruct (dv_class d); vm_compute; reflexivity.
  - intros x r. unfold tbt. destruct (dv_class d); intros E; injection E as <- _; cbn [fst]; lia.
Qed.
Lemma uncongested_same d (t t' : transfer (F f32A)) : same_packets t t' \/ one_packet t /\ one_packet t' -> t_rate t' = t_rate t -> sound_transfer t -> sound_transfer t' -> uncongested_bw f32A d t' = uncongested_bw f32A d t.
Proof.
  intros [[H1 H2]|[H1 H2]] H5 (P & _) (P' & _); unfold uncongested_bw.
  - rewrite H1, H2, H5. reflexivity.
  - unfold one_packet in H1, H2. assert (Q : 1 <= @t_psize (F f32A) t) by exact (proj1 P). assert (Q' : 1 <= @t_psize (F f32A) t') by exact (proj1 P').
    rewrite H1, H2, (single_bw d _ Q), (single_bw d _ Q'). cbn [bind]. rewrite H5. reflexivity.
Qed.
Lemma uncongested_like d (t t' : transfer (F f32A)) : enlarges t t' -> sound_transfer t -> sound_transfer t' -> uncongested_bw f32A d t' = uncongested_bw f32A d t.
Proof. intros (H1 & _ & _ & _ & H5 & _). apply uncongested_same; assumption. Qed.

Theorem more_load d st en f (sts sts' : list st32) live live' g0 g0' sts1 sts1' g1 g1' : timestep_window st en -> sound_live en sts live -> sound_live en sts' live' ->
  sub (map f live) live' -> fits f sts sts' live ->
  computeCurrentTransferRate f32A d st en sts live g0 true = Ok (sts1, g1) ->
  computeCurrentTransferRate f32A d st en sts' live' g0' true = Ok (sts1', g1') ->
  forall i y y', In i live -> nth_error sts1 i = Some y -> nth_error sts1' (f i) = Some y' -> (vl (s_bw y') <= vl (s_bw y))%R.
Proof.
  intros HW HL1 HL HS HF H1 H2 i y y' Hi Hy Hy'.
  assert (HIN : forall j, In j live -> In (f j) live') by (intros j Hj; eapply sub_in; [exact HS|apply in_map; exact Hj]).
  destruct (rates_shape _ _ _ _ _ _ _ _ _ HW HL1 H1) as [[G1 G2] I1]. destruct (rates_shape _ _ _ _ _ _ _ _ _ HW HL H2) as [[G1' G2'] I2].
  assert (HGL : grid_le (g_niu g1) (g_niu g1') /\ grid_le (g_link g1) (g_link g1')).
  { pose proof H1 as E1. pose proof H2 as E2. unfold computeCurrentTransferRate in E1, E2. apply bind_ok in E1 as (u1 & U1 & E1). apply bind_ok in E2 as (u2 & U2 & E2).
    pose proof (started_live _ _ _ _ _ HL U2) as OK2. apply congestion_spec in E1 as (D1 & _); [|apply HL1]. apply congestion_spec in E2 as (D2 & _); [|apply HL].
    assert (EE : forall j, In j live -> exists x x', nth_error u1 j = Some x /\ nth_error u2 (f j) = Some x' /\ like x x' /\ s_bw x' = s_bw x).
    { intros j Hj. apply update_spec in U1 as (_ & _ & J1). apply update_spec in U2 as (_ & _ & J2). destruct (J1 j Hj) as (x & b & X1 & X2 & X3). destruct (J2 (f j) (HIN j Hj)) as (x' & b' & Y1 & Y2 & Y3).
      destruct (HF j Hj) as (z & z' & Hz & Hz' & LK). assert (z = x) by exact (same_nth _ _ _ _ Hz X1). assert (z' = x') by exact (same_nth _ _ _ _ Hz' Y1). subst z z'.
      rewrite (uncongested_like d (s_tr x) (s_tr x') (proj1 LK) (proj1 (proj2 HL1 j x Hj X1)) (proj1 (proj2 HL (f j) x' (HIN j Hj) Y1))), X2 in Y2. injection Y2 as <-. exists (with_bw x b), (with_bw x' b). split; [exact X3|]. split; [exact Y3|]. split; [exact LK|reflexivity]. }
    rewrite <- (demand_map d st en f live u1 u2 _ EE) in D1. destruct HW as [HW1 HW2]. eapply grids_le; [| |exact OK2|exact HS|exact D1|exact D2]; assumption. }
  destruct HGL as [L1 L2].
  destruct (I1 i Hi) as (x & b0 & b & Hx & Hx' & Hb0 & N0 & L0 & NR & Nb & Lb & Eb). destruct (I2 (f i) (HIN i Hi)) as (z & c0 & c & Hz & Hz' & Hc0 & M0 & _ & _ & Mc & Lc & Ec).
  destruct (HF i Hi) as (w & w' & Hw & Hw' & LK). assert (w = x) by exact (same_nth _ _ _ _ Hw Hx). assert (w' = z) by exact (same_nth _ _ _ _ Hw' Hz). subst w w'.
  rewrite (uncongested_like d (s_tr x) (s_tr z) (proj1 LK) (proj1 (proj2 HL1 i x Hi Hx)) (proj1 (proj2 HL (f i) z (HIN i Hi) Hz))), Hb0 in Hc0. injection Hc0 as <-. rewrite Hy in Hx'. rewrite Hy' in Hz'. injection Hx' as ->. injection Hz' as ->. cbn [with_bw s_bw].
  rewrite (new_bw_like d g1' (with_bw x b0) (with_bw z b0)) in Ec; [|exact LK|reflexivity].
  eapply (new_bw_mono d g1 g1' (with_bw x b0) b c Eb Ec); assumption.
Qed.

(** * Sorted lists *)
Lemma sub_sorted {X} (R : X -> X -> Prop) l l' : sub l l' -> StronglySorted R l' -> StronglySorted R l.
Proof.
  intros H. induction H as [l|a l l' H IH|a l l' H IH]; intros S; [constructor|inversion S; auto|]. inversion S as [|? ? S1 S2]; subst. constructor; [auto|].
  rewrite Forall_forall in S2 |- *. intros x Hx. apply S2. eapply sub_in; eassumption.
Qed.
Lemma sub_filter {X} (h : X -> bool) l : sub (filter h l) l.
Proof. induction l as [|a l IH]; [constructor|]. cbn [filter]. destruct (h a); constructor; exact IH. Qed.
Lemma sub_map {X Y} (h : X -> Y) l l' : sub l l' -> sub (map h l) (map h l').
Proof. intros H. induction H; cbn [map]; constructor; assumption. Qed.
Lemma sorted_sub {X} (R : X -> X -> Prop) (dec : forall a b : X, {a = b} + {a <> b}) : (forall a, ~ R a a) -> (forall a b, R a b -> R b a -> False) ->
  forall l' l, StronglySorted R l -> StronglySorted R l' -> incl l l' -> sub l l'.
Proof.
  intros I AS. induction l' as [|b l' IH]; intros l S S' H; [destruct l as [|a l]; [constructor|destruct (H a (or_introl eq_refl))]|].
  destruct l as [|a l]; [constructor|]. inversion S as [|? ? S1 S2]; subst. inversion S' as [|? ? S1' S2']; subst. rewrite Forall_forall in S2, S2'.
  destruct (dec a b) as [->|NE].
  - apply sub_keep. apply IH; try assumption. intros x Hx. destruct (H x (or_intror Hx)) as [->|Hx']; [|exact Hx']. destruct (I x (S2 x Hx)).
  - apply sub_skip. apply IH; try assumption. destruct (H a (or_introl eq_refl)) as [->|Ha]; [contradiction NE; reflexivity|]. intros x [<-|Hx]; [exact Ha|].
    destruct (H x (or_intror Hx)) as [->|Hx']; [|exact Hx']. destruct (AS a x (S2 x Hx) (S2' a Ha)).
Qed.
Lemma sorted_snoc {X} (R : X -> X -> Prop) l a : StronglySorted R l -> Forall (fun x => R x a) l -> StronglySorted R (l ++ [a]).
Proof.
  intros S. induction S as [|b l S IH F]; intros H; cbn [app]; [constructor; constructor|]. inversion H as [|? ? H1 H2]; subst. constructor; [apply IH; exact H2|]. apply Forall_app. split; [exact F|constructor; [exact H1|constructor]].
Qed.
Lemma sorted_rev {X} (R : X -> X -> Prop) l : StronglySorted R l -> StronglySorted (fun a b => R b a) (rev l).
Proof. intros S. induction S as [|a l S IH F]; cbn [rev]; [constructor|]. apply sorted_snoc; [exact IH|]. apply Forall_rev. exact F. Qed.
Lemma sorted_app_l {X} (R : X -> X -> Prop) l l' : StronglySorted R (l ++ l') -> StronglySorted R l.
Proof. apply sub_sorted. rewrite <- (app_nil_r l) at 1. apply sub_app; [apply sub_refl|constructor]. Qed.
