(* Without congestion a larger transfer does not end earlier (C94). *)
From Coq Require Import ZArith Arith Reals String List Bool Lia Lra ZifyBool ZifyNat Floats.SpecFloat.
From Flocq Require Import Core IEEE754.BinarySingleNaN.
From Verif Require Import Base Arith Util Device Workload SpecWorkload DepTracker Rates Stats Engine UtilProofs
  WorkloadProofs SpecTracker TrackerProofs DepGenProofs StepProofs SpecEngine SpecRates EngineProofs RunProofs DepFacts EngineFacts EngineFacts2 EngineFacts3 EngineFacts4 EngineFacts5
  RateFacts FloatProofs FloatProofs2 RateFloat RateFloat4 EngineRates SpecAlone AloneProofs BehindProofs SpecLoad LoadProofs.
Import ListNotations.
Local Open Scope list_scope.
Open Scope Z_scope.
Ltac Zify.zify_post_hook ::= idtac.

Lemma free_dep ord bord : bucket_order bord -> forall d c cpt wl, proper wl -> proper_cpt cpt -> forall s i, succeeds f32A ord bord d c cpt wl s -> (forall j dl, ~ waits f32A s i j dl) ->
  exists sts0 E, setup f32A ord bord d wl sts0 E /\ dep_of E i = None.
Proof.
  intros BP d c cpt wl HW HC s i H NW. destruct (succeeds_end f32A ord bord d c cpt wl s H) as [(r & R & T) F].
  destruct (visited_facts f32A ord bord BP d c cpt wl HW HC s (or_intror (ex_intro _ r (conj R T)))) as (sts0 & E & h & fin & HS & HE & I & _). exists sts0, E. split; [exact HS|].
  destruct (dep_of E i) as [k|] eqn:Ek; [|reflexivity]. destruct (dep_edge E _ _ Ek) as (e & He & _). exfalso. apply (NW (e_parent e) (e_delay e)). apply (depends_iff f32A _ _ _ _ _ I HE). eauto 6.
Qed.
Theorem longer_not_earlier ord bord : bucket_order bord -> forall d cpt wl wl', proper wl -> proper wl' -> proper_cpt cpt -> cpt <= 2 ^ 20 ->
  Forall sound_transfer (all_transfers wl) -> Forall sound_transfer (all_transfers wl') ->
  forall s s', succeeds f32A ord bord d false cpt wl s -> succeeds f32A ord bord d false cpt wl' s' -> sm_curr f32A s < 2 ^ 24 -> sm_curr f32A s' < 2 ^ 24 ->
  forall i i' x x', nth_error (sm_sts f32A s) i = Some x -> nth_error (sm_sts f32A s') i' = Some x' ->
  (forall j dl, ~ waits f32A s i j dl) -> (forall j dl, ~ waits f32A s' i' j dl) -> no_shorter (s_tr x) (s_tr x') ->
  s_start x' = s_start x /\ s_end x <= s_end x'.
Proof.
  intros BP d cpt wl wl' HW HW' HC C20 HF HF' s s' H H' K K' i i' x x' Hx Hx' NW NW' NS.
  destruct (free_dep ord bord BP d false cpt wl HW HC s i H NW) as (sts0 & E & HS & D). destruct (free_dep ord bord BP d false cpt wl' HW' HC s' i' H' NW') as (sts0' & E' & HS' & D').
  destruct (succeeds_end f32A ord bord d false cpt wl s H) as [(r & R & T) _]. destruct (succeeds_end f32A ord bord d false cpt wl' s' H') as [(r' & R' & T') _].
  pose proof (visited_transfer f32A ord bord BP d false cpt wl HW HC s i x (or_intror (ex_intro _ r (conj R T))) Hx) as Ht.
  pose proof (visited_transfer f32A ord bord BP d false cpt wl' HW' HC s' i' x' (or_intror (ex_intro _ r' (conj R' T'))) Hx') as Ht'.
  destruct NS as (N1 & N2 & N3 & N4).
  assert (AL : forall t' t, nth_error (all_transfers wl') i' = Some t' -> nth_error (all_transfers wl) i = Some t -> t_off t = t_off t' /\ t_bytes t <= t_bytes t').
  { intros t' t E1 E2. pose proof (eq_trans (eq_sym E1) Ht') as Q1. pose proof (eq_trans (eq_sym E2) Ht) as Q2. injection Q1 as ->. injection Q2 as ->. auto. }
  destruct (later_end ord bord BP d cpt HC C20 false wl' HW' HF' sts0' E' HS' i' D' false wl HW HF sts0 E HS i D AL (nth_some_lt _ _ _ Ht') (nth_some_lt _ _ _ Ht)) with (s := s') (s' := s) (x := x') (x' := x) as [G1 G2]; try assumption; [|auto].
  intros n q' q q1' q1 B' B T1' T1 KQ P' P y' y Hy' Hy.
  pose proof (begins_reach f32A ord bord d false cpt wl _ _ B) as RB. pose proof (begins_reach f32A ord bord d false cpt wl' _ _ B') as RB'.
  destruct (bw_bounds ord bord BP d cpt HC false wl HW HF _ _ _ _ RB T1 P Hy) as (b & U & _ & _ & _ & F). destruct (bw_bounds ord bord BP d cpt HC false wl' HW' HF' _ _ _ _ RB' T1' P' Hy') as (b' & U' & _ & _ & _ & F').
  rewrite (F eq_refl), (F' eq_refl).
  pose proof (visited_transfer f32A ord bord BP d false cpt wl HW HC q1 i y (or_intror (ex_intro _ q (conj RB T1))) Hy) as W. pose proof (visited_transfer f32A ord bord BP d false cpt wl' HW' HC q1' i' y' (or_intror (ex_intro _ q' (conj RB' T1'))) Hy') as W'.
  pose proof (eq_trans (eq_sym W) Ht) as EY. pose proof (eq_trans (eq_sym W') Ht') as EY'. injection EY as EY. injection EY' as EY'. pose proof (eq_ind _ (fun t => uncongested_bw f32A d t = Ok b) U _ EY) as V. pose proof (eq_ind _ (fun t => uncongested_bw f32A d t = Ok b') U' _ EY') as V'. cbv beta in V, V'.
  rewrite Forall_forall in HF, HF'. pose proof (uncongested_same d (s_tr x) (s_tr x') N1 N3 (HF _ (nth_error_In _ _ Ht)) (HF' _ (nth_error_In _ _ Ht'))) as EU.
  pose proof (eq_trans (eq_trans (eq_sym V') EU) V) as EB. injection EB as ->. apply Rle_refl.
Qed.
