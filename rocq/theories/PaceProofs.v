(* Without congestion a transfer with a higher injection rate does not end later (C95). *)
From Coq Require Import ZArith Arith Reals String List Bool Lia Lra ZifyBool ZifyNat Floats.SpecFloat.
From Flocq Require Import Core IEEE754.BinarySingleNaN.
From Verif Require Import Base Arith Util Device Workload SpecWorkload DepTracker Rates Stats Engine UtilProofs
  WorkloadProofs SpecTracker TrackerProofs DepGenProofs StepProofs SpecEngine SpecRates EngineProofs RunProofs DepFacts EngineFacts EngineFacts2 EngineFacts3 EngineFacts4 EngineFacts5
  RateFacts FloatProofs FloatProofs2 RateFloat RateFloat4 EngineRates SpecAlone AloneProofs BehindProofs SpecLoad LoadProofs LoadRun SpecPace GrowProofs.
Import ListNotations.
Local Open Scope list_scope.
Open Scope Z_scope.
Ltac Zify.zify_post_hook ::= idtac.

Lemma same_noc d (t t' : transfer (F f32A)) : same_packets t t' \/ one_packet t /\ one_packet t' -> sound_transfer t -> sound_transfer t' ->
  interpolateBW f32A (tbt f32A d) (max_noc_bandwidth f32A d) (t_psize t') (t_npkts t') = interpolateBW f32A (tbt f32A d) (max_noc_bandwidth f32A d) (t_psize t) (t_npkts t).
Proof.
  intros [[H1 H2]|[H1 H2]] (P & _) (P' & _).
  - rewrite H1, H2. reflexivity.
  - unfold one_packet in H1, H2. assert (Q : 1 <= @t_psize (F f32A) t) by exact (proj1 P). assert (Q' : 1 <= @t_psize (F f32A) t') by exact (proj1 P').
    rewrite H1, H2, (single_bw d _ Q), (single_bw d _ Q'). reflexivity.
Qed.
Lemma slower_bw d (t t' : transfer (F f32A)) b b' : same_packets t t' \/ one_packet t /\ one_packet t' -> SFltb (t_rate t) (t_rate t') = false -> sound_transfer t -> sound_transfer t' ->
  uncongested_bw f32A d t = Ok b -> uncongested_bw f32A d t' = Ok b' -> (vl b' <= vl b)%R.
Proof.
  intros N1 N3 HS HS' U U'. destruct (uncongested_ok d t HS) as (c & nb & U1 & I & Nn & _ & _ & _ & V). destruct (uncongested_ok d t' HS') as (c' & nb' & U1' & I' & _ & _ & _ & _ & V').
  pose proof (eq_trans (eq_sym U) U1) as Q. injection Q as ->. pose proof (eq_trans (eq_sym U') U1') as Q'. injection Q' as ->.
  pose proof (eq_trans (eq_trans (eq_sym I') (same_noc d t t' N1 HS HS')) I) as EN. injection EN as ->. rewrite V, V'.
  apply (ltb_vl_false prec32 emax32) in N3; [|apply number_nf; apply HS|apply number_nf; apply HS'].
  apply Rle_min_compat_r. exact N3.
Qed.
Theorem slower_not_earlier ord bord : bucket_order bord -> forall d cpt wl wl', proper wl -> proper wl' -> proper_cpt cpt -> cpt <= 2 ^ 20 ->
  Forall sound_transfer (all_transfers wl) -> Forall sound_transfer (all_transfers wl') ->
  forall s s', succeeds f32A ord bord d false cpt wl s -> succeeds f32A ord bord d false cpt wl' s' -> sm_curr f32A s < 2 ^ 24 -> sm_curr f32A s' < 2 ^ 24 ->
  forall i i' x x', nth_error (sm_sts f32A s) i = Some x -> nth_error (sm_sts f32A s') i' = Some x' ->
  (forall j dl, ~ waits f32A s i j dl) -> (forall j dl, ~ waits f32A s' i' j dl) -> no_faster (s_tr x) (s_tr x') ->
  s_start x' = s_start x /\ s_end x <= s_end x'.
Proof.
  intros BP d cpt wl wl' HW HW' HC C20 HF HF' s s' H H' K K' i i' x x' Hx Hx' NW NW' NS.
  destruct (free_dep ord bord BP d false cpt wl HW HC s i H NW) as (sts0 & E & HS & D). destruct (free_dep ord bord BP d false cpt wl' HW' HC s' i' H' NW') as (sts0' & E' & HS' & D').
  destruct (succeeds_end f32A ord bord d false cpt wl s H) as [(r & R & T) _]. destruct (succeeds_end f32A ord bord d false cpt wl' s' H') as [(r' & R' & T') _].
  pose proof (visited_transfer f32A ord bord BP d false cpt wl HW HC s i x (or_intror (ex_intro _ r (conj R T))) Hx) as Ht.
  pose proof (visited_transfer f32A ord bord BP d false cpt wl' HW' HC s' i' x' (or_intror (ex_intro _ r' (conj R' T'))) Hx') as Ht'.
  pose proof NS as (N1 & N2 & N3 & N4).
  assert (AL : forall t' t, nth_error (all_transfers wl') i' = Some t' -> nth_error (all_transfers wl) i = Some t -> t_off t = t_off t' /\ t_bytes t <= t_bytes t').
  { intros t' t E1 E2. pose proof (eq_trans (eq_sym E1) Ht') as Q1. pose proof (eq_trans (eq_sym E2) Ht) as Q2. injection Q1 as ->. injection Q2 as ->. auto. }
  destruct (later_end ord bord BP d cpt HC C20 false wl' HW' HF' sts0' E' HS' i' D' false wl HW HF sts0 E HS i D AL (nth_some_lt _ _ _ Ht') (nth_some_lt _ _ _ Ht)) with (s := s') (s' := s) (x := x') (x' := x) as [G1 G2]; try assumption; [|auto].
  intros n q' q q1' q1 B' B T1' T1 KQ P' P y' y Hy' Hy.
  pose proof (begins_reach f32A ord bord d false cpt wl _ _ B) as RB. pose proof (begins_reach f32A ord bord d false cpt wl' _ _ B') as RB'.
  destruct (bw_bounds ord bord BP d cpt HC false wl HW HF _ _ _ _ RB T1 P Hy) as (b & U & _ & _ & _ & F). destruct (bw_bounds ord bord BP d cpt HC false wl' HW' HF' _ _ _ _ RB' T1' P' Hy') as (b' & U' & _ & _ & _ & F').
  rewrite (F eq_refl), (F' eq_refl).
  pose proof (visited_transfer f32A ord bord BP d false cpt wl HW HC q1 i y (or_intror (ex_intro _ q (conj RB T1))) Hy) as W. pose proof (visited_transfer f32A ord bord BP d false cpt wl' HW' HC q1' i' y' (or_intror (ex_intro _ q' (conj RB' T1'))) Hy') as W'.
  pose proof (eq_trans (eq_sym W) Ht) as EY. pose proof (eq_trans (eq_sym W') Ht') as EY'. injection EY as EY. injection EY' as EY'. pose proof (eq_ind _ (fun t => uncongested_bw f32A d t = Ok b) U _ EY) as V. pose proof (eq_ind _ (fun t => uncongested_bw f32A d t = Ok b') U' _ EY') as V'. cbv beta in V, V'.
  rewrite Forall_forall in HF, HF'. exact (slower_bw d (s_tr x) (s_tr x') b b' N1 N3 (HF _ (nth_error_In _ _ Ht)) (HF' _ (nth_error_In _ _ Ht')) V V').
Qed.
Theorem slowed_not_less ord bord : bucket_order bord -> forall d cpt wl wl' f, proper wl -> proper wl' -> proper_cpt cpt -> cpt <= 2 ^ 20 ->
  Forall sound_transfer (all_transfers wl) -> Forall sound_transfer (all_transfers wl') -> slowed f wl wl' ->
  (forall id, getGoldenResultCycles wl' id = getGoldenResultCycles wl id) -> (forall id g, getGoldenResultCycles wl id = Ok g -> 0 <= fst g) ->
  forall stt stt', runSinglePerfSim f32A ord bord d "none" cpt wl = Ok (Stats stt) -> runSinglePerfSim f32A ord bord d "none" cpt wl' = Ok (Stats stt') ->
  (forall w s, w = wl \/ w = wl' -> succeeds f32A ord bord d false cpt w s -> sm_curr f32A s < 2 ^ 24 /\ forall i j dl, ~ waits f32A s i j dl) ->
  forall id ds ds', stats_get f32A stt id = Some ds -> stats_get f32A stt' id = Some ds' -> ds_est f32A ds <= ds_est f32A ds'.
Proof.
  intros BP d cpt wl wl' f HW HW' HC C20 HF HF' CT GE HG stt stt' H H' HSW id ds ds' G G'.
  destruct (estimated_cycles f32A ord bord BP d cpt wl HW HC _ stt H) as (s & S & E). destruct (estimated_cycles f32A ord bord BP d cpt wl' HW' HC _ stt' H') as (s' & S' & E').
  change (negb ("none" =? "none")%string) with false in S, S'.
  destruct (E id ds G) as (_ & g & Hg & EE). destruct (E' id ds' G') as (_ & g' & Hg' & EE'). assert (g' = g) by (pose proof (eq_trans (eq_sym (GE id)) Hg') as Q; pose proof (eq_trans (eq_sym Hg) Q) as Q'; injection Q'; auto). subst g'.
  destruct (HSW wl s (or_introl eq_refl) S) as [K NW]. destruct (HSW wl' s' (or_intror eq_refl) S') as [K' NW'].
  destruct (succeeds_end f32A ord bord d false cpt wl s S) as [(r & R & T) _]. destruct (succeeds_end f32A ord bord d false cpt wl' s' S') as [(r' & R' & T') _].
  apply (estimate_up id g (sm_sts f32A s) (sm_sts f32A s')); [|exact (EE (HG _ _ Hg))|exact (EE' (HG _ _ Hg))].
  intros e (i & x & Hx & C1 & C2 & ->).
  pose proof (visited_transfer f32A ord bord BP d false cpt wl HW HC s i x (or_intror (ex_intro _ r (conj R T))) Hx) as Ht. destruct (CT i _ Ht) as (t' & Ht' & RP).
  assert (Hlt : (f i < List.length (sm_sts f32A s'))%nat).
  { rewrite (proj1 (proj2 (proj2 (places f32A ord bord BP d false cpt wl' HW' HC s' (or_intror (ex_intro _ r' (conj R' T'))))))). eapply nth_some_lt. exact Ht'. }
  destruct (nth_lt_some _ _ Hlt) as [x' Hx']. pose proof (visited_transfer f32A ord bord BP d false cpt wl' HW' HC s' (f i) x' (or_intror (ex_intro _ r' (conj R' T'))) Hx') as Ht2.
  pose proof (eq_trans (eq_sym Ht') Ht2) as ET. injection ET as ET. rewrite ET in RP. destruct RP as (NF & R3). pose proof NF as (_ & _ & _ & R6).
  exists (s_end x'). split.
  - exists (f i), x'. split; [exact Hx'|]. split; [destruct C1 as [C1|C1]; [left; exact C1|right; exact (eq_trans C1 (eq_sym R3))]|]. split; [exact (eq_ind_r (fun q => fst g <= q <= snd g) C2 R6)|reflexivity].
  - apply (slower_not_earlier ord bord BP d cpt wl wl' HW HW' HC C20 HF HF' s s' S S' K K' i (f i) x x' Hx Hx' (NW i) (NW' (f i)) NF).
Qed.
