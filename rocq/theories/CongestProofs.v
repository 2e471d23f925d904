(* Congestion against no congestion (C89): a transfer that waits for nothing ends no earlier with congestion. *)
From Coq Require Import ZArith Arith Reals String List Bool Lia Lra ZifyBool ZifyNat Sorting.Permutation Sorting.Sorted Floats.SpecFloat.
From Flocq Require Import Core IEEE754.BinarySingleNaN.
From Verif Require Import Base Arith Util Device Workload SpecWorkload DepTracker Rates Stats Engine UtilProofs
  WorkloadProofs SpecTracker TrackerProofs DepGenProofs StepProofs SpecEngine SpecRates EngineProofs RunProofs DepFacts EngineFacts EngineFacts2 EngineFacts3 EngineFacts4 EngineFacts5
  RateFacts FloatProofs FloatProofs2 RateFloat RateFloat4 EngineRates EndFloat EndFloat2 SpecAlone AloneProofs BehindProofs.
Import ListNotations.
Local Open Scope list_scope.
Open Scope Z_scope.
Ltac Zify.zify_post_hook ::= idtac.

Theorem not_earlier ord bord : bucket_order bord -> forall d cpt wl, proper wl -> proper_cpt cpt -> cpt <= 2 ^ 20 -> Forall sound_transfer (all_transfers wl) ->
  forall s s', succeeds f32A ord bord d true cpt wl s -> succeeds f32A ord bord d false cpt wl s' -> sm_curr f32A s < 2 ^ 24 -> sm_curr f32A s' < 2 ^ 24 ->
  forall i x x', nth_error (sm_sts f32A s) i = Some x -> nth_error (sm_sts f32A s') i = Some x' -> (forall j dl, ~ waits f32A s i j dl) ->
  s_start x' = s_start x /\ s_end x' <= s_end x.
Proof.
  intros BP d cpt wl HW HC C20 HF s s' H H' K K' i x x' Hx Hx' NW.
  destruct (succeeds_end f32A ord bord d true cpt wl s H) as [(r & R & T) F].
  destruct (visited_facts f32A ord bord BP d true cpt wl HW HC s (or_intror (ex_intro _ r (conj R T)))) as (sts0 & E & h & fin & HS & HE & I & _).
  assert (D : dep_of E i = None).
  { destruct (dep_of E i) as [k|] eqn:Ek; [|reflexivity]. destruct (dep_edge E _ _ Ek) as (e & He & _). exfalso. apply (NW (e_parent e) (e_delay e)).
    apply (depends_iff f32A _ _ _ _ _ I HE). eauto 6. }
  assert (Hi : (i < List.length (all_transfers wl))%nat).
  { pose proof (visited_transfer f32A ord bord BP d true cpt wl HW HC s i x (or_intror (ex_intro _ r (conj R T))) Hx) as W. eapply nth_some_lt. exact W. }
  apply (later_end ord bord BP d cpt HC C20 true wl HW HF sts0 E HS i D false wl HW HF sts0 E HS i D) with (s := s) (s' := s'); try assumption.
  { intros t t' Ht Ht'. rewrite Ht in Ht'. injection Ht' as <-. split; [reflexivity|lia]. }
  intros n q q' q1 q1' B B' T1 T1' _ P P' y y' Hy Hy'.
  pose proof (begins_reach f32A ord bord d true cpt wl _ _ B) as RQ. pose proof (begins_reach f32A ord bord d false cpt wl _ _ B') as RQ'.
  destruct (bw_bounds ord bord BP d cpt HC true wl HW HF _ _ _ _ RQ T1 P Hy) as (b0 & B1 & B2 & B3 & B4 & _). destruct (bw_bounds ord bord BP d cpt HC false wl HW HF _ _ _ _ RQ' T1' P' Hy') as (b0' & B1' & B2' & B3' & B4' & B5').
  pose proof (visited_transfer f32A ord bord BP d true cpt wl HW HC q1 i y (or_intror (ex_intro _ q (conj RQ T1))) Hy) as W.
  pose proof (visited_transfer f32A ord bord BP d false cpt wl HW HC q1' i y' (or_intror (ex_intro _ q' (conj RQ' T1'))) Hy') as W'.
  assert (TE : s_tr y' = s_tr y) by congruence. rewrite TE, B1 in B1'. injection B1' as <-. rewrite (B5' eq_refl). exact B4.
Qed.

Lemma estimate_mono id g (sts sts' : list (tstate (F f32A))) est est' : List.length sts' = List.length sts ->
  (forall i x x', nth_error sts i = Some x -> nth_error sts' i = Some x' -> s_tr x' = s_tr x /\ s_end x' <= s_end x) ->
  estimate f32A id g sts est -> estimate f32A id g sts' est' -> est' <= est.
Proof.
  intros HL HX E E'.
  assert (UP : forall e', counted f32A id g sts' e' -> exists e, counted f32A id g sts e /\ e' <= e).
  { intros e' (i & x' & Hx' & H1 & H2 & ->). pose proof (nth_some_lt _ _ _ Hx') as Hlt. rewrite HL in Hlt. destruct (nth_lt_some _ _ Hlt) as [x Hx]. destruct (HX i x x' Hx Hx') as [T L].
    exists (s_end x). split; [|exact L]. exists i, x. rewrite <- T. auto. }
  destruct E' as [(w' & [_ W'] & L' & ->)|[_ ->]].
  - destruct (UP _ W') as (e & He & Le). destruct E as [(w & [W _] & _ & ->)|[W ->]]; [specialize (W _ He); lia|]. specialize (W _ He). lia.
  - destruct E as [(w & _ & L & ->)|[_ ->]]; lia.
Qed.

Theorem not_less ord bord : bucket_order bord -> forall d cpt wl, proper wl -> proper_cpt cpt -> cpt <= 2 ^ 20 -> Forall sound_transfer (all_transfers wl) ->
  (forall id g, getGoldenResultCycles wl id = Ok g -> 0 <= fst g) ->
  forall model stt stt', model <> "none"%string -> runSinglePerfSim f32A ord bord d model cpt wl = Ok (Stats stt) -> runSinglePerfSim f32A ord bord d "none" cpt wl = Ok (Stats stt') ->
  (forall s, succeeds f32A ord bord d true cpt wl s -> sm_curr f32A s < 2 ^ 24 /\ forall i j dl, ~ waits f32A s i j dl) ->
  (forall s, succeeds f32A ord bord d false cpt wl s -> sm_curr f32A s < 2 ^ 24) ->
  forall id ds ds', stats_get f32A stt id = Some ds -> stats_get f32A stt' id = Some ds' -> ds_est f32A ds' <= ds_est f32A ds.
Proof.
  intros BP d cpt wl HW HC C20 HF HG model stt stt' HM H H' HS HS' id ds ds' G G'.
  destruct (estimated_cycles f32A ord bord BP d cpt wl HW HC model stt H) as (s & S & E). destruct (estimated_cycles f32A ord bord BP d cpt wl HW HC "none" stt' H') as (s' & S' & E').
  destruct (String.eqb_spec model "none"); [contradiction|]. cbn [negb] in S. replace (negb ("none" =? "none")%string) with false in S' by reflexivity.
  destruct (E id ds G) as (_ & g & Hg & EE). destruct (E' id ds' G') as (_ & g' & Hg' & EE'). assert (g' = g) by congruence. subst g'.
  destruct (HS s S) as [K NW]. pose proof (HS' s' S') as K'.
  destruct (succeeds_end f32A ord bord d true cpt wl s S) as [(r & R & T) _]. destruct (succeeds_end f32A ord bord d false cpt wl s' S') as [(r' & R' & T') _].
  apply (estimate_mono id g (sm_sts f32A s) (sm_sts f32A s')); [| |exact (EE (HG _ _ Hg))|exact (EE' (HG _ _ Hg))].
  - rewrite (proj1 (proj2 (proj2 (places f32A ord bord BP d true cpt wl HW HC s (or_intror (ex_intro _ r (conj R T))))))).
    exact (proj1 (proj2 (proj2 (places f32A ord bord BP d false cpt wl HW HC s' (or_intror (ex_intro _ r' (conj R' T'))))))).
  - intros i x x' Hx Hx'. split.
    + pose proof (visited_transfer f32A ord bord BP d true cpt wl HW HC s i x (or_intror (ex_intro _ r (conj R T))) Hx). pose proof (visited_transfer f32A ord bord BP d false cpt wl HW HC s' i x' (or_intror (ex_intro _ r' (conj R' T'))) Hx'). congruence.
    + apply (not_earlier ord bord BP d cpt wl HW HC C20 HF s s' S S' K K' i x x' Hx Hx' (NW i)).
Qed.
