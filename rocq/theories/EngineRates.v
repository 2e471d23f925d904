(* The rates in the timesteps of a run (C39, C53). *)
From Coq Require Import ZArith Arith QArith String List Bool Lia ZifyBool ZifyNat Sorting.Permutation Sorting.Sorted Floats.SpecFloat.
From Verif Require Import Base Arith Util Device Workload SpecWorkload DepTracker Rates Stats Engine UtilProofs
  WorkloadProofs SpecTracker TrackerProofs DepGenProofs StepProofs SpecEngine SpecRates EngineProofs RunProofs DepFacts EngineFacts EngineFacts2 EngineFacts3 EngineFacts4 EngineFacts5
  RateFacts RateFloat4.
Import ListNotations.
Local Open Scope list_scope.
Open Scope Z_scope.
Ltac Zify.zify_post_hook ::= idtac.

Section Run.
  Context (A : arith) (ord : Z -> list Z -> list Z) (bord : list bucket -> list bucket) (bord_perm : bucket_order bord).
  Context (d : device) (congestion : bool) (cpt : Z) (wl : workload (F A)).
  Context (HW : proper wl) (HC : proper_cpt cpt).
  Notation state := (tstate (F A)).
  Notation reach := (reach A ord bord d congestion cpt wl).
  Notation visited := (visited A ord bord d congestion cpt wl).
  Notation step := (timestep A d congestion cpt wl).

  (* the rate computation of a timestep *)
  Lemma rate_round s s' : reach s -> step s = Ok s' -> exists sts1 sts2 live, NoDup live /\ (forall i, In i live <-> takes_part s s' i) /\
    computeCurrentTransferRate A d (sm_curr A s - cpt) (sm_curr A s) sts1 live (sm_grids A s) congestion = Ok (sts2, sm_grids A s') /\
    (forall i x1, In i live -> nth_error sts1 i = Some x1 -> 0 <= s_start x1 <= sm_curr A s /\ nth_error (all_transfers wl) i = Some (s_tr x1)) /\
    (forall i x', In i live -> nth_error (sm_sts A s') i = Some x' -> exists x2, nth_error sts2 i = Some x2 /\ s_tr x' = s_tr x2 /\ s_bw x' = s_bw x2 /\ s_start x' = s_start x2 /\ s_route x' = s_route x2).
  Proof.
    intros HR HT. destruct (reach_setup A ord bord bord_perm d congestion cpt wl HW s HR) as (sts0 & E & HS).
    destruct (step_inv A ord bord bord_perm d congestion cpt wl HW HC _ _ _ _ HS HR HT) as (fin & act & sts1 & sts2 & stt & I & SR & I').
    destruct (setup_ok A ord bord bord_perm d wl HW _ _ HS) as [HE HRa].
    destruct (reach_clock A ord bord bord_perm d congestion cpt wl HW HC s HR) as (K1 & K2 & K3).
    pose proof (part_ids _ _ _ _ _ _ I) as [ND IDS]. destruct SR as [S1 S2 S3 [S4 S4'] S5 [S6 S6'] S7 S8 S9]. pose proof (rates_frame _ _ _ _ _ _ _ _ _ _ S5) as [F1 F2].
    assert (NDL : NoDup (sm_live A s ++ act)).
    { apply (Permutation_NoDup (l := act ++ sm_live A s)); [apply Permutation_app_comm|]. apply (NoDup_app_l _ (map snd (sm_queue A s') ++ fin)).
      eapply Permutation_NoDup; [|exact ND]. rewrite S3. rewrite <- !app_assoc. apply Permutation_app_head. rewrite !app_assoc. apply Permutation_app_tail. apply Permutation_app_comm. }
    exists sts1, sts2, (sm_live A s ++ act). split; [exact NDL|]. split; [|split; [|split]].
    - intros i. rewrite in_app_iff. unfold takes_part, is_live, is_queued.
      assert (EA : In i act <-> In i (map snd (sm_queue A s)) /\ ~ In i (map snd (sm_queue A s'))); [|rewrite EA; reflexivity].
      assert (NDQ : NoDup (act ++ map snd (sm_queue A s'))) by (eapply Permutation_NoDup; [exact S3|]; eapply NoDup_app_l; exact ND).
      split.
      + intros Ha. split; [apply S2; assumption|]. exact (NoDup_app_not _ _ _ NDQ Ha).
      + intros [Hq Hn]. eapply Permutation_in in Hq; [|exact S3]. apply in_app_or in Hq as [Hq|Hq]; [assumption|contradiction].
    - rewrite <- K1 at 1. exact S5.
    - intros i x1 Hin Hx1. pose proof (nth_some_lt _ _ _ Hx1) as Hlt. rewrite S4 in Hlt. destruct (nth_lt_some _ _ Hlt) as [x Hx]. pose proof (S4' _ _ Hx) as E1. assert (EX : x1 = if in_dec Nat.eq_dec i act then activated A (sm_trk A s) x else x) by congruence.
      destruct (F2 _ _ Hx1) as (b & Hx2 & _). destruct (S6' _ _ Hx2) as [L1 _]. destruct (L1 Hin) as (x' & Hadv & Hx'). pose proof (adv_static _ _ _ _ _ _ _ Hadv) as ((T1 & _) & TS & _). cbn [with_bw s_tr s_start] in T1, TS.
      assert (Hi' : In i (sm_live A s' ++ fin ++ filter (complete A (sm_sts A s')) (sm_live A s ++ act))).
      { rewrite !in_app_iff, S7, !filter_In. destruct (complete A (sm_sts A s') i) eqn:EC; cbn [negb]; tauto. }
      destruct (inv_started _ _ _ _ _ _ I' i x' Hi' Hx') as (SO & Sle & _). destruct (inv_static _ _ _ _ _ _ I) as [_ HST].
      pose proof (static_ranges A sts0 E HRa i x (HST _ _ Hx)) as (HO & _).
      assert (ET : s_tr x1 = s_tr x) by (subst x1; destruct (in_dec _ _ _); [apply (activated_fields A (sm_trk A s) x)|reflexivity]).
      split.
      + rewrite <- TS. split; [|assumption]. unfold start_ok in SO. rewrite SO, T1, ET. destruct (dep_of E i) as [k|]; [|lia]. destruct (nth_error E k); lia.
      + rewrite ET. apply (visited_transfer A ord bord bord_perm d congestion cpt wl HW HC s i x); [left; assumption|assumption].
    - intros i x' Hin Hx'. pose proof (nth_some_lt _ _ _ Hx') as Hlt. rewrite S6 in Hlt. destruct (nth_lt_some _ _ Hlt) as [x2 Hx2]. destruct (S6' _ _ Hx2) as [L1 _]. destruct (L1 Hin) as (y & Hadv & Hy).
      assert (y = x') by congruence. subst y. pose proof (adv_static _ _ _ _ _ _ _ Hadv) as ((T1 & T2 & T3 & T4) & TS & TB). exists x2. repeat split; try assumption.
  Qed.

  (** * C53 *)
  Theorem free_rates s s' : congestion = false -> reach s -> step s = Ok s' -> forall i x, takes_part s s' i -> nth_error (sm_sts A s') i = Some x ->
    exists noc, interpolateBW A (tbt A d) (max_noc_bandwidth A d) (t_psize (s_tr x)) (t_npkts (s_tr x)) = Ok noc /\ s_bw x = f_fmin A (t_rate (s_tr x)) noc.
  Proof.
    intros EC HR HT i x Hp Hx. destruct (rate_round s s' HR HT) as (sts1 & sts2 & live & ND & HM & HRT & _ & HX). apply HM in Hp. destruct (HX i x Hp Hx) as (x2 & Hx2 & -> & -> & _ & _).
    apply rate_spec in HRT as (_ & _ & HI); [|assumption]. destruct (HI i Hp) as (x1 & b0 & b & Hx1 & Hb0 & Hx2' & Hb). rewrite EC in Hb. subst b. rewrite Hx2 in Hx2'. injection Hx2' as ->. cbn [with_bw s_tr s_bw].
    unfold uncongested_bw in Hb0. apply bind_ok in Hb0 as (noc & Hn & Hb0). injection Hb0 as <-. eauto.
  Qed.
  Theorem free_demand s : congestion = false -> visited s -> sm_grids A s = zero_grids A d.
  Proof.
    intros EC V. assert (R : forall s, reach s -> sm_grids A s = zero_grids A d).
    { clear s V. intros s HR. induction HR as [s H|s s' HR IH HT HF HM].
      - destruct (sim_init_eq A ord bord bord_perm d cpt wl HW _ H) as (sts1 & E1 & _ & ->). reflexivity.
      - cbn [advance sm_grids]. destruct (rate_round s s' HR HT) as (sts1 & sts2 & live & ND & HM' & HRT & _). rewrite EC in HRT. unfold computeCurrentTransferRate in HRT. apply bind_ok in HRT as (u & _ & HRT). injection HRT as _ <-. assumption. }
    destruct V as [HR|(s0 & HR & HT)]; [auto|]. destruct (rate_round s0 s HR HT) as (sts1 & sts2 & live & ND & HM' & HRT & _). rewrite EC in HRT. unfold computeCurrentTransferRate in HRT. apply bind_ok in HRT as (u & _ & HRT). injection HRT as _ <-. auto.
  Qed.
End Run.

(** * C39 *)
Theorem run_rates ord bord : bucket_order bord -> forall d congestion cpt wl, proper wl -> proper_cpt cpt -> Forall sound_transfer (all_transfers wl) ->
  forall s s', reach f32A ord bord d congestion cpt wl s -> timestep f32A d congestion cpt wl s = Ok s' ->
  forall i x, takes_part s s' i -> nth_error (sm_sts f32A s') i = Some x -> number (s_bw x) /\ le_float (s_bw x) (t_rate (s_tr x)).
Proof.
  intros HB d congestion cpt wl HW HC HF s s' HR HT i x Hp Hx. destruct (rate_round f32A ord bord HB d congestion cpt wl HW HC s s' HR HT) as (sts1 & sts2 & live & ND & HM & HRT & HST & HX).
  apply HM in Hp. destruct (HX i x Hp Hx) as (x2 & Hx2 & -> & -> & _ & _). destruct (reach_clock f32A ord bord HB d congestion cpt wl HW HC s HR) as (_ & K2 & K3). pose proof HC as [HC1 HC2].
  eapply rates_bounded; [| |exact HRT|exact Hp|exact Hx2].
  - split; lia.
  - split; [assumption|]. intros j x1 Hj Hx1. destruct (HST j x1 Hj Hx1) as [HS1 HS2]. split; [|exact HS1]. rewrite Forall_forall in HF. apply HF. eapply nth_error_In. exact HS2.
Qed.
