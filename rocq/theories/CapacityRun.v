(* The capacities in the timesteps of a run (C40). *)
From Coq Require Import ZArith Arith Reals Lra Lia Bool List String Sorting.Permutation Floats.SpecFloat.
From Flocq Require Import Core IEEE754.BinarySingleNaN.
From Verif Require Import Base Arith Util Device Workload Rates Stats Engine SpecWorkload SpecEngine SpecRates RunProofs EngineFacts EngineFacts2 EngineFacts3 EngineFacts4 EngineFacts5 RateFacts RateFloat3 EngineRates CapacityFloat CapacityFloat2.
Import ListNotations.
Local Open Scope list_scope.
Open Scope Z_scope.

Lemma load_perm st en times sts l l' : Permutation l l' -> float_load st en times sts l = float_load st en times sts l'.
Proof.
  intros H. induction H as [|i l l' _ IH|i j l|l1 l2 l3 _ IH1 _ IH2]; cbn [float_load fold_right]; [reflexivity| | |congruence].
  - fold (float_load st en times sts l). fold (float_load st en times sts l'). rewrite IH. reflexivity.
  - destruct (nth_error sts i), (nth_error sts j); lra.
Qed.
Lemma uses_perm times sts l l' : Permutation l l' -> uses times sts l = uses times sts l'.
Proof.
  intros H. induction H as [|i l l' _ IH|i j l|l1 l2 l3 _ IH1 _ IH2]; cbn [uses fold_right]; [reflexivity| | |congruence].
  - fold (uses times sts l). fold (uses times sts l'). rewrite IH. reflexivity.
  - destruct (nth_error sts i), (nth_error sts j); lia.
Qed.
Definition alike (x y : tstate spec_float) : Prop := s_tr x = s_tr y /\ s_bw x = s_bw y /\ s_start x = s_start y /\ s_route x = s_route y.
Lemma load_alike st en times sts sts' live : (forall x y, alike x y -> times x = times y) -> (forall i, In i live -> exists x y, nth_error sts i = Some x /\ nth_error sts' i = Some y /\ alike x y) ->
  float_load st en times sts live = float_load st en times sts' live /\ uses times sts live = uses times sts' live.
Proof.
  intros HT. induction live as [|i live IH]; intros H; [split; reflexivity|]. destruct IH as [I1 I2]; [intros j Hj; apply H; right; exact Hj|]. destruct (H i (or_introl eq_refl)) as (x & y & Hx & Hy & HA).
  cbn [float_load uses fold_right]. fold (float_load st en times sts live). fold (float_load st en times sts' live). fold (uses times sts live). fold (uses times sts' live). rewrite Hx, Hy, I1, I2, (HT x y HA). destruct HA as (_ & E2 & E3 & _). unfold part. rewrite E2, E3. split; reflexivity.
Qed.
Section Run.
  Context (ord : Z -> list Z -> list Z) (bord : list bucket -> list bucket) (bord_perm : bucket_order bord).
  Context (d : device) (cpt : Z) (wl : workload spec_float).
  Context (HW : proper wl) (HC : proper_cpt cpt) (HF : Forall sound_transfer (all_transfers wl)).
  Context (s s' : sim f32A) (HR : reach f32A ord bord d true cpt wl s) (HT : timestep f32A d true cpt wl s = Ok s').
  Context (live : list nat) (ND : NoDup live) (HM : forall i, In i live <-> takes_part s s' i).

  (* the states of the timestep differ from those of the rate computation in nothing that counts *)
  Lemma round_load : exists sts1 sts2 live1, Permutation live1 live /\ timestep_window (sm_curr f32A s - cpt) (sm_curr f32A s) /\ sound_live (sm_curr f32A s) sts1 live1 /\
    computeCurrentTransferRate f32A d (sm_curr f32A s - cpt) (sm_curr f32A s) sts1 live1 (sm_grids f32A s) true = Ok (sts2, sm_grids f32A s') /\
    forall i, In i live1 -> exists x y : tstate spec_float, nth_error (sm_sts f32A s') i = Some x /\ nth_error sts2 i = Some y /\ alike x y.
  Proof.
    destruct (rate_round f32A ord bord bord_perm d true cpt wl HW HC s s' HR HT) as (sts1 & sts2 & live1 & ND1 & HM1 & HRT & HST & HX). exists sts1, sts2, live1.
    destruct (reach_clock f32A ord bord bord_perm d true cpt wl HW HC s HR) as (_ & K2 & K3). pose proof HC as [HC1 HC2].
    assert (W : timestep_window (sm_curr f32A s - cpt) (sm_curr f32A s)) by (split; lia).
    assert (SL : sound_live (sm_curr f32A s) sts1 live1) by (split; [assumption|]; intros j x1 Hj Hx1; destruct (HST j x1 Hj Hx1) as [HS1 HS2]; split; [|exact HS1]; rewrite Forall_forall in HF; apply HF; eapply nth_error_In; exact HS2).
    split; [apply NoDup_Permutation; [assumption|assumption|]; intros i; rewrite HM; apply HM1|]. split; [exact W|]. split; [exact SL|]. split; [exact HRT|].
    intros i Hi. apply rate_spec in HRT as (_ & _ & HI); [|assumption]. destruct (HI i Hi) as (x1 & b0 & b & Hx1 & _). destruct (HST i x1 Hi Hx1) as [_ HA].
    assert (HLen : List.length (sm_sts f32A s') = List.length (all_transfers wl)).
    { apply (places f32A ord bord bord_perm d true cpt wl HW HC s'). right. exists s. split; assumption. }
    assert (Hlt : (i < List.length (sm_sts f32A s'))%nat) by (rewrite HLen; apply nth_error_Some; intros C; pose proof (eq_trans (eq_sym HA) C) as CC; discriminate CC).
    apply nth_error_Some in Hlt. destruct (nth_error (sm_sts f32A s') i) as [x|] eqn:Hx; [|congruence]. destruct (HX i x Hi Hx) as (x2 & Hx2 & E1 & E2 & E3 & E4). exists x, x2. split; [reflexivity|]. split; [exact Hx2|]. unfold alike. auto.
  Qed.
  Theorem run_links l : (float_load (sm_curr f32A s - cpt) (sm_curr f32A s) (crosses l) (sm_sts f32A s') live <= real (link_bandwidth f32A d) * (1 + ww) ^ (uses (crosses l) (sm_sts f32A s') live + 1))%R.
  Proof.
    destruct round_load as (sts1 & sts2 & live1 & HP & W & SL & HRT & HX). rewrite <- (load_perm _ _ _ _ _ _ HP), <- (uses_perm _ _ _ _ HP).
    destruct (load_alike (sm_curr f32A s - cpt) (sm_curr f32A s) (crosses l) (sm_sts f32A s') sts2 live1) as [-> ->]; [intros x y (_ & _ & _ & E); unfold crosses; rewrite E; reflexivity|exact HX|]. exact (links d _ _ _ _ _ _ _ W SL HRT l).
  Qed.
  Theorem run_sources c n rate : (0 <= rate)%R -> (forall i x, takes_part s s' i -> nth_error (sm_sts f32A s') i = Some x -> leaves c n x = 1%nat -> (real (t_rate (s_tr x)) <= rate)%R) ->
    (float_load (sm_curr f32A s - cpt) (sm_curr f32A s) (leaves c n) (sm_sts f32A s') live <=
     rate * (1 + ww) ^ (uses (leaves c n) (sm_sts f32A s') live + 1) + INR (uses (leaves c n) (sm_sts f32A s') live) * bpow radix2 (-138))%R.
  Proof.
    intros H0 H1. destruct round_load as (sts1 & sts2 & live1 & HP & W & SL & HRT & HX). rewrite <- (load_perm _ _ _ _ _ _ HP), <- (uses_perm _ _ _ _ HP).
    destruct (load_alike (sm_curr f32A s - cpt) (sm_curr f32A s) (leaves c n) (sm_sts f32A s') sts2 live1) as [-> ->]; [intros x y (E & _); unfold leaves; rewrite E; reflexivity|exact HX|].
    apply (sources d _ _ _ _ _ _ _ W SL HRT c n rate H0). intros i y Hi Hy HL. destruct (HX i Hi) as (x & y' & Hx & Hy' & (E & _)). change (F f32A) with spec_float in *. rewrite Hy in Hy'. injection Hy' as <-. rewrite <- E. apply (H1 i x); [apply HM; eapply Permutation_in; eassumption|exact Hx|].
    unfold leaves in *. rewrite E. exact HL.
  Qed.
  Theorem run_sinks c n ty : getCoreType d c = Ok ty ->
    (float_load (sm_curr f32A s - cpt) (sm_curr f32A s) (enters c n) (sm_sts f32A s') live <= real (abs_rate f32A d ty) * (1 + ww) ^ (uses (enters c n) (sm_sts f32A s') live + 1))%R.
  Proof.
    intros H. destruct round_load as (sts1 & sts2 & live1 & HP & W & SL & HRT & HX). rewrite <- (load_perm _ _ _ _ _ _ HP), <- (uses_perm _ _ _ _ HP).
    destruct (load_alike (sm_curr f32A s - cpt) (sm_curr f32A s) (enters c n) (sm_sts f32A s') sts2 live1) as [-> ->]; [intros x y (E & _); unfold enters; rewrite E; reflexivity|exact HX|]. exact (sinks d _ _ _ _ _ _ _ W SL HRT c n ty H).
  Qed.
End Run.
