(* A transfer that is asked for later, in one of two runs without congestion (C96). The transfer waits for nothing. *)
From Coq Require Import ZArith Arith Reals String List Bool Lia Lra ZifyBool ZifyNat Floats.SpecFloat.
From Flocq Require Import Core IEEE754.BinarySingleNaN.
From Verif Require Import Base Arith Util Device Workload SpecWorkload DepTracker Rates Stats Engine UtilProofs
  WorkloadProofs SpecTracker TrackerProofs DepGenProofs StepProofs SpecEngine SpecRates EngineProofs RunProofs DepFacts EngineFacts EngineFacts2 EngineFacts3 EngineFacts4 EngineFacts5
  RateFacts FloatProofs FloatProofs2 RateFloat RateFloat4 EngineRates EndFloat EndFloat2 EngineFloat SpecAlone AloneProofs BehindProofs SpecLoad LoadProofs LoadRun SpecPace GrowProofs PaceProofs.
Import ListNotations.
Local Open Scope list_scope.
Open Scope Z_scope.
Ltac Zify.zify_post_hook ::= idtac.

(* more cycles and more bandwidth give more bytes *)
Lemma bytes_mono2 bw bw' c c' m m' : nnf prec32 emax32 bw -> nnf prec32 emax32 bw' -> (vl bw' <= vl bw)%R -> 0 <= c' <= c /\ c < 2 ^ 34 ->
  f_to_uint f32A 64 (SFmul prec32 emax32 (ofz c) bw) = Ok m -> f_to_uint f32A 64 (SFmul prec32 emax32 (ofz c') bw') = Ok m' -> 0 <= m' <= m.
Proof.
  intros N N' L [Hc Hc2] Hm Hm'. destruct (ofz_up c ltac:(lia)) as (NC & EC & UC). destruct (ofz_up c' ltac:(lia)) as (NC' & EC' & UC').
  destruct (mul_nneg prec32 emax32 _ _ _ _ NC N) as [NM EM]. destruct (to_uint_ok _ _ _ NM Hm) as [Vm FM]. rewrite (nnf_cl prec32 emax32 _ FM) in EM.
  destruct (mul_nneg prec32 emax32 _ _ _ _ NC' N') as [NM' EM']. destruct (to_uint_ok _ _ _ NM' Hm') as [Vm' FM']. rewrite (nnf_cl prec32 emax32 _ FM') in EM'.
  pose proof (nnf_lt prec32 emax32 _ NC') as [PC _]. pose proof (nnf_lt prec32 emax32 _ FM') as [PM _]. pose proof (nnf_lt prec32 emax32 _ N') as [PN _].
  split; [rewrite Vm'; apply Zfloor_lub; exact PM|]. rewrite Vm, Vm'. apply Zfloor_le. rewrite EM, EM'.
  assert (CC : (vl (ofz c') <= vl (ofz c))%R) by (rewrite EC, EC'; apply (rnd_le prec32 emax32 _); apply IZR_le; lia).
  apply Rle_min_compat_r. apply (rnd_le prec32 emax32 _). apply Rmult_le_compat; assumption.
Qed.

Section Late.
  Context (ord : Z -> list Z -> list Z) (bord : list bucket -> list bucket) (BP : bucket_order bord).
  Context (d : device) (cpt : Z) (HC : proper_cpt cpt) (C20 : cpt <= 2 ^ 20).
  Notation A := f32A.
  Notation state := (tstate (F A)).
  (* the slower run and the transfer in it *)
  Context (c : bool) (wl : workload (F f32A)) (HW : proper wl) (HF : Forall sound_transfer (all_transfers wl)).
  Context (sts0 : list state) (E : list edge) (HS : setup A ord bord d wl sts0 E) (i : nat) (D : dep_of E i = None).
  (* the faster run and the transfer in it *)
  Context (c' : bool) (wl' : workload (F f32A)) (HW' : proper wl') (HF' : Forall sound_transfer (all_transfers wl')).
  Context (sts0' : list state) (E' : list edge) (HS' : setup A ord bord d wl' sts0' E') (i' : nat) (D' : dep_of E' i' = None).
  Context (AL : forall t t', nth_error (all_transfers wl) i = Some t -> nth_error (all_transfers wl') i' = Some t' -> t_off t' <= t_off t /\ t_bytes t' <= t_bytes t /\ 0 < t_bytes t).
  Context (Hi : (i < List.length (all_transfers wl))%nat) (Hi' : (i' < List.length (all_transfers wl'))%nat).
  Notation reach := (reach A ord bord d).
  Notation begins := (begins A ord bord d).
  Notation step := (timestep A d).
  Notation late_step := (late_step ord bord BP d cpt HC C20 c wl HW HF sts0 E HS i D).
  Notation late_begins := (late_begins ord bord BP d cpt HC C20 c wl HW HF sts0 E HS i D).

  (* where the two runs stand after the same number of timesteps *)
  Definition standing_late (u : Z) (s s' : sim A) : Prop :=
    exists x x', nth_error (sm_sts A s) i = Some x /\ nth_error (sm_sts A s') i' = Some x' /\
      0 <= s_done x <= t_bytes (s_tr x) - (t_bytes (s_tr x') - s_done x') /\ 0 <= s_done x' <= t_bytes (s_tr x') /\
      (is_queued A s' i' -> is_queued A s i) /\ (is_live A s' i' -> is_live A s i \/ is_queued A s i) /\
      (~ is_finished A s i -> s_done x <> t_bytes (s_tr x)) /\
      (is_finished A s' i' -> s_done x' = t_bytes (s_tr x') /\ (~ is_finished A s i -> s_end x' <= u)) /\
      (is_finished A s i -> s_end x' <= s_end x).
  Definition behind_late (s s' : sim A) : Prop := standing_late (sm_curr A s - cpt + 1) s s'.
  (* a timestep gives the transfer no more bandwidth in the slower run *)
  Definition slow_step (s s' s1 s1' : sim A) : Prop :=
    takes_part s s1 i -> takes_part s' s1' i' -> forall y y', nth_error (sm_sts A s1) i = Some y -> nth_error (sm_sts A s1') i' = Some y' -> (vl (s_bw y) <= vl (s_bw y'))%R.

  Lemma late_init s s' : sim_init A ord bord d cpt wl = Ok s -> sim_init A ord bord d cpt wl' = Ok s' -> behind_late s s'.
  Proof.
    intros H H'. destruct (queued_init ord bord BP d cpt HC wl i wl' i' Hi Hi' wl s sts0 E i HW HS H Hi) as (x & Hx & Tx & Q & L & X1 & X2 & X3). destruct (queued_init ord bord BP d cpt HC wl i wl' i' Hi Hi' wl' s' sts0' E' i' HW' HS' H' Hi') as (x' & Hx' & Tx' & Q' & L' & X1' & X2' & X3').
    exists x, x'. split; [exact Hx|]. split; [exact Hx'|]. destruct (AL _ _ Tx Tx') as (AO & AB & AP). split; [lia|]. split; [lia|]. split; [tauto|]. split; [tauto|]. split; [lia|].
    split; intros (_ & NQ & _); contradiction.
  Qed.

  Lemma delay_step n s s' s1 s1' : begins c cpt wl n s -> begins c' cpt wl' n s' -> step c cpt wl s = Ok s1 -> step c' cpt wl' s' = Ok s1' -> sm_curr A s < 2 ^ 24 ->
    behind_late s s' -> slow_step s s' s1 s1' -> standing_late (sm_curr A s + 1) s1 s1'.
  Proof.
    intros B B' T T' K24 (x & x' & Hx & Hx' & G1 & G2 & Q & L & LD & FN & FC) NF.
    pose proof (begins_reach A ord bord d c cpt wl _ _ B) as R. pose proof (begins_reach A ord bord d c' cpt wl' _ _ B') as R'.
    assert (EC : sm_curr A s' = sm_curr A s).
    { destruct (begins_time A ord bord BP d c cpt wl HW HC n s B) as [-> _]. destruct (begins_time A ord bord BP d c' cpt wl' HW' HC n s' B') as [-> _]. reflexivity. }
    destruct (reach_clock A ord bord BP d c cpt wl HW HC s R) as (_ & K2 & K3). pose proof HC as [HC1 HC2].
    pose proof (visited_transfer A ord bord BP d c cpt wl HW HC s i x (or_introl R) Hx) as V. pose proof (visited_transfer A ord bord BP d c' cpt wl' HW' HC s' i' x' (or_introl R') Hx') as V'.
    destruct (AL _ _ V V') as (VO & VB & VP). pose proof HW as [_ HRG]. rewrite Forall_forall in HRG. destruct (HRG _ (nth_error_In _ _ V)) as (T1 & T2 & _).
    pose proof HW' as [_ HRG']. rewrite Forall_forall in HRG'. destruct (HRG' _ (nth_error_In _ _ V')) as (T1' & T2' & _).
    destruct (own_step A ord bord BP d c cpt wl HW HC _ _ _ _ _ _ HS R T Hx) as (y & Hy & Y1 & Y2 & Y3 & Y4).
    destruct (own_step A ord bord BP d c' cpt wl' HW' HC _ _ _ _ _ _ HS' R' T' Hx') as (y' & Hy' & Z1 & Z2 & Z3 & Z4).
    assert (ME : forall r c, met A E r i c) by (intros r k0 k e Hk; congruence).
    assert (ME' : forall r c, met A E' r i' c) by (intros r k0 k e Hk; congruence).
    assert (PN : forall sts, parent_of A E sts i = None) by (intros sts; unfold parent_of; rewrite D; reflexivity).
    assert (PN' : forall sts, parent_of A E' sts i' = None) by (intros sts; unfold parent_of; rewrite D'; reflexivity).
    rewrite PN in Y2. rewrite PN' in Z2. cbn [own_start] in Y2, Z2. rewrite EC in Z1, Z2.
    assert (QQ : is_queued A s1' i' -> is_queued A s1 i). { rewrite Y1, Z1. intros [Hq Hn]. split; [exact (Q Hq)|]. intros [Ho _]. apply Hn. split; [lia|apply ME']. }
    (* what a step does *)
    assert (ST1 : s_tr y = s_tr x). { pose proof (visited_transfer A ord bord BP d c cpt wl HW HC s1 i y (or_intror (ex_intro _ s (conj R T))) Hy) as W. congruence. }
    assert (ST1' : s_tr y' = s_tr x'). { pose proof (visited_transfer A ord bord BP d c' cpt wl' HW' HC s1' i' y' (or_intror (ex_intro _ s' (conj R' T'))) Hy') as W. congruence. }
    assert (SX : takes_part s s1 i -> t_off (s_tr x) <= sm_curr A s).
    { intros P. rewrite <- ST1. exact (due ord bord BP d cpt HC c wl HW sts0 E HS i D s s1 y R T P Hy). }
    assert (SX' : takes_part s' s1' i' -> t_off (s_tr x') <= sm_curr A s).
    { intros P. rewrite <- ST1', <- EC. exact (due ord bord BP d cpt HC c' wl' HW' sts0' E' HS' i' D' s' s1' y' R' T' P Hy'). }
    assert (BW : takes_part s s1 i -> takes_part s' s1' i' -> nf32 (s_bw y) /\ nf32 (s_bw y') /\ (vl (s_bw y) <= vl (s_bw y'))%R).
    { intros P P'. destruct (bw_bounds ord bord BP d cpt HC c wl HW HF _ _ _ _ R T P Hy) as (_ & _ & _ & B3 & _). destruct (bw_bounds ord bord BP d cpt HC c' wl' HW' HF' _ _ _ _ R' T' P' Hy') as (_ & _ & _ & B3' & _).
      split; [exact B3|]. split; [exact B3'|]. exact (NF P P' y y' Hy Hy'). }
    assert (N64 : forall b q m, f_to_uint A b q = Ok m -> 0 <= m).
    { intros b q m. unfold f_to_uint. destruct (f_trunc A q) as [z|]; [|discriminate]. destruct ((0 <=? z) && (z <? 2 ^ b)) eqn:EE; [|discriminate]. intros Hz. injection Hz as <-. lia. }
    assert (FIN : forall s0 : sim A, List.length (sm_sts A s0) = List.length (sm_sts A s) -> (is_finished A s0 i <-> ~ is_queued A s0 i /\ ~ is_live A s0 i)).
    { intros s0 H0. unfold is_finished. rewrite H0. pose proof (nth_some_lt _ _ _ Hx). tauto. }
    assert (FIN' : forall s0 : sim A, List.length (sm_sts A s0) = List.length (sm_sts A s') -> (is_finished A s0 i' <-> ~ is_queued A s0 i' /\ ~ is_live A s0 i')).
    { intros s0 H0. unfold is_finished. rewrite H0. pose proof (nth_some_lt _ _ _ Hx'). tauto. }
    assert (LN2 : List.length (sm_sts A s1) = List.length (sm_sts A s)).
    { rewrite (proj1 (proj2 (proj2 (places A ord bord BP d c cpt wl HW HC s (or_introl R))))). exact (proj1 (proj2 (proj2 (places A ord bord BP d c cpt wl HW HC s1 (or_intror (ex_intro _ s (conj R T))))))). }
    assert (LN3 : List.length (sm_sts A s1') = List.length (sm_sts A s')).
    { rewrite (proj1 (proj2 (proj2 (places A ord bord BP d c' cpt wl' HW' HC s' (or_introl R'))))). exact (proj1 (proj2 (proj2 (places A ord bord BP d c' cpt wl' HW' HC s1' (or_intror (ex_intro _ s' (conj R' T'))))))). }
    assert (RC : 0 < cpt <= 2 ^ 20) by (clear - HC1 C20; lia). assert (RK : cpt <= sm_curr A s < 2 ^ 24) by (clear - K2 K24; lia).
    assert (RD : 0 <= s_done x <= t_bytes (s_tr x)) by (clear - G1 G2; lia). assert (RB : t_bytes (s_tr x) < 2 ^ 32) by (clear - T2; lia). assert (RB' : t_bytes (s_tr x') < 2 ^ 32) by (clear - T2'; lia).
    assert (RP : 0 <= t_bytes (s_tr x') <= t_bytes (s_tr x)) by (clear - T2' VB; lia).
    rewrite (FIN' s' eq_refl) in FN. rewrite (FIN s eq_refl) in FN, FC, LD.
    exists y, y'. split; [exact Hy|]. split; [exact Hy'|]. rewrite ST1, ST1', (FIN s1 LN2), (FIN' s1' LN3).
    destruct (tp_dec i s s1) as [P|P].
    - (* the transfer is in the slower run *)
      pose proof (SX P) as SO. assert (RS : 0 <= t_off (s_tr x) <= sm_curr A s) by (clear - T1 SO; lia). destruct (Y2 P) as (_ & S1 & A1).
      destruct (bw_bounds ord bord BP d cpt HC c wl HW HF _ _ _ _ R T P Hy) as (b0 & _ & _ & NB & _).
      rewrite S1 in A1. destruct (adv_free cpt (sm_curr A s) (t_off (s_tr x)) (s_bw y) (t_bytes (s_tr x)) (s_done x) (s_done y) (s_end y) NB RC RS RK RD RB A1) as (m & Hm & M).
      destruct (M (N64 _ _ _ Hm)) as (M1 & M2 & M3). pose proof (N64 _ _ _ Hm) as M0.
      assert (NQ1 : ~ is_queued A s1 i). { rewrite Y1. intros [Hq Hn]. pose proof (ME s (sm_curr A s)). tauto. }
      destruct (tp_dec i' s' s1') as [P'|P'].
      + pose proof (SX' P') as SO'. assert (RS' : 0 <= t_off (s_tr x') <= sm_curr A s) by (clear - T1' SO'; lia). destruct (Z2 P') as (_ & S1' & A1'). destruct (BW P P') as (_ & NB' & LB). rewrite S1' in A1'.
        destruct (adv_free cpt (sm_curr A s) (t_off (s_tr x')) (s_bw y') (t_bytes (s_tr x')) (s_done x') (s_done y') (s_end y') NB' RC RS' RK G2 RB' A1') as (m' & Hm' & M').
        destruct (M' (N64 _ _ _ Hm')) as (M1' & M2' & M3'). pose proof (N64 _ _ _ Hm') as M0'.
        assert (CB : 0 <= Z.min cpt (sm_curr A s - t_off (s_tr x)) <= Z.min cpt (sm_curr A s - t_off (s_tr x')) /\ Z.min cpt (sm_curr A s - t_off (s_tr x')) < 2 ^ 34).
        { clear - HC1 C20 SO SO' VO. change (2 ^ 34) with 17179869184. change (2 ^ 20) with 1048576 in C20. revert HC1 C20 SO SO' VO. generalize (t_off (s_tr x)) (t_off (s_tr x')) (sm_curr A s). intros. lia. }
        pose proof (bytes_mono2 (s_bw y') (s_bw y) (Z.min cpt (sm_curr A s - t_off (s_tr x'))) (Z.min cpt (sm_curr A s - t_off (s_tr x))) m' m NB' NB LB CB Hm' Hm) as MM.
        destruct (both_advance _ _ _ _ _ _ _ _ G1 G2 MM M1 M1') as (N1 & N2 & N3 & N4 & N5).
        rewrite Y4, Z4. split; [exact N1|]. split; [exact N2|]. split; [exact QQ|]. split; [intros [_ Hl]; left; split; [exact P|exact (N4 Hl)]|]. split; [tauto|]. split.
        * intros [_ Hf]. assert (DB : s_done y' = t_bytes (s_tr x')) by (destruct (Z.eq_dec (s_done y') (t_bytes (s_tr x'))); [assumption|tauto]). split; [exact DB|]. intros _. destruct (M2' DB) as (_ & _ & U & _). exact U.
        * intros [_ Hf]. assert (DB : s_done y = t_bytes (s_tr x)) by (destruct (Z.eq_dec (s_done y) (t_bytes (s_tr x))); [assumption|tauto]). destruct (M2 DB) as (PB & E1 & _).
          pose proof (N3 DB) as DB'. destruct (M2' DB') as (_ & E1' & _).
          rewrite E1, E1'. apply Z.add_le_mono; [clear - VO; lia|]. apply cycles_mono; [exact N5|]. split; [exact PB|exact LB].
      + (* finished in the faster run *)
        destruct (Z3 P') as (D1 & D2 & D3).
        assert (NQ' : ~ is_queued A s' i' /\ ~ is_live A s' i').
        { unfold takes_part in P'. split; [|tauto]. intros Hq. apply P'. right. split; [exact Hq|]. intros Hq1. apply NQ1, QQ, Hq1. }
        assert (NFS : ~ (~ is_queued A s i /\ ~ is_live A s i)) by (unfold takes_part in P; tauto).
        destruct (FN NQ') as [F1 F2]. pose proof (F2 NFS) as F3. pose proof (LD NFS) as LD'.
        rewrite Y4, Z4. split; [rewrite D2, F1; exact (one_advance _ _ _ _ _ RD RP M0 M1)|]. split; [rewrite D2; exact G2|]. split; [exact QQ|]. split; [tauto|]. split; [tauto|]. split.
        * intros _. split; [congruence|]. intros _. rewrite D3. clear - F3 RC; lia.
        * intros [_ Hf]. assert (DB : s_done y = t_bytes (s_tr x)) by (destruct (Z.eq_dec (s_done y) (t_bytes (s_tr x))); [assumption|tauto]). destruct (M2 DB) as (_ & _ & _ & U). assert (LT : s_done x < t_bytes (s_tr x)) by (clear - LD' RD; lia). pose proof (U LT) as U'. rewrite D3. clear - U' F3; lia.
    - (* not in the slower run *)
      destruct (Y3 P) as (D1 & D2 & D3).
      destruct (tp_dec i' s' s1') as [P'|P'].
      + (* not asked for yet *)
        assert (NFS : ~ (~ is_queued A s i /\ ~ is_live A s i)) by (unfold takes_part in P'; tauto).
        assert (QS : is_queued A s i /\ is_queued A s1 i).
        { assert (Hq : is_queued A s i) by (unfold takes_part in P, P'; tauto). split; [exact Hq|]. unfold is_queued, takes_part in *. destruct (in_dec Nat.eq_dec i (map snd (sm_queue A s1))); tauto. }
        pose proof (SX' P') as SO'. assert (RS' : 0 <= t_off (s_tr x') <= sm_curr A s) by (clear - T1' SO'; lia). destruct (Z2 P') as (_ & S1' & A1'). destruct (bw_bounds ord bord BP d cpt HC c' wl' HW' HF' _ _ _ _ R' T' P' Hy') as (b0 & _ & _ & NB' & _). rewrite S1' in A1'.
        destruct (adv_free cpt (sm_curr A s) (t_off (s_tr x')) (s_bw y') (t_bytes (s_tr x')) (s_done x') (s_done y') (s_end y') NB' RC RS' RK G2 RB' A1') as (m' & Hm' & M').
        destruct (M' (N64 _ _ _ Hm')) as (M1' & M2' & M3'). pose proof (N64 _ _ _ Hm') as M0'. pose proof (LD NFS) as LD'.
        rewrite D2, Y4, Z4. split; [clear - G1 G2 M0' M1'; lia|]. split; [clear - G2 M0' M1'; lia|]. split; [intros _; exact (proj2 QS)|]. split; [intros _; right; exact (proj2 QS)|]. split; [intros _; exact LD'|]. split; [|intros [Hq _]; exfalso; apply Hq; exact (proj2 QS)].
        intros [_ Hf]. assert (DB : s_done y' = t_bytes (s_tr x')) by (destruct (Z.eq_dec (s_done y') (t_bytes (s_tr x'))); [assumption|tauto]). split; [exact DB|]. intros _. destruct (M2' DB) as (_ & _ & U & _). exact U.
      + destruct (Z3 P') as (D1' & D2' & D3'). rewrite Y4, Z4, D2, D3, D2', D3'.
        assert (OLD : ~ is_queued A s1 i -> ~ is_queued A s i /\ ~ is_live A s i) by (unfold takes_part in P; tauto).
        assert (OLD' : ~ is_queued A s1' i' -> ~ is_queued A s' i' /\ ~ is_live A s' i') by (unfold takes_part in P'; tauto).
        assert (KQ : is_queued A s1 i -> is_queued A s i) by (rewrite Y1; tauto).
        split; [exact G1|]. split; [exact G2|]. split; [exact QQ|]. split; [tauto|].
        split; [intros NFI; apply LD; intros [N1 N2]; apply NFI; tauto|]. split.
        * intros [Hq _]. destruct (FN (OLD' Hq)) as [F1 F2]. split; [exact F1|]. intros NFI. assert (NFS : ~ (~ is_queued A s i /\ ~ is_live A s i)) by tauto. pose proof (F2 NFS) as F3. clear - F3 RC; lia.
        * intros [Hq _]. exact (FC (OLD Hq)).
  Qed.

  Context (SL : forall n s s' s1 s1', begins c cpt wl n s -> begins c' cpt wl' n s' -> step c cpt wl s = Ok s1 -> step c' cpt wl' s' = Ok s1' -> sm_curr A s < 2 ^ 24 -> slow_step s s' s1 s1').
  Lemma delay_begins n : forall s s', begins c cpt wl n s -> begins c' cpt wl' n s' -> sm_curr A s < 2 ^ 24 -> behind_late s s'.
  Proof.
    induction n as [|n IH]; intros s s' B B' K; [inversion B|]. inversion B as [? H0|n1 r r1 B0 T F M]; subst; inversion B' as [? H0'|n1' r' r1' B0' T' F' M']; subst.
    - apply late_init; assumption.
    - inversion B0'.
    - inversion B0.
    - destruct (begins_time A ord bord BP d c cpt wl HW HC _ _ B) as [K1 _]. destruct (begins_time A ord bord BP d c cpt wl HW HC _ _ B0) as [K0 _]. pose proof HC as [HC1 HC2].
      assert (K' : sm_curr A r < 2 ^ 24) by (rewrite K0; rewrite K1 in K; nia).
      unfold behind_late. replace (sm_curr A (advance A cpt r1) - cpt + 1) with (sm_curr A r + 1) by (rewrite K1, K0; nia).
      destruct (delay_step n r r' r1 r1' B0 B0' T T' K' (IH r r' B0 B0' K') (SL n r r' r1 r1' B0 B0' T T' K')) as (x & x' & G). exists x, x'. exact G.
  Qed.

  Theorem delayed_end s s' x x' : succeeds A ord bord d c cpt wl s -> succeeds A ord bord d c' cpt wl' s' -> sm_curr A s < 2 ^ 24 -> sm_curr A s' < 2 ^ 24 ->
    nth_error (sm_sts A s) i = Some x -> nth_error (sm_sts A s') i' = Some x' -> s_end x' <= s_end x.
  Proof.
    intros H H' K K' Hx Hx'.
    destruct (succeeds_end A ord bord d c cpt wl s H) as [(r & R & T) F]. destruct (succeeds_end A ord bord d c' cpt wl' s' H') as [(r' & R' & T') F'].
    rewrite (step_curr A d c cpt wl _ _ T) in K. rewrite (step_curr A d c' cpt wl' _ _ T') in K'.
    destruct (reach_begins A ord bord d c cpt wl r R) as [n B]. destruct (reach_begins A ord bord d c' cpt wl' r' R') as [m B'].
    assert (ALL : forall j (q : sim A), finished A q = true -> (j < List.length (sm_sts A q))%nat -> is_finished A q j).
    { intros j q Fq Hq. destruct (finished_all A _ Fq) as [L Q]. split; [exact Hq|]. unfold is_queued, is_live. rewrite L, Q. split; intros []. }
    pose proof (ALL i s F (nth_some_lt _ _ _ Hx)) as FI. pose proof (ALL i' s' F' (nth_some_lt _ _ _ Hx')) as FI'. pose proof HC as [HC1 HC2].
    assert (N1 : (1 <= n)%nat) by (destruct n; [inversion B|lia]). assert (M1 : (1 <= m)%nat) by (destruct m; [inversion B'|lia]).
    destruct (Nat.le_gt_cases n m) as [L|L].
    - destruct (begins_before A ord bord d c' cpt wl' n m r' B' ltac:(lia)) as (q & BQ & HN).
      assert (HR : exists q1, step c' cpt wl' q = Ok q1 /\ ((n < m)%nat \/ q1 = s')).
      { destruct (Nat.eq_dec n m) as [<-|Hne].
        - pose proof (begins_fun A ord bord d c' cpt wl' _ _ _ BQ B'). subst q. eauto.
        - destruct (HN ltac:(lia)) as (q1 & Hq1 & _). exists q1. split; [exact Hq1|left; lia]. }
      destruct HR as (q1 & Hq1 & HR).
      destruct (delay_step n r q s q1 B BQ T Hq1 K (delay_begins n r q B BQ K) (SL n r q s q1 B BQ T Hq1 K)) as (y & y' & Hy & Hy' & _ & _ & GQ & GL & _ & _ & GE).
      assert (y = x) by congruence. subst y. specialize (GE FI).
      assert (FQ : is_finished A q1 i'). { split; [eapply nth_some_lt; exact Hy'|]. destruct FI as (_ & NQ & NL). tauto. }
      destruct HR as [HR|HR]; [|subst q1].
      + destruct (finished_later A ord bord BP d c' cpt wl' HW' HC _ _ n m r' HS' B' q q1 BQ Hq1 HR i' y' Hy' FQ) as (FI2 & z & Hz & Z1 & Z2).
        destruct (finished_keeps A ord bord BP d c' cpt wl' HW' HC _ _ r' s' i' z HS' R' T' Hz FI2) as (_ & w & Hw & W1 & W2). assert (w = x') by congruence. subst w. rewrite W2, Z2. exact GE.
      + assert (y' = x') by congruence. subst y'. exact GE.
    - destruct (begins_before A ord bord d c cpt wl m n r B ltac:(lia)) as (q & BQ & HN). destruct (HN L) as (q1 & Hq1 & _).
      destruct (begins_time A ord bord BP d c cpt wl HW HC _ _ B) as [KB _]. destruct (begins_time A ord bord BP d c cpt wl HW HC _ _ BQ) as [KQ _].
      assert (KQ' : sm_curr A q < 2 ^ 24) by (rewrite KQ; rewrite KB in K; nia).
      destruct (delay_step m q r' q1 s' BQ B' Hq1 T' KQ' (delay_begins m q r' BQ B' KQ') (SL m q r' q1 s' BQ B' Hq1 T' KQ')) as (y & y' & Hy & Hy' & GD & GB & GQ & _ & GN & GF & GE).
      assert (y' = x') by congruence. subst y'. destruct (GF FI') as [_ GV].
      destruct (in_dec Nat.eq_dec i (map snd (sm_queue A q1))) as [Q1|NQ].
      { (* asked for after the other has ended *)
        pose proof (begins_reach A ord bord d c cpt wl _ _ BQ) as RQ.
        assert (V : s_end x' <= sm_curr A q + 1) by (apply GV; intros (_ & NQ & _); contradiction).
        assert (Hlq : (i < List.length (sm_sts A q))%nat).
        { pose proof (visited_transfer A ord bord BP d c cpt wl HW HC q1 i y (or_intror (ex_intro _ q (conj RQ Hq1))) Hy) as W. rewrite (proj1 (proj2 (proj2 (places A ord bord BP d c cpt wl HW HC q (or_introl RQ))))). eapply nth_some_lt. exact W. }
        destruct (nth_lt_some _ _ Hlq) as [w Hw]. destruct (own_step A ord bord BP d c cpt wl HW HC _ _ _ _ _ _ HS RQ Hq1 Hw) as (y1 & Hy1 & Y1 & _).
        assert (OFF : sm_curr A q < t_off (s_tr w)).
        { assert (Q2 : is_queued A q1 i) by exact Q1. apply Y1 in Q2 as [_ Hn]. destruct (Z.le_gt_cases (t_off (s_tr w)) (sm_curr A q)) as [Ho|Ho]; [|exact Ho]. exfalso. apply Hn. split; [exact Ho|]. intros k0 k e Hk. congruence. }
        assert (VS : visited A ord bord d c cpt wl s) by (right; exists r; auto).
        pose proof (visited_transfer A ord bord BP d c cpt wl HW HC s i x VS Hx) as Wx. pose proof (visited_transfer A ord bord BP d c cpt wl HW HC q i w (or_introl RQ) Hw) as Ww.
        assert (EW : s_tr x = s_tr w) by congruence.
        pose proof (start_free ord bord BP d cpt HC c wl HW sts0 E HS i D s x VS Hx (or_intror FI)) as SF. rewrite EW in SF.
        destruct (credit_bounded A ord bord BP d c cpt wl HW HC s i x (ex_intro _ r (conj R T)) Hx (or_intror FI)) as (_ & _ & _ & _ & SC).
        rewrite (step_curr A d c cpt wl _ _ T) in SC.
        destruct (end_after_start ord bord BP d c cpt wl HW HC HF s i x ltac:(change (2 ^ 20) with 1048576 in C20; change (2 ^ 30) with 1073741824; lia) VS FI Hx) as [_ EA].
        pose proof (EA ltac:(lia)) as EA'. lia. }
      destruct (in_dec Nat.eq_dec i (sm_live A q1)) as [LV|NL].
      + assert (LV' : is_live A q1 i) by exact LV.
        assert (V : s_end x' <= sm_curr A q + 1) by (apply GV; intros (_ & _ & NL); contradiction).
        destruct (late_begins m (s_end x') n r B q q1 y BQ Hq1 L K Hy LV' ltac:(lia) (GN ltac:(intros (_ & _ & NL); contradiction)) V) as (V1 & z & Hz & Tz & Dz & C).
        destruct C as [[LZ NZ]|[FZ VZ]].
        * rewrite <- Tz in Dz, NZ. destruct (late_step r s z (s_end x') R T K Hz LZ Dz NZ V1) as (w & Hw & _ & _ & [[LW _]|[_ VW]]); [exfalso; apply FI; exact LW|]. assert (w = x) by congruence. subst w. exact VW.
        * destruct (finished_keeps A ord bord BP d c cpt wl HW HC _ _ r s i z HS R T Hz FZ) as (_ & w & Hw & _ & W2). assert (w = x) by congruence. subst w. rewrite W2. exact VZ.
      + assert (FQ : is_finished A q1 i) by (split; [eapply nth_some_lt; exact Hy|auto]). specialize (GE FQ).
        destruct (finished_later A ord bord BP d c cpt wl HW HC _ _ m n r HS B q q1 BQ Hq1 L i y Hy FQ) as (FI2 & z & Hz & Z1 & Z2).
        destruct (finished_keeps A ord bord BP d c cpt wl HW HC _ _ r s i z HS R T Hz FI2) as (_ & w & Hw & W1 & W2). assert (w = x) by congruence. subst w. rewrite W2, Z2. exact GE.
  Qed.
End Late.

(** * Any two transfers *)
Theorem delayed_not_earlier ord bord : bucket_order bord -> forall d cpt wl wl', proper wl -> proper wl' -> proper_cpt cpt -> cpt <= 2 ^ 20 ->
  Forall sound_transfer (all_transfers wl) -> Forall sound_transfer (all_transfers wl') ->
  forall s s', succeeds f32A ord bord d false cpt wl s -> succeeds f32A ord bord d false cpt wl' s' -> sm_curr f32A s < 2 ^ 24 -> sm_curr f32A s' < 2 ^ 24 ->
  forall i i' x x', nth_error (sm_sts f32A s) i = Some x -> nth_error (sm_sts f32A s') i' = Some x' ->
  (forall j dl, ~ waits f32A s i j dl) -> (forall j dl, ~ waits f32A s' i' j dl) -> no_sooner (s_tr x) (s_tr x') ->
  s_start x <= s_start x' /\ s_end x <= s_end x'.
Proof.
  intros BP d cpt wl wl' HW HW' HC C20 HF HF' s s' H H' K K' i i' x x' Hx Hx' NW NW' NS.
  destruct (free_dep ord bord BP d false cpt wl HW HC s i H NW) as (sts0 & E & HS & D). destruct (free_dep ord bord BP d false cpt wl' HW' HC s' i' H' NW') as (sts0' & E' & HS' & D').
  destruct (succeeds_end f32A ord bord d false cpt wl s H) as [(r & R & T) F]. destruct (succeeds_end f32A ord bord d false cpt wl' s' H') as [(r' & R' & T') F'].
  assert (VS : visited f32A ord bord d false cpt wl s) by (right; exists r; auto). assert (VS' : visited f32A ord bord d false cpt wl' s') by (right; exists r'; auto).
  pose proof (visited_transfer f32A ord bord BP d false cpt wl HW HC s i x VS Hx) as Ht. pose proof (visited_transfer f32A ord bord BP d false cpt wl' HW' HC s' i' x' VS' Hx') as Ht'.
  pose proof NS as (N1 & N2 & N3 & N4 & N5).
  assert (ALL : forall j (q : sim f32A), finished f32A q = true -> (j < List.length (sm_sts f32A q))%nat -> has_started f32A q j).
  { intros j q Fq Hq. right. destruct (finished_all f32A _ Fq) as [L Q]. split; [exact Hq|]. unfold is_queued, is_live. rewrite L, Q. split; intros []. }
  split.
  { rewrite (start_free ord bord BP d cpt HC false wl HW sts0 E HS i D s x VS Hx (ALL i s F (nth_some_lt _ _ _ Hx))).
    rewrite (start_free ord bord BP d cpt HC false wl' HW' sts0' E' HS' i' D' s' x' VS' Hx' (ALL i' s' F' (nth_some_lt _ _ _ Hx'))). exact N5. }
  assert (AL : forall t' t, nth_error (all_transfers wl') i' = Some t' -> nth_error (all_transfers wl) i = Some t -> t_off t <= t_off t' /\ t_bytes t <= t_bytes t' /\ 0 < t_bytes t').
  { intros t' t E1 E2. pose proof (eq_trans (eq_sym E1) Ht') as Q1. pose proof (eq_trans (eq_sym E2) Ht) as Q2. injection Q1 as ->. injection Q2 as ->. auto. }
  apply (delayed_end ord bord BP d cpt HC C20 false wl' HW' HF' sts0' E' HS' i' D' false wl HW HF sts0 E HS i D AL (nth_some_lt _ _ _ Ht') (nth_some_lt _ _ _ Ht)) with (s := s') (s' := s); try assumption.
  intros n q' q q1' q1 B' B T1' T1 KQ P' P y' y Hy' Hy.
  pose proof (begins_reach f32A ord bord d false cpt wl _ _ B) as RB. pose proof (begins_reach f32A ord bord d false cpt wl' _ _ B') as RB'.
  destruct (bw_bounds ord bord BP d cpt HC false wl HW HF _ _ _ _ RB T1 P Hy) as (b & U & _ & _ & _ & FB). destruct (bw_bounds ord bord BP d cpt HC false wl' HW' HF' _ _ _ _ RB' T1' P' Hy') as (b' & U' & _ & _ & _ & FB').
  rewrite (FB eq_refl), (FB' eq_refl).
  pose proof (visited_transfer f32A ord bord BP d false cpt wl HW HC q1 i y (or_intror (ex_intro _ q (conj RB T1))) Hy) as W. pose proof (visited_transfer f32A ord bord BP d false cpt wl' HW' HC q1' i' y' (or_intror (ex_intro _ q' (conj RB' T1'))) Hy') as W'.
  pose proof (eq_trans (eq_sym W) Ht) as EY. pose proof (eq_trans (eq_sym W') Ht') as EY'. injection EY as EY. injection EY' as EY'. pose proof (eq_ind _ (fun t => uncongested_bw f32A d t = Ok b) U _ EY) as V. pose proof (eq_ind _ (fun t => uncongested_bw f32A d t = Ok b') U' _ EY') as V'. cbv beta in V, V'.
  rewrite Forall_forall in HF, HF'. exact (slower_bw d (s_tr x) (s_tr x') b b' N1 N4 (HF _ (nth_error_In _ _ Ht)) (HF' _ (nth_error_In _ _ Ht')) V V').
Qed.
