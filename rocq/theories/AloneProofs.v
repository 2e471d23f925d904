(* Without congestion the course of a transfer depends only on its own request and on what it waits for (C88). *)
From Coq Require Import ZArith Arith QArith String List Bool Lia ZifyBool ZifyNat Sorting.Permutation Sorting.Sorted Floats.SpecFloat.
From Verif Require Import Base Arith Util Device Workload SpecWorkload DepTracker Rates Stats Engine UtilProofs
  WorkloadProofs SpecTracker TrackerProofs DepGenProofs StepProofs SpecEngine SpecRates EngineProofs RunProofs DepFacts EngineFacts EngineFacts2 EngineFacts3 EngineFacts4 EngineFacts5
  RateFacts EngineRates SpecAlone.
Import ListNotations.
Local Open Scope list_scope.
Open Scope Z_scope.
Ltac Zify.zify_post_hook ::= idtac.

(** * One run, one transfer *)
Section Own.
  Context (A : arith).
  Notation state := (tstate (F A)).
  (* the end of what a transfer waits for, and the delay *)
  Definition parent_of (E : list edge) (sts : list state) (i : nat) : option (Z * Z) :=
    match dep_of E i with
    | None => None
    | Some k => match nth_error E k with Some e => Some (end_at A sts (e_parent e), e_delay e) | None => None end
    end.
  Definition own_start (off : Z) (p : option (Z * Z)) : Z := match p with None => off | Some (e, dl) => Z.max off (u32 (e + dl)) end.
  Definition own_credit (cpt curr sot : Z) (p : option (Z * Z)) (st : Z) : outcome Z :=
    let base := Z.min cpt (u32 (curr - st)) in
    match p with
    | None => Ok base
    | Some (e, _) =>
        if (st <? sot) && ((u64 (sot - cpt) <=? e) && (e <? sot)) then
          let c := u32 (curr - Z.max st e) in
          let! _ := tt_assert (cpt <=? c) in
          let! _ := tt_assert (c <=? u32 (2 * cpt)) in
          Ok c
        else Ok base
    end.
  Definition own_adv (cpt curr sot : Z) (p : option (Z * Z)) (st : Z) (bw : F A) (bytes dn : Z) : outcome (Z * Z) :=
    let! c := own_credit cpt curr sot p st in
    let! mb := f_to_uint A 64 (f_mul A (f_ofZ A c) bw) in
    let b := Z.min (u64 (bytes - dn)) mb in
    if bytes =? u64 (dn + b) then
      let! e := f_to_uint A 64 (f_add A (f_ofZ A (Z.max st sot)) (f_ceil A (f_div A (f_ofZ A b) bw))) in Ok (u64 (dn + b), u32 e)
    else Ok (u64 (dn + b), 0).
  Lemma adv_own cpt curr sot tk x x' p : adv A cpt curr sot tk x = Ok x' -> s_end x = 0 ->
    match p with
    | None => s_dep x = None
    | Some (e, _) => exists k c, s_dep x = Some k /\ nth_error tk k = Some c /\ cp_end c = e
    end ->
    own_adv cpt curr sot p (s_start x) (s_bw x) (t_bytes (s_tr x)) (s_done x) = Ok (s_done x', s_end x').
  Proof.
    intros H H0 Hp. unfold adv in H. unfold own_adv. replace (own_credit cpt curr sot p (s_start x)) with (credited_cycles A cpt curr sot tk x).
    2:{ unfold credited_cycles, own_credit. destruct p as [[e dl]|].
        - destruct Hp as (k & c & -> & Hk & <-). unfold end_cycle, cp_at. rewrite Hk. reflexivity.
        - rewrite Hp. reflexivity. }
    apply bind_ok in H as (c & -> & H). cbn [bind]. apply bind_ok in H as (mb & -> & H). cbn [bind].
    destruct (_ =? _); [apply bind_ok in H as (e & -> & H)|]; injection H as <-; cbn [bind with_end with_done s_done s_end]; [reflexivity|]. rewrite H0. reflexivity.
  Qed.

  Context (ord : Z -> list Z -> list Z) (bord : list bucket -> list bucket) (bord_perm : bucket_order bord).
  Context (d : device) (congestion : bool) (cpt : Z) (wl : workload (F A)).
  Context (HW : proper wl) (HC : proper_cpt cpt).
  Notation reach := (reach A ord bord d congestion cpt wl).
  Notation begins := (begins A ord bord d congestion cpt wl).
  Notation setup := (setup A ord bord d wl).
  Notation step := (timestep A d congestion cpt wl).

  Definition met (E : list edge) (s : sim A) (i : nat) (c : Z) : Prop :=
    forall k e, dep_of E i = Some k -> nth_error E k = Some e -> is_finished A s (e_parent e) /\
      exists y, nth_error (sm_sts A s) (e_parent e) = Some y /\ u32 (s_end y + e_delay e) <= c.

  Lemma own_step sts0 E s s' i x : setup sts0 E -> reach s -> step s = Ok s' -> nth_error (sm_sts A s) i = Some x ->
    exists x', nth_error (sm_sts A s') i = Some x' /\
      (is_queued A s' i <-> is_queued A s i /\ ~ (t_off (s_tr x) <= sm_curr A s /\ met E s i (sm_curr A s))) /\
      (takes_part s s' i -> s_tr x' = s_tr x /\ s_start x' = own_start (t_off (s_tr x)) (parent_of E (sm_sts A s) i) /\
        own_adv cpt (sm_curr A s) (sm_curr A s - cpt) (parent_of E (sm_sts A s) i) (s_start x') (s_bw x')
          (t_bytes (s_tr x)) (s_done x) = Ok (s_done x', s_end x')) /\
      (~ takes_part s s' i -> s_start x' = s_start x /\ s_done x' = s_done x /\ s_end x' = s_end x) /\
      (is_live A s' i <-> takes_part s s' i /\ s_done x' <> t_bytes (s_tr x)).
  Proof.
    intros HS HR HT Hx.
    destruct (setup_ok A ord bord bord_perm d wl HW _ _ HS) as [HE HRa].
    destruct (reach_clock A ord bord bord_perm d congestion cpt wl HW HC s HR) as (K1 & K2 & K3).
    destruct (step_inv A ord bord bord_perm d congestion cpt wl HW HC _ _ _ _ HS HR HT) as (fin & act & sts1 & sts2 & stt & I & SR & I').
    pose proof (finished_spec A ord cpt _ _ _ _ _ I) as HFN.
    pose proof (activation_exact A ord bord bord_perm d congestion cpt wl HW HC s s' HR HT i) as AE.
    pose proof (places_move A ord bord bord_perm d congestion cpt wl HW HC s s' HR HT i) as (_ & _ & PQ).
    assert (FM : fulfilled A s i (sm_curr A s) <-> met E s i (sm_curr A s)).
    { pose proof (depends_iff A _ _ _ _ _ I HE i) as DI. unfold fulfilled, met. split; intros H.
      - intros k e Hk He. apply H. apply DI. eauto 6.
      - intros j dl HD. apply DI in HD as (k & e & Hk & He & <- & <-). apply (H k e Hk He). }
    pose proof (part_ids _ _ _ _ _ _ I) as [ND IDS]. pose proof (part_ids _ _ _ _ _ _ I') as [ND' IDS'].
    destruct SR as [S1 S2 S3 [S4 S4'] S5 [S6 S6'] S7 S8 S9]. pose proof (rates_frame _ _ _ _ _ _ _ _ _ _ S5) as [F1 F2].
    pose proof (S4' _ _ Hx) as Hx1. destruct (F2 _ _ Hx1) as (b & Hx2 & Fb). destruct (S6' _ _ Hx2) as [L1 L2].
    destruct (inv_static _ _ _ _ _ _ I) as [HLen HST].
    assert (TP : takes_part s s' i <-> In i (sm_live A s ++ act)).
    { rewrite in_app_iff. unfold takes_part, is_live, is_queued.
      assert (EA : In i act <-> In i (map snd (sm_queue A s)) /\ ~ In i (map snd (sm_queue A s'))); [|rewrite EA; reflexivity].
      assert (NDQ : NoDup (act ++ map snd (sm_queue A s'))) by (eapply Permutation_NoDup; [exact S3|]; eapply NoDup_app_l; exact ND).
      split.
      - intros Ha. split; [apply S2; assumption|]. exact (NoDup_app_not _ _ _ NDQ Ha).
      - intros [Hq Hn]. eapply Permutation_in in Hq; [|exact S3]. apply in_app_or in Hq as [Hq|Hq]; [assumption|contradiction]. }
    assert (QQ : is_queued A s' i <-> is_queued A s i /\ ~ (t_off (s_tr x) <= sm_curr A s /\ met E s i (sm_curr A s))).
    { rewrite <- FM. split.
      - intros Hq. split; [apply PQ; exact Hq|]. intros [Ho Hm]. destruct (proj2 AE) as [_ N]; [|apply N; exact Hq]. split; [apply PQ; exact Hq|]. eauto.
      - intros [Hq Hn]. destruct (in_dec Nat.eq_dec i (map snd (sm_queue A s'))) as [H|H]; [exact H|]. exfalso. apply Hn.
        destruct (proj1 AE (conj Hq H)) as (_ & y & Hy & Ho & Hm). assert (y = x) by congruence. subst y. auto. }
    destruct (in_dec Nat.eq_dec i (sm_live A s ++ act)) as [Hin|Hin].
    - destruct (L1 Hin) as (x' & Hadv & Hx'). exists x'. split; [exact Hx'|]. split; [exact QQ|].
      pose proof (adv_static _ _ _ _ _ _ _ Hadv) as ((T1 & T2 & T3 & T4) & TS & TB).
      cbn [with_bw s_tr s_req s_dep s_route s_start s_bw] in T1, T2, T3, T4, TS, TB.
      set (x1 := if in_dec Nat.eq_dec i act then activated A (sm_trk A s) x else x) in *.
      assert (EQ : s_tr x1 = s_tr x /\ s_done x1 = s_done x /\ s_dep x1 = s_dep x /\ s_end x1 = s_end x).
      { unfold x1. destruct (in_dec _ _ _); [|auto]. unfold activated. destruct (s_dep x) as [k|] eqn:Ed; [|auto]. destruct (nth_error (sm_trk A s) k); cbn [with_start s_tr s_done s_dep s_end]; auto. }
      destruct EQ as (E1 & E2 & E3 & E4).
      assert (EN : s_end x = 0).
      { apply in_app_or in Hin as [Hin|Hin]; [apply (inv_live _ _ _ _ _ _ I i x Hin Hx)|]. apply S2 in Hin as [Hq _]. apply in_map_iff in Hq as (p & Hp & Hq).
        destruct (inv_queue _ _ _ _ _ _ I p Hq) as (y & Hy & _ & _ & _ & Hz). rewrite Hp in Hy. assert (y = x) by congruence. subst y. exact Hz. }
      assert (HPI : parent_in E fin i).
      { apply in_app_or in Hin as [Hin|Hin].
        - apply (inv_started _ _ _ _ _ _ I i x); [apply in_or_app; auto|assumption].
        - apply S2 in Hin as (_ & y & Hy & _ & Hr). rewrite (inv_trk _ _ _ _ _ _ I) in Hr. eapply ready_parent; [|exact Hr]. apply HST. assumption. }
      split; [|split].
      + intros Ht. split; [congruence|]. destruct (HST _ _ Hx) as (x0 & _ & _ & _ & _ & Dx).
        assert (SS : s_start x' = own_start (t_off (s_tr x)) (parent_of E (sm_sts A s) i)).
        { assert (Hi' : In i (sm_live A s' ++ fin ++ filter (complete A (sm_sts A s')) (sm_live A s ++ act))).
          { rewrite !in_app_iff, S7, !filter_In. destruct (complete A (sm_sts A s') i) eqn:EC; cbn [negb]; rewrite in_app_iff in Hin; tauto. }
          destruct (inv_started _ _ _ _ _ _ I' i x' Hi' Hx') as (SO & _). unfold start_ok in SO. rewrite SO, T1, E1. unfold own_start, parent_of.
          destruct (dep_of E i) as [k|] eqn:Ek; [|reflexivity]. destruct (nth_error E k) as [e|] eqn:Ee; [|reflexivity].
          replace (end_at A (sm_sts A s') (e_parent e)) with (end_at A (sm_sts A s) (e_parent e)); [reflexivity|].
          pose proof (HPI k e Ek Ee) as Hf. unfold end_at.
          assert (Hnot : ~ In (e_parent e) (sm_live A s ++ act)).
          { intros Hl. apply in_app_or in Hl as [Hl|Hl].
            - apply NoDup_app_r in ND. exact (NoDup_app_not _ _ _ ND Hl Hf).
            - apply S2 in Hl as [Hq _]. eapply NoDup_app_not; [exact ND|exact Hq|]. apply in_or_app; auto. }
          destruct (nth_error (sm_sts A s) (e_parent e)) as [y|] eqn:Ey.
          - pose proof (S4' _ _ Ey) as Hy1. destruct (F2 _ _ Hy1) as (b' & Hy2 & _). destruct (S6' _ _ Hy2) as [_ M2]. rewrite (M2 Hnot). cbn [with_bw s_end].
            rewrite if_not_in by (intros Hn'; apply Hnot, in_or_app; auto). reflexivity.
          - replace (nth_error (sm_sts A s') (e_parent e)) with (@None state); [reflexivity|]. symmetry. apply nth_error_None. apply nth_error_None in Ey. lia. }
        split; [exact SS|]. rewrite K1 in Hadv. apply (adv_own _ _ _ _ _ _ (parent_of E (sm_sts A s) i)) in Hadv; cbn [with_bw s_tr s_end s_start s_bw s_done s_dep] in *.
        * rewrite E1, E2, <- TS, <- TB in Hadv. exact Hadv.
        * congruence.
        * rewrite E3, Dx. unfold parent_of. destruct (dep_of E i) as [k|] eqn:Ek; [|reflexivity]. destruct (dep_edge E _ _ Ek) as (e & He & _). rewrite He.
          exists k. rewrite (inv_trk _ _ _ _ _ _ I). eexists. split; [reflexivity|]. split; [apply trk_nth; exact He|]. unfold cp_of. rewrite if_in by (eapply HPI; eassumption). reflexivity.
      + intros Ht. apply TP in Hin. contradiction.
      + unfold is_live. rewrite S7, filter_In, TP. unfold complete. rewrite Hx', T1, E1. split; intros [H1 H2]; (split; [exact H1|lia]).
    - exists (with_bw (if in_dec Nat.eq_dec i act then activated A (sm_trk A s) x else x) b). split; [apply L2; exact Hin|]. split; [exact QQ|].
      rewrite if_not_in by (intros Ha; apply Hin, in_or_app; auto). cbn [with_bw s_start s_done s_end]. split; [intros Ht; apply TP in Ht; contradiction|].
      split; [auto|]. unfold is_live. rewrite S7, filter_In, TP. tauto.
  Qed.

  Lemma begins_fun n : forall s s', begins n s -> begins n s' -> s = s'.
  Proof.
    induction n as [|n IH]; intros s s' H H'; inversion H; subst; inversion H'; subst.
    - congruence.
    - match goal with H1 : sim_init _ _ _ _ _ _ = Ok _, H2 : begins 0 _ |- _ => inversion H2 end.
    - match goal with H2 : begins 0 _ |- _ => inversion H2 end.
    - match goal with H1 : begins n ?a, H2 : begins n ?b |- _ => assert (a = b) by (apply IH; assumption); subst end. congruence.
  Qed.
  Lemma reach_begins s : reach s -> exists n, begins n s.
  Proof. induction 1 as [s H|s s' H [n IH] HT HF HM]; [exists 1%nat; apply begins_first; assumption|exists (S n); eapply begins_next; eassumption]. Qed.
  (* every earlier timestep of a run *)
  Lemma begins_before n m s : begins m s -> (1 <= n <= m)%nat -> exists s0, begins n s0 /\ ((n < m)%nat -> exists s1, step s0 = Ok s1 /\ finished A s1 = false).
  Proof.
    intros H. induction H as [s H|m s s' H IH HT HF HM]; intros Hn.
    - assert (n = 1%nat) by lia. subst. exists s. split; [apply begins_first; assumption|lia].
    - destruct (Nat.eq_dec n (S m)) as [->|Hne]; [eexists; split; [eapply begins_next; eassumption|lia]|].
      destruct (IH ltac:(lia)) as (s0 & H0 & H1). exists s0. split; [assumption|]. intros _.
      destruct (Nat.eq_dec n m) as [->|Hnm]; [|apply H1; lia]. pose proof (begins_fun _ _ _ H H0). subst. eauto.
  Qed.
  (* a finished transfer keeps its cycles *)
  Lemma finished_keeps sts0 E s s' i x : setup sts0 E -> reach s -> step s = Ok s' -> nth_error (sm_sts A s) i = Some x -> is_finished A s i ->
    is_finished A s' i /\ exists x', nth_error (sm_sts A s') i = Some x' /\ s_start x' = s_start x /\ s_end x' = s_end x.
  Proof.
    intros HS HR HT Hx HFi. split; [apply (places_move A ord bord bord_perm d congestion cpt wl HW HC s s' HR HT i); exact HFi|].
    destruct (own_step _ _ _ _ _ _ HS HR HT Hx) as (x' & Hx' & _ & _ & HN & _). exists x'. split; [exact Hx'|]. destruct HFi as (_ & H1 & H2).
    destruct HN as (G1 & _ & G3); [intros [H|[H _]]; contradiction|]. auto.
  Qed.
  Lemma finished_later sts0 E n m s : setup sts0 E -> begins m s -> forall s0 s1, begins n s0 -> step s0 = Ok s1 -> (n < m)%nat -> forall i x, nth_error (sm_sts A s1) i = Some x -> is_finished A s1 i ->
    is_finished A s i /\ exists x', nth_error (sm_sts A s) i = Some x' /\ s_start x' = s_start x /\ s_end x' = s_end x.
  Proof.
    intros HS H. induction H as [s H|m s s' H IH HT HF HM]; intros s0 s1 H0 H1 Hnm i x Hx Hfi.
    - destruct n; [inversion H0|lia].
    - destruct (Nat.eq_dec n m) as [->|Hne].
      + pose proof (begins_fun _ _ _ H H0). subst s0. assert (s1 = s') by congruence. subst s1. cbn [advance sm_sts]. split; [exact Hfi|eauto].
      + destruct (IH s0 s1 H0 H1 ltac:(lia) i x Hx Hfi) as (G1 & y & Hy & G2 & G3).
        destruct (finished_keeps _ _ _ _ _ _ HS (begins_reach A ord bord d congestion cpt wl _ _ H) HT Hy G1) as (K1 & z & Hz & K2 & K3).
        split; [exact K1|]. exists z. split; [exact Hz|]. split; congruence.
  Qed.
End Own.

(** * Two runs *)
Section Two.
  Context (A : arith) (d : device) (cpt : Z) (HC : proper_cpt cpt).
  Notation state := (tstate (F A)).
  Context (ord ord' : Z -> list Z -> list Z) (bord bord' : list bucket -> list bucket) (BP : bucket_order bord) (BP' : bucket_order bord').
  Context (wl wl' : workload (F A)) (HW : proper wl) (HW' : proper wl').
  Context (sts0 sts0' : list state) (E E' : list edge) (HS : setup A ord bord d wl sts0 E) (HS' : setup A ord' bord' d wl' sts0' E').
  Notation begins1 := (begins A ord bord d false cpt wl).
  Notation begins2 := (begins A ord' bord' d false cpt wl').
  Notation step1 := (timestep A d false cpt wl).
  Notation step2 := (timestep A d false cpt wl').

  Definition ask (i i' : nat) : Prop := exists t t', nth_error (all_transfers wl) i = Some t /\ nth_error (all_transfers wl') i' = Some t' /\ alike t t'.
  Inductive pair : nat -> nat -> Prop :=
  | pair_free i i' : ask i i' -> dep_of E i = None -> dep_of E' i' = None -> pair i i'
  | pair_after i i' k k' e e' : ask i i' -> dep_of E i = Some k -> nth_error E k = Some e -> dep_of E' i' = Some k' -> nth_error E' k' = Some e' ->
      e_delay e' = e_delay e -> pair (e_parent e) (e_parent e') -> pair i i'.
  Definition agree (s s' : sim A) (i i' : nat) : Prop :=
    exists x x', nth_error (sm_sts A s) i = Some x /\ nth_error (sm_sts A s') i' = Some x' /\
      s_start x' = s_start x /\ s_done x' = s_done x /\ s_end x' = s_end x /\
      (is_queued A s' i' <-> is_queued A s i) /\ (is_live A s' i' <-> is_live A s i).
  Lemma agree_finished s s' i i' : agree s s' i i' -> (is_finished A s' i' <-> is_finished A s i).
  Proof.
    intros (x & x' & Hx & Hx' & _ & _ & _ & Q & L). unfold is_finished. rewrite Q, L. pose proof (nth_some_lt _ _ _ Hx). pose proof (nth_some_lt _ _ _ Hx'). tauto.
  Qed.
  Lemma ask_pair i i' : pair i i' -> ask i i'.
  Proof. intros []; assumption. Qed.

  Lemma agree_init s s' : sim_init A ord bord d cpt wl = Ok s -> sim_init A ord' bord' d cpt wl' = Ok s' -> forall i i', pair i i' -> agree s s' i i'.
  Proof.
    intros H H' i i' P. destruct (init_inv A ord bord BP d cpt wl HW _ _ _ HS H) as [I _]. destruct (init_inv A ord' bord' BP' d cpt wl' HW' _ _ _ HS' H') as [I' _].
    destruct (ask_pair _ _ P) as (t & t' & Ht & Ht' & AL).
    destruct (visited_state A ord bord BP d false cpt wl HW HC s i t (or_introl (reach_init _ _ _ _ _ _ _ _ H)) Ht) as (x & Hx & Tx).
    destruct (visited_state A ord' bord' BP' d false cpt wl' HW' HC s' i' t' (or_introl (reach_init _ _ _ _ _ _ _ _ H')) Ht') as (x' & Hx' & Tx').
    assert (L : sm_live A s = [] /\ sm_live A s' = []).
    { destruct (sim_init_eq A ord bord BP d cpt wl HW s H) as (? & ? & _ & ->). destruct (sim_init_eq A ord' bord' BP' d cpt wl' HW' s' H') as (? & ? & _ & ->). auto. }
    destruct L as [L L']. destruct (part_ids _ _ _ _ _ _ I) as [_ P1]. destruct (part_ids _ _ _ _ _ _ I') as [_ P2].
    assert (Q : is_queued A s i). { specialize (P1 i). rewrite L, !app_nil_r in P1. apply P1. eapply nth_some_lt; exact Hx. }
    assert (Q' : is_queued A s' i'). { specialize (P2 i'). rewrite L', !app_nil_r in P2. apply P2. eapply nth_some_lt; exact Hx'. }
    pose proof Q as Q1. pose proof Q' as Q2. apply in_map_iff in Q1 as (p & Hp & Q1). apply in_map_iff in Q2 as (p' & Hp' & Q2).
    destruct (inv_queue _ _ _ _ _ _ I p Q1) as (y & Hy & _ & Y1 & Y2 & Y3). destruct (inv_queue _ _ _ _ _ _ I' p' Q2) as (y' & Hy' & _ & Y1' & Y2' & Y3').
    rewrite Hp in Hy. rewrite Hp' in Hy'. assert (y = x) by congruence. assert (y' = x') by congruence. subst. unfold alike in AL.
    destruct AL as (AO & _).
    exists x, x'. split; [exact Hx|]. split; [exact Hx'|]. split; [congruence|]. split; [congruence|]. split; [congruence|]. split; [tauto|]. unfold is_live. rewrite L, L'. tauto.
  Qed.

  Lemma agree_step n s s' s1 s1' : begins1 n s -> begins2 n s' -> step1 s = Ok s1 -> step2 s' = Ok s1' ->
    (forall i i', pair i i' -> agree s s' i i') -> forall i i', pair i i' -> agree s1 s1' i i'.
  Proof.
    intros B B' T T' IH i i' P. pose proof (begins_reach A ord bord d false cpt wl _ _ B) as R. pose proof (begins_reach A ord' bord' d false cpt wl' _ _ B') as R'.
    assert (EC : sm_curr A s' = sm_curr A s).
    { destruct (begins_time A ord bord BP d false cpt wl HW HC n s B) as [-> _]. destruct (begins_time A ord' bord' BP' d false cpt wl' HW' HC n s' B') as [-> _]. reflexivity. }
    destruct (IH _ _ P) as (x & x' & Hx & Hx' & G1 & G2 & G3 & Q & L). destruct (ask_pair _ _ P) as (t & t' & Ht & Ht' & AL).
    pose proof (visited_transfer A ord bord BP d false cpt wl HW HC s i x (or_introl R) Hx) as V. pose proof (visited_transfer A ord' bord' BP' d false cpt wl' HW' HC s' i' x' (or_introl R') Hx') as V'.
    rewrite Ht in V. rewrite Ht' in V'. injection V as V. injection V' as V'. rewrite V, V' in AL. destruct AL as (A1 & A2 & A3 & A4 & A5).
    destruct (own_step A ord bord BP d false cpt wl HW HC _ _ _ _ _ _ HS R T Hx) as (y & Hy & Y1 & Y2 & Y3 & Y4).
    destruct (own_step A ord' bord' BP' d false cpt wl' HW' HC _ _ _ _ _ _ HS' R' T' Hx') as (y' & Hy' & Z1 & Z2 & Z3 & Z4).
    assert (PP : parent_of A E' (sm_sts A s') i' = parent_of A E (sm_sts A s) i /\ (met A E' s' i' (sm_curr A s') <-> met A E s i (sm_curr A s))).
    { inversion P as [a b _ D D'|a b k k' e e' _ D De D' De' DL PA]; subst a b; unfold parent_of, met.
      - rewrite D, D'. split; [reflexivity|]. split; intros _ k e Hk; congruence.
      - rewrite D, D', De, De'. pose proof (IH _ _ PA) as AG. pose proof (agree_finished _ _ _ _ AG) as AF. destruct AG as (z & z' & Hz & Hz' & _ & _ & Ez & _). unfold end_at. rewrite Hz, Hz', DL, Ez, EC. split; [reflexivity|].
        split; intros H a b Ha Hb.
        + destruct (H _ _ eq_refl De') as (H1 & u & Hu & H2). assert (a = k) by congruence. subst a. assert (b = e) by congruence. subst b. rewrite AF in H1. split; [exact H1|]. exists z. split; [exact Hz|]. assert (u = z') by congruence. subst u. rewrite <- Ez, <- DL. exact H2.
        + destruct (H _ _ eq_refl De) as (H1 & u & Hu & H2). assert (a = k') by congruence. subst a. assert (b = e') by congruence. subst b. rewrite AF. split; [exact H1|]. exists z'. split; [exact Hz'|]. assert (u = z) by congruence. subst u. rewrite Ez, DL. exact H2. }
    destruct PP as [PP MM].
    assert (QQ : is_queued A s1' i' <-> is_queued A s1 i) by (rewrite Y1, Z1, Q, MM, A1, EC; reflexivity).
    assert (TT : takes_part s' s1' i' <-> takes_part s s1 i) by (unfold takes_part; rewrite L, Q, QQ; reflexivity).
    assert (DD : s_start y' = s_start y /\ s_done y' = s_done y /\ s_end y' = s_end y).
    { assert (DEC : takes_part s s1 i \/ ~ takes_part s s1 i).
      { unfold takes_part, is_live, is_queued. destruct (in_dec Nat.eq_dec i (sm_live A s)); [left; auto|]. destruct (in_dec Nat.eq_dec i (map snd (sm_queue A s))); [|right; tauto].
        destruct (in_dec Nat.eq_dec i (map snd (sm_queue A s1))); [right; tauto|left; auto]. }
      destruct DEC as [DEC|DEC].
      - destruct (Y2 DEC) as (N0 & N2 & N3). destruct (free_rates A ord bord BP d false cpt wl HW HC s s1 eq_refl R T i y DEC Hy) as (noc & N1 & NB). rewrite N0 in N1, NB. rewrite NB in N3.
        apply TT in DEC. destruct (Z2 DEC) as (N0' & N2' & N3'). destruct (free_rates A ord' bord' BP' d false cpt wl' HW' HC s' s1' eq_refl R' T' i' y' DEC Hy') as (noc' & N1' & NB'). rewrite N0' in N1', NB'. rewrite NB' in N3'.
        rewrite A3, A4 in N1'. assert (noc' = noc) by congruence. subst noc'.
        assert (SS : s_start y' = s_start y) by (rewrite N2, N2', PP, A1; reflexivity). split; [exact SS|]. rewrite EC, PP, SS, A5, A2, G2 in N3'. rewrite N3 in N3'. injection N3' as -> ->. auto.
      - destruct (Y3 DEC) as (-> & -> & ->). rewrite <- TT in DEC. destruct (Z3 DEC) as (-> & -> & ->). auto. }
    destruct DD as (D1 & D2 & D3). exists y, y'. split; [exact Hy|]. split; [exact Hy'|]. split; [exact D1|]. split; [exact D2|]. split; [exact D3|]. split; [exact QQ|].
    rewrite Y4, Z4, TT, D2, A2. reflexivity.
  Qed.

  Lemma agree_begins n : forall s s', begins1 n s -> begins2 n s' -> forall i i', pair i i' -> agree s s' i i'.
  Proof.
    induction n as [|n IH]; intros s s' B B'; [inversion B|]. inversion B as [? H0|n1 s1 s2 B0 T F M]; subst; inversion B' as [? H0'|n1' s1' s2' B0' T' F' M']; subst.
    - apply agree_init; assumption.
    - inversion B0'.
    - inversion B0.
    - intros i i' P. exact (agree_step n _ _ _ _ B0 B0' T T' (IH _ _ B0 B0') i i' P).
  Qed.

  Lemma twins_times n m s s' s1 s1' : (n <= m)%nat -> begins1 n s -> step1 s = Ok s1 -> finished A s1 = true -> begins2 m s' -> step2 s' = Ok s1' ->
    forall i i', pair i i' -> same_times A s1 s1' i i'.
  Proof.
    intros Hnm B T F B' T' i i' P.
    assert (N1 : (1 <= n)%nat) by (destruct n; [inversion B|lia]).
    destruct (begins_before A ord' bord' d false cpt wl' n m s' B' ltac:(lia)) as (r & BR & HN).
    assert (HR : exists r1, step2 r = Ok r1 /\ ((n < m)%nat \/ r1 = s1')).
    { destruct (Nat.eq_dec n m) as [<-|Hne].
      - pose proof (begins_fun A ord' bord' d false cpt wl' _ _ _ BR B'). subst r. eauto.
      - destruct (HN ltac:(lia)) as (r1 & Hr1 & _). exists r1. split; [exact Hr1|left; lia]. }
    destruct HR as (r1 & Hr1 & HR). pose proof (agree_step n _ _ _ _ B BR T Hr1 (agree_begins n _ _ B BR) i i' P) as AG.
    assert (FI : is_finished A s1 i).
    { destruct AG as (x & _ & Hx & _). destruct (finished_all A _ F) as [L Q]. split; [eapply nth_some_lt; exact Hx|]. unfold is_queued, is_live. rewrite L, Q. split; intros []. }
    apply (agree_finished _ _ _ _ AG) in FI. destruct AG as (x & x' & Hx & Hx' & G1 & _ & G3 & _).
    destruct HR as [HR|<-]; [|exists x, x'; auto].
    destruct (finished_later A ord' bord' BP' d false cpt wl' HW' HC _ _ n m s' HS' B' r r1 BR Hr1 HR i' x' Hx' FI) as (FI2 & y & Hy & Y1 & Y2).
    destruct (finished_keeps A ord' bord' BP' d false cpt wl' HW' HC _ _ s' s1' i' y HS' (begins_reach A ord' bord' d false cpt wl' _ _ B') T' Hy FI2) as (_ & z & Hz & Z1 & Z2).
    exists x, z. split; [exact Hx|]. split; [exact Hz|]. split; congruence.
  Qed.
End Two.

Section Result.
  Context (A : arith) (d : device) (cpt : Z) (HC : proper_cpt cpt).
  Lemma pair_sym wl wl' E E' i i' : pair A wl wl' E E' i i' -> pair A wl' wl E' E i' i.
  Proof.
    assert (S : forall i i', ask A wl wl' i i' -> ask A wl' wl i' i).
    { intros a b (t & t' & H1 & H2 & H3). exists t', t. unfold alike in *. intuition congruence. }
    induction 1; [apply pair_free; auto|eapply pair_after; eauto].
  Qed.
  Theorem no_interference ord ord' bord bord' (wl wl' : workload (F A)) s s' : bucket_order bord -> bucket_order bord' -> proper wl -> proper wl' ->
    succeeds A ord bord d false cpt wl s -> succeeds A ord' bord' d false cpt wl' s' ->
    forall i i', twins A s s' i i' -> same_times A s s' i i'.
  Proof.
    intros BP BP' HW HW' H H' i i' TW.
    destruct (succeeds_end A ord bord d false cpt wl s H) as [(s0 & R & T) F]. destruct (succeeds_end A ord' bord' d false cpt wl' s' H') as [(s0' & R' & T') F'].
    destruct (reach_setup A ord bord BP d false cpt wl HW s0 R) as (sts0 & E & HS). destruct (reach_setup A ord' bord' BP' d false cpt wl' HW' s0' R') as (sts0' & E' & HS').
    destruct (step_inv A ord bord BP d false cpt wl HW HC _ _ _ _ HS R T) as (fin & act & w1 & w2 & w3 & _ & _ & I).
    destruct (step_inv A ord' bord' BP' d false cpt wl' HW' HC _ _ _ _ HS' R' T') as (fin' & act' & w1' & w2' & w3' & _ & _ & I').
    destruct (setup_ok A ord bord BP d wl HW _ _ HS) as [HE _]. destruct (setup_ok A ord' bord' BP' d wl' HW' _ _ HS') as [HE' _].
    pose proof (depends_iff A _ _ _ _ _ I HE) as DI. pose proof (depends_iff A _ _ _ _ _ I' HE') as DI'.
    assert (AS : forall a a', same_request A s s' a a' -> ask A wl wl' a a').
    { intros a a' (x & x' & Hx & Hx' & AL). exists (s_tr x), (s_tr x'). split; [|split; [|exact AL]].
      - apply (visited_transfer A ord bord BP d false cpt wl HW HC s a x); [right; exists s0; auto|exact Hx].
      - apply (visited_transfer A ord' bord' BP' d false cpt wl' HW' HC s' a' x'); [right; exists s0'; auto|exact Hx']. }
    assert (P : pair A wl wl' E E' i i').
    { induction TW as [i i' SR N N'|i i' j j' dl SR W W' TW IH].
      - apply pair_free; [auto| |].
        + destruct (dep_of E i) as [k|] eqn:Ek; [|reflexivity]. destruct (dep_edge E _ _ Ek) as (e & He & _). exfalso. apply (N (e_parent e) (e_delay e)). apply DI. eauto 6.
        + destruct (dep_of E' i') as [k|] eqn:Ek; [|reflexivity]. destruct (dep_edge E' _ _ Ek) as (e & He & _). exfalso. apply (N' (e_parent e) (e_delay e)). apply DI'. eauto 6.
      - apply DI in W as (k & e & Hk & He & <- & Hd). apply DI' in W' as (k' & e' & Hk' & He' & <- & Hd'). eapply pair_after; eauto; congruence. }
    destruct (reach_begins A ord bord d false cpt wl s0 R) as [n B]. destruct (reach_begins A ord' bord' d false cpt wl' s0' R') as [m B'].
    destruct (Nat.le_ge_cases n m) as [L|L].
    - exact (twins_times A d cpt HC ord ord' bord bord' BP BP' wl wl' HW HW' sts0 sts0' E E' HS HS' n m s0 s0' s s' L B T F B' T' i i' P).
    - destruct (twins_times A d cpt HC ord' ord bord' bord BP' BP wl' wl HW' HW sts0' sts0 E' E HS' HS m n s0' s0 s' s L B' T' F' B T i' i (pair_sym _ _ _ _ _ _ P)) as (x' & x & Hx' & Hx & G1 & G2).
      exists x, x'. auto.
  Qed.
End Result.

(** * A transfer on its own *)
Section Only.
  Context (A : arith) (d : device) (cpt : Z) (HC : proper_cpt cpt).
  Lemma only_waits ord bord congestion (wl : workload (F A)) s t : bucket_order bord -> proper wl -> visited A ord bord d congestion cpt wl s -> only wl t -> ~ has_group_parent A t ->
    forall i j dl, ~ waits A s i j dl.
  Proof.
    intros BP HW V HO HG i j dl H. pose proof H as (x & y & k & c & Hx & Hy & _).
    assert (I0 : forall n z, nth_error (sm_sts A s) n = Some z -> n = 0%nat /\ s_tr z = t).
    { intros n z Hz. pose proof (visited_transfer A ord bord BP d congestion cpt wl HW HC s n z V Hz) as Hn. rewrite HO in Hn. destruct n as [|[|n]]; [|discriminate|discriminate]. split; [reflexivity|]. cbn in Hn. congruence. }
    destruct (depends_rule A ord bord BP d congestion cpt wl HW HC s V i x Hx j dl H) as [(G & _)|(_ & (x' & y' & Hx' & Hy' & _ & B & _) & _)].
    - destruct (I0 _ _ Hx) as [_ E]. rewrite E in G. contradiction.
    - destruct (I0 _ _ Hx') as [_ E]. destruct (I0 _ _ Hy') as [_ E']. unfold before in B. rewrite E, E' in B. lia.
  Qed.
  Theorem as_alone ord ord' bord bord' (wl wl' : workload (F A)) s s' i x t : bucket_order bord -> bucket_order bord' -> proper wl -> proper wl' ->
    succeeds A ord bord d false cpt wl s -> succeeds A ord' bord' d false cpt wl' s' ->
    nth_error (sm_sts A s) i = Some x -> (forall j dl, ~ waits A s i j dl) -> only wl' t -> ~ has_group_parent A t -> alike (s_tr x) t ->
    same_times A s s' i 0.
  Proof.
    intros BP BP' HW HW' H H' Hx HN HO HG AL. apply (no_interference A d cpt HC ord ord' bord bord' wl wl' s s' BP BP' HW HW' H H').
    destruct (succeeds_end A ord' bord' d false cpt wl' s' H') as [V _].
    destruct (visited_state A ord' bord' BP' d false cpt wl' HW' HC s' 0 t (or_intror V)) as (x' & Hx' & Tx'); [rewrite HO; reflexivity|].
    apply twins_free; [|exact HN|apply (only_waits ord' bord' false wl' s' t BP' HW' (or_intror V) HO HG)].
    exists x, x'. rewrite Tx'. auto.
  Qed.
End Only.
