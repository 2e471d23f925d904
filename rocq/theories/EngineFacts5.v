(* Facts about runs, continued: parents that form a cycle (C27), one chip (C24, C28), end cycles (C26, C33),
   progress (C37). *)
From Coq Require Import ZArith Arith QArith String List Bool Lia ZifyBool ZifyNat Sorting.Permutation Sorting.Sorted.
From Verif Require Import Base Arith Util Device Workload SpecWorkload DepTracker Rates Stats Engine UtilProofs
  WorkloadProofs SpecTracker TrackerProofs DepGenProofs StepProofs SpecEngine EngineProofs RunProofs DepFacts EngineFacts EngineFacts2 EngineFacts3 EngineFacts4.
Import ListNotations.
Open Scope Z_scope.
Ltac Zify.zify_post_hook ::= idtac.

Section Run.
  Context (A : arith) (ord : Z -> list Z -> list Z) (bord : list bucket -> list bucket) (bord_perm : bucket_order bord).
  Context (d : device) (congestion : bool) (cpt : Z) (wl : workload (F A)).
  Context (HW : proper wl) (HC : proper_cpt cpt).
  Notation state := (tstate (F A)).
  Notation reach := (reach A ord bord d congestion cpt wl).
  Notation step_end := (step_end A ord bord d congestion cpt wl).
  Notation visited := (visited A ord bord d congestion cpt wl).
  Notation succeeds := (succeeds A ord bord d congestion cpt wl).
  Notation setup := (setup A ord bord d wl).
  Notation step := (timestep A d congestion cpt wl).

  Lemma visited_transfer s i x : visited s -> nth_error (sm_sts A s) i = Some x -> nth_error (all_transfers wl) i = Some (s_tr x).
  Proof.
    intros V Hx. destruct (visited_facts A ord bord bord_perm d congestion cpt wl HW HC s V) as (sts0 & E & h & fin & HS & _ & I & _).
    destruct (static_same A _ _ _ _ _ I _ _ Hx) as (z0 & Hz0 & -> & _). destruct HS as [HS _].
    destruct (init_states A ord d wl HW _ HS) as (_ & _ & G). apply (G _ _ Hz0).
  Qed.
  Lemma visited_state s i t : visited s -> nth_error (all_transfers wl) i = Some t -> exists x, nth_error (sm_sts A s) i = Some x /\ s_tr x = t.
  Proof.
    intros V Ht. destruct (places A ord bord bord_perm d congestion cpt wl HW HC s V) as (_ & _ & HL & _).
    destruct (nth_lt_some (sm_sts A s) i) as [x Hx]; [rewrite HL; eapply nth_some_lt; eassumption|].
    exists x. split; [assumption|]. pose proof (visited_transfer s i x V Hx). congruence.
  Qed.
  Theorem moving_is_started s : visited s -> forall i x, nth_error (sm_sts A s) i = Some x -> 0 < s_done x -> has_started A s i.
  Proof.
    intros V i x Hx HD. destruct (bytes_bounds A ord bord bord_perm d congestion cpt wl HW HC s V i x Hx) as (_ & HQ & _).
    destruct (places A ord bord bord_perm d congestion cpt wl HW HC s V) as (_ & _ & HL & HP).
    assert (Hi : (i < List.length (all_transfers wl))%nat) by (rewrite <- HL; eapply nth_some_lt; eassumption).
    apply HP in Hi. unfold has_started. destruct Hi as [(H & _)|[(_ & H & _)|(_ & _ & H)]]; [specialize (HQ H); lia|left; assumption|right; assumption].
  Qed.
  Theorem parents_cycle (S : list nat) : S <> [] ->
    (forall i, In i S -> exists t, nth_error (all_transfers wl) i = Some t /\ has_group_parent A t /\
       (exists p, In p (all_transfers wl) /\ names_parent A t p) /\
       (forall j p, nth_error (all_transfers wl) j = Some p -> names_parent A t p -> In j S)) ->
    forall r, simulate A ord bord d congestion cpt wl = Ok r -> r = inr EXCEEDED_SIM_CYCLE_LIMIT.
  Proof.
    intros HN HS r Hr. pose proof Hr as H0. unfold simulate in H0. apply bind_ok in H0 as (s0 & H0 & _).
    assert (V : visited s0) by (left; constructor; assumption).
    apply (cycle_limit A ord bord bord_perm d congestion cpt wl HW HC s0 S H0 HN); [|assumption].
    intros i Hi. destruct (HS _ Hi) as (t & Ht & HG & (q & Hq & NQ) & HP). destruct (visited_state s0 i t V Ht) as (x & Hx & <-).
    destruct (group_rule A ord bord bord_perm d congestion cpt wl HW HC s0 V i x Hx HG) as (_ & j & dl & p & HD & Hp & _ & HC').
    exists j, dl. split; [|assumption]. destruct HC' as [HC'|[_ HC']].
    - eapply HP; [eapply visited_transfer; eassumption|assumption].
    - exfalso. apply In_nth_error in Hq as [k Hk]. destruct (visited_state s0 k q V Hk) as (z & Hz & <-). exact (HC' _ _ Hz NQ).
  Qed.
  Theorem blackhole_never : dv_arch d = Blackhole -> (exists t, In t (all_transfers wl) /\ has_group_parent A t) ->
    forall r, simulate A ord bord d congestion cpt wl <> Ok r.
  Proof.
    intros HA (t & Ht & HG) r Hr. unfold simulate in Hr. apply bind_ok in Hr as (s & Hs & _).
    assert (V : visited s) by (left; constructor; assumption). apply In_nth_error in Ht as [i Hi].
    destruct (visited_state s i t V Hi) as (x & Hx & <-). destruct (group_rule A ord bord bord_perm d congestion cpt wl HW HC s V i x Hx HG) as [E _]. congruence.
  Qed.

  (** * One chip *)
  Lemma same_source_lane : (forall t t', In t (all_transfers wl) -> In t' (all_transfers wl) -> c_dev (t_src t) = c_dev (t_src t')) ->
    forall s, visited s -> forall i j x y, nth_error (sm_sts A s) i = Some x -> nth_error (sm_sts A s) j = Some y ->
    (same_lane A d x y <-> t_noc (s_tr x) = t_noc (s_tr y) /\ t_src (s_tr x) = t_src (s_tr y) /\ first_direction A d x = first_direction A d y).
  Proof.
    intros HD s V i j x y Hx Hy. pose proof (nth_error_In _ _ (visited_transfer s i x V Hx)) as Ix. pose proof (nth_error_In _ _ (visited_transfer s j y V Hy)) as Iy.
    specialize (HD _ _ Ix Iy). unfold same_lane. destruct (t_src (s_tr x)) as [a b c], (t_src (s_tr y)) as [a' b' c']. cbn in *. subst a'.
    split; [intros (H1 & -> & -> & H2); auto|intros (H1 & H2 & H3); injection H2 as <- <-; auto].
  Qed.

  (** * End cycles *)
  Notation ended := (ended A cpt).
  Lemma ended_mono h h' x : h <= h' -> ended h x -> ended h' x.
  Proof. intros H (f & c & m & b & e & H1 & H2 & H3 & H4). exists f, c, m, b, e. split; [lia|]. split; [lia|]. split; [lia|]. exact H4. Qed.
  Lemma ended_step sts0 E s s' fin act sts1 sts2 stt : setup sts0 E -> reach s ->
    inv A sts0 E (sm_curr A s - cpt) s fin -> step_rel A d congestion cpt wl s s' act sts1 sts2 stt ->
    inv A sts0 E (sm_curr A s) s' (fin ++ filter (complete A (sm_sts A s')) (sm_live A s ++ act)) ->
    (forall i x, In i fin -> nth_error (sm_sts A s) i = Some x -> ended (sm_curr A s - cpt) x) ->
    forall i x, In i (fin ++ filter (complete A (sm_sts A s')) (sm_live A s ++ act)) -> nth_error (sm_sts A s') i = Some x -> ended (sm_curr A s) x.
  Proof.
    intros HS HR I SR I' IH i x' Hi' Hx'.
    destruct (setup_ok A ord bord bord_perm d wl HW _ _ HS) as [HE HRa].
    destruct (reach_clock A ord bord bord_perm d congestion cpt wl HW HC s HR) as (K1 & K2 & K3).
    destruct SR as [S1 S2 S3 [S4 S4'] S5 [S6 S6'] S7 S8 S9]. apply rates_frame in S5. destruct S5 as [F1 F2].
    destruct (nth_lt_some (sm_sts A s) i) as [x Hx]; [pose proof (nth_some_lt _ _ _ Hx'); lia|].
    pose proof (S4' _ _ Hx) as Hx1. destruct (F2 _ _ Hx1) as (b & Hx2 & Fb). destruct (S6' _ _ Hx2) as [L1 L2].
    pose proof (part_ids _ _ _ _ _ _ I) as [ND IDS].
    apply in_app_or in Hi' as [Hf|Hf].
    - assert (Hn : ~ In i (sm_live A s ++ act)).
      { intros Hn. apply in_app_or in Hn as [Hn|Hn].
        - apply NoDup_app_r in ND. exact (NoDup_app_not _ _ _ ND Hn Hf).
        - apply S2 in Hn as [Hq _]. eapply NoDup_app_not; [exact ND|exact Hq|]. apply in_or_app; auto. }
      rewrite (L2 Hn) in Hx'. injection Hx' as <-. rewrite (Fb Hn). rewrite if_not_in by (intros Hn'; apply Hn, in_or_app; auto).
      replace (with_bw x (s_bw x)) with x by (destruct x; reflexivity). eapply ended_mono; [|eapply IH; eassumption]. destruct HC; lia.
    - apply filter_In in Hf as [Hin Hcm]. destruct (L1 Hin) as (x2 & Hadv & Hx2'). assert (x2 = x') by congruence. subst x2. clear L1 L2.
      set (x1 := if in_dec Nat.eq_dec i act then activated A (sm_trk A s) x else x) in *.
      pose proof (bytes_bounds A ord bord bord_perm d congestion cpt wl HW HC s (or_introl HR) _ _ Hx) as [B _].
      destruct (inv_static _ _ _ _ _ _ I) as [HLen HST].
      pose proof (static_ranges A sts0 E HRa i x (HST _ _ Hx)) as (HO & HB & _).
      assert (EQ : s_tr x1 = s_tr x /\ s_done x1 = s_done x /\ s_dep x1 = s_dep x).
      { unfold x1. destruct (in_dec _ _ _); [|auto]. pose proof (activated_fields A (sm_trk A s) x). tauto. }
      destruct EQ as (E1 & E2 & E3).
      pose proof (adv_static _ _ _ _ _ _ _ Hadv) as ((T1 & T2 & T3 & T4) & TS & TB).
      cbn [with_bw s_tr s_req s_dep s_route s_start s_bw] in T1, T2, T3, T4, TS, TB.
      apply adv_bytes in Hadv; cbn [with_bw s_tr s_done s_bw s_start s_dep] in Hadv |- *; rewrite ?E1, ?E2 in *; [|lia|lia].
      destruct Hadv as (_ & c & mb & Hc & Hmb & Hd & Hend).
      assert (Hi' : In i (sm_live A s' ++ fin ++ filter (complete A (sm_sts A s')) (sm_live A s ++ act))).
      { apply in_or_app. right. apply in_or_app. right. apply filter_In. split; assumption. }
      destruct (inv_started _ _ _ _ _ _ I' i x' Hi' Hx') as (SO & Sle & HPI').
      assert (SP : 0 <= s_start x1 <= sm_curr A s).
      { rewrite <- TS. split; [|assumption]. unfold start_ok in SO. rewrite SO, T1. destruct (dep_of E i) as [k|]; [|lia]. destruct (nth_error E k); lia. }
      assert (HPI : parent_in E fin i).
      { apply in_app_or in Hin as [Hin|Hin].
        - apply (inv_started _ _ _ _ _ _ I i x); [apply in_or_app; auto|assumption].
        - apply S2 in Hin as (_ & y & Hy & _ & Hr). rewrite (inv_trk _ _ _ _ _ _ I) in Hr. eapply ready_parent; [|exact Hr]. apply HST. assumption. }
      rewrite K1 in Hc. destruct (HST _ _ Hx) as (x0 & _ & _ & _ & _ & Dx).
      destruct (credited_bounds A cpt (sm_curr A s) (sm_trk A s) (with_bw x1 b)) as (c' & Hc' & Hr & HCB); [exact HC|lia|lia|exact SP| |].
      { intros k Hk. cbn [with_bw s_dep] in Hk. rewrite E3, Dx in Hk. destruct (dep_edge E _ _ Hk) as (e & He & _). rewrite (inv_trk _ _ _ _ _ _ I).
        eexists. split; [apply trk_nth; exact He|]. unfold cp_of. rewrite if_in by (eapply HPI; eassumption). cbn [cp_end]. unfold end_at.
        destruct (nth_error (sm_sts A s) (e_parent e)) as [y|] eqn:Ey; [|lia]. apply (inv_fin _ _ _ _ _ _ I (e_parent e) y); [eapply HPI; eassumption|assumption]. }
      assert (c' = c) by congruence. subst c'.
      destruct Hend as [[Hic _]|(Hic & e & He & Hee)].
      { exfalso. unfold complete in Hcm. rewrite Hx' in Hcm. unfold is_complete in Hic. lia. }
      assert (0 <= mb). { unfold f_to_uint in Hmb. destruct (f_trunc _ _); [|discriminate]. destruct (_ && _) eqn:EE; [|discriminate]. injection Hmb as <-. lia. }
      exists (Z.max (s_start x1) (sm_curr A s - cpt)), c, mb, (Z.min (t_bytes (s_tr x) - s_done x) mb), e.
      destruct HC as [HC1 HC2]. rewrite TS, TB, T1. rewrite K1 in He. cbn [with_bw s_start s_dep] in HCB.
      split; [lia|]. split; [assumption|]. split; [destruct HCB as [HCB|(k & cp & _ & _ & W & Ws & W0 & Ec)]; lia|]. split; [assumption|]. split; [lia|]. split; [lia|]. split; assumption.
  Qed.
  Lemma ended_reach sts0 E s : setup sts0 E -> reach s -> exists fin, inv A sts0 E (sm_curr A s - cpt) s fin /\
    forall i x, In i fin -> nth_error (sm_sts A s) i = Some x -> ended (sm_curr A s - cpt) x.
  Proof.
    intros HS HR. induction HR as [s H|s s' HR (fin & I & HO) HT HF HM].
    - exists []. split; [apply (init_inv A ord bord bord_perm d cpt wl HW _ _ _ HS H)|]. intros i x [].
    - pose proof HC as [HC1 HC2]. destruct (timestep_rel A sts0 E) with (d := d) (congestion := congestion) (cpt := cpt) (wl := wl) (s := s) (fin := fin) (s' := s') as (act & sts1 & sts2 & stt & SR & I'); try assumption; try lia.
      { apply (setup_ok A ord bord bord_perm d wl HW _ _ HS). }
      pose proof (reach_time A ord bord bord_perm d congestion cpt wl HW HC s HR) as T. pose proof (step_curr A d congestion cpt wl _ _ HT) as EC.
      assert (CU : sm_curr A (advance A cpt s') - cpt = sm_curr A s).
      { cbn [advance sm_curr]. rewrite EC in *. destruct (time_next ord cpt HC _ T HM) as [-> _]. lia. }
      eexists. rewrite CU. split; [eapply inv_ext; [exact I'|reflexivity..|lia]|].
      exact (ended_step _ _ _ _ _ _ _ _ _ HS HR I SR I' HO).
  Qed.
  Theorem finished_ended s i x : visited s -> is_finished A s i -> nth_error (sm_sts A s) i = Some x -> ended (sm_curr A s) x.
  Proof.
    intros [HR|(s0 & HR & HT)] HF Hx.
    - destruct (reach_setup A ord bord bord_perm d congestion cpt wl HW s HR) as (sts0 & E & HS). destruct (ended_reach _ _ _ HS HR) as (fin & I & HO).
      eapply ended_mono; [|apply (HO i x); [apply (finished_spec A ord cpt _ _ _ _ _ I); assumption|assumption]]. destruct HC; lia.
    - destruct (reach_setup A ord bord bord_perm d congestion cpt wl HW s0 HR) as (sts0 & E & HS). destruct (ended_reach _ _ _ HS HR) as (fin & I & HO).
      pose proof HC as [HC1 HC2]. destruct (timestep_rel A sts0 E) with (d := d) (congestion := congestion) (cpt := cpt) (wl := wl) (s := s0) (fin := fin) (s' := s) as (act & sts1 & sts2 & stt & SR & I'); try assumption; try lia.
      { apply (setup_ok A ord bord bord_perm d wl HW _ _ HS). }
      rewrite (step_curr A d congestion cpt wl _ _ HT). eapply (ended_step _ _ _ _ _ _ _ _ _ HS HR I SR I' HO); [|exact Hx].
      apply (finished_spec A ord cpt _ _ _ _ _ I'). assumption.
  Qed.

  (** * Progress *)
  (* a live transfer that was active for the whole timestep moves what at least a full timestep of cycles allows *)
  Theorem progress s s' i x x' : reach s -> step s = Ok s' -> is_live A s i ->
    nth_error (sm_sts A s) i = Some x -> nth_error (sm_sts A s') i = Some x' ->
    exists c m, cpt <= c <= 2 * cpt /\ f_to_uint A 64 (f_mul A (f_ofZ A c) (s_bw x')) = Ok m /\
      s_done x' = s_done x + Z.min (t_bytes (s_tr x) - s_done x) m.
  Proof.
    intros HR HT Hi Hx Hx'. destruct (reach_setup A ord bord bord_perm d congestion cpt wl HW s HR) as (sts0 & E & HS).
    destruct (setup_ok A ord bord bord_perm d wl HW _ _ HS) as [HE HRa].
    destruct (reach_clock A ord bord bord_perm d congestion cpt wl HW HC s HR) as (K1 & K2 & K3).
    destruct (step_inv A ord bord bord_perm d congestion cpt wl HW HC _ _ _ _ HS HR HT) as (fin & act & sts1 & sts2 & stt & I & SR & I').
    destruct SR as [S1 S2 S3 [S4 S4'] S5 [S6 S6'] S7 S8 S9]. apply rates_frame in S5. destruct S5 as [F1 F2].
    pose proof (S4' _ _ Hx) as Hx1. destruct (F2 _ _ Hx1) as (b & Hx2 & Fb). destruct (S6' _ _ Hx2) as [L1 L2].
    pose proof (part_ids _ _ _ _ _ _ I) as [ND IDS].
    assert (Na : ~ In i act).
    { intros Ha. apply S2 in Ha as [Hq _]. eapply NoDup_app_not; [exact ND|exact Hq|]. apply in_or_app; auto. }
    rewrite if_not_in in * by assumption. destruct (L1 (in_or_app _ _ _ (or_introl Hi))) as (x2 & Hadv & Hx2'). assert (x2 = x') by congruence. subst x2.
    pose proof (bytes_bounds A ord bord bord_perm d congestion cpt wl HW HC s (or_introl HR) _ _ Hx) as [B _].
    destruct (inv_static _ _ _ _ _ _ I) as [HLen HST]. pose proof (static_ranges A sts0 E HRa i x (HST _ _ Hx)) as (HO & HB & _).
    pose proof (adv_static _ _ _ _ _ _ _ Hadv) as ((T1 & T2 & T3 & T4) & TS & TB). cbn [with_bw s_tr s_req s_dep s_route s_start s_bw] in T1, T2, T3, T4, TS, TB.
    apply adv_bytes in Hadv; cbn [with_bw s_tr s_done s_bw s_start s_dep] in Hadv |- *; [|lia|lia]. destruct Hadv as (_ & c & mb & Hc & Hmb & Hd & _).
    assert (Hl : In i (sm_live A s ++ fin)) by (apply in_or_app; auto). destruct (inv_started _ _ _ _ _ _ I i x Hl Hx) as (SO & Sle & HPI).
    assert (SP : 0 <= s_start x). { unfold start_ok in SO. rewrite SO. destruct (dep_of E i) as [k|]; [|lia]. destruct (nth_error E k); lia. }
    rewrite K1 in Hc. destruct (HST _ _ Hx) as (x0 & _ & _ & _ & _ & Dx). pose proof HC as [HC1 HC2].
    destruct (credited_bounds A cpt (sm_curr A s) (sm_trk A s) (with_bw x b)) as (c' & Hc' & Hr & HCB); [exact HC|lia|lia|cbn [with_bw s_start]; lia| |].
    { intros k Hk. cbn [with_bw s_dep] in Hk. rewrite Dx in Hk. destruct (dep_edge E _ _ Hk) as (e & He & _). rewrite (inv_trk _ _ _ _ _ _ I).
      eexists. split; [apply trk_nth; exact He|]. unfold cp_of. rewrite if_in by (eapply HPI; eassumption). cbn [cp_end]. unfold end_at.
      destruct (nth_error (sm_sts A s) (e_parent e)) as [y|] eqn:Ey; [|lia]. apply (inv_fin _ _ _ _ _ _ I (e_parent e) y); [eapply HPI; eassumption|assumption]. }
    assert (c' = c) by congruence. subst c'. exists c, mb. rewrite TB. split; [|split; assumption]. split; [|lia].
    (* at least a timestep *)
    unfold credited_cycles in Hc. cbn [with_bw s_start s_dep] in Hc. rewrite (u32_id (sm_curr A s - s_start x)) in Hc by lia. destruct (s_dep x); [|injection Hc as <-; lia].
    apply bind_ok in Hc as (e & _ & Hc). destruct (_ && _); [|injection Hc as <-; lia].
    apply bind_ok in Hc as (u & Hu & Hc). apply bind_ok in Hc as (u' & _ & Hc). injection Hc as <-. unfold tt_assert in Hu. destruct (cpt <=? _) eqn:EB; [lia|discriminate].
  Qed.
End Run.

(** * Congestion impact *)
Section Impact.
  Context (A : arith) (ord : Z -> list Z -> list Z) (bord : list bucket -> list bucket) (d : device).
  Theorem congfree_is_estimate cfg wl stt stt0 : cf_impact cfg = true ->
    runSinglePerfSim A ord bord d "none" (cf_cpt cfg) wl = Ok (Stats stt0) ->
    runPerfEstimation A ord bord d cfg wl = Ok (Stats stt) ->
    exists stt1, runSinglePerfSim A ord bord d (cf_model cfg) (cf_cpt cfg) wl = Ok (Stats stt1) /\
      forall id ds, In (id, ds) stt -> ds_congfree A ds = ds_est A ds /\ exists ds1, In (id, ds1) stt1 /\ ds_est A ds1 = ds_est A ds.
  Proof.
    unfold runPerfEstimation. intros -> H0 H. apply bind_ok in H as (r & Hr & H). destruct r as [stt1|e]; [|discriminate].
    rewrite H0 in H. cbn [bind] in H. injection H as <-. exists stt1. split; [assumption|]. intros id ds Hin.
    apply in_map_iff in Hin as ([k ds1] & EQ & Hin). injection EQ as <- <-. split; [reflexivity|]. exists ds1. split; [assumption|reflexivity].
  Qed.
End Impact.
