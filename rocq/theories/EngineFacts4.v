(* Facts about runs, continued: cycles credited to a transfer (C34), estimated cycles (C35). *)
From Coq Require Import ZArith Arith QArith String List Bool Lia ZifyBool ZifyNat Sorting.Permutation Sorting.Sorted.
From Verif Require Import Base Arith Util Device Workload SpecWorkload DepTracker Rates Stats Engine UtilProofs
  WorkloadProofs SpecTracker TrackerProofs DepGenProofs StepProofs SpecEngine EngineProofs RunProofs DepFacts EngineFacts EngineFacts2 EngineFacts3.
Import ListNotations.
Open Scope Z_scope.
Ltac Zify.zify_post_hook ::= idtac.

Section Run.
  Context (A : arith) (ord : Z -> list Z -> list Z) (bord : list bucket -> list bucket) (bord_perm : bucket_order bord).
  Context (d : device) (congestion : bool) (cpt : Z) (wl : workload (F A)).
  Context (HW : proper wl) (HC : proper_cpt cpt).
  Notation state := (tstate (F A)).
  Notation reach := (reach A ord bord d congestion cpt wl).
  Notation step_end := (step_end A ord bord d congestion cpt wl).
  Notation visited := (visited A ord bord d congestion cpt wl).
  Notation succeeds := (succeeds A ord bord d congestion cpt wl).
  Notation setup := (setup A ord bord d wl).
  Notation step := (timestep A d congestion cpt wl).
  Notation paced := (paced A ord bord d congestion cpt wl).

  (* the credit of a transfer that has started, at cycle [h] *)
  Definition credit_ok (E : list edge) (sts : list state) (h : Z) (i : nat) (x : state) (t : Z) : Prop :=
    t <= h - s_start x \/
    (exists k e, dep_of E i = Some k /\ nth_error E k = Some e /\ end_at A sts (e_parent e) < h - cpt /\ t <= h - s_start x + cpt).
  Definition pace_inv (sts0 : list state) (E : list edge) (h : Z) (s : sim A) (fin : list nat) (i : nat) (cs : list Z) : Prop :=
    paced i s cs /\ Forall (fun c => 0 <= c <= 2 * cpt) cs /\
    exists x, nth_error (sm_sts A s) i = Some x /\ (~ In i (sm_live A s ++ fin) -> sum cs = 0) /\
      (In i (sm_live A s ++ fin) -> credit_ok E (sm_sts A s) h i x (sum cs)).

  Lemma pace_step sts0 E s s' fin act sts1 sts2 stt i cs : setup sts0 E -> reach s -> step s = Ok s' ->
    inv A sts0 E (sm_curr A s - cpt) s fin -> step_rel A d congestion cpt wl s s' act sts1 sts2 stt ->
    inv A sts0 E (sm_curr A s) s' (fin ++ filter (complete A (sm_sts A s')) (sm_live A s ++ act)) ->
    pace_inv sts0 E (sm_curr A s - cpt) s fin i cs ->
    exists c, pace_inv sts0 E (sm_curr A s) s' (fin ++ filter (complete A (sm_sts A s')) (sm_live A s ++ act)) i (c :: cs).
  Proof.
    intros HS HR HT I SR I' (HP & HF & x & Hx & HQ & HL).
    destruct (setup_ok A ord bord bord_perm d wl HW _ _ HS) as [HE HRa].
    destruct (reach_clock A ord bord bord_perm d congestion cpt wl HW HC s HR) as (K1 & K2 & K3).
    destruct SR as [S1 S2 S3 [S4 S4'] S5 [S6 S6'] S7 S8 S9]. pose proof (S4' _ _ Hx) as Hx1. apply rates_frame in S5. destruct S5 as [F1 F2].
    destruct (F2 _ _ Hx1) as (b & Hx2 & _). destruct (S6' _ _ Hx2) as [L1 L2].
    set (x1 := if in_dec Nat.eq_dec i act then activated A (sm_trk A s) x else x) in *.
    set (fin' := fin ++ filter (complete A (sm_sts A s')) (sm_live A s ++ act)) in *.
    pose proof (bytes_bounds A ord bord bord_perm d congestion cpt wl HW HC s (or_introl HR) _ _ Hx) as [B _].
    destruct (inv_static _ _ _ _ _ _ I) as [HLen HST].
    pose proof (static_ranges A sts0 E HRa i x (HST _ _ Hx)) as (HO & HB & _).
    assert (EQ : s_tr x1 = s_tr x /\ s_done x1 = s_done x /\ s_dep x1 = s_dep x).
    { unfold x1. destruct (in_dec _ _ _); [|auto]. pose proof (activated_fields A (sm_trk A s) x). tauto. }
    destruct EQ as (E1 & E2 & E3).
    assert (MEM : In i (sm_live A s' ++ fin') <-> In i (sm_live A s ++ act) \/ In i fin).
    { unfold fin'. rewrite S7. rewrite !in_app_iff, !filter_In, !in_app_iff. destruct (complete A (sm_sts A s') i); cbn; intuition congruence. }
    assert (ENDF : forall k, In k fin -> end_at A (sm_sts A s') k = end_at A (sm_sts A s) k).
    { intros k Hk. pose proof (part_ids _ _ _ _ _ _ I) as [ND IDS]. unfold end_at.
      assert (Hn : ~ In k (sm_live A s ++ act)).
      { intros Hn. apply in_app_or in Hn as [Hn|Hn].
        - apply NoDup_app_r in ND. exact (NoDup_app_not _ _ _ ND Hn Hk).
        - apply S2 in Hn as [Hq _]. eapply NoDup_app_not; [exact ND|exact Hq|]. apply in_or_app; auto. }
      destruct (nth_error (sm_sts A s) k) as [y|] eqn:Ey.
      - pose proof (S4' _ _ Ey) as Hy1. destruct (F2 _ _ Hy1) as (b' & Hy2 & _). destruct (S6' _ _ Hy2) as [_ M2]. rewrite (M2 Hn). cbn [with_bw s_end].
        rewrite if_not_in by (intros Hn'; apply Hn, in_or_app; auto). reflexivity.
      - replace (nth_error (sm_sts A s') k) with (@None state); [reflexivity|]. symmetry. apply nth_error_None. apply nth_error_None in Ey. lia. }
    assert (OLD : In i (sm_live A s ++ fin) -> credit_ok E (sm_sts A s') (sm_curr A s - cpt) i x (sum cs)).
    { intros Hi. destruct (HL Hi) as [C|(k & e & Hk & He & C1 & C2)]; [left; assumption|right]. exists k, e. split; [assumption|]. split; [assumption|].
      rewrite ENDF; [auto|]. destruct (inv_started _ _ _ _ _ _ I i x Hi Hx) as (_ & _ & HPI). eapply HPI; eassumption. }
    destruct (in_dec Nat.eq_dec i (sm_live A s ++ act)) as [Hin|Hin].
    2:{ exists 0. assert (N1 : x1 = x). { unfold x1. apply if_not_in. intros Hn. apply Hin, in_or_app; auto. }
        pose proof (L2 Hin) as Hx'. rewrite N1 in Hx'.
        split; [|split]. 
        - eapply paced_step; [exact HP|exact HT|exact Hx|exact Hx'|]. left. split; reflexivity.
        - constructor; [destruct HC; lia|assumption].
        - eexists. split; [exact Hx'|]. split.
          + intros Hn. cbn. apply HQ. intros Hi. apply Hn. apply MEM. rewrite !in_app_iff in Hi. destruct Hi as [Hi|Hi]; [left; apply in_or_app; auto|right; assumption].
          + intros Hi. apply MEM in Hi. destruct Hi as [Hi|Hi]; [contradiction|]. destruct (OLD (in_or_app _ _ _ (or_intror Hi))) as [C|(k & e & Hk & He & C1 & C2)].
            * left. cbn [with_bw s_start]. change (sum (0 :: cs)) with (sum cs). destruct HC; lia.
            * right. exists k, e. cbn [with_bw s_start]. change (sum (0 :: cs)) with (sum cs). destruct HC. split; [assumption|]. split; [assumption|]. lia. }
    destruct (L1 Hin) as (x' & Hadv & Hx'). pose proof (adv_static _ _ _ _ _ _ _ Hadv) as ((T1 & T2 & T3 & T4) & TS & TB).
    cbn [with_bw s_tr s_req s_dep s_route s_start s_bw] in T1, T2, T3, T4, TS, TB.
    apply adv_bytes in Hadv; cbn [with_bw s_tr s_done s_bw s_start s_dep] in Hadv |- *; rewrite ?E1, ?E2 in *; [|lia|lia].
    destruct Hadv as (_ & c & mb & Hc & Hmb & Hd & _).
    assert (Hi' : In i (sm_live A s' ++ fin')) by (apply MEM; auto).
    destruct (inv_started _ _ _ _ _ _ I' i x' Hi' Hx') as (SO & Sle & HPI').
    assert (SP : 0 <= s_start x1 <= sm_curr A s).
    { rewrite <- TS. split; [|assumption]. unfold start_ok in SO. rewrite SO, T1. destruct (dep_of E i) as [k|]; [|lia]. destruct (nth_error E k); lia. }
    (* the parent is in fin *)
    assert (HPI : parent_in E fin i).
    { apply in_app_or in Hin as [Hin|Hin].
      - apply (inv_started _ _ _ _ _ _ I i x); [apply in_or_app; auto|assumption].
      - apply S2 in Hin as (_ & y & Hy & _ & Hr). rewrite (inv_trk _ _ _ _ _ _ I) in Hr. eapply ready_parent; [|exact Hr]. apply HST. assumption. }
    rewrite K1 in Hc.
    destruct (HST _ _ Hx) as (x0 & _ & _ & _ & _ & Dx).
    destruct (credited_bounds A cpt (sm_curr A s) (sm_trk A s) (with_bw x1 b)) as (c' & Hc' & Hr & HCB); [exact HC|lia|lia|exact SP| |].
    { intros k Hk. cbn [with_bw s_dep] in Hk. rewrite E3, Dx in Hk. destruct (dep_edge E _ _ Hk) as (e & He & _). rewrite (inv_trk _ _ _ _ _ _ I).
      eexists. split; [apply trk_nth; exact He|]. unfold cp_of. rewrite if_in by (eapply HPI; eassumption). cbn [cp_end]. unfold end_at.
      destruct (nth_error (sm_sts A s) (e_parent e)) as [y|] eqn:Ey; [|lia]. apply (inv_fin _ _ _ _ _ _ I (e_parent e) y); [eapply HPI; eassumption|assumption]. }
    assert (c' = c) by congruence. subst c'. exists c. split; [|split].
    - eapply paced_step; [exact HP|exact HT|exact Hx|exact Hx'|]. right. exists mb. rewrite TB. split; [exact Hmb|exact Hd].
    - constructor; assumption.
    - exists x'. split; [assumption|]. split; [contradiction|]. intros _. cbn [sum fold_right]. fold (sum cs). rewrite TS in *. cbn [with_bw s_start s_dep] in HCB.
      destruct HC as [HC1 HC2].
      (* the credit before this timestep *)
      assert (PRE : (sum cs = 0) \/ (s_start x1 <= sm_curr A s - cpt /\ credit_ok E (sm_sts A s') (sm_curr A s - cpt) i x1 (sum cs))).
      { destruct (in_dec Nat.eq_dec i act) as [Ha|Ha].
        - left. apply HQ. pose proof (part_ids _ _ _ _ _ _ I) as [ND _]. apply S2 in Ha as [Hq _]. intros Hl. exact (NoDup_app_not _ _ _ ND Hq Hl).
        - right. assert (N1 : x1 = x) by reflexivity. apply in_app_or in Hin as [Hin|Hin]; [|contradiction].
          assert (Hl : In i (sm_live A s ++ fin)) by (apply in_or_app; auto).
          split; [apply (inv_started _ _ _ _ _ _ I i x Hl Hx)|]. apply OLD. assumption. }
      destruct HCB as [HCB|(k & cp & Hk & Hcp & W & Ws & W0 & Ec)].
      + destruct PRE as [PRE|[PS [PRE|(k & e & Hk & He & P1 & P2)]]]; [left; rewrite TS; lia|left; rewrite TS; lia|right; exists k, e].
        split; [assumption|]. split; [assumption|]. rewrite TS. lia.
      + rewrite E3, Dx in Hk. destruct (dep_edge E _ _ Hk) as (e & He & _).
        assert (EP : end_at A (sm_sts A s') (e_parent e) = cp_end cp).
        { rewrite ENDF by (eapply HPI; eassumption). rewrite (inv_trk _ _ _ _ _ _ I), (trk_nth A E fin _ _ _ He) in Hcp. injection Hcp as <-.
          unfold cp_of. rewrite if_in by (eapply HPI; eassumption). reflexivity. }
        right. exists k, e. split; [assumption|]. split; [assumption|]. rewrite EP, TS.
        destruct PRE as [PRE|[PS [PRE|(k' & e' & Hk' & He' & P1 & P2)]]]; [lia|lia|].
        assert (k' = k) by congruence. subst. assert (e' = e) by congruence. subst. rewrite EP in P1. lia.
  Qed.
  Lemma pace_reach sts0 E s i : setup sts0 E -> reach s -> (i < List.length (sm_sts A s))%nat ->
    exists fin cs, inv A sts0 E (sm_curr A s - cpt) s fin /\ pace_inv sts0 E (sm_curr A s - cpt) s fin i cs.
  Proof.
    intros HS HR Hi. induction HR as [s H|s s' HR IH HT HF HM].
    - exists [], []. destruct (init_inv A ord bord bord_perm d cpt wl HW _ _ _ HS H) as [I _]. split; [assumption|].
      split; [constructor; assumption|]. split; [constructor|]. destruct (nth_lt_some _ _ Hi) as [x Hx]. exists x. split; [assumption|]. split; [reflexivity|].
      intros Hin. destruct (sim_init_eq A ord bord bord_perm d cpt wl HW _ H) as (sts1 & E1 & _ & EQ). rewrite EQ in Hin. destruct Hin.
    - change (sm_sts A (advance A cpt s')) with (sm_sts A s') in Hi.
      assert (Hi0 : (i < List.length (sm_sts A s))%nat).
      { destruct (step_inv A ord bord bord_perm d congestion cpt wl HW HC _ _ _ _ HS HR HT) as (? & ? & ? & ? & ? & I1 & _ & I2).
        destruct (inv_static _ _ _ _ _ _ I1) as [-> _]. destruct (inv_static _ _ _ _ _ _ I2) as [<- _]. assumption. }
      destruct (IH Hi0) as (fin & cs & I & HP). clear IH.
      destruct (reach_clock A ord bord bord_perm d congestion cpt wl HW HC s HR) as (K1 & K2 & K3).
      destruct HC as [HC1 HC2]. destruct (timestep_rel A sts0 E) with (d := d) (congestion := congestion) (cpt := cpt) (wl := wl) (s := s) (fin := fin) (s' := s') as (act & sts1 & sts2 & stt & SR & I'); try assumption; try lia.
      { apply (setup_ok A ord bord bord_perm d wl HW _ _ HS). }
      destruct (pace_step _ _ _ _ _ _ _ _ _ _ _ HS HR HT I SR I' HP) as [c HP'].
      exists (fin ++ filter (complete A (sm_sts A s')) (sm_live A s ++ act)), (c :: cs).
      pose proof (reach_time A ord bord bord_perm d congestion cpt wl HW HC s HR) as T. pose proof (step_curr A d congestion cpt wl _ _ HT) as EC.
      assert (CU : sm_curr A (advance A cpt s') - cpt = sm_curr A s).
      { cbn [advance sm_curr]. rewrite EC in *. destruct (time_next ord cpt HC _ T HM) as [-> _]. lia. }
      rewrite CU. split.
      + eapply inv_ext; [exact I'|reflexivity..|lia].
      + destruct HP' as (P1 & P2 & x & Hx & P3). split; [constructor; assumption|]. split; [assumption|]. exists x. split; [exact Hx|]. exact P3.
  Qed.
  Theorem credit_bounded s i x : step_end s -> nth_error (sm_sts A s) i = Some x -> has_started A s i ->
    exists cs, paced i s cs /\ Forall (fun c => 0 <= c <= 2 * cpt) cs /\ sum cs <= sm_curr A s - s_start x + cpt /\ s_start x <= sm_curr A s.
  Proof.
    intros (s0 & HR & HT) Hx HST. destruct (reach_setup A ord bord bord_perm d congestion cpt wl HW s0 HR) as (sts0 & E & HS).
    pose proof (step_inv A ord bord bord_perm d congestion cpt wl HW HC _ _ _ _ HS HR HT) as (? & ? & ? & ? & ? & I1 & _ & I2).
    assert (Hi0 : (i < List.length (sm_sts A s0))%nat).
    { destruct (inv_static _ _ _ _ _ _ I1) as [-> _]. destruct (inv_static _ _ _ _ _ _ I2) as [<- _]. eapply nth_some_lt; eassumption. }
    destruct (pace_reach _ _ _ _ HS HR Hi0) as (fin & cs & I & HP). pose proof HC as [HC1 HC2].
    destruct (timestep_rel A sts0 E) with (d := d) (congestion := congestion) (cpt := cpt) (wl := wl) (s := s0) (fin := fin) (s' := s) as (act & sts1 & sts2 & stt & SR & I'); try assumption; try lia.
    { apply (setup_ok A ord bord bord_perm d wl HW _ _ HS). }
    destruct (pace_step _ _ _ _ _ _ _ _ _ _ _ HS HR HT I SR I' HP) as [c HP']. exists (c :: cs).
    destruct HP' as (P1 & P2 & x' & Hx' & _ & P4). assert (x' = x) by congruence. subst x'. split; [assumption|]. split; [assumption|].
    pose proof (finished_spec A ord cpt _ _ _ _ _ I') as HFN.
    assert (Hin : In i (sm_live A s ++ fin ++ filter (complete A (sm_sts A s)) (sm_live A s0 ++ act))).
    { apply in_or_app. destruct HST as [HL|HFi]; [left; assumption|right; apply HFN; assumption]. }
    pose proof (inv_started _ _ _ _ _ _ I' i x Hin Hx) as (_ & Sle & _). pose proof (step_curr A d congestion cpt wl _ _ HT) as EC. rewrite EC.
    specialize (P4 Hin). split; [|assumption]. destruct P4 as [P4|(k & e & _ & _ & _ & P4)]; lia.
  Qed.

  (** * C35 *)
  (* the largest end cycle so far that counts for a device *)
  Definition window_of (id : Z) : option (Z * Z) := match getGoldenResultCycles wl id with Ok g => Some g | _ => None end.
  Definition counts (id : Z) (x : state) : bool :=
    ((id =? MESH_DEVICE) || (id =? c_dev (t_src (s_tr x)))) &&
    match window_of id with Some g => (fst g <=? t_off (s_tr x)) && (t_off (s_tr x) <=? snd g) | None => false end.
  Definition worst (sts : list state) (ids : list nat) (id : Z) : Z :=
    fold_right Z.max 0 (map (fun i => match nth_error sts i with Some x => if counts id x then s_end x else 0 | None => 0 end) ids).
  Definition worst_ok (sts : list state) (ids : list nat) (stt : stats A) : Prop :=
    forall id, match stats_get A stt id with Some ds => ds_worst A ds = worst sts ids id | None => worst sts ids id = 0 end.

  Lemma stats_get_mod stt id f k : stats_get A (stats_mod A stt id f) k =
    if k =? id then Some (f (match stats_get A stt id with Some ds => ds | None => empty_ds A end)) else stats_get A stt k.
  Proof.
    induction stt as [|[j ds] stt IH]; cbn [stats_mod stats_get].
    - destruct (Z.eqb_spec id k), (Z.eqb_spec k id); subst; try congruence; reflexivity.
    - destruct (Z.eqb_spec j id) as [->|N]; cbn [stats_get].
      + destruct (Z.eqb_spec id k), (Z.eqb_spec k id); subst; try congruence; reflexivity.
      + destruct (Z.eqb_spec j k) as [->|N2]; [destruct (Z.eqb_spec k id); [congruence|reflexivity]|exact IH].
  Qed.
  Lemma stats_get_map f stt stt' : stats_map A f stt = Ok stt' -> (forall k ds ds', f k ds = Ok ds' -> ds_worst A ds' = ds_worst A ds) ->
    forall k, option_map (ds_worst A) (stats_get A stt' k) = option_map (ds_worst A) (stats_get A stt k).
  Proof.
    unfold stats_map. revert stt'. induction stt as [|[j ds] stt IH]; intros stt' H HF k; cbn [mapM] in H; [injection H as <-; reflexivity|].
    apply bind_ok in H as ([j' ds'] & H1 & H). apply bind_ok in H as (r & H2 & H). injection H as <-. cbn [fst snd] in H1.
    apply bind_ok in H1 as (ds1 & H1 & H3). injection H3 as <- <-. cbn [stats_get]. destruct (j =? k); [cbn; f_equal; eapply HF; eassumption|apply IH; assumption].
  Qed.
  Lemma worst_ok_same sts ids stt stt' : (forall k, option_map (ds_worst A) (stats_get A stt' k) = option_map (ds_worst A) (stats_get A stt k)) ->
    worst_ok sts ids stt -> worst_ok sts ids stt'.
  Proof.
    intros H HO id. specialize (HO id). specialize (H id). destruct (stats_get A stt' id), (stats_get A stt id); cbn in H; try congruence.
  Qed.
  Lemma worst_app sts a b id : worst sts (a ++ b) id = Z.max (worst sts a id) (worst sts b id).
  Proof.
    unfold worst. rewrite map_app. induction (map _ a) as [|z l IH]; cbn [app fold_right]; [|rewrite IH; lia].
    assert (0 <= fold_right Z.max 0 (map (fun i : nat => match nth_error sts i with Some x => if counts id x then s_end x else 0 | None => 0 end) b)); [|lia].
    generalize (map (fun i : nat => match nth_error sts i with Some x => if counts id x then s_end x else 0 | None => 0 end) b). induction l; cbn; lia.
  Qed.
  Lemma insert_worst s e stt stt' : insertTimestep A wl s e stt = Ok stt' ->
    forall k, option_map (ds_worst A) (stats_get A stt' k) = option_map (ds_worst A) (stats_get A stt k).
  Proof.
    intros H. eapply stats_get_map; [exact H|]. intros k ds ds' Hd. cbv beta in Hd. apply bind_ok in Hd as (g & _ & Hd). injection Hd as <-. destruct (_ <=? _); reflexivity.
  Qed.
  Lemma update_worst g live stt : forall k, option_map (ds_worst A) (stats_get A (updateSimulationStats A d g live stt) k) = option_map (ds_worst A) (stats_get A stt k).
  Proof.
    intros k. unfold updateSimulationStats. induction stt as [|[j ds] stt IH]; cbn [map stats_get]; [reflexivity|]. cbn [fst snd].
    destruct (rev (ds_ts A ds)); cbn [stats_get]; destruct (j =? k); try assumption; reflexivity.
  Qed.
  Lemma note_worst sts ids stt i x stt' : nth_error sts i = Some x -> 0 <= s_end x -> worst_ok sts ids stt -> note A wl x stt = Ok stt' -> worst_ok sts (ids ++ [i]) stt'.
  Proof.
    intros Hx H0 HO H. unfold note in H. apply bind_ok in H as (g & Hg & H). apply bind_ok in H as (gm & Hgm & H). injection H as <-.
    assert (ONE : forall id g stt, getGoldenResultCycles wl id = Ok g -> (id = MESH_DEVICE \/ id = c_dev (t_src (s_tr x))) ->
      worst_ok sts ids stt -> forall k, stats_get A (updateWorstCase A id (t_off (s_tr x)) (s_end x) g stt) k = 
        if (k =? id) && counts id x then Some (with_worst A (match stats_get A stt id with Some ds => ds | None => empty_ds A end) (Z.max (worst sts ids id) (s_end x))) else stats_get A stt k).
    { intros id g' st Hg' Hid HO' k. unfold updateWorstCase, counts, window_of. rewrite Hg'.
      replace ((id =? MESH_DEVICE) || (id =? c_dev (t_src (s_tr x)))) with true by lia. cbn [andb].
      destruct ((fst g' <=? t_off (s_tr x)) && (t_off (s_tr x) <=? snd g')); [|rewrite andb_false_r; reflexivity]. rewrite andb_true_r, stats_get_mod.
      destruct (Z.eqb_spec k id) as [->|]; [|reflexivity]. do 2 f_equal. specialize (HO' id). destruct (stats_get A st id); cbn; [congruence|]. rewrite HO'. reflexivity. }
    set (st1 := updateWorstCase A (c_dev (t_src (s_tr x))) (t_off (s_tr x)) (s_end x) g stt) in *.
    pose proof (ONE _ _ stt Hg (or_intror eq_refl) HO) as G1. fold st1 in G1.
    assert (W1 : forall id, worst sts (ids ++ [i]) id = if counts id x then Z.max (worst sts ids id) (s_end x) else worst sts ids id).
    { intros id. rewrite worst_app. unfold worst at 2. cbn [map fold_right]. rewrite Hx. assert (0 <= worst sts ids id).
      { unfold worst. generalize (map (fun i : nat => match nth_error sts i with Some x => if counts id x then s_end x else 0 | None => 0 end) ids). induction l; cbn; lia. }
      destruct (counts id x); lia. }
    assert (CID : forall id, counts id x = true -> id = MESH_DEVICE \/ id = c_dev (t_src (s_tr x))) by (intros id; unfold counts; lia).
    (* second update *)
    intros id. rewrite W1.
    destruct (Z.eq_dec (c_dev (t_src (s_tr x))) MESH_DEVICE) as [EM|NM].
    - (* both updates go to the mesh entry *)
      rewrite EM in *. assert (g = gm) by congruence. subst gm.
      assert (G2 : forall k, stats_get A (updateWorstCase A MESH_DEVICE (t_off (s_tr x)) (s_end x) g st1) k =
        if (k =? MESH_DEVICE) && counts MESH_DEVICE x then option_map (fun ds => with_worst A ds (Z.max (worst sts ids MESH_DEVICE) (s_end x))) (stats_get A st1 k) else stats_get A stt k).
      { intros k. unfold updateWorstCase. specialize (G1 k). unfold counts, window_of in *. rewrite Hg in *. rewrite Z.eqb_refl in *. cbn [orb andb] in *.
        destruct ((fst g <=? t_off (s_tr x)) && (t_off (s_tr x) <=? snd g)) eqn:EW; [|rewrite ?andb_false_r in *; assumption].
        rewrite andb_true_r in *. rewrite stats_get_mod. destruct (Z.eqb_spec k MESH_DEVICE) as [->|]; [|assumption]. rewrite G1. cbn. do 2 f_equal. lia. }
      rewrite G2. specialize (G1 id). specialize (HO id). destruct (Z.eqb_spec id MESH_DEVICE) as [->|NI].
      + cbn [andb] in *. destruct (counts MESH_DEVICE x); [|assumption]. rewrite G1. reflexivity.
      + cbn [andb] in *. destruct (counts id x) eqn:EC; [|assumption]. exfalso. apply CID in EC. lia.
    - assert (HO1 : forall k, k <> c_dev (t_src (s_tr x)) -> stats_get A st1 k = stats_get A stt k).
      { intros k Hk. rewrite G1. replace (k =? c_dev (t_src (s_tr x))) with false by lia. reflexivity. }
      assert (G2 : forall k, stats_get A (updateWorstCase A MESH_DEVICE (t_off (s_tr x)) (s_end x) gm st1) k =
        if (k =? MESH_DEVICE) && counts MESH_DEVICE x then Some (with_worst A (match stats_get A stt MESH_DEVICE with Some ds => ds | None => empty_ds A end) (Z.max (worst sts ids MESH_DEVICE) (s_end x))) else stats_get A st1 k).
      { intros k. unfold updateWorstCase, counts, window_of. rewrite Hgm. rewrite Z.eqb_refl. cbn [orb andb].
        destruct ((fst gm <=? t_off (s_tr x)) && (t_off (s_tr x) <=? snd gm)); [|rewrite andb_false_r; reflexivity]. rewrite andb_true_r, stats_get_mod.
        rewrite HO1 by auto. destruct (Z.eqb_spec k MESH_DEVICE) as [->|]; [|reflexivity]. do 2 f_equal. specialize (HO MESH_DEVICE).
        destruct (stats_get A stt MESH_DEVICE); cbn; [congruence|]. rewrite HO. reflexivity. }
      rewrite G2. specialize (HO id). destruct (Z.eqb_spec id MESH_DEVICE) as [->|NI].
      + cbn [andb]. destruct (counts MESH_DEVICE x); [reflexivity|]. rewrite HO1 by auto. exact HO.
      + cbn [andb]. rewrite G1. destruct (Z.eqb_spec id (c_dev (t_src (s_tr x)))) as [->|N2]; cbn [andb].
        * destruct (counts (c_dev (t_src (s_tr x))) x); [reflexivity|exact HO].
        * destruct (counts id x) eqn:EC; [exfalso; apply CID in EC; lia|exact HO].
  Qed.
  Lemma note_all_worst sts new : forall ids stt stt', (forall i x, In i new -> nth_error sts i = Some x -> 0 <= s_end x) ->
    worst_ok sts ids stt -> note_all A wl sts new stt = Ok stt' -> worst_ok sts (ids ++ new) stt'.
  Proof.
    unfold note_all. induction new as [|i new IH]; intros ids stt stt' HP HO H; cbn [foldM] in H; [injection H as <-; rewrite app_nil_r; assumption|].
    apply bind_ok in H as (s1 & H1 & H). apply bind_ok in H1 as (x & Hx & H1). apply vec_get_ok in Hx.
    replace (ids ++ i :: new) with ((ids ++ [i]) ++ new) by (rewrite <- app_assoc; reflexivity). eapply IH; [|eapply note_worst; [exact Hx| |exact HO|exact H1]|exact H].
    - intros j y Hj. apply HP. right; assumption. - eapply HP; [left; reflexivity|exact Hx].
  Qed.
  Lemma worst_frame sts sts' ids id : (forall i, In i ids -> forall x, nth_error sts i = Some x -> exists x', nth_error sts' i = Some x' /\ s_tr x' = s_tr x /\ s_end x' = s_end x) ->
    (forall i, In i ids -> (i < List.length sts)%nat) -> worst sts' ids id = worst sts ids id.
  Proof.
    intros H HL. unfold worst. f_equal. apply map_ext_in. intros i Hi. destruct (nth_lt_some _ _ (HL _ Hi)) as [x Hx].
    destruct (H _ Hi _ Hx) as (x' & -> & T & EE). rewrite Hx. unfold counts. rewrite T, EE. reflexivity.
  Qed.
  Lemma worst_step sts0 E s s' fin act sts1 sts2 stt : 
    inv A sts0 E (sm_curr A s - cpt) s fin -> step_rel A d congestion cpt wl s s' act sts1 sts2 stt ->
    inv A sts0 E (sm_curr A s) s' (fin ++ filter (complete A (sm_sts A s')) (sm_live A s ++ act)) ->
    worst_ok (sm_sts A s) fin (sm_stats A s) ->
    worst_ok (sm_sts A s') (fin ++ filter (complete A (sm_sts A s')) (sm_live A s ++ act)) (sm_stats A s').
  Proof.
    intros I SR I' HO. destruct SR as [S1 S2 S3 [S4 S4'] S5 [S6 S6'] S7 (stt1 & S8 & S8') S9]. apply rates_frame in S5. destruct S5 as [F1 F2].
    pose proof (part_ids _ _ _ _ _ _ I) as [ND IDS].
    eapply note_all_worst; [| |exact S9].
    - intros i x Hi Hx. apply (inv_fin _ _ _ _ _ _ I' i x); [apply in_or_app; auto|assumption].
    - assert (HO1 : worst_ok (sm_sts A s') fin (sm_stats A s)).
      { intros id. specialize (HO id). rewrite (worst_frame (sm_sts A s) (sm_sts A s')); [assumption| |].
        - intros k Hk y Hy. assert (Hn : ~ In k (sm_live A s ++ act)).
          { intros Hn. apply in_app_or in Hn as [Hn|Hn].
            - apply NoDup_app_r in ND. exact (NoDup_app_not _ _ _ ND Hn Hk).
            - apply S2 in Hn as [Hq _]. eapply NoDup_app_not; [exact ND|exact Hq|]. apply in_or_app; auto. }
          pose proof (S4' _ _ Hy) as Hy1. destruct (F2 _ _ Hy1) as (b' & Hy2 & _). destruct (S6' _ _ Hy2) as [_ M2]. eexists. split; [exact (M2 Hn)|].
          cbn [with_bw s_tr s_end]. rewrite if_not_in by (intros Hn'; apply Hn, in_or_app; auto). auto.
        - intros k Hk. apply IDS. rewrite !in_app_iff. auto. }
      subst stt. eapply worst_ok_same; [|exact HO1]. intros k. rewrite update_worst. eapply insert_worst; exact S8.
  Qed.
  Lemma worst_init s : sim_init A ord bord d cpt wl = Ok s -> worst_ok (sm_sts A s) [] (sm_stats A s).
  Proof.
    intros H. destruct (sim_init_eq A ord bord bord_perm d cpt wl HW _ H) as (sts0 & E & _ & ->). cbn [sm_stats sm_sts].
    intros id. unfold worst. cbn [map fold_right]. unfold stats_make. assert (G : forall l, (forall e, In e l -> snd e = empty_ds A) ->
      match stats_get A l id with Some ds => ds_worst A ds = 0 | None => 0 = 0 end).
    { induction l as [|[j ds] l IH]; intros HF; cbn [stats_get]; [reflexivity|]. destruct (j =? id); [pose proof (HF (j, ds) (or_introl eq_refl)) as Q; cbn in Q; subst ds; reflexivity|].
      apply IH. intros; apply HF; right; assumption. }
    apply G. intros e He. apply in_app_or in He as [He|[<-|[]]]; [|reflexivity]. apply in_map_iff in He as (k & <- & _). reflexivity.
  Qed.
  Lemma worst_reach sts0 E s : setup sts0 E -> reach s -> exists fin, inv A sts0 E (sm_curr A s - cpt) s fin /\ worst_ok (sm_sts A s) fin (sm_stats A s).
  Proof.
    intros HS HR. induction HR as [s H|s s' HR (fin & I & HO) HT HF HM].
    - exists []. split; [apply (init_inv A ord bord bord_perm d cpt wl HW _ _ _ HS H)|]. apply worst_init; assumption.
    - pose proof HC as [HC1 HC2]. destruct (timestep_rel A sts0 E) with (d := d) (congestion := congestion) (cpt := cpt) (wl := wl) (s := s) (fin := fin) (s' := s') as (act & sts1 & sts2 & stt & SR & I'); try assumption; try lia.
      { apply (setup_ok A ord bord bord_perm d wl HW _ _ HS). }
      eexists. split; [|exact (worst_step _ _ _ _ _ _ _ _ _ I SR I' HO)].
      pose proof (reach_time A ord bord bord_perm d congestion cpt wl HW HC s HR) as T. pose proof (step_curr A d congestion cpt wl _ _ HT) as EC.
      assert (CU : sm_curr A (advance A cpt s') - cpt = sm_curr A s).
      { cbn [advance sm_curr]. rewrite EC in *. destruct (time_next ord cpt HC _ T HM) as [-> _]. lia. }
      rewrite CU. eapply inv_ext; [exact I'|reflexivity..|lia].
  Qed.
  Theorem worst_end s : succeeds s -> worst_ok (sm_sts A s) (seq 0 (List.length (sm_sts A s))) (sm_stats A s) /\
    forall i x, nth_error (sm_sts A s) i = Some x -> 0 <= s_end x < 2 ^ 32.
  Proof.
    intros H. destruct (succeeds_end A ord bord d congestion cpt wl s H) as [(s0 & HR & HT) HF]. destruct (finished_all A s HF) as [HL HQ].
    destruct (reach_setup A ord bord bord_perm d congestion cpt wl HW s0 HR) as (sts0 & E & HS).
    destruct (worst_reach _ _ _ HS HR) as (fin & I & HO). pose proof HC as [HC1 HC2].
    destruct (timestep_rel A sts0 E) with (d := d) (congestion := congestion) (cpt := cpt) (wl := wl) (s := s0) (fin := fin) (s' := s) as (act & sts1 & sts2 & stt & SR & I'); try assumption; try lia.
    { apply (setup_ok A ord bord bord_perm d wl HW _ _ HS). }
    pose proof (worst_step _ _ _ _ _ _ _ _ _ I SR I' HO) as HO'. set (fin' := fin ++ _) in *.
    pose proof (inv_part _ _ _ _ _ _ I') as PT. rewrite HL, HQ in PT. cbn [map app] in PT. destruct (inv_static _ _ _ _ _ _ I') as [HLen _]. rewrite <- HLen in PT.
    split.
    - intros id. specialize (HO' id). replace (worst (sm_sts A s) (seq 0 (List.length (sm_sts A s))) id) with (worst (sm_sts A s) fin' id); [assumption|].
      unfold worst. clear - PT. induction PT; cbn; try lia. 
    - intros i x Hx. apply (inv_fin _ _ _ _ _ _ I' i x); [|assumption]. eapply Permutation_in; [symmetry; exact PT|]. apply in_seq. pose proof (nth_some_lt _ _ _ Hx). lia.
  Qed.
  Lemma worst_estimate sts id g : getGoldenResultCycles wl id = Ok g -> 0 <= fst g -> (forall i x, nth_error sts i = Some x -> 0 <= s_end x < 2 ^ 32) ->
    let w := worst sts (seq 0 (List.length sts)) id in
    0 <= w < 2 ^ 32 /\ estimate A id g sts (if w <=? fst g then 0 else w - fst g).
  Proof.
    intros Hg G0 HE w.
    assert (U : forall e, counted A id g sts e -> e <= w).
    { intros e (i & x & Hx & HD & HWn & ->). unfold w, worst. assert (Hin : In i (seq 0 (List.length sts))) by (apply in_seq; pose proof (nth_some_lt _ _ _ Hx); lia).
      induction (seq 0 (List.length sts)) as [|j l IH]; [destruct Hin|]. cbn [map fold_right]. destruct Hin as [->|Hin]; [|specialize (IH Hin); lia].
      rewrite Hx. replace (counts id x) with true; [lia|]. symmetry. unfold counts, window_of. rewrite Hg. lia. }
    assert (L : w = 0 \/ counted A id g sts w).
    { clear U. subst w. unfold worst. induction (seq 0 (List.length sts)) as [|j l IH]; [left; reflexivity|]. cbn [map fold_right].
      set (r := fold_right _ _ _) in *. destruct (nth_error sts j) as [x|] eqn:Ex.
      - destruct (counts id x) eqn:EC.
        + assert (CX : counted A id g sts (s_end x)).
          { exists j, x. split; [assumption|]. unfold counts, window_of in EC. rewrite Hg in EC. split; [lia|]. split; [lia|reflexivity]. }
          destruct (Z.max_spec (s_end x) r) as [[_ ->]|[_ ->]]; [assumption|right; assumption].
        + destruct IH as [->|IH]; [left; reflexivity|]. pose proof (HE _ _ Ex). destruct IH as (j' & x' & Hx' & K1 & K2 & K3). pose proof (HE _ _ Hx').
          right. rewrite Z.max_r by lia. exists j', x'. auto.
      - destruct IH as [->|IH]; [left; reflexivity|]. destruct IH as (j' & x' & Hx' & K1 & K2 & K3). pose proof (HE _ _ Hx').
        right. rewrite Z.max_r by lia. exists j', x'. auto. }
    assert (R : 0 <= w < 2 ^ 32).
    { destruct L as [->|(i & x & Hx & _ & _ & ->)]; [lia|]. apply (HE _ _ Hx). }
    split; [assumption|]. destruct (Z.leb_spec w (fst g)) as [Hle|Hgt].
    - right. split; [|reflexivity]. intros e He. specialize (U _ He). lia.
    - left. exists w. split; [|split; [assumption|reflexivity]]. split; [assumption|]. destruct L as [L|L]; [lia|assumption].
  Qed.
  Lemma finish_get stt stt' : finishSimulation A wl cpt stt = Ok stt' -> forall id ds', stats_get A stt' id = Some ds' ->
    exists ds g, stats_get A stt id = Some ds /\ getGoldenResultCycles wl id = Ok g /\
      ds_est A ds' = (if ds_worst A ds <=? fst g then 0 else u64 (ds_worst A ds - fst g)) /\ ds_golden A ds' = u32 (snd g - fst g) /\ ds_completed A ds' = true.
  Proof.
    unfold finishSimulation, stats_map. revert stt'. induction stt as [|[j ds] stt IH]; intros stt' H id ds' HG; cbn [mapM] in H; [injection H as <-; discriminate|].
    apply bind_ok in H as ([j' ds1] & H1 & H). apply bind_ok in H as (r & H2 & H). injection H as <-. cbn [fst snd] in H1.
    apply bind_ok in H1 as (ds2 & H1 & H3). injection H3 as <- <-. cbn [stats_get] in HG |- *. destruct (Z.eqb_spec j id) as [->|N]; [|apply (IH _ H2 _ _ HG)].
    injection HG as <-. unfold finish_device in H1. apply bind_ok in H1 as (g & Hg & H1). exists ds, g. split; [reflexivity|]. split; [assumption|].
    cbv zeta in H1. destruct (ds_worst A ds <=? fst g); [injection H1 as <-; auto|]. destruct (cpt =? 0); [discriminate|]. injection H1 as <-. auto.
  Qed.
  Lemma summary_get stt stt' : computeSummaryStats A d wl stt = Ok stt' -> forall id ds', stats_get A stt' id = Some ds' ->
    exists ds, stats_get A stt id = Some ds /\ ds_est A ds' = ds_est A ds /\ ds_golden A ds' = ds_golden A ds /\ ds_completed A ds' = ds_completed A ds /\ ds_ts A ds' = ds_ts A ds.
  Proof.
    unfold computeSummaryStats, stats_map. revert stt'. induction stt as [|[j ds] stt IH]; intros stt' H id ds' HG; cbn [mapM] in H; [injection H as <-; discriminate|].
    apply bind_ok in H as ([j' ds1] & H1 & H). apply bind_ok in H as (r & H2 & H). injection H as <-. cbn [fst snd] in H1.
    apply bind_ok in H1 as (ds2 & H1 & H3). injection H3 as <- <-. cbn [stats_get] in HG |- *. destruct (Z.eqb_spec j id) as [->|N]; [|apply (IH _ H2 _ _ HG)].
    injection HG as <-. unfold summary_device in H1. apply bind_ok in H1 as (rw & _ & H1). apply bind_ok in H1 as (et & _ & H1). injection H1 as <-. exists ds. auto.
  Qed.
End Run.

Section Est.
  Context (A : arith) (ord : Z -> list Z -> list Z) (bord : list bucket -> list bucket) (bord_perm : bucket_order bord).
  Context (d : device) (cpt : Z) (wl : workload (F A)).
  Context (HW : proper wl) (HC : proper_cpt cpt).
  Theorem estimated_cycles model stt : runSinglePerfSim A ord bord d model cpt wl = Ok (Stats stt) ->
    exists s, succeeds A ord bord d (negb (String.eqb model "none")) cpt wl s /\
      forall id ds, stats_get A stt id = Some ds -> ds_completed A ds = true /\
        exists g, getGoldenResultCycles wl id = Ok g /\ (0 <= fst g -> estimate A id g (sm_sts A s) (ds_est A ds)).
  Proof.
    unfold runSinglePerfSim. intros H. apply bind_ok in H as (r & Hr & H). destruct r as [s|e]; [|discriminate].
    apply bind_ok in H as (stt1 & H1 & H). apply bind_ok in H as (stt2 & H2 & H). injection H as <-. exists s. split; [exact Hr|].
    intros id ds Hds. destruct (summary_get A d wl _ _ H2 _ _ Hds) as (ds1 & G1 & EQ & _ & EC & _).
    destruct (finish_get A cpt wl _ _ H1 _ _ G1) as (ds0 & g & G0 & Hg & EE & _ & EC1). split; [congruence|]. exists g. split; [assumption|]. intros P.
    destruct (worst_end A ord bord bord_perm d _ cpt wl HW HC s Hr) as [WO WE]. specialize (WO id). rewrite G0 in WO.
    destruct (worst_estimate A ord wl (sm_sts A s) id g Hg P WE) as [WR WS]. rewrite EQ, EE, WO. set (w := worst _ _ _ _ _) in *. clearbody w. destruct (w <=? fst g) eqn:EB; [exact WS|].
    rewrite u64_id; [exact WS|]. change (2 ^ 64) with 18446744073709551616. change (2 ^ 32) with 4294967296 in WR. lia.
  Qed.
End Est.
