(* Facts about runs, continued: dependencies, activation, termination, bytes (C27-C32, C34). *)
From Coq Require Import ZArith Arith String List Bool Lia ZifyBool ZifyNat Sorting.Permutation Sorting.Sorted.
From Verif Require Import Base Arith Util Device Workload SpecWorkload DepTracker Rates Stats Engine UtilProofs
  WorkloadProofs SpecTracker TrackerProofs DepGenProofs StepProofs SpecEngine EngineProofs RunProofs DepFacts EngineFacts.
Import ListNotations.
Open Scope Z_scope.
Ltac Zify.zify_post_hook ::= idtac.

Section Facts.
  Context (A : arith) (ord : Z -> list Z -> list Z) (bord : list bucket -> list bucket) (bord_perm : bucket_order bord).
  Context (d : device) (congestion : bool) (cpt : Z) (wl : workload (F A)).
  Context (HW : proper wl) (HC : proper_cpt cpt).
  Notation state := (tstate (F A)).
  Notation reach := (reach A ord bord d congestion cpt wl).
  Notation step_end := (step_end A ord bord d congestion cpt wl).
  Notation visited := (visited A ord bord d congestion cpt wl).
  Notation succeeds := (succeeds A ord bord d congestion cpt wl).
  Notation setup := (setup A ord bord d wl).
  Notation step := (timestep A d congestion cpt wl).
  Notation begins := (begins A ord bord d congestion cpt wl).

  Let vfacts := visited_facts A ord bord bord_perm d congestion cpt wl HW HC.
  Let sfacts := setup_facts A ord bord d wl HW.
  Let dep_iff := depends_iff A.

  (** * C29: groups *)
  Lemma depends_unique s : visited s -> forall i j dl j' dl',
    depends A (sm_sts A s) (sm_trk A s) i j dl -> depends A (sm_sts A s) (sm_trk A s) i j' dl' -> j' = j /\ dl' = dl.
  Proof.
    intros H i j dl j' dl' H1 H2. destruct (vfacts _ H) as (sts0 & E & h & fin & HS & HE & I & _).
    apply (dep_iff _ _ _ _ _ I HE) in H1 as (k & e & A1 & A2 & A3 & A4). apply (dep_iff _ _ _ _ _ I HE) in H2 as (k' & e' & B1 & B2 & B3 & B4).
    assert (k' = k) by congruence. subst. assert (e' = e) by congruence. subst. auto.
  Qed.
  Lemma group_map_keys (sts : list state) (s : state) m0 : In s sts -> t_gid (s_tr s) <> -1 -> t_gix (s_tr s) <> -1 ->
    exists id, In ((t_gid (s_tr s), t_gix (s_tr s)), id) (fold_left (fun m s => let t := s_tr s in
      if negb (t_gid t =? -1) && negb (t_gix t =? -1) then ((t_gid t, t_gix t), idx A s) :: m else m) sts m0).
  Proof.
    intros Hin H1 H2.
    assert (MONO : forall l m x, In x m -> In x (fold_left (fun m (s : state) => let t := s_tr s in
      if negb (t_gid t =? -1) && negb (t_gix t =? -1) then ((t_gid t, t_gix t), idx A s) :: m else m) l m)).
    { induction l as [|a l IH]; intros m x Hx; cbn [fold_left]; [assumption|]. apply IH. cbv zeta. destruct (_ && _); [right|]; assumption. }
    revert m0. induction sts as [|a sts IH]; intros m0; [destruct Hin|]. cbn [fold_left]. destruct Hin as [->|Hin]; [|apply IH; assumption].
    exists (idx A s). apply MONO. cbv zeta. replace (t_gid (s_tr s) =? -1) with false by lia. replace (t_gix (s_tr s) =? -1) with false by lia. left; reflexivity.
  Qed.
  Lemma group_get_in (m : list ((Z * Z) * nat)) g x : (exists id, In ((g, x), id) m) -> In ((g, x), group_get m g x) m.
  Proof.
    intros [id Hid]. induction m as [|[[g' x'] i] m IH]; [destruct Hid|]. cbn [group_get].
    destruct ((g' =? g) && (x' =? x)) eqn:Ek.
    - left. do 2 f_equal; lia.
    - right. apply IH. destruct Hid as [Hid|Hid]; [|assumption]. injection Hid as -> -> ->. rewrite !Z.eqb_refl in Ek. discriminate.
  Qed.
  Theorem group_rule s : visited s -> forall i x, nth_error (sm_sts A s) i = Some x -> has_group_parent A (s_tr x) ->
    dv_arch d = WormholeB0 /\
    exists j dl p, depends A (sm_sts A s) (sm_trk A s) i j dl /\ nth_error (sm_sts A s) j = Some p /\
      hop_delay A d (s_tr x) (s_tr p) dl /\
      (names_parent A (s_tr x) (s_tr p) \/ (j = O /\ forall k y, nth_error (sm_sts A s) k = Some y -> ~ names_parent A (s_tr x) (s_tr y))).
  Proof.
    intros H i x Hx HG. destruct (vfacts _ H) as (sts0 & E & h & fin & HS & HE & I & _). destruct (sfacts _ _ HS) as [HF HO].
    destruct (static_same A _ _ _ _ _ I _ _ Hx) as (x0 & Hx0 & T0 & R0).
    destruct HS as [_ HD]. pose proof HD as HD'. unfold dep_edges in HD. apply bind_ok in HD as (bs & _ & HD). apply bind_ok in HD as (E2 & HE2 & _).
    unfold group_edges in HE2. apply bind_ok in HE2 as (es & Hes & _). apply mapM_Forall2 in Hes.
    destruct (Forall2_In_l _ _ _ _ Hes (nth_error_In _ _ Hx0)) as (l & _ & Hl). unfold group_edge in Hl.
    rewrite <- T0 in Hl. destruct HG as [G1 G2]. replace (negb (t_gid (s_tr x) =? -1) && negb (t_gpar (s_tr x) =? -1)) with true in Hl by lia.
    apply bind_ok in Hl as (dl & Hdl & _). set (j := group_get _ _ _) in *.
    assert (HDEP : depends A (sm_sts A s) (sm_trk A s) i j dl).
    { apply (dep_iff _ _ _ _ _ I HE). apply (dep_char A ord bord bord_perm d sts0 HF HO E HD' i x0 Hx0). left. rewrite <- T0. split; [split; assumption|]. split; [reflexivity|assumption]. }
    pose proof HDEP as (_ & p & _ & _ & _ & Hp & _). unfold group_delay in Hdl. destruct (t_dst (s_tr x)) as [c|] eqn:Ed; [|discriminate].
    apply bind_ok in Hdl as (lat & Hlat & Hdl). destruct (dv_arch d) eqn:EA; [|discriminate]. split; [reflexivity|].
    apply bind_ok in Hdl as (p0 & Hp0 & Hdl). apply vec_get_ok in Hp0.
    destruct (static_same A _ _ _ _ _ I _ _ Hp) as (p1 & Hp1 & T1 & _). assert (p1 = p0) by congruence. subst p1.
    exists j, dl, p. split; [assumption|]. split; [assumption|]. split.
    - exists c, lat. split; [assumption|]. split; [exact Hlat|]. rewrite T1. destruct (Z.eqb_spec (c_dev (t_src (s_tr x))) (c_dev (t_src (s_tr p0)))) as [EQ|NE].
      + split; [intros _; congruence|contradiction].
      + split; [contradiction|]. intros _. exact Hdl.
    - assert (DEC : forall a b : (Z * Z) * nat, {a = b} + {a <> b}) by (decide equality; [apply Nat.eq_dec|decide equality; apply Z.eq_dec]).
      destruct (in_dec DEC ((t_gid (s_tr x), t_gpar (s_tr x)), j) (group_map A sts0)) as [HI|HN].
      + left. unfold group_map in HI. apply group_map_in in HI. destruct HI as [[]|(y0 & Hy0 & Hid & K1 & K2)]. apply In_nth_error in Hy0 as [q Hq].
        destruct (HF _ _ Hq) as [Hq' _]. assert (EQ : q = j) by congruence. rewrite EQ in Hq. assert (y0 = p0) by congruence. subst y0.
        unfold names_parent. rewrite T1. split; assumption.
      + right. assert (HK : forall k y, nth_error (sm_sts A s) k = Some y -> ~ names_parent A (s_tr x) (s_tr y)).
        { intros k y Hy [N1 N2]. apply HN. apply group_get_in. destruct (static_same A _ _ _ _ _ I _ _ Hy) as (y0 & Hy0 & T2 & _).
          rewrite <- N1, <- N2, T2. apply group_map_keys; [eapply nth_error_In; eassumption|rewrite <- T2; congruence..]. }
        split; [|assumption]. destruct (group_get_cases ord (group_map A sts0) (t_gid (s_tr x)) (t_gpar (s_tr x))) as [C|(id & C1 & C2)]; [exact C|].
        exfalso. apply HN. fold j in C2. rewrite C2. exact C1.
  Qed.

  (** * C30 *)
  Lemma in_queue_dec (s : sim A) i : is_queued A s i \/ ~ is_queued A s i.
  Proof. unfold is_queued. destruct (in_dec Nat.eq_dec i (map snd (sm_queue A s))); auto. Qed.
  Lemma ready_iff sts0 E h s fin c : inv A sts0 E h s fin -> Forall (edge_ok (List.length sts0)) E -> (forall i, In i fin <-> is_finished A s i) ->
    forall i x, nth_error (sm_sts A s) i = Some x -> (ready A (sm_trk A s) c x = true <-> fulfilled A s i c).
  Proof.
    intros I HE HFN i x Hx. destruct (inv_static _ _ _ _ _ _ I) as [HL HST]. pose proof (inv_trk _ _ _ _ _ _ I) as HT.
    destruct (HST _ _ Hx) as (x0 & _ & _ & _ & _ & Dx). rewrite HT. split.
    - intros HR j dl HD. apply (dep_iff _ _ _ _ _ I HE) in HD as (k & e & Hk & He & Hp & Hdl).
      destruct (ready_parent A sts0 E fin (sm_sts A s) c i x (HST _ _ Hx) HR) as [P1 P2].
      pose proof (P1 _ _ Hk He) as P1'. pose proof (P2 _ _ Hk He) as P2'. rewrite Hp in *. rewrite Hdl in *. split; [apply HFN; assumption|].
      apply HFN in P1'. destruct P1' as [Hlt _]. destruct (nth_lt_some _ _ Hlt) as [y Hy]. exists y. split; [assumption|]. unfold end_at in P2'. rewrite Hy in P2'. assumption.
    - intros HF. unfold ready, done. rewrite Dx. destruct (dep_of E i) as [k|] eqn:Ek; [|reflexivity].
      destruct (dep_edge E _ _ Ek) as (e & He & _). unfold cp_at. rewrite (trk_nth A E fin (sm_sts A s) _ _ He). cbn [bind].
      destruct (HF (e_parent e) (e_delay e)) as (F1 & y & Hy & F2).
      { apply (dep_iff _ _ _ _ _ I HE). exists k, e. auto. }
      unfold cp_of. rewrite if_in by (apply HFN; assumption). unfold end_at. rewrite Hy. unfold cp_done. cbn [cp_completed cp_total cp_end cp_delay]. lia.
  Qed.
  Lemma step_setup s : reach s -> exists sts0 E, setup sts0 E /\ Forall (edge_ok (List.length sts0)) E.
  Proof.
    intros H. destruct (reach_setup A ord bord bord_perm d congestion cpt wl HW s H) as (sts0 & E & HS). exists sts0, E. split; [assumption|].
    apply (setup_ok A ord bord bord_perm d wl HW _ _ HS).
  Qed.
  Theorem activation_exact s s' : reach s -> step s = Ok s' -> forall i,
    (is_queued A s i /\ ~ is_queued A s' i) <->
    (is_queued A s i /\ exists x, nth_error (sm_sts A s) i = Some x /\ t_off (s_tr x) <= sm_curr A s /\ fulfilled A s i (sm_curr A s)).
  Proof.
    intros HR H i. destruct (step_setup _ HR) as (sts0 & E & HS & HE).
    destruct (step_inv A ord bord bord_perm d congestion cpt wl HW HC _ _ _ _ HS HR H) as (fin & act & sts1 & sts2 & stt & I & SR & _).
    pose proof (finished_spec A ord cpt _ _ _ _ _ I) as HFN. destruct (part_ids _ _ _ _ _ _ I) as [ND _]. apply NoDup_app_l in ND.
    pose proof (sr_queue _ _ _ _ _ _ _ _ _ _ _ SR) as PQ. pose proof (sr_act _ _ _ _ _ _ _ _ _ _ _ SR i) as HA. unfold is_queued. split.
    - intros [H1 H2]. split; [assumption|]. assert (Hin : In i act).
      { eapply Permutation_in in H1; [|exact PQ]. apply in_app_or in H1 as [H1|H1]; [assumption|contradiction]. }
      apply HA in Hin as (_ & x & Hx & Ho & Hr). exists x. split; [assumption|]. split; [assumption|]. eapply ready_iff; eassumption.
    - intros (H1 & x & Hx & Ho & Hf). split; [assumption|]. assert (Hin : In i act).
      { apply HA. split; [assumption|]. exists x. split; [assumption|]. split; [assumption|]. eapply ready_iff; eassumption. }
      intros H2. rewrite PQ in ND. exact (NoDup_app_not _ _ _ ND Hin H2).
  Qed.
  (* each transfer is in exactly one place, and the places follow each other *)
  Theorem places s : visited s -> NoDup (map snd (sm_queue A s)) /\ NoDup (sm_live A s) /\
    List.length (sm_sts A s) = List.length (all_transfers wl) /\
    forall i, (i < List.length (all_transfers wl))%nat <-> 
      (is_queued A s i /\ ~ is_live A s i /\ ~ is_finished A s i) \/ (~ is_queued A s i /\ is_live A s i /\ ~ is_finished A s i) \/
      (~ is_queued A s i /\ ~ is_live A s i /\ is_finished A s i).
  Proof.
    intros H. destruct (vfacts _ H) as (sts0 & E & h & fin & HS & HE & I & _ & _ & HFN). destruct (part_ids _ _ _ _ _ _ I) as [ND IDS].
    assert (HLen : List.length (sm_sts A s) = List.length (all_transfers wl)).
    { destruct (inv_static _ _ _ _ _ _ I) as [-> _]. destruct HS as [HS _]. destruct (init_states A ord d wl HW _ HS) as (F2 & _). symmetry.
      clear -F2; induction F2; cbn; congruence. }
    split; [eapply NoDup_app_l; eassumption|]. split; [eapply NoDup_app_l, NoDup_app_r; eassumption|]. split; [assumption|].
    intros i. rewrite <- HLen. rewrite <- IDS, !in_app_iff, HFN. unfold is_finished, is_queued, is_live in *. split.
    - intros Hi. assert (Hlt : (i < List.length (sm_sts A s))%nat).
      { apply IDS. rewrite !in_app_iff, HFN. exact Hi. }
      destruct (in_dec Nat.eq_dec i (map snd (sm_queue A s))) as [Q|Q]; destruct (in_dec Nat.eq_dec i (sm_live A s)) as [L|L]; try tauto.
      exfalso. apply (NoDup_app_not _ _ i ND Q). apply in_or_app. auto.
    - tauto.
  Qed.
  Theorem places_move s s' : reach s -> step s = Ok s' -> forall i,
    (is_live A s i -> is_live A s' i \/ is_finished A s' i) /\ (is_finished A s i -> is_finished A s' i) /\
    (is_queued A s' i -> is_queued A s i).
  Proof.
    intros HR H i. destruct (step_setup _ HR) as (sts0 & E & HS & HE).
    destruct (step_inv A ord bord bord_perm d congestion cpt wl HW HC _ _ _ _ HS HR H) as (fin & act & sts1 & sts2 & stt & I & SR & I').
    pose proof (finished_spec A ord cpt _ _ _ _ _ I) as HFN. pose proof (finished_spec A ord cpt _ _ _ _ _ I') as HFN'.
    pose proof (sr_queue _ _ _ _ _ _ _ _ _ _ _ SR) as PQ. pose proof (sr_live _ _ _ _ _ _ _ _ _ _ _ SR) as EL.
    unfold is_live, is_queued. split; [|split].
    - intros HL. rewrite EL. destruct (complete A (sm_sts A s') i) eqn:EC.
      + right. apply HFN'. apply in_or_app. right. apply filter_In. split; [apply in_or_app; auto|assumption].
      + left. apply filter_In. split; [apply in_or_app; auto|]. rewrite EC. reflexivity.
    - intros HF. apply HFN'. apply in_or_app. left. apply HFN. assumption.
    - intros HQ. rewrite PQ. apply in_or_app. auto.
  Qed.

  (** * C32 *)
  Theorem bytes_bounds s : visited s -> forall i x, nth_error (sm_sts A s) i = Some x ->
    0 <= s_done x <= t_bytes (s_tr x) /\ (is_queued A s i -> s_done x = 0) /\ (is_live A s i -> s_done x < t_bytes (s_tr x)) /\
    (is_finished A s i -> s_done x = t_bytes (s_tr x)).
  Proof.
    intros H i x Hx. destruct (vfacts _ H) as (sts0 & E & h & fin & HS & HE & I & _ & _ & HFN).
    destruct (setup_ok A ord bord bord_perm d wl HW _ _ HS) as [_ HR]. destruct (inv_static _ _ _ _ _ _ I) as [HL HST].
    pose proof (static_ranges A sts0 E HR i x (HST _ _ Hx)) as (_ & HB & _).
    assert (G : (is_queued A s i -> s_done x = 0) /\ (is_live A s i -> 0 <= s_done x < t_bytes (s_tr x)) /\ (is_finished A s i -> s_done x = t_bytes (s_tr x))).
    { split; [|split].
      - intros Hq. unfold is_queued in Hq. apply in_map_iff in Hq as (p & Hp & Hq). destruct (inv_queue _ _ _ _ _ _ I _ Hq) as (x' & Hx' & _ & _ & D0 & _).
        rewrite Hp in Hx'. assert (x' = x) by congruence. subst x'. assumption.
      - intros Hl. apply (inv_live _ _ _ _ _ _ I i x Hl Hx).
      - intros Hf. apply HFN in Hf. apply (inv_fin _ _ _ _ _ _ I i x Hf Hx). }
    destruct G as (G1 & G2 & G3). split; [|split; [assumption|split; [intros HL'; specialize (G2 HL'); lia|assumption]]].
    destruct (part_ids _ _ _ _ _ _ I) as [_ IDS]. pose proof (proj2 (IDS i) (nth_some_lt _ _ _ Hx)) as Hi. rewrite !in_app_iff in Hi.
    destruct Hi as [Hi|[Hi|Hi]]; [specialize (G1 Hi)|specialize (G2 Hi)|apply HFN in Hi; specialize (G3 Hi)]; lia.
  Qed.
  Theorem bytes_monotone s s' : reach s -> step s = Ok s' -> forall i x, nth_error (sm_sts A s) i = Some x ->
    exists x', nth_error (sm_sts A s') i = Some x' /\ s_tr x' = s_tr x /\ s_done x <= s_done x'.
  Proof.
    intros HR H i x Hx. destruct (step_setup _ HR) as (sts0 & E & HS & HE).
    destruct (step_inv A ord bord bord_perm d congestion cpt wl HW HC _ _ _ _ HS HR H) as (fin & act & sts1 & sts2 & stt & I & SR & I').
    destruct SR as [S1 S2 S3 [S4 S4'] S5 [S6 S6'] S7 S8 S9]. pose proof (S4' _ _ Hx) as Hx1. apply rates_frame in S5. destruct S5 as [F1 F2].
    destruct (F2 _ _ Hx1) as (b & Hx2 & _). destruct (S6' _ _ Hx2) as [L1 L2].
    assert (EQ : forall (x1 : state), x1 = (if in_dec Nat.eq_dec i act then activated A (sm_trk A s) x else x) -> s_tr x1 = s_tr x /\ s_done x1 = s_done x).
    { intros x1 ->. destruct (in_dec _ _ _); [|auto]. destruct (activated_fields A (sm_trk A s) x) as (-> & _ & _ & _ & _ & _ & ->). auto. }
    destruct (EQ _ eq_refl) as [E1 E2]. assert (VR : visited s) by (left; assumption).
    pose proof (bytes_bounds _ VR _ _ Hx) as [B _]. destruct (inv_static _ _ _ _ _ _ I) as [_ HST].
    destruct (setup_ok A ord bord bord_perm d wl HW _ _ HS) as [_ HRa]. pose proof (static_ranges A sts0 E HRa i x (HST _ _ Hx)) as (_ & HB & _).
    destruct (in_dec Nat.eq_dec i (sm_live A s ++ act)) as [Hin|Hin].
    - destruct (L1 Hin) as (x' & Hadv & Hx'). exists x'. split; [assumption|]. pose proof (adv_static _ _ _ _ _ _ _ Hadv) as ((T & _) & _).
      apply adv_bytes in Hadv; cbn [with_bw s_tr s_done] in *; rewrite E1, ?E2 in *; [|lia|change (2 ^ 64) with 18446744073709551616; lia].
      split; [congruence|]. rewrite <- E2. destruct Hadv as [Hadv _]. rewrite ?E2 in *. lia.
    - eexists. split; [apply L2; assumption|]. cbn [with_bw s_tr s_done]. rewrite E1, E2. split; [reflexivity|lia].
  Qed.
  Theorem success_complete s : succeeds s ->
    List.length (sm_sts A s) = List.length (all_transfers wl) /\
    (forall i x, nth_error (sm_sts A s) i = Some x -> nth_error (all_transfers wl) i = Some (s_tr x) /\ s_done x = t_bytes (s_tr x)) /\
    Forall (fun c => cp_completed c = cp_total c) (sm_trk A s).
  Proof.
    intros H. destruct (succeeds_end A ord bord d congestion cpt wl s H) as [HE HF]. assert (V : visited s) by (right; assumption).
    destruct (places _ V) as (_ & _ & HL & HP). split; [assumption|]. destruct (finished_all A s HF) as [HLv HQ].
    assert (FIN : forall i, (i < List.length (sm_sts A s))%nat -> is_finished A s i).
    { intros i Hi. unfold is_finished, is_queued, is_live. rewrite HLv, HQ. cbn. auto. }
    destruct (vfacts _ V) as (sts0 & E & h & fin & HS & HEO & I & _ & _ & HFN). split.
    - intros i x Hx. split; [|apply (bytes_bounds _ V _ _ Hx); apply FIN; eapply nth_some_lt; eassumption].
      destruct (static_same A _ _ _ _ _ I _ _ Hx) as (x0 & Hx0 & -> & _). destruct HS as [HS _]. destruct (init_states A ord d wl HW _ HS) as (_ & _ & G). apply (G _ _ Hx0).
    - rewrite (inv_trk _ _ _ _ _ _ I). apply Forall_forall. intros c Hc. unfold trk_of in Hc. apply in_map_iff in Hc as (e & <- & He).
      unfold cp_of. rewrite if_in; [reflexivity|]. apply HFN, FIN. rewrite Forall_forall in HEO. destruct (HEO _ He) as [_ Hp]. destruct (inv_static _ _ _ _ _ _ I) as [-> _]. assumption.
  Qed.

  (** * C31 *)
  Lemma begins_reach n s : begins n s -> reach s.
  Proof. induction 1; [apply reach_init|eapply reach_step]; eassumption. Qed.
  Theorem begins_time n s : begins n s -> sm_curr A s = Z.of_nat n * cpt /\ Z.of_nat n <= MAX_CYCLE_LIMIT / cpt + 1 /\ sm_curr A s < 2 ^ 32.
  Proof.
    intros H. pose proof (reach_time A ord bord bord_perm d congestion cpt wl HW HC s (begins_reach _ _ H)) as T.
    destruct (time_range ord cpt HC _ T) as [[_ T1] [_ T2]].
    assert (C : sm_curr A s = Z.of_nat n * cpt).
    { clear T T1 T2. induction H as [s H|n s s' H IH HT HF HM].
      - destruct (sim_init_eq A ord bord bord_perm d cpt wl HW s H) as (sts0 & E & _ & ->). cbn [sm_curr]. lia.
      - cbn [advance sm_curr]. pose proof (reach_time A ord bord bord_perm d congestion cpt wl HW HC s (begins_reach _ _ H)) as T.
        pose proof (step_curr A d congestion cpt wl _ _ HT) as EC. rewrite EC in *.
        destruct (time_next ord cpt HC _ T HM) as [-> _]. lia. }
    split; [assumption|]. split; [|assumption]. rewrite C in T2. destruct HC as [HC1 HC2].
    assert (Z.of_nat n - 1 <= MAX_CYCLE_LIMIT / cpt); [|lia]. apply Z.div_le_lower_bound; lia.
  Qed.
  (* with the fuel of the model the loop never runs out: more fuel gives the same result, and the loop fails to end only if
     the body of one of its timesteps does *)
  Lemma loop_fuel fuel : forall n s, begins n s -> (Z.to_nat (MAX_CYCLE_LIMIT / cpt + 2) <= fuel + n)%nat ->
    (sim_loop A fuel d congestion cpt wl s = Diverge -> exists s1, reach s1 /\ step s1 = Diverge) /\
    (forall more, sim_loop A (fuel + more) d congestion cpt wl s = sim_loop A fuel d congestion cpt wl s) /\
    (forall e, sim_loop A fuel d congestion cpt wl s = Ok (inr e) -> e = EXCEEDED_SIM_CYCLE_LIMIT).
  Proof.
    induction fuel as [|fuel IH]; intros n s HB HN.
    - exfalso. pose proof (begins_time _ _ HB) as (_ & Hn & _). destruct HC. assert (0 <= MAX_CYCLE_LIMIT / cpt) by (apply Z.div_pos; [discriminate|lia]). lia.
    - cbn [Nat.add sim_loop]. destruct (step s) as [s'| | | | | |] eqn:ES; cbn [bind].
      2-6: split; [intros; discriminate|split; [intros; reflexivity|intros; discriminate]].
      2: split; [intros _; exists s; split; [eapply begins_reach; eassumption|assumption]|split; [intros; reflexivity|intros; discriminate]].
      destruct (finished A s') eqn:EF; [split; [intros; discriminate|split; [intros; reflexivity|intros; discriminate]]|].
      destruct (Z.ltb_spec MAX_CYCLE_LIMIT (sm_curr A s')) as [|HM].
      { split; [intros; discriminate|split; [intros; reflexivity|]]. intros e [= <-]. reflexivity. }
      apply (IH (S n)); [eapply begins_next; eassumption|lia].
  Qed.
  Theorem simulation_terminates s : sim_init A ord bord d cpt wl = Ok s -> forall fuel, (sim_fuel cpt <= fuel)%nat ->
    sim_loop A fuel d congestion cpt wl s = simulate A ord bord d congestion cpt wl.
  Proof.
    intros H fuel Hf. unfold simulate. rewrite H. cbn [bind]. replace fuel with (sim_fuel cpt + (fuel - sim_fuel cpt))%nat by lia.
    eapply (loop_fuel (sim_fuel cpt) 1); [apply begins_first; assumption|]. unfold sim_fuel. lia.
  Qed.
  Theorem simulation_error e : simulate A ord bord d congestion cpt wl = Ok (inr e) -> e = EXCEEDED_SIM_CYCLE_LIMIT.
  Proof.
    unfold simulate. intros H. apply bind_ok in H as (s & Hs & H). eapply (loop_fuel (sim_fuel cpt) 1); [apply begins_first; exact Hs|unfold sim_fuel; lia|exact H].
  Qed.
  Theorem simulation_diverges : simulate A ord bord d congestion cpt wl = Diverge ->
    sim_init A ord bord d cpt wl = Diverge \/ exists s1, reach s1 /\ step s1 = Diverge.
  Proof.
    unfold simulate. destruct (sim_init A ord bord d cpt wl) as [s| | | | | |] eqn:Hs; cbn [bind]; intros H; try discriminate; [right|left; reflexivity].
    eapply (loop_fuel (sim_fuel cpt) 1); [apply begins_first; exact Hs|unfold sim_fuel; lia|exact H].
  Qed.

  (** * C27 *)
  (* every member of [S] depends on a member of [S] *)
  Theorem cycle_stuck s0 (S : list nat) : sim_init A ord bord d cpt wl = Ok s0 ->
    (forall i, In i S -> exists j dl, In j S /\ depends A (sm_sts A s0) (sm_trk A s0) i j dl) ->
    forall s, visited s -> forall i, In i S -> is_queued A s i.
  Proof.
    intros H0 HS. destruct (sim_init_eq A ord bord bord_perm d cpt wl HW _ H0) as (sts0 & E & HSE & _).
    destruct (setup_ok A ord bord bord_perm d wl HW _ _ HSE) as [HE _].
    assert (V0 : reach s0) by (constructor; assumption).
    assert (HD : forall s, visited s -> forall i, In i S -> exists j dl, In j S /\ depends A (sm_sts A s) (sm_trk A s) i j dl).
    { intros s V i Hi. destruct (HS _ Hi) as (j & dl & Hj & HD). exists j, dl. split; [assumption|].
      destruct (reach_inv A ord bord bord_perm d congestion cpt wl HW HC _ _ _ HSE V0) as [fin0 I0].
      destruct (vfacts _ V) as (sts0' & E' & h & fin & [HS1 HS2] & _ & I & _). destruct HSE as [K1 K2].
      assert (sts0' = sts0) by congruence. subst. assert (E' = E) by congruence. subst.
      apply (dep_iff _ _ _ _ _ I HE). apply (dep_iff _ _ _ _ _ I0 HE). assumption. }
    assert (STEP : forall s s', reach s -> step s = Ok s' -> (forall i, In i S -> is_queued A s i) -> forall i, In i S -> is_queued A s' i).
    { intros s s' HR HT HQ i Hi. destruct (in_queue_dec s' i) as [|N]; [assumption|exfalso].
      destruct (proj1 (activation_exact _ _ HR HT i) (conj (HQ _ Hi) N)) as (_ & x & _ & _ & HF).
      destruct (HD s (or_introl HR) _ Hi) as (j & dl & Hj & Hd). destruct (HF _ _ Hd) as [(_ & NQ & _) _]. apply NQ. apply HQ. assumption. }
    assert (RE : forall s, reach s -> forall i, In i S -> is_queued A s i).
    { intros s HR. induction HR as [s H|s s' HR IH HT HF HM]; intros i Hi.
      - assert (s = s0) by congruence. subst s. destruct (reach_inv A ord bord bord_perm d congestion cpt wl HW HC _ _ _ HSE V0) as [fin0 I0].
        destruct (HS _ Hi) as (j & dl & _ & (x & _ & _ & _ & Hx & _)). destruct (part_ids _ _ _ _ _ _ I0) as [_ IDS].
        destruct (sim_init_eq A ord bord bord_perm d cpt wl HW _ H0) as (sts0' & E' & [K1 K2] & EQ). unfold is_queued. 
        destruct (init_inv A ord bord bord_perm d cpt wl HW _ _ _ HSE H0) as [I1 _]. destruct (part_ids _ _ _ _ _ _ I1) as [_ IDS1].
        pose proof (proj2 (IDS1 i) (nth_some_lt _ _ _ Hx)) as Hin. rewrite !in_app_iff in Hin. rewrite EQ in Hin |- *. cbn [sm_live sm_queue] in *.
        destruct Hin as [Hin|[[]|[]]]. assumption.
      - change (is_queued A s' i). eapply STEP; eassumption. }
    intros s [HR|(s1 & HR & HT)]; [apply RE; assumption|]. eapply STEP; [exact HR|exact HT|apply RE; assumption].
  Qed.
  Theorem cycle_limit s0 (S : list nat) : sim_init A ord bord d cpt wl = Ok s0 -> S <> [] ->
    (forall i, In i S -> exists j dl, In j S /\ depends A (sm_sts A s0) (sm_trk A s0) i j dl) ->
    forall r, simulate A ord bord d congestion cpt wl = Ok r -> r = inr EXCEEDED_SIM_CYCLE_LIMIT.
  Proof.
    intros H0 HN HS [s|e] H; [|f_equal; apply simulation_error; assumption]. exfalso.
    destruct S as [|i S]; [contradiction|]. destruct (succeeds_end A ord bord d congestion cpt wl s H) as [HE HF].
    pose proof (cycle_stuck _ _ H0 HS s (or_intror HE) i (or_introl eq_refl)) as HQ. destruct (finished_all A s HF) as [_ EQ].
    unfold is_queued in HQ. rewrite EQ in HQ. destruct HQ.
  Qed.
  Theorem depends_before s : visited s -> parents_first A (all_transfers wl) -> forall i j dl x y,
    nth_error (sm_sts A s) i = Some x -> nth_error (sm_sts A s) j = Some y ->
    depends A (sm_sts A s) (sm_trk A s) i j dl -> before A y x.
  Proof.
    intros V HPF i j dl x y Hx Hy HD.
    destruct (vfacts _ V) as (sts0 & E & h & fin & HS & _ & I & _).
    assert (TR : forall k z, nth_error (sm_sts A s) k = Some z -> nth_error (all_transfers wl) k = Some (s_tr z)).
    { intros k z Hz. destruct (static_same A _ _ _ _ _ I _ _ Hz) as (z0 & Hz0 & -> & _). destruct HS as [HS _].
      destruct (init_states A ord d wl HW _ HS) as (_ & _ & G). apply (G _ _ Hz0). }
    destruct (depends_rule A ord bord bord_perm d congestion cpt wl HW HC s V i x Hx j dl HD) as [(HG & _)|(_ & (x' & y' & Hx' & Hy' & _ & B & _) & _)].
    - destruct (group_rule s V i x Hx HG) as (_ & j' & dl' & p & HD' & Hp & _ & HN).
      destruct (depends_unique s V _ _ _ _ _ HD HD') as [-> _]. assert (p = y) by congruence. subst p.
      destruct (HPF _ (nth_error_In _ _ (TR _ _ Hx)) HG) as [(q & Hq & NQ) HB].
      destruct HN as [HN|[_ HN]]; [apply (HB _ (nth_error_In _ _ (TR _ _ Hy)) HN)|]. exfalso.
      apply In_nth_error in Hq as [k Hk]. destruct (places _ V) as (_ & _ & HL & _).
      destruct (nth_lt_some (sm_sts A s) k) as [z Hz]; [rewrite HL; eapply nth_some_lt; eassumption|].
      apply (HN _ _ Hz). pose proof (TR _ _ Hz). congruence.
    - assert (x' = x) by congruence. assert (y' = y) by congruence. subst. assumption.
  Qed.
  Theorem no_deadlock s : visited s -> parents_first A (all_transfers wl) ->
    (exists i, (i < List.length (sm_sts A s))%nat /\ ~ is_finished A s i) ->
    exists i, (i < List.length (sm_sts A s))%nat /\ ~ is_finished A s i /\
      forall j dl, depends A (sm_sts A s) (sm_trk A s) i j dl -> is_finished A s j.
  Proof.
    intros V HPF HU.
    assert (FD : forall i, is_finished A s i \/ ~ is_finished A s i).
    { intros i. unfold is_finished, is_queued, is_live. destruct (lt_dec i (List.length (sm_sts A s)));
        destruct (in_dec Nat.eq_dec i (map snd (sm_queue A s))); destruct (in_dec Nat.eq_dec i (sm_live A s)); tauto. }
    (* walk down the dependencies: the pairs (offset, id) decrease *)
    set (key := fun i => match nth_error (sm_sts A s) i with Some x => (Z.to_nat (t_off (s_tr x)), Z.to_nat (t_id (s_tr x))) | None => (O, O) end).
    assert (RNG : forall i x, nth_error (sm_sts A s) i = Some x -> 0 <= t_off (s_tr x) /\ 0 <= t_id (s_tr x)).
    { intros i x Hx. destruct (vfacts _ V) as (sts0 & E & h & fin & HS & _ & I & _). destruct (sfacts _ _ HS) as [_ HO].
      destruct (setup_ok A ord bord bord_perm d wl HW _ _ HS) as [_ HR]. destruct (inv_static _ _ _ _ _ _ I) as [HL HST].
      pose proof (static_ranges A sts0 E HR i x (HST _ _ Hx)) as (HB & _). destruct (static_same A _ _ _ _ _ I _ _ Hx) as (x0 & Hx0 & T & _). rewrite T in *. destruct (HO _ _ Hx0). lia. }
    assert (G : forall a b i, key i = (a, b) -> (i < List.length (sm_sts A s))%nat -> ~ is_finished A s i -> 
      exists i, (i < List.length (sm_sts A s))%nat /\ ~ is_finished A s i /\ forall j dl, depends A (sm_sts A s) (sm_trk A s) i j dl -> is_finished A s j).
    { induction a as [a IHa] using lt_wf_ind. induction b as [b IHb] using lt_wf_ind. intros i Hk Hi Hf.
      destruct (nth_lt_some _ _ Hi) as [x Hx].
      assert (DEC : (forall j dl, depends A (sm_sts A s) (sm_trk A s) i j dl -> is_finished A s j) \/
                    exists j dl, depends A (sm_sts A s) (sm_trk A s) i j dl /\ ~ is_finished A s j).
      { destruct (vfacts _ V) as (sts0 & E & h & fin & HS & HE & I & _).
        destruct (dep_of E i) as [k|] eqn:Ek.
        - destruct (dep_edge E _ _ Ek) as (e & He & _). destruct (FD (e_parent e)) as [F1|F1]; [left|right].
          + intros j dl HD. apply (dep_iff _ _ _ _ _ I HE) in HD as (k' & e' & K1 & K2 & K3 & _). assert (k' = k) by congruence. subst.
            assert (e' = e) by congruence. subst. assumption.
          + exists (e_parent e), (e_delay e). split; [|assumption]. apply (dep_iff _ _ _ _ _ I HE). exists k, e. auto.
        - left. intros j dl HD. apply (dep_iff _ _ _ _ _ I HE) in HD as (k' & e' & K1 & _). congruence. }
      destruct DEC as [DEC|(j & dl & HD & HN)]; [exists i; auto|].
      pose proof HD as (_ & y & _ & _ & _ & Hy & _). pose proof (depends_before s V HPF i j dl x y Hx Hy HD) as HB.
      destruct (RNG _ _ Hx), (RNG _ _ Hy). unfold key in Hk. rewrite Hx in Hk. injection Hk as Ka Kb.
      destruct HB as [HB|[HB1 HB2]].
      - eapply (IHa (Z.to_nat (t_off (s_tr y)))); [lia| |eapply nth_some_lt; eassumption|exact HN]. unfold key. rewrite Hy. reflexivity.
      - eapply (IHb (Z.to_nat (t_id (s_tr y)))); [lia| |eapply nth_some_lt; eassumption|exact HN]. unfold key. rewrite Hy. f_equal. lia. }
    destruct HU as (i & Hi & Hf). destruct (key i) as [a b] eqn:Ek. eapply G; eassumption.
  Qed.
End Facts.
