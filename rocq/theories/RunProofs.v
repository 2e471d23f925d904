(* Runs of the simulation: initial state, reachable states, the loop. *)
From Coq Require Import ZArith Arith String List Bool Lia ZifyBool ZifyNat Sorting.Permutation Sorting.Sorted.
From Verif Require Import Base Arith Util Device Workload SpecWorkload DepTracker Rates Stats Engine UtilProofs
  WorkloadProofs SpecTracker TrackerProofs DepGenProofs StepProofs SpecEngine EngineProofs.
Import ListNotations.
Open Scope Z_scope.
Ltac Zify.zify_post_hook ::= idtac.

Lemma queue_insert_perm x l : Permutation (x :: l) (sort_insert qgt x l).
Proof. induction l as [|y l IH]; cbn; auto. destruct (qgt y x); auto. rewrite perm_swap. constructor. exact IH. Qed.
Lemma queue_perm l : Permutation l (sort qgt l).
Proof. induction l; cbn; auto. rewrite IHl at 1. apply queue_insert_perm. Qed.
Lemma queue_sorted l : StronglySorted (fun a b : qpair => fst b <= fst a) (sort qgt l).
Proof.
  induction l as [|x l IH]; cbn [sort]; [constructor|]. induction IH as [|y m HS IH HF]; cbn [sort_insert].
  - constructor; constructor.
  - destruct (qgt y x) eqn:E.
    + constructor; auto. eapply Permutation_Forall; [apply queue_insert_perm|]. constructor; [unfold qgt in E; lia|assumption].
    + constructor; [constructor; assumption|]. constructor; [unfold qgt in E; lia|].
      eapply Forall_impl; [|exact HF]. cbn. intros z Hz. unfold qgt in E. lia.
Qed.

Section Run.
  Context (A : arith) (ord : Z -> list Z -> list Z) (bord : list bucket -> list bucket) (bord_perm : bucket_order bord).
  Context (d : device) (congestion : bool) (cpt : Z) (wl : workload (F A)).
  Context (HW : proper wl) (HC : proper_cpt cpt).
  Notation state := (tstate (F A)).
  Notation reach := (reach A ord bord d congestion cpt wl).
  Notation step_end := (step_end A ord bord d congestion cpt wl).
  Notation visited := (visited A ord bord d congestion cpt wl).
  Notation succeeds := (succeeds A ord bord d congestion cpt wl).

  (* the static data of a run *)
  Definition setup (sts0 : list state) (E : list edge) : Prop :=
    initTransferState A ord d wl = Ok sts0 /\ dep_edges A bord d sts0 = Ok E.

  Lemma init_states sts0 : initTransferState A ord d wl = Ok sts0 ->
    Forall2 (fun t s => make_state A ord d t = Ok s) (all_transfers wl) sts0 /\ fresh_states A sts0 /\
    forall i s, nth_error sts0 i = Some s -> nth_error (all_transfers wl) i = Some (s_tr s) /\
      s_start s = t_off (s_tr s) /\ s_end s = 0 /\ s_done s = 0 /\ transfer_ranges (s_tr s).
  Proof.
    intros H. destruct HW as [HD HR]. rewrite (init_dense A ord d wl HD) in H. apply mapM_Forall2 in H. split; [assumption|].
    assert (G : forall i s, nth_error sts0 i = Some s -> exists t, nth_error (all_transfers wl) i = Some t /\ make_state A ord d t = Ok s).
    { intros i s Hs. unfold all_transfers. pose proof (Forall2_length' _ _ _ H) as HL. pose proof (nth_some_lt _ _ _ Hs) as Hlt. rewrite <- HL in Hlt.
      destruct (nth_lt_some _ _ Hlt) as [t Ht]. exists t. split; [assumption|]. exact (Forall2_nth _ _ _ H _ _ _ Ht Hs). }
    assert (M : forall t s, make_state A ord d t = Ok s -> s_tr s = t /\ s_req s = [] /\ s_dep s = None /\ s_start s = t_off t /\ s_end s = 0 /\ s_done s = 0).
    { intros t s Hm. unfold make_state in Hm. apply bind_ok in Hm as (r & _ & Hm). injection Hm as <-. cbn. tauto. }
    assert (I : forall i t, nth_error (all_transfers wl) i = Some t -> t_id t = Z.of_nat i).
    { intros i t Ht. destruct HD as (_ & HD & _). rewrite of_nat_seq in HD. apply (map_nth_error t_id) in Ht. rewrite HD in Ht.
      rewrite zseq_nth in Ht. - injection Ht as <-. lia. - apply nth_some_lt in Ht. rewrite zseq_length in Ht. assumption. }
    split.
    - intros i s Hs. destruct (G _ _ Hs) as (t & Ht & Hm). apply M in Hm as (Hs' & R & D & _). split; [|auto]. unfold idx. rewrite Hs', (I _ _ Ht). lia.
    - intros i s Hs. destruct (G _ _ Hs) as (t & Ht & Hm). apply M in Hm as (Hs' & R & D & S1 & S2 & S3). rewrite Forall_forall in HR. rewrite Hs'.
      repeat split; auto; apply (HR t); eapply nth_error_In; eassumption.
  Qed.
  Lemma setup_ok sts0 E : setup sts0 E -> Forall (edge_ok (List.length sts0)) E /\ Forall (fun s => transfer_ranges (s_tr s)) sts0.
  Proof.
    intros [H1 H2]. destruct (init_states _ H1) as (_ & HF & HS). split.
    - eapply dep_edges_ok; eassumption.
    - apply Forall_forall. intros s Hs. apply In_nth_error in Hs as [i Hi]. apply (HS _ _ Hi).
  Qed.

  Lemma sim_init_eq s : sim_init A ord bord d cpt wl = Ok s -> exists sts0 E, setup sts0 E /\
    s = mkSim A cpt (map (fun p => linked A 0 E (fst p) (snd p)) (combine (seq 0 (List.length sts0)) sts0))
          (createTransferQueue A sts0) [] (map fresh_cp E) (zero_grids A d) (stats_make A d).
  Proof.
    unfold sim_init. intros H. apply bind_ok in H as (sts0 & H0 & H). destruct (init_states _ H0) as (_ & HF & _).
    rewrite (genDependencies_eq A ord bord bord_perm d sts0 HF) in H. apply bind_ok in H as (st & Hst & H).
    apply bind_ok in Hst as (E & HE & Hst). injection Hst as <-. cbn [fst snd] in H. injection H as <-.
    exists sts0, E. split; [split; assumption|reflexivity].
  Qed.
  Lemma linked_nth (sts0 : list state) E i s : nth_error sts0 i = Some s ->
    nth_error (map (fun p => linked A 0 E (fst p) (snd p)) (combine (seq 0 (List.length sts0)) sts0)) i = Some (linked A 0 E i s).
  Proof.
    intros Hs. change (linked A 0 E i s) with ((fun p => linked A 0 E (fst p) (snd p)) (i, s)). apply map_nth_error.
    assert (G : forall a, nth_error (combine (seq a (List.length sts0)) sts0) i = Some ((a + i)%nat, s)); [|apply G].
    revert i Hs. induction sts0 as [|x l IH]; intros [|i] Hs a; cbn in *; try discriminate.
    - injection Hs as <-. do 2 f_equal. lia.
    - rewrite IH by auto. do 2 f_equal. lia.
  Qed.

  Lemma init_inv sts0 E s : setup sts0 E -> sim_init A ord bord d cpt wl = Ok s ->
    inv A sts0 E (sm_curr A s - cpt) s [] /\ sm_curr A s = cpt.
  Proof.
    intros [S1 S2] H. destruct (sim_init_eq _ H) as (sts0' & E' & [S1' S2'] & ->).
    assert (sts0' = sts0) by congruence. subst sts0'. assert (E' = E) by congruence. subst E'. clear S1' S2'.
    destruct (init_states _ S1) as (_ & HF & HS). cbn [sm_curr]. split; [|reflexivity]. rewrite Z.sub_diag.
    set (sts := map _ _).
    assert (HL : List.length sts = List.length sts0) by (unfold sts; rewrite map_length, combine_length, seq_length; lia).
    assert (HN : forall i x, nth_error sts i = Some x -> exists x0, nth_error sts0 i = Some x0 /\ x = linked A 0 E i x0).
    { intros i x Hx. pose proof (nth_some_lt _ _ _ Hx) as Hlt. rewrite HL in Hlt. destruct (nth_lt_some _ _ Hlt) as [x0 Hx0].
      exists x0. split; [assumption|]. unfold sts in Hx. rewrite (linked_nth _ E _ _ Hx0) in Hx. congruence. }
    assert (HQ : forall p, In p (createTransferQueue A sts0) <-> exists x, nth_error sts0 (snd p) = Some x /\ fst p = t_off (s_tr x)).
    { intros p. unfold createTransferQueue. split.
      - intros Hp. eapply Permutation_in in Hp; [|symmetry; apply queue_perm]. apply in_map_iff in Hp as (x & <- & Hx).
        apply In_nth_error in Hx as [i Hi]. exists x. cbn [fst snd]. destruct (HF _ _ Hi) as [-> _]. auto.
      - intros (x & Hx & Hf). eapply Permutation_in; [apply queue_perm|]. apply in_map_iff. exists x. destruct (HF _ _ Hx) as [Hi _].
        split; [rewrite Hi; destruct p; cbn in *; congruence|]. eapply nth_error_In; eassumption. }
    split; cbn [sm_curr sm_sts sm_queue sm_live sm_trk sm_grids sm_stats].
    - split; [assumption|]. intros i x Hx. destruct (HN _ _ Hx) as (x0 & Hx0 & ->). destruct (HF _ _ Hx0) as (_ & R & D). exists x0.
      split; [assumption|]. unfold linked. cbn. rewrite R, D. auto.
    - rewrite !app_nil_r. unfold createTransferQueue. rewrite <- (Permutation_map snd (queue_perm _)), map_map. cbn [snd].
      assert (G : forall k l, (forall i s, nth_error l i = Some s -> idx A s = (k + i)%nat) -> map (idx A) l = seq k (List.length l)).
      { clear. intros k l. revert k. induction l as [|s l IH]; intros k H; cbn; [reflexivity|]. f_equal.
        - rewrite (H O s eq_refl). lia.
        - apply IH. intros i x Hx. rewrite (H (S i) x Hx). lia. }
      match goal with |- Permutation ?l _ => replace l with (map (idx A) sts0) by reflexivity end. rewrite (G O sts0); [reflexivity|]. intros i s Hs. apply (HF _ _ Hs).
    - unfold trk_of. apply map_ext. intros e. reflexivity.
    - intros p Hp. apply HQ in Hp as (x & Hx & Hf). exists (linked A 0 E (snd p) x). split; [apply linked_nth; assumption|].
      destruct (HS _ _ Hx) as (_ & S3 & S4 & S5 & _). unfold linked. cbn. auto.
    - exists (createTransferQueue A sts0), []. split; [rewrite app_nil_r; reflexivity|]. split; [apply queue_sorted|constructor].
    - intros i x [].
    - intros i x [].
    - intros i x [].
  Qed.

  (* the clock at the start of a timestep *)
  Definition time_ok (c : Z) : Prop := exists k, 1 <= k /\ c = k * cpt /\ c - cpt <= MAX_CYCLE_LIMIT.
  Lemma time_next c : time_ok c -> c <= MAX_CYCLE_LIMIT -> u32 (c + cpt) = c + cpt /\ time_ok (c + cpt).
  Proof.
    intros (k & H1 & H2 & H3) H. unfold proper_cpt in HC. unfold MAX_CYCLE_LIMIT in *. split.
    - assert (cpt <= c) by nia. apply u32_id. change (2 ^ 32) with 4294967296. lia.
    - exists (k + 1). unfold MAX_CYCLE_LIMIT. repeat split; lia.
  Qed.
  Lemma time_sot c : time_ok c -> 0 <= c < 2 ^ 32 -> u32 (c - cpt) = c - cpt /\ 0 <= c - cpt.
  Proof. intros (k & H1 & H2 & H3) H. unfold proper_cpt in HC. assert (cpt <= c) by nia. split; [apply u32_id; lia|lia]. Qed.
  Lemma time_range c : time_ok c -> cpt <= c < 2 ^ 32 /\ 0 <= c - cpt <= MAX_CYCLE_LIMIT.
  Proof.
    intros (k & H1 & H2 & H3). unfold proper_cpt in HC. unfold MAX_CYCLE_LIMIT in *.
    assert (k = 1 \/ 2 <= k) as [->|Hk] by lia; [lia|]. assert (cpt <= c - cpt) by nia. change (2 ^ 32) with 4294967296. lia.
  Qed.

  Lemma step_curr s s' : timestep A d congestion cpt wl s = Ok s' -> sm_curr A s' = sm_curr A s.
  Proof.
    unfold timestep. intros H. apply bind_ok in H as (stt & _ & H). apply bind_ok in H as ([[[sts live] q] acts] & _ & H).
    apply bind_ok in H as ([sts2 g] & _ & H). apply bind_ok in H as ([[sts3 tk] stt3] & _ & H).
    injection H as <-. reflexivity.
  Qed.
  Lemma reach_time s : reach s -> time_ok (sm_curr A s).
  Proof.
    induction 1 as [s H|s s' H IH HT HF HM].
    - destruct (sim_init_eq _ H) as (sts0 & E & _ & ->). cbn. exists 1. unfold MAX_CYCLE_LIMIT. lia.
    - rewrite <- (step_curr _ _ HT) in IH. cbn [advance sm_curr]. destruct (time_next _ IH HM) as [-> G]. exact G.
  Qed.
  Lemma step_end_time s : step_end s -> time_ok (sm_curr A s).
  Proof. intros (s0 & H1 & H2). rewrite (step_curr _ _ H2). apply reach_time. assumption. Qed.

  Lemma reach_setup s : reach s -> exists sts0 E, setup sts0 E.
  Proof. induction 1 as [s H|]; [|assumption]. destruct (sim_init_eq _ H) as (sts0 & E & HS & _). eauto. Qed.

  Lemma inv_ext sts0 E h h' s s' fin : inv A sts0 E h s fin -> sm_sts A s' = sm_sts A s -> sm_queue A s' = sm_queue A s ->
    sm_live A s' = sm_live A s -> sm_trk A s' = sm_trk A s -> h = h' -> inv A sts0 E h' s' fin.
  Proof. intros [] E1 E2 E3 E4 <-. split; rewrite ?E1, ?E2, ?E3, ?E4; assumption. Qed.

  Theorem reach_inv sts0 E s : setup sts0 E -> reach s -> exists fin, inv A sts0 E (sm_curr A s - cpt) s fin.
  Proof.
    intros HS H. destruct (setup_ok _ _ HS) as [HE HR]. induction H as [s H|s s' H IH HT HF HM].
    - exists []. apply init_inv; assumption.
    - destruct IH as [fin IH]. unfold proper_cpt in HC. destruct (timestep_rel A sts0 E HR d congestion cpt wl s fin s' IH ltac:(lia) HT) as (act & sts1 & sts2 & stt & SR & I).
      eexists. eapply inv_ext; [exact I| | | | |]; try reflexivity. cbn [advance sm_curr].
      pose proof (reach_time _ H) as T. rewrite <- (step_curr _ _ HT) in T. destruct (time_next _ T HM) as [-> _]. rewrite (step_curr _ _ HT). lia.
  Qed.
  Theorem step_inv sts0 E s s' : setup sts0 E -> reach s -> timestep A d congestion cpt wl s = Ok s' ->
    exists fin act sts1 sts2 stt, inv A sts0 E (sm_curr A s - cpt) s fin /\ step_rel A d congestion cpt wl s s' act sts1 sts2 stt /\
      inv A sts0 E (sm_curr A s) s' (fin ++ filter (complete A (sm_sts A s')) (sm_live A s ++ act)).
  Proof.
    intros HS H HT. destruct (setup_ok _ _ HS) as [HE HR]. destruct (reach_inv _ _ _ HS H) as [fin I]. unfold proper_cpt in HC.
    destruct (timestep_rel A sts0 E HR d congestion cpt wl s fin s' I ltac:(lia) HT) as (act & sts1 & sts2 & stt & SR & I').
    exists fin, act, sts1, sts2, stt. auto.
  Qed.
  (* at every timestep boundary *)
  Theorem visited_inv s : visited s -> exists sts0 E h fin, setup sts0 E /\ inv A sts0 E h s fin /\ 0 <= h <= sm_curr A s /\ 0 <= sm_curr A s < 2 ^ 32.
  Proof.
    intros [H|(s0 & H & HT)].
    - destruct (reach_setup _ H) as (sts0 & E & HS). destruct (reach_inv _ _ _ HS H) as [fin I]. exists sts0, E, (sm_curr A s - cpt), fin.
      pose proof (time_range _ (reach_time _ H)). unfold proper_cpt in HC. split; [assumption|]. split; [assumption|]. lia.
    - destruct (reach_setup _ H) as (sts0 & E & HS). destruct (step_inv _ _ _ _ HS H HT) as (fin & act & sts1 & sts2 & stt & _ & _ & I).
      exists sts0, E, (sm_curr A s0), (fin ++ filter (complete A (sm_sts A s)) (sm_live A s0 ++ act)).
      pose proof (time_range _ (reach_time _ H)). unfold proper_cpt in HC. rewrite (step_curr _ _ HT). split; [assumption|]. split; [assumption|]. lia.
  Qed.

  (** * The loop *)
  Lemma loop_ends fuel : forall s s', reach s -> sim_loop A fuel d congestion cpt wl s = Ok (inl s') ->
    step_end s' /\ finished A s' = true.
  Proof.
    induction fuel as [|fuel IH]; intros s s' HR H; cbn [sim_loop] in H; [discriminate|].
    apply bind_ok in H as (s1 & HT & H). destruct (finished A s1) eqn:EF.
    - injection H as <-. split; [exists s; auto|assumption].
    - destruct (MAX_CYCLE_LIMIT <? sm_curr A s1) eqn:EM; [discriminate|]. eapply IH; [|exact H].
      eapply reach_step; [exact HR|exact HT|exact EF|lia].
  Qed.
  Lemma succeeds_end s : succeeds s -> step_end s /\ finished A s = true.
  Proof.
    unfold succeeds, simulate. intros H. apply bind_ok in H as (s0 & H0 & H). eapply loop_ends; [|exact H]. apply reach_init. assumption.
  Qed.
  Lemma finished_all s : finished A s = true -> sm_live A s = [] /\ sm_queue A s = [].
  Proof. unfold finished. destruct (sm_live A s), (sm_queue A s); try discriminate. auto. Qed.
  Lemma finished_spec sts0 E h s fin : inv A sts0 E h s fin -> forall i, In i fin <-> is_finished A s i.
  Proof.
    intros I i. destruct (part_ids _ _ _ _ _ _ I) as [ND IDS]. unfold is_finished, is_queued, is_live. split.
    - intros Hi. split; [apply IDS; rewrite !in_app_iff; auto|]. split; intros Hn.
      + eapply NoDup_app_not; [exact ND|exact Hn|]. apply in_or_app; auto.
      + eapply NoDup_app_not; [eapply NoDup_app_r; exact ND|exact Hn|assumption].
    - intros (Hlt & H1 & H2). apply IDS in Hlt. rewrite !in_app_iff in Hlt. tauto.
  Qed.
End Run.
