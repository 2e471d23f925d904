(* A workload that starts a whole number of timesteps later (C87): the start of the run, the idle timesteps before it, and the whole run. *)
From Coq Require Import ZArith Arith String List Bool Lia ZifyBool ZifyNat Sorting.Permutation Floats.SpecFloat.
From Verif Require Import Base Arith Util Device SpecDevice Workload SpecWorkload DepTracker Rates Stats Engine UtilProofs
  WorkloadProofs SpecTracker TrackerProofs DepGenProofs StepProofs SpecEngine SpecRates EngineProofs RunProofs EngineFacts EngineFacts2 EngineFacts3 EngineFacts4 EngineFacts5
  FloatProofs FloatProofs2 RateFacts RateFloat4 EngineFloat OrderProofs OrderInit SpecLater LaterProofs LaterFloat LaterStep.
Import ListNotations.
Local Open Scope list_scope.
Open Scope Z_scope.
Ltac Zify.zify_post_hook ::= idtac.

(** * Sorting *)
Lemma insert_in {X} (f : X -> X -> bool) x l y : In y (sort_insert f x l) -> y = x \/ In y l.
Proof. induction l as [|z l IH]; cbn [sort_insert In]; [intuition|]. destruct (f z x); cbn [In]; [|intuition]. intros [H|H]; [tauto|]. apply IH in H. tauto. Qed.
Lemma sort_in {X} (f : X -> X -> bool) l y : In y (sort f l) -> In y l.
Proof. induction l as [|x l IH]; cbn [sort In]; [tauto|]. intros H. apply insert_in in H as [->|H]; auto. Qed.
Lemma insert_ext {X} (f g : X -> X -> bool) x l : (forall y, In y l -> f y x = g y x) -> sort_insert f x l = sort_insert g x l.
Proof.
  induction l as [|z l IH]; intros H; cbn [sort_insert]; [reflexivity|]. rewrite (H z (or_introl eq_refl)), IH by (intros; apply H; right; assumption). reflexivity.
Qed.
Lemma sort_ext_in {X} (f g : X -> X -> bool) l : (forall x y, In x l -> In y l -> f x y = g x y) -> sort f l = sort g l.
Proof.
  induction l as [|x l IH]; intros H; cbn [sort]; [reflexivity|]. rewrite IH by (intros; apply H; right; assumption). apply insert_ext. intros y Hy. apply H; [right; eapply sort_in; exact Hy|left; reflexivity].
Qed.
Lemma sort_map {X Y} (f : X -> X -> bool) (g : Y -> Y -> bool) (h : X -> Y) l : (forall x y, g (h x) (h y) = f x y) -> sort g (map h l) = map h (sort f l).
Proof.
  intros H. induction l as [|x l IH]; cbn [map sort]; [reflexivity|]. rewrite IH. generalize (sort f l) as m. induction m as [|y m IHm]; cbn [map sort_insert]; [reflexivity|]. rewrite H. destruct (f y x); cbn [map]; [rewrite IHm|]; reflexivity.
Qed.

Lemma same_length {X Y} (R : X -> Y -> Prop) l l' : Forall2 R l l' -> List.length l = List.length l'.
Proof. induction 1; cbn; congruence. Qed.

Section Init.
  Context (K : Z) (HK : 0 <= K).
  Notation A := f32A.
  Notation state := (tstate (F A)).
  Context (ord : Z -> list Z -> list Z) (bord : list bucket -> list bucket) (bord_perm : bucket_order bord).
  Context (d : device) (congestion : bool) (cpt : Z) (wl : workload (F A)).
  Context (HW : proper wl) (HC : proper_cpt cpt) (HF : Forall sound_transfer (all_transfers wl)).
  Notation wl' := (later_workload K wl).

  (* freshly made states of the two runs *)
  Definition frel (x x' : state) : Prop :=
    s_tr x' = later_transfer K (s_tr x) /\ s_req x' = s_req x /\ s_dep x' = s_dep x /\ s_route x' = s_route x /\
    s_start x' = s_start x + K /\ s_end x' = s_end x /\ s_bw x' = s_bw x /\ s_done x' = s_done x.
  Lemma later_dense : dense wl'.
  Proof.
    destruct HW as [(D1 & D2 & D3) _]. unfold dense. rewrite later_transfers. cbn [later_workload wl_phases wl_next]. rewrite !map_map, !map_length. cbn [ph_id later_transfer t_id]. auto.
  Qed.
  Lemma init_later : follows (Forall2 frel) (initTransferState A ord d wl) (initTransferState A ord d wl').
  Proof.
    destruct HW as [HD _]. rewrite (init_dense A ord d wl HD), (init_dense A ord d wl' later_dense).
    pose proof (later_transfers K wl) as ET. unfold all_transfers in ET. rewrite ET. clear ET.
    apply (follows_mapM (fun t t' => t' = later_transfer K t)).
    - induction (flat_map ph_trs (wl_phases wl)); cbn [map]; constructor; auto.
    - intros t t' ->. unfold make_state. cbn [later_transfer t_noc t_src t_dst t_id t_off]. apply follows_same; [reflexivity|]. intros r _. apply follows_ok. unfold frel. cbn [s_tr s_req s_dep s_route s_start s_end s_bw s_done]. auto 10.
  Qed.

  Section Edges.
    Context (sts sts' : list state) (HM : Forall2 frel sts sts').
    Lemma idx_later x x' : frel x x' -> idx A x' = idx A x.
    Proof. intros (E1 & _). unfold idx. rewrite E1. reflexivity. Qed.
    Lemma buckets_later : make_buckets A d sts' = make_buckets A d sts.
    Proof.
      symmetry. apply (fold_related frel _ _ _ _ HM). intros s x y H. rewrite (idx_later _ _ H). destruct H as (E1 & _ & _ & E4 & _). unfold bucket_key. rewrite E1, E4. reflexivity.
    Qed.
    Lemma start_later i : (i < List.length sts)%nat -> start_of A sts' i = start_of A sts i + K.
    Proof.
      intros L. pose proof (Forall2_nth_error _ _ _ i HM) as H. unfold start_of. destruct (nth_lt_some _ _ L) as [x Hx]. rewrite Hx in *. destruct (nth_error sts' i); [|contradiction]. apply H.
    Qed.
    Lemma bucket_edges_later b : (forall i, In i (snd b) -> (i < List.length sts)%nat) -> bucket_edges A sts' b = bucket_edges A sts b.
    Proof. intros HL. unfold bucket_edges. f_equal. apply sort_ext_in. intros x y Hx Hy. unfold by_start. rewrite !start_later by auto. lia. Qed.
    Lemma group_map_later : group_map A sts' = group_map A sts.
    Proof.
      unfold group_map. generalize (@nil ((Z * Z) * nat)) as m. clear - HM. induction HM as [|x x' l l' H HL IH]; intros m; cbn [fold_left]; [reflexivity|]. rewrite (idx_later _ _ H). destruct H as (-> & _). apply IH; assumption.
    Qed.
    Lemma group_edges_later : group_edges A d sts' sts' = group_edges A d sts sts.
    Proof.
      unfold group_edges. f_equal. symmetry. apply (map_related frel _ _ _ _ HM). intros x x' H. unfold group_edge. rewrite (idx_later _ _ H), group_map_later. pose proof H as (-> & _).
      cbn [later_transfer t_gid t_gpar]. destruct (_ && _); [|reflexivity]. f_equal. unfold group_delay. cbn [later_transfer t_dst t_src t_noc t_psize]. destruct (t_dst (s_tr x)) as [c|]; [|reflexivity].
      destruct (write_latency _ _ _ _ _ _); cbn [bind]; try reflexivity. destruct (dv_arch d); [|reflexivity].
      apply orel_eq. apply (orel_bind frel); [apply vec_get_rel; exact HM|]. intros p p' _ (-> & _). apply orel_eq. reflexivity.
    Qed.
    Lemma edges_later : fresh_states A sts -> dep_edges A bord d sts' = dep_edges A bord d sts.
    Proof.
      intros HFr. unfold dep_edges. rewrite buckets_later, group_edges_later. destruct (make_buckets A d sts) as [bs| | | | | |] eqn:EB; cbn [bind]; try reflexivity.
      destruct (group_edges A d sts sts); cbn [bind]; try reflexivity. do 2 f_equal. rewrite !flat_map_concat_map. f_equal. apply map_ext_in. intros b Hb. apply bucket_edges_later.
      destruct (make_buckets_spec A bord d sts bs HFr EB) as (_ & _ & HI). destruct b as [k ids]. apply (Permutation_in _ (bord_perm bs)) in Hb. destruct (HI _ _ Hb) as [-> _]. cbn [snd].
      intros i Hi. apply filter_In in Hi as [Hi _]. apply in_seq in Hi. lia.
    Qed.
  End Edges.

  (* the delays of the checkpoints *)
  Lemma delays (sts : list state) E : wf_device d -> (forall x, In x sts -> sound_transfer (s_tr x)) -> dep_edges A bord d sts = Ok E -> Forall (fun e => 0 <= e_delay e <= 2 ^ 31) E.
  Proof.
    intros WF HS H. unfold dep_edges in H. apply bind_ok in H as (bs & _ & H). apply bind_ok in H as (E2 & H2 & H). injection H as <-. apply Forall_app. split.
    - apply Forall_forall. intros e He. apply in_flat_map in He as (b & _ & He). apply chain_edges_in in He as (_ & _ & _ & ->). lia.
    - unfold group_edges in H2. apply bind_ok in H2 as (es & Hes & H2). injection H2 as <-. apply mapM_Forall2 in Hes. apply Forall_concat. rewrite Forall_forall. intros es1 H1.
      destruct (In_nth_error _ _ H1) as [n Hn]. pose proof (Forall2_nth_error _ _ _ n Hes) as G. rewrite Hn in G. destruct (nth_error sts n) as [x|] eqn:Hx; [|exfalso; exact G]. apply nth_error_In in Hx. specialize (HS _ Hx).
      unfold group_edge in G. destruct (_ && _); [|injection G as <-; constructor]. apply bind_ok in G as (dl & HD & G). injection G as <-. constructor; [|constructor]. cbn [e_delay snd].
      unfold group_delay in HD. destruct (t_dst (s_tr x)) as [c|]; [|discriminate]. apply bind_ok in HD as (lat & Hlat & HD). apply (latency_range ord d) in Hlat; [|exact WF].
      assert (EL : u32 lat = lat) by (apply u32_id; change (2 ^ 20) with 1048576 in Hlat; change (2 ^ 32) with 4294967296; lia).
      destruct (dv_arch d); [|discriminate]. apply bind_ok in HD as (p & _ & HD). rewrite EL in HD. destruct (_ =? _).
      + injection HD as <-. change (2 ^ 20) with 1048576 in Hlat. change (2 ^ 31) with 2147483648. lia.
      + eapply (packet_delay ord); [exact Hlat| |exact HD]. destruct HS as ([P1 P2] & _). split; [apply Z.le_trans with 1; [discriminate|exact P1]|exact P2].
  Qed.

  Context (WF : wf_device d) (HP : Forall (fun t => 0 < t_bytes t) (all_transfers wl)) (HZ : starts_after_zero wl).
  (* the states before the first timestep *)
  Definition initrel (s s' : sim A) : Prop :=
    sm_curr A s = cpt /\ sm_curr A s' = cpt /\ Forall2 (srel K) (sm_sts A s) (sm_sts A s') /\ sm_queue A s' = map (qlater K) (sm_queue A s) /\ sm_live A s = [] /\ sm_live A s' = [] /\
    Forall2 (cprel K) (sm_trk A s) (sm_trk A s') /\ sm_grids A s = zero_grids A d /\ sm_grids A s' = zero_grids A d /\ sm_stats A s = stats_make A d /\ sm_stats A s' = stats_make A d /\
    (forall p, In p (sm_queue A s) -> 0 < fst p) /\ (all_transfers wl <> [] -> sm_queue A s <> []).
  Lemma sim_init_later : follows initrel (sim_init A ord bord d cpt wl) (sim_init A ord bord d cpt wl').
  Proof.
    unfold sim_init. apply (follows_bind (Forall2 frel)); [exact init_later|]. intros sts sts' ES HM.
    destruct (init_states A ord d wl HW _ ES) as (HMK & HFr & HG).
    assert (HFr' : fresh_states A sts').
    { intros i x' Hx'. pose proof (Forall2_nth_error _ _ _ i HM) as H. rewrite Hx' in H. destruct (nth_error sts i) as [x|] eqn:Hx; [|contradiction]. destruct (HFr _ _ Hx) as (I1 & I2 & I3).
      rewrite (idx_later _ _ H). destruct H as (_ & -> & -> & _). auto. }
    rewrite (genDependencies_eq A ord bord bord_perm d sts HFr), (genDependencies_eq A ord bord bord_perm d sts' HFr'), (edges_later _ _ HM HFr).
    destruct (dep_edges A bord d sts) as [E| | | | | |] eqn:EE; cbn [bind]; try (intros ? ?; discriminate). apply follows_ok.
    assert (HX : forall x, In x sts -> In (s_tr x) (all_transfers wl) /\ s_start x = t_off (s_tr x) /\ s_end x = 0 /\ s_done x = 0 /\ transfer_ranges (s_tr x)).
    { intros x Hx. apply In_nth_error in Hx as [i Hx]. destruct (HG _ _ Hx) as (G1 & G2). split; [eapply nth_error_In; exact G1|exact G2]. }
    pose proof (delays sts E WF ltac:(intros x Hx; rewrite Forall_forall in HF; apply HF, HX, Hx) EE) as HDL.
    assert (HL : List.length sts' = List.length sts) by (symmetry; exact (same_length _ _ _ HM)).
    assert (EQ : createTransferQueue A sts' = map (qlater K) (createTransferQueue A sts)).
    { unfold createTransferQueue. rewrite <- (sort_map qgt qgt (qlater K)) by (intros x y; unfold qgt, qlater; cbn [fst snd]; lia). f_equal.
      clear - HM. induction HM as [|x x' l l' H HL IH]; cbn [map]; [reflexivity|]. rewrite IH, (idx_later _ _ H). destruct H as (-> & _). reflexivity. }
    unfold initrel. cbn [fst snd sm_curr sm_sts sm_queue sm_live sm_trk sm_grids sm_stats]. rewrite HL.
    split; [reflexivity|]. split; [reflexivity|]. split; [|split; [exact EQ|split; [reflexivity|split; [reflexivity|split; [|split; [reflexivity|split; [reflexivity|split; [reflexivity|split; [reflexivity|split]]]]]]]]].
    - assert (G : forall l l' a, Forall2 frel l l' -> incl l sts ->
        Forall2 (srel K) (map (fun p => linked A 0 E (fst p) (snd p)) (combine (seq a (List.length l)) l)) (map (fun p => linked A 0 E (fst p) (snd p)) (combine (seq a (List.length l)) l'))).
      { intros l l' a H. revert a. induction H as [|x x' l l' H HF2 IH]; intros a HN; cbn [List.length seq combine map]; constructor.
        - destruct (HX x (HN x (or_introl eq_refl))) as (T & X1 & X2 & X3 & X4). destruct H as (E1 & E2 & E3 & E4 & E5 & E6 & E7 & E8).
          rewrite Forall_forall in HP. specialize (HP _ T). destruct HZ as [HZ1 _]. rewrite Forall_forall in HZ1. specialize (HZ1 _ T). 
          unfold srel, linked. cbn [fst snd s_tr s_dep s_req s_route s_start s_end s_bw s_done]. rewrite E2, E3, X3. replace (0 =? t_bytes (s_tr x)) with false by lia.
          destruct X4 as (R1 & R2 & R3). split; [exact E1|]. split; [reflexivity|]. split; [reflexivity|]. split; [exact E4|]. split; [exact E5|]. split; [exact E6|]. split; [exact E7|]. split; [congruence|]. split; [lia|]. split; lia.
        - apply IH. intros y Hy. apply HN. right. exact Hy. }
      apply G; [exact HM|apply incl_refl].
    - clear - HDL HK. induction HDL as [|e E He HE IH]; cbn [map]; constructor; [|exact IH]. unfold cprel, fresh_cp. cbn [cp_total cp_completed cp_delay cp_end]. change (2 ^ 24) with 16777216. change (2 ^ 31) with 2147483648 in *. repeat split; try lia. 
    - intros p Hp. unfold createTransferQueue in Hp. apply sort_in in Hp. apply in_map_iff in Hp as (x & <- & Hx). cbn [fst]. destruct HZ as [HZ1 _]. rewrite Forall_forall in HZ1. apply HZ1. apply HX. exact Hx.
    - intros HN E0. apply HN. destruct sts as [|x l]; [apply same_length in HMK; destruct (all_transfers wl); [reflexivity|discriminate]|]. exfalso. unfold createTransferQueue in E0.
      apply (f_equal (@List.length _)) in E0. cbn [map sort List.length] in E0.
      assert (LI : forall y m, List.length (sort_insert qgt y m) = S (List.length m)) by (intros y m; induction m as [|z m IHm]; cbn [sort_insert List.length]; [reflexivity|]; destruct (qgt z y); cbn [List.length]; lia). rewrite LI in E0. discriminate.
  Qed.
End Init.

(** * The run *)
Section Run.
  Context (K : Z) (HK : 0 <= K).
  Notation A := f32A.
  Context (ord : Z -> list Z -> list Z) (bord : list bucket -> list bucket) (bord_perm : bucket_order bord).
  Context (d : device) (congestion : bool) (cpt : Z) (wl : workload (F A)).
  Context (HW : proper wl) (HC : proper_cpt cpt) (HF : Forall sound_transfer (all_transfers wl)).
  Context (WF : wf_device d) (HP : Forall (fun t => 0 < t_bytes t) (all_transfers wl)) (HZ : starts_after_zero wl).
  Notation wl' := (later_workload K wl).
  Notation reach := (reach A ord bord d congestion cpt wl).
  Notation at_ s c := (mkSim A c (sm_sts A s) (sm_queue A s) (sm_live A s) (sm_trk A s) (sm_grids A s) (sm_stats A s)).

  Lemma golden_pos id g : getGoldenResultCycles wl id = Ok g -> 0 < fst g.
  Proof.
    destruct HZ as [_ H]. unfold getGoldenResultCycles. induction H as [|[i w] m H1 H2 IH]; cbn [golden_get]; [discriminate|]. destruct (i =? id); [|exact IH]. intros E. injection E as <-. exact H1.
  Qed.
  (* a timestep before the first transfer: nothing happens *)
  Lemma idle s s' s1 : initrel K d cpt wl s s' -> timestep A d congestion cpt wl s = Ok s1 -> forall c, c <= K -> timestep A d congestion cpt wl' (at_ s' c) = Ok (at_ s' c).
  Proof.
    intros (_ & _ & _ & EQ & _ & EL & _ & _ & EG & ES0 & ES & HQ & _) HT c Hc. unfold timestep in HT. apply bind_ok in HT as (stt & HI & _). unfold timestep. cbn [sm_curr sm_sts sm_queue sm_live sm_trk sm_grids sm_stats].
    rewrite EL, EG, ES. rewrite ES0 in HI.
    assert (I1 : insertTimestep A wl' (u32 (c - cpt)) c (stats_make A d) = Ok (stats_make A d)).
    { unfold insertTimestep, stats_map in *. apply mapM_Forall2 in HI. apply mapM_Forall2. clear - HI HZ Hc. revert HI. generalize (sm_curr A s) as c0. intros c0. generalize (stats_make A d) as st. intros st HI.
      induction HI as [|[k ds] e st st1 He HS IH]; constructor; [|exact IH]. cbn [fst snd] in *. apply bind_ok in He as (ds1 & He & _). apply bind_ok in He as (g & Hg & _). rewrite golden_later, Hg. cbn [bind later_window fst].
      pose proof (golden_pos _ _ Hg). replace (fst g + K <=? c) with false by lia. reflexivity. }
    rewrite I1. cbn [bind].
    assert (ACT : activate A (List.length (sm_queue A s')) c (sm_trk A s') (Nat.pred (List.length (sm_queue A s'))) 0 (sm_sts A s') [] (sm_queue A s') = Ok (sm_sts A s', [], sm_queue A s', O)).
    { destruct (List.length (sm_queue A s')) as [|n] eqn:EN; cbn [activate]; [reflexivity|]. destruct (nth_lt_some (sm_queue A s') n ltac:(lia)) as [p Hp]. unfold vec_get. rewrite Hp. cbn [bind].
      apply nth_error_In in Hp. rewrite EQ in Hp. apply in_map_iff in Hp as (p0 & <- & Hp0). specialize (HQ _ Hp0). cbn [qlater fst]. replace (fst p0 + K <=? c) with false by lia. reflexivity. }
    rewrite ACT. cbn [bind]. rewrite Nat.sub_0_r, firstn_all.
    assert (RT : computeCurrentTransferRate A d (u32 (c - cpt)) c (sm_sts A s') [] (zero_grids A d) congestion = Ok (sm_sts A s', zero_grids A d)).
    { unfold computeCurrentTransferRate, updateTransferBandwidth, modelCongestion. cbn [foldM bind]. destruct congestion; reflexivity. }
    rewrite RT. cbn [bind foldM].
    assert (US : updateSimulationStats A d (zero_grids A d) [] (stats_make A d) = stats_make A d).
    { unfold updateSimulationStats, stats_make. rewrite map_app, map_map. cbn [map snd empty_ds ds_ts rev]. f_equal. }
    rewrite US. reflexivity.
  Qed.
  Lemma idle_loop s s' s1 : initrel K d cpt wl s s' -> timestep A d congestion cpt wl s = Ok s1 -> all_transfers wl <> [] -> K <= MAX_CYCLE_LIMIT ->
    forall n fuel c, c <= K -> cpt <= c -> c + Z.of_nat n * cpt = K + cpt -> (n <= fuel)%nat -> sim_loop A fuel d congestion cpt wl' (at_ s' c) = sim_loop A (fuel - n) d congestion cpt wl' (at_ s' (K + cpt)).
  Proof.
    intros HI HT HN HM. destruct HC as [HC1 HC2]. change (2 ^ 32) with 4294967296 in HC2.
    assert (NF : forall c, finished A (at_ s' c) = false).
    { intros c. destruct HI as (_ & _ & _ & EQ & _ & EL & _ & _ & _ & _ & _ & _ & HQ). unfold finished. cbn [sm_live sm_queue]. rewrite EL, EQ. specialize (HQ HN). destruct (sm_queue A s); [congruence|reflexivity]. }
    induction n as [|n IH]; intros fuel c L1 L2 E LF; [lia|]. destruct fuel as [|fuel]; [lia|]. cbn [sim_loop]. rewrite (idle _ _ _ HI HT c L1). cbn [bind]. rewrite NF. cbn [sm_curr].
    replace (MAX_CYCLE_LIMIT <? c) with false by lia. unfold advance. cbn [sm_curr sm_sts sm_queue sm_live sm_trk sm_grids sm_stats]. unfold MAX_CYCLE_LIMIT in HM.
    rewrite u32_id by (change (2 ^ 32) with 4294967296; lia). replace (S fuel - S n)%nat with (fuel - n)%nat by lia.
    destruct n as [|n].
    - replace (c + cpt) with (K + cpt) by lia. rewrite Nat.sub_0_r. reflexivity.
    - apply IH; [nia|lia|lia|lia].
  Qed.
  (* the first state of the run and the state after the idle timesteps *)
  Lemma initrel_simrel s s' : initrel K d cpt wl s s' -> simrel K s (at_ s' (K + cpt)).
  Proof.
    intros (E1 & E2 & H & EQ & EL & EL' & HT & EG & EG' & ES & ES' & _). unfold simrel. cbn [sm_curr sm_sts sm_queue sm_live sm_trk sm_grids sm_stats].
    split; [lia|]. split; [exact H|]. split; [exact EQ|]. split; [congruence|]. split; [exact HT|]. split; [congruence|]. rewrite ES, ES'. clear. unfold strel, stats_make.
    apply Forall2_app; [induction (dv_device_ids d); cbn [map]; constructor; [|assumption]|constructor; [|constructor]]; cbn [fst snd]; (split; [reflexivity|]); split; cbn; try reflexivity; lia.
  Qed.

  Lemma loop_curr fuel : forall s f, reach s -> sim_loop A fuel d congestion cpt wl s = Ok (inl f) -> sm_curr A s <= sm_curr A f.
  Proof.
    induction fuel as [|fuel IH]; intros s f HR H; cbn [sim_loop] in H; [discriminate|]. apply bind_ok in H as (s1 & HT & H). pose proof (step_curr A d congestion cpt wl _ _ HT) as EC.
    destruct (finished A s1) eqn:EF; [injection H as <-; lia|]. destruct (Z.ltb_spec MAX_CYCLE_LIMIT (sm_curr A s1)) as [L|L]; [discriminate|].
    assert (HR1 : reach (advance A cpt s1)) by (eapply reach_step; eassumption). apply IH in H; [|exact HR1]. cbn [advance sm_curr] in H.
    pose proof (reach_time A ord bord bord_perm d congestion cpt wl HW HC _ HR) as TO. rewrite EC in *. rewrite (proj1 (time_next ord cpt HC _ TO L)) in H. destruct HC. lia.
  Qed.
  Lemma loop_later fuel : forall fuel' s s' f, reach s -> simrel K s s' -> sim_loop A fuel d congestion cpt wl s = Ok (inl f) -> sm_curr A f + K <= 8000000 ->
    sm_curr A f - sm_curr A s < Z.of_nat fuel' * cpt -> exists f', sim_loop A fuel' d congestion cpt wl' s' = Ok (inl f') /\ simrel K f f'.
  Proof.
    pose proof HC as [HC1 HC2]. change (2 ^ 32) with 4294967296 in HC2.
    induction fuel as [|fuel IH]; intros fuel' s s' f HR HS H HB HFU; [discriminate|]. pose proof (loop_curr _ _ _ HR H) as LC. cbn [sim_loop] in H. apply bind_ok in H as (s1 & HT & H).
    destruct fuel' as [|fuel']; [lia|]. pose proof (step_curr A d congestion cpt wl _ _ HT) as EC. pose proof (reach_time A ord bord bord_perm d congestion cpt wl HW HC _ HR) as TO.
    assert (CP : cpt <= sm_curr A s) by (destruct TO as (kk & T1 & T2 & _); nia).
    destruct (step_later K HK ord bord bord_perm d congestion cpt wl HW HC HF s s' HR HS ltac:(change (2 ^ 24) with 16777216; lia) s1 HT) as (s1' & HT' & HS1). cbn [sim_loop]. rewrite HT'. cbn [bind].
    pose proof HS1 as (C1 & H1 & Q1 & L1 & T1 & G1 & ST1).
    assert (EF : finished A s1' = finished A s1) by (unfold finished; rewrite L1, Q1; destruct (sm_live A s1), (sm_queue A s1); reflexivity). rewrite EF.
    destruct (finished A s1) eqn:EFI; [injection H as <-; exists s1'; auto|]. destruct (Z.ltb_spec MAX_CYCLE_LIMIT (sm_curr A s1)) as [L|L]; [discriminate|].
    unfold MAX_CYCLE_LIMIT in *. replace (50000000 <? sm_curr A s1') with false by lia.
    assert (HR1 : reach (advance A cpt s1)) by (eapply reach_step; eassumption). rewrite EC in *. destruct (time_next ord cpt HC _ TO L) as [EU _].
    apply (IH fuel' (advance A cpt s1) (advance A cpt s1') f HR1); [|exact H|exact HB|cbn [advance sm_curr]; rewrite EC, EU; lia].
    unfold simrel. cbn [advance sm_curr sm_sts sm_queue sm_live sm_trk sm_grids sm_stats]. rewrite C1, EC, EU. split; [|auto 10]. replace (sm_curr A s + K + cpt) with (sm_curr A s + cpt + K) by lia.
    apply u32_id. change (2 ^ 32) with 4294967296. lia.
  Qed.

  Theorem simulate_later s : (cpt | K) -> all_transfers wl <> [] -> succeeds A ord bord d congestion cpt wl s -> sm_curr A s + K <= 8000000 ->
    exists s', succeeds A ord bord d congestion cpt wl' s' /\ simrel K s s'.
  Proof.
    intros [j Ej] HN H HB. unfold succeeds, simulate in *. apply bind_ok in H as (s0 & H0 & H). destruct (sim_init_later K ord bord bord_perm d cpt wl HW HF WF HP HZ s0 H0) as (s0' & H0' & HI). rewrite H0'. cbn [bind].
    pose proof HC as [HC1 HC2]. change (2 ^ 32) with 4294967296 in HC2. assert (HR : reach s0) by (apply reach_init; exact H0). pose proof (loop_curr _ _ _ HR H) as LC.
    assert (Hj : 0 <= j) by nia. pose proof (proj1 HI) as EC0. pose proof (proj1 (proj2 HI)) as EC0'.
    assert (ET : exists kk, 1 <= kk /\ sm_curr A s = kk * cpt).
    { destruct (loop_ends A ord bord d congestion cpt wl _ _ _ HR H) as [(sp & HRp & HTp) _]. rewrite (step_curr A d congestion cpt wl _ _ HTp). destruct (reach_time A ord bord bord_perm d congestion cpt wl HW HC _ HRp) as (kk & T1 & T2 & _). eauto. }
    destruct ET as (kk & T1 & T2).
    assert (FU : Z.of_nat (sim_fuel cpt) = 50000000 / cpt + 2) by (unfold sim_fuel, MAX_CYCLE_LIMIT; rewrite Z2Nat.id; [reflexivity|]; pose proof (Z.div_pos 50000000 cpt); lia).
    assert (DV : kk + j <= 50000000 / cpt) by (apply Z.div_le_lower_bound; [lia|]; nia).
    assert (T1S : exists s1, timestep A d congestion cpt wl s0 = Ok s1) by (destruct (sim_fuel cpt); cbn [sim_loop] in H; [discriminate|]; apply bind_ok in H as (s1 & HT & _); eauto). destruct T1S as [s1 HT].
    assert (EL : sim_loop A (sim_fuel cpt) d congestion cpt wl' s0' = sim_loop A (sim_fuel cpt - Z.to_nat j) d congestion cpt wl' (at_ s0' (K + cpt))).
    { assert (E0 : s0' = at_ s0' cpt) by (rewrite <- EC0' at 1; destruct s0'; reflexivity).
      destruct (Z.eq_dec j 0) as [J0|J0].
      - assert (K0 : K = 0) by lia. rewrite J0, K0. cbn [Z.to_nat Nat.sub]. rewrite Nat.sub_0_r. rewrite E0 at 1. reflexivity.
      - rewrite E0 at 1. apply (idle_loop _ _ _ HI HT HN); unfold MAX_CYCLE_LIMIT; [lia|nia|lia| |lia]. rewrite Z2Nat.id by lia. lia. }
    rewrite EL. apply (loop_later (sim_fuel cpt) _ s0 _ s HR (initrel_simrel _ _ HI) H HB). rewrite EC0, T2. nia.
  Qed.
End Run.

(** * The results *)
Section Results.
  Context (K : Z) (HK : 0 <= K).
  Notation A := f32A.
  Context (ord : Z -> list Z -> list Z) (bord : list bucket -> list bucket) (bord_perm : bucket_order bord).
  Context (d : device) (cpt : Z) (wl : workload (F A)).
  Context (HW : proper wl) (HC : proper_cpt cpt) (HF : Forall sound_transfer (all_transfers wl)).
  Context (WF : wf_device d) (HP : Forall (fun t => 0 < t_bytes t) (all_transfers wl)) (HZ : starts_after_zero wl).
  Context (HDV : (cpt | K)) (HN : all_transfers wl <> []).
  Notation wl' := (later_workload K wl).

  Theorem run_later congestion s : succeeds A ord bord d congestion cpt wl s -> sm_curr A s + K <= 8000000 ->
    exists s', succeeds A ord bord d congestion cpt wl' s' /\ later_run A K s s'.
  Proof.
    intros H HB. destruct (simulate_later K HK ord bord bord_perm d congestion cpt wl HW HC HF WF HP HZ s HDV HN H HB) as (s' & H' & HS). exists s'. split; [exact H'|].
    destruct (success_complete A ord bord bord_perm d congestion cpt wl HW HC s H) as (_ & HD & _). destruct HS as (E1 & HS & _). split; [exact E1|].
    assert (G : forall l l', Forall2 (srel K) l l' -> (forall i x, nth_error l i = Some x -> s_done x = t_bytes (s_tr x)) -> Forall2 (later_finish A K) l l').
    { intros l l' H1. induction H1 as [|x x' l l' Hx HL IH]; intros HG; constructor.
      - specialize (HG O x eq_refl). destruct Hx as (X1 & X2 & X3 & X4 & X5 & X6 & X7 & X8 & _). rewrite HG, Z.eqb_refl in X6. unfold later_finish. rewrite HG in *. auto 10.
      - apply IH. intros i y Hy. apply (HG (S i)). exact Hy. }
    apply G; [exact HS|]. intros i x Hx. apply (HD i x Hx).
  Qed.
  Theorem single_later model s stt : succeeds A ord bord d (negb (String.eqb model "none")) cpt wl s -> sm_curr A s + K <= 8000000 ->
    runSinglePerfSim A ord bord d model cpt wl = Ok (Stats stt) -> exists stt', runSinglePerfSim A ord bord d model cpt wl' = Ok (Stats stt') /\ later_stats A K stt stt'.
  Proof.
    intros H HB HR. destruct (simulate_later K HK ord bord bord_perm d _ cpt wl HW HC HF WF HP HZ s HDV HN H HB) as (s' & H' & HS). destruct HS as (E1 & _ & _ & _ & _ & _ & HS).
    unfold runSinglePerfSim, succeeds in *. rewrite H in HR. rewrite H'. cbn [bind] in *. apply bind_ok in HR as (st1 & HF1 & HR). apply bind_ok in HR as (st2 & HF2 & HR). injection HR as <-. destruct HDV as [j Ej]. pose proof HC as [HC1 HC2].
    assert (FN : follows (later_stats A K) (finishSimulation A wl cpt (sm_stats A s)) (finishSimulation A wl' cpt (sm_stats A s'))).
    { unfold finishSimulation, later_stats. apply (stats_map_follows A (dsrel A K)); [exact HS|]. intros id ds ds' HD. eapply (finish_later A K wl cpt j); [exact Ej|lia|nia| |change (2 ^ 62) with 4611686018427387904; change (2 ^ 32) with 4294967296 in *|exact HD].
      - intros g Hg. apply (golden_pos wl HZ id g Hg).
      - pose proof (succeeds_end A ord bord d _ cpt wl s H) as [(sp & HRp & HTp) _]. rewrite (step_curr A d _ cpt wl _ _ HTp) in HB. destruct (reach_time A ord bord bord_perm d _ cpt wl HW HC _ HRp) as (kk & T1 & T2 & _). nia. }
    destruct (FN _ HF1) as (st1' & HF1' & HS1). rewrite HF1'. cbn [bind].
    assert (SM : follows (later_stats A K) (computeSummaryStats A d wl st1) (computeSummaryStats A d wl' st1')).
    { unfold computeSummaryStats, later_stats. apply (stats_map_follows A (later_device A K)); [exact HS1|]. intros id ds ds' HD. apply summary_later. exact HD. }
    destruct (SM _ HF2) as (st2' & HF2' & HS2). rewrite HF2'. cbn [bind]. eauto.
  Qed.
End Results.

Section Estimation.
  Context (K : Z) (HK : 0 <= K).
  Notation A := f32A.
  Context (ord : Z -> list Z -> list Z) (bord : list bucket -> list bucket) (bord_perm : bucket_order bord).
  Context (d : device) (cfg : config (F A)) (wl : workload (F A)).
  Context (HW : proper wl) (HC : proper_cpt (cf_cpt cfg)) (HF : Forall sound_transfer (all_transfers wl)).
  Context (WF : wf_device d) (HP : Forall (fun t => 0 < t_bytes t) (all_transfers wl)) (HZ : starts_after_zero wl).
  Context (HDV : (cf_cpt cfg | K)) (HN : all_transfers wl <> []).
  Notation wl' := (later_workload K wl).
  Theorem estimation_later s stt : succeeds A ord bord d (negb (String.eqb (cf_model cfg) "none")) (cf_cpt cfg) wl s -> sm_curr A s + K <= 8000000 ->
    (cf_impact cfg = true -> exists s0, succeeds A ord bord d false (cf_cpt cfg) wl s0 /\ sm_curr A s0 + K <= 8000000) ->
    runPerfEstimation A ord bord d cfg wl = Ok (Stats stt) -> exists stt', runPerfEstimation A ord bord d cfg wl' = Ok (Stats stt') /\ later_stats A K stt stt'.
  Proof.
    intros H HB H0 HR. unfold runPerfEstimation in *. destruct (cf_impact cfg).
    - destruct (H0 eq_refl) as (s0 & HS0 & HB0). apply bind_ok in HR as (r & Hr & HR). destruct r as [st|e]; [|discriminate].
      destruct (single_later K HK ord bord bord_perm d (cf_cpt cfg) wl HW HC HF WF HP HZ HDV HN _ s st H HB Hr) as (st' & Hr' & HL). rewrite Hr'. cbn [bind]. apply bind_ok in HR as (r0 & Hr0 & HR).
      assert (E0 : exists st0, r0 = Stats st0).
      { unfold runSinglePerfSim in Hr0. change (negb (String.eqb "none" "none")) with false in Hr0. unfold succeeds in HS0. rewrite HS0 in Hr0. cbn [bind] in Hr0. apply bind_ok in Hr0 as (x & _ & Hr0). apply bind_ok in Hr0 as (y & _ & Hr0). injection Hr0 as <-. eauto. }
      destruct E0 as [st0 ->]. destruct (single_later K HK ord bord bord_perm d (cf_cpt cfg) wl HW HC HF WF HP HZ HDV HN "none" s0 st0 HS0 HB0 Hr0) as (st0' & Hr0' & _). rewrite Hr0'. cbn [bind]. injection HR as <-.
      eexists. split; [reflexivity|]. clear - HL. unfold later_stats in *. induction HL as [|[k ds] [k' ds'] l l' [E HD] HL IH]; cbn [map]; constructor; [|exact IH]. cbn [fst snd] in *. split; [exact E|].
      destruct HD as (ts & w & -> & HT & EW). exists ts, w. split; [reflexivity|]. split; [exact HT|exact EW].
    - eapply (single_later K HK ord bord bord_perm d (cf_cpt cfg) wl HW HC HF WF HP HZ HDV HN); eassumption.
  Qed.
End Estimation.
