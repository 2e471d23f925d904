(* The emission of the timeline files succeeds (C78). *)
From Coq Require Import ZArith Arith Lia Bool String List Sorting.Permutation ZifyBool ZifyNat.
From Verif Require Import Base Arith Util SpecUtil Json Device SpecDevice Workload SpecWorkload DepTracker Rates Stats Engine UtilProofs WorkloadProofs SpecTracker TrackerProofs DepGenProofs SpecEngine SpecRates SpecStats
  DeviceProofs FactoryProofs StepProofs EngineProofs RunProofs DepFacts EngineFacts EngineFacts2 EngineFacts3 EngineFacts4 EngineFacts5 StatsFacts EngineRates StatsRun SafeProofs SafeRun Timeline SpecTimeline TimelineProofs TimelineSplit TimelineLive
  SpecZones ZoneProofs SpecGroups GroupProofs SpecDemands DemandProofs ChipProofs SpecEmit.
Import ListNotations.
Local Open Scope list_scope.
Open Scope Z_scope.
Ltac Zify.zify_post_hook ::= idtac.

Lemma mapM_ok {X Y} (f : X -> outcome Y) l : (forall x, In x l -> exists y, f x = Ok y) -> exists r, mapM f l = Ok r.
Proof.
  induction l as [|x l IH]; intros H; cbn [mapM]; [eauto|]. destruct (H x (or_introl eq_refl)) as (y & ->). cbn [bind].
  destruct IH as (r & ->); [intros z Hz; apply H; right; exact Hz|]. cbn [bind]. eauto.
Qed.
Lemma foldM_ok {X S} (f : S -> X -> outcome S) l : (forall s x, In x l -> exists s', f s x = Ok s') -> forall s, exists r, foldM f l s = Ok r.
Proof.
  induction l as [|x l IH]; intros H s; cbn [foldM]; [eauto|]. destruct (H s x (or_introl eq_refl)) as (s' & ->). cbn [bind].
  apply IH. intros z y Hy. apply H. right. exact Hy.
Qed.
Lemma grid_get_ok {X} (l : list X) i : 0 <= i < Z.of_nat (List.length l) -> exists x, grid_get l i = Ok x.
Proof.
  intros H. unfold grid_get, vec_get. replace (i <? 0) with false by lia. destruct (nth_error l (Z.to_nat i)) eqn:E; [eauto|]. apply nth_error_None in E. lia.
Qed.

Section D.
  Context (A : arith) (d : device) (HD : supported d).
  Let WF : wf_device d := supported_wf d HD.
  Notation state := (tstate (F A)).
  Lemma destination_ok dst : dest_ok d dst -> exists cs, destination_list d dst = Ok cs.
  Proof.
    destruct dst as [c|m]; intros H; cbn [destination_list]; [eauto|]. destruct H as (g & -> & G1 & G2). destruct (coords_ok d g WF G1 G2) as (cs & -> & FC). cbn [bind].
    apply foldM_ok. intros l c Hc. rewrite Forall_forall in FC. destruct (core_ok d HD c (proj1 (FC c Hc))) as [ty ->]. cbn [bind]. eauto.
  Qed.
  Lemma link_attr_ok l : link_ok d l -> exists a, getLinkAttributes d l = Ok a.
  Proof.
    intros H. unfold link_ok in H. unfold getLinkAttributes. replace (l <? 0) with false by lia. destruct (nth_error (link_table d) (Z.to_nat l)) eqn:E; [eauto|]. apply nth_error_None in E. lia.
  Qed.
  Lemma niu_attr_ok l : 0 <= l < Z.of_nat (List.length (niu_table d)) -> exists a, getNIUAttributes d l = Ok a.
  Proof.
    intros H. unfold getNIUAttributes. replace (l <? 0) with false by lia. destruct (nth_error (niu_table d) (Z.to_nat l)) eqn:E; [eauto|]. apply nth_error_None in E. lia.
  Qed.
  Lemma segment_ok x : state_fine A d x -> exists sg, segment_of A d x = Ok sg.
  Proof.
    intros (_ & H2 & H3). unfold segment_of. cbv zeta. destruct (destination_ok _ H2) as (cs & ->). cbn [bind].
    destruct (mapM_ok (fun l => let! a := getLinkAttributes d l in Ok (l_coord a, HopLink (l_type a))) (s_route x)) as (r & Er).
    { intros l Hl. rewrite Forall_forall in H3. destruct (link_attr_ok l (H3 l Hl)) as (a & ->). cbn [bind]. eauto. }
    rewrite Er. cbn [bind]. eauto.
  Qed.
  Lemma group_ok sts r g ids : ids <> [] -> (forall id, In id ids -> 0 <= id < Z.of_nat (List.length sts)) -> Forall (state_fine A d) sts -> exists o, group_of A d sts r (g, ids) = Ok o.
  Proof.
    intros NE HI HF. unfold group_of. cbn [snd fst]. destruct ids as [|i0 ids0]; [contradiction|]. cbn [List.length Nat.leb tt_assert bind]. set (ids := i0 :: ids0) in *.
    destruct (mapM_ok (fun id => let! s := state_of A sts id in Ok (t_gix (s_tr s), s)) ids) as (keyed & EK).
    { intros id Hid. destruct (grid_get_ok sts id (HI id Hid)) as (x & Hx). unfold state_of. rewrite Hx. cbn [bind]. eauto. }
    rewrite EK. cbn [bind]. set (lt := fun a b : Z * state => fst a <? fst b). pose proof (sort_perm lt keyed) as P. apply mapM_Forall2 in EK.
    assert (FK : Forall (fun e => state_fine A d (snd e)) keyed).
    { clear -EK HF. induction EK as [|id e ids es H HE IH]; constructor; [|exact IH]. apply bind_ok in H as (x & Hx & H). injection H as <-. cbn [snd]. unfold state_of in Hx.
      apply state_of_nth in Hx as (i & _ & Hx). rewrite Forall_forall in HF. apply HF. eapply nth_error_In; exact Hx. }
    assert (LK : sort lt keyed <> []).
    { intros E. rewrite E in P. apply Permutation_sym, Permutation_nil in P. subst keyed. inversion EK. }
    assert (FS : Forall (state_fine A d) (map snd (sort lt keyed))).
    { apply Forall_map. rewrite Forall_forall in FK |- *. intros e He. apply FK. eapply Permutation_in; [symmetry; apply P|exact He]. }
    assert (NS : map snd (sort lt keyed) <> []) by (intros E; apply LK; destruct (sort lt keyed); [reflexivity|discriminate E]).
    change (sort (fun a b : Z * state => fst a <? fst b) keyed) with (sort lt keyed). generalize dependent (map snd (sort lt keyed)). intros l FS NS.
    destruct l as [|first l]; [contradiction|]. destruct (rev (first :: l)) as [|last m] eqn:ER; [apply (f_equal (@List.length _)) in ER; rewrite rev_length in ER; discriminate ER|].
    assert (HL : In last (first :: l)) by (apply in_rev; rewrite ER; left; reflexivity).
    destruct (match r with None => true | Some rg => partially_contained rg (s_start first) (s_end last) end); [|eauto].
    rewrite Forall_forall in FS. destruct (destination_ok (t_dst (s_tr last))) as (cs & ->); [apply (FS last HL)|]. cbn [bind].
    destruct (mapM_ok (segment_of A d) (first :: l)) as (sg & ->); [intros x Hx; apply segment_ok, FS, Hx|]. cbn [bind]. eauto.
  Qed.
  (* the demand tables have an entry for every element *)
  Definition table_sized (t : tstats A) : Prop :=
    (List.length (ts_niu A t) <= List.length (niu_table d))%nat /\ (List.length (ts_link A t) <= List.length (link_table d))%nat.
  Lemma demands_ok t : table_sized t -> exists dem, demands A d t = Ok dem.
  Proof.
    intros [H1 H2]. unfold demands. cbv zeta.
    destruct (mapM_ok (fun x : Z * F A => let! a := getNIUAttributes d (fst x) in
      Ok (n_coord a, match n_type a with NOC0_SRC => HopIn NOC0 | NOC0_SINK => HopOut NOC0 | NOC1_SRC => HopIn NOC1 | NOC1_SINK => HopOut NOC1 end, snd x)) (big A (ts_niu A t))) as (ns & E1).
    { intros [id v] Hx. apply (proj1 (big_in A _ _ _)) in Hx as (k & -> & Hk & _). apply nth_some_lt in Hk. cbn [fst snd]. destruct (niu_attr_ok (Z.of_nat k)) as (a & ->); [lia|]. cbn [bind]. eauto. }
    destruct (mapM_ok (fun x : Z * F A => let! a := getLinkAttributes d (fst x) in Ok (l_coord a, HopLink (l_type a), snd x)) (big A (ts_link A t))) as (ls & E2).
    { intros [id v] Hx. apply (proj1 (big_in A _ _ _)) in Hx as (k & -> & Hk & _). apply nth_some_lt in Hk. cbn [fst snd]. destruct (link_attr_ok (Z.of_nat k)) as (a & ->); [unfold link_ok; lia|]. cbn [bind]. eauto. }
    unfold big in E1, E2. rewrite E1. cbn [bind]. rewrite E2. cbn [bind]. eauto.
  Qed.
  Lemma step_ok ids t : table_sized t -> exists p, step_of A d ids t = Ok p.
  Proof. intros H. unfold step_of. cbv zeta. destruct (demands_ok t H) as (dem & ->). cbn [bind]. eauto. Qed.

  (** * The size of the demand tables *)
  Lemma niu_len eff x n n' : add_niu_demand A d eff x n = Ok n' -> List.length n' = List.length n.
  Proof.
    unfold add_niu_demand. cbv zeta beta. intros H. apply bind_ok in H as (n1 & H1 & H). apply bind_ok in H1 as (id & _ & H1). apply gmod_len in H1. destruct (t_dst (s_tr x)) as [c|m].
    - apply bind_ok in H as (id' & _ & H). apply gmod_len in H. congruence.
    - apply bind_ok in H as (cs & _ & H). rewrite <- H1. clear -H. revert n1 H. induction cs as [|c cs IH]; intros n1 H; cbn [foldM] in H; [injection H as <-; reflexivity|].
      apply bind_ok in H as (n2 & H2 & H). rewrite (IH _ H). apply bind_ok in H2 as (ty & _ & H2). destruct ty; try (injection H2 as <-; reflexivity).
      apply bind_ok in H2 as (id' & _ & H2). apply gmod_len in H2. exact H2.
  Qed.
  Lemma link_len eff r g g' : add_link_demand A eff r g = Ok g' -> List.length g' = List.length g.
  Proof.
    unfold add_link_demand. revert g. induction r as [|l r IH]; intros g H; cbn [foldM] in H; [injection H as <-; reflexivity|].
    apply bind_ok in H as (g1 & H1 & H). apply gmod_len in H1. rewrite (IH _ H). exact H1.
  Qed.
  Lemma demand_len st en sts live : forall g g', foldM (add_demand A d st en sts) live g = Ok g' -> sized A d g -> sized A d g'.
  Proof.
    induction live as [|i live IH]; intros g g' H HS; cbn [foldM] in H; [injection H as <-; exact HS|]. apply bind_ok in H as (g1 & H1 & H). apply (IH _ _ H).
    unfold add_demand in H1. apply bind_ok in H1 as (x & _ & H1). cbv zeta in H1. apply bind_ok in H1 as (n & Hn & H1). apply bind_ok in H1 as (l & Hl & H1). apply bind_ok in H1 as (m & Hm & H1). injection H1 as <-.
    destruct HS as (S1 & S2 & S3). apply niu_len in Hn. apply link_len in Hl. unfold sized. cbn [g_niu g_link g_mc]. split; [congruence|]. split; [congruence|].
    destruct (String.eqb _ _); [apply link_len in Hm; congruence|injection Hm as <-; exact S3].
  Qed.
  Lemma rates_sized st en sts live g c sts' g' : computeCurrentTransferRate A d st en sts live g c = Ok (sts', g') -> sized A d g -> sized A d g'.
  Proof.
    unfold computeCurrentTransferRate. intros H HS. apply bind_ok in H as (s1 & _ & H). destruct c; [|injection H as _ <-; exact HS].
    unfold modelCongestion in H. apply bind_ok in H as (g2 & H2 & H). apply bind_ok in H as (s2 & _ & H). injection H as _ <-. eapply demand_len; [exact H2|apply zero_sized].
  Qed.
End D.

Section R.
  Context (A : arith) (ord : Z -> list Z -> list Z) (ord_perm : link_order ord) (bord : list bucket -> list bucket) (bord_perm : bucket_order bord).
  Context (gord : gmap -> gmap) (gord_perm : map_order gord) (zord : zone_map -> zone_map) (zord_perm : map_order zord).
  Context (d : device) (HD : supported d) (cpt : Z) (wl : workload (F A)) (HW : proper wl) (HC : proper_cpt cpt) (model : string).
  Context (HA : Forall (accepted d) (all_transfers wl)).
  Notation cong := (negb (String.eqb model "none")).
  Notation reach := (reach A ord bord d cong cpt wl).
  Notation succ := (succeeds A ord bord d cong cpt wl).

  Lemma final_fine s : succ s -> Forall (state_fine A d) (sm_sts A s).
  Proof.
    intros HS. destruct (succeeds_end A ord bord d cong cpt wl s HS) as [HE _]. pose proof (or_intror HE : visited A ord bord d cong cpt wl s) as V.
    apply Forall_forall. intros x Hin. apply In_nth_error in Hin as (i & Hx).
    destruct (visited_facts A ord bord bord_perm d cong cpt wl HW HC s V) as (sts0 & E & h & fin & S & _ & I & _).
    destruct (static_same A _ _ _ _ _ I _ _ Hx) as (x0 & H0 & E1 & E2).
    assert (F0 : state_fine A d x0).
    { destruct S as [S _]. rewrite (init_dense A ord d wl (proj1 HW)) in S. apply mapM_Forall2 in S. fold (all_transfers wl) in S.
      assert (L : List.length (all_transfers wl) = List.length sts0) by (eapply Forall2_length'; exact S).
      pose proof (nth_some_lt _ _ _ H0) as Hlt. rewrite <- L in Hlt. destruct (nth_lt_some _ _ Hlt) as (t & Ht). rewrite Forall_forall in HA.
      apply (make_fine A ord d t ord_perm HD); [apply HA; eapply nth_error_In; exact Ht|]. exact (Forall2_nth _ _ _ S _ _ _ Ht H0). }
    destruct F0 as (K1 & K2 & K3). unfold state_fine. rewrite E1, E2. auto.
  Qed.
  Lemma reach_sized s : reach s -> sized A d (sm_grids A s).
  Proof.
    intros HR. induction HR as [s H|s s' HR IH HT HF HM].
    - destruct (sim_init_eq A ord bord bord_perm d cpt wl HW _ H) as (sts1 & E1 & _ & ->). apply zero_sized.
    - cbn [advance sm_grids]. destruct (rate_round A ord bord bord_perm d cong cpt wl HW HC s s' HR HT) as (sts1 & sts2 & live & _ & _ & HRT & _). eapply rates_sized; [exact HRT|exact IH].
  Qed.
  Lemma step_sized s s' : reach s -> timestep A d cong cpt wl s = Ok s' -> sized A d (sm_grids A s').
  Proof.
    intros HR HT. destruct (rate_round A ord bord bord_perm d cong cpt wl HW HC s s' HR HT) as (sts1 & sts2 & live & _ & _ & HRT & _). eapply rates_sized; [exact HRT|apply reach_sized; exact HR].
  Qed.
  Lemma all_sized stt ds : runSinglePerfSim A ord bord d model cpt wl = Ok (Stats stt) -> stats_get A stt MESH_DEVICE = Some ds -> Forall (table_sized A d) (ds_ts A ds).
  Proof.
    intros HR HDS. pose proof (all_records A ord bord bord_perm d cpt wl HW HC model stt ds HR HDS) as FA. eapply Forall_impl; [|exact FA]. cbn beta.
    intros t [->|(n & s & s' & HB & HT & _ & EL & EN & _)]; [split; cbn [fresh_ts ts_niu ts_link List.length]; lia|].
    destruct (step_sized s s' (begins_reach A ord bord d cong cpt wl _ _ HB) HT) as (S1 & S2 & _). unfold table_sized. rewrite EL, EN. lia.
  Qed.

  (** * The statistics of the mesh *)
  Lemma map_has f stt stt' id : stats_map A f stt = Ok stt' -> (exists ds, stats_get A stt id = Some ds) -> exists ds, stats_get A stt' id = Some ds.
  Proof.
    unfold stats_map. revert stt'. induction stt as [|[j ds] stt IH]; intros stt' H [x Hx]; [discriminate Hx|]. cbn [mapM] in H. apply bind_ok in H as ([j' ds1] & H1 & H). apply bind_ok in H as (r & H2 & H). injection H as <-.
    cbn [fst snd] in H1. apply bind_ok in H1 as (ds2 & _ & H1). injection H1 as <- <-. cbn [stats_get] in Hx |- *. destruct (j =? id); [eauto|]. apply (IH _ H2). eauto.
  Qed.
  Notation present stt := (exists ds, stats_get A stt MESH_DEVICE = Some ds).
  Lemma present_iv stt : present stt <-> exists l, iv A stt MESH_DEVICE = Some l.
  Proof. unfold iv. destruct (stats_get A stt MESH_DEVICE) as [ds|]; split; intros [x H]; try discriminate H; cbn [option_map]; eauto. Qed.
  Lemma step_present s s' : reach s -> timestep A d cong cpt wl s = Ok s' -> present (sm_stats A s) -> present (sm_stats A s').
  Proof.
    intros HR HT HP. destruct (reach_setup A ord bord bord_perm d cong cpt wl HW s HR) as (sts0 & E & HS).
    destruct (step_inv A ord bord bord_perm d cong cpt wl HW HC _ _ _ _ HS HR HT) as (fin & act & sts1 & sts2 & stt & _ & SR & _).
    destruct (sr_stats0 _ _ _ _ _ _ _ _ _ _ _ SR) as (stt1 & S1 & S2). pose proof (sr_stats _ _ _ _ _ _ _ _ _ _ _ SR) as S3.
    pose proof (map_has _ _ _ _ S1 HP) as H1. apply present_iv in H1 as (l & H1). rewrite <- (update_iv A d (sm_grids A s') (sm_live A s ++ act)) in H1. rewrite <- S2 in H1.
    apply present_iv. exists l. exact (note_all_iv A wl _ _ _ _ _ _ S3 H1).
  Qed.
  Lemma reach_present s : reach s -> present (sm_stats A s).
  Proof.
    intros HR. induction HR as [s H|s s' HR IH HT HF HM].
    - apply present_iv. exists []. apply (init_iv A ord bord bord_perm d cpt wl HW _ _ H). right. reflexivity.
    - cbn [advance sm_stats]. eapply step_present; eassumption.
  Qed.
  Lemma mesh_present stt : runSinglePerfSim A ord bord d model cpt wl = Ok (Stats stt) -> present stt.
  Proof.
    unfold runSinglePerfSim. intros H. apply bind_ok in H as (r & Hr & H). destruct r as [s|e]; [|discriminate].
    apply bind_ok in H as (stt1 & H1 & H). apply bind_ok in H as (stt2 & H2 & H). injection H as <-.
    eapply map_has; [exact H2|]. eapply map_has; [exact H1|]. destruct (succeeds_end A ord bord d _ cpt wl s Hr) as [(s0 & HR & HT) _]. eapply step_present; [exact HR|exact HT|apply reach_present; exact HR].
  Qed.
  Lemma few_timesteps stt ds : window_from wl -> runSinglePerfSim A ord bord d model cpt wl = Ok (Stats stt) -> stats_get A stt MESH_DEVICE = Some ds -> Z.of_nat (List.length (ds_ts A ds)) < 2 ^ 63.
  Proof.
    unfold runSinglePerfSim. intros P H Hds. apply bind_ok in H as (r & Hr & H). destruct r as [s|e]; [|discriminate].
    apply bind_ok in H as (stt1 & H1 & H). apply bind_ok in H as (stt2 & H2 & H). injection H as <-.
    destruct (summary_get A d wl _ _ H2 _ _ Hds) as (ds1 & G1 & EQ & _ & _ & ET). rewrite ET.
    destruct (finish_ts A cpt wl _ _ H1 _ _ G1) as (ds0 & g & G0 & Hg & [(W & EE & ETS)|(W & EE & ETS)]); rewrite ETS; [reflexivity|]. specialize (P g Hg).
    destruct (worst_end A ord bord bord_perm d _ cpt wl HW HC s Hr) as [WO WE]. specialize (WO MESH_DEVICE). rewrite G0 in WO.
    destruct (worst_estimate A ord wl (sm_sts A s) MESH_DEVICE g Hg P WE) as [WR _]. rewrite <- WO in WR. pose proof HC as [HC1 HC2].
    set (w := ds_worst A ds0) in *. clearbody w. change (2 ^ 32) with 4294967296 in *.
    assert (U1 : u64 (u64 (w + cpt) - 1) = w + cpt - 1) by (rewrite (u64_id (w + cpt)), u64_id; change (2 ^ 64) with 18446744073709551616; lia).
    assert (U2 : fst g / cpt <= (w + cpt - 1) / cpt) by (apply Z.div_le_mono; lia).
    assert (U3 : 0 <= fst g / cpt) by (apply Z.div_pos; lia).
    assert (U4 : (w + cpt - 1) / cpt <= w + cpt - 1) by (apply Z.div_le_upper_bound; nia).
    rewrite U1. rewrite (u64_id ((w + cpt - 1) / cpt - fst g / cpt)), u64_id by (change (2 ^ 64) with 18446744073709551616; lia).
    set (N := (w + cpt - 1) / cpt - fst g / cpt + 1) in *. assert (LN : List.length (resize (Z.to_nat N) (fresh_ts A 0 0) (ds_ts A ds0)) = Z.to_nat N) by (unfold resize; rewrite app_length, firstn_length, repeat_length; lia).
    rewrite LN. change (2 ^ 63) with 9223372036854775808. lia.
  Qed.

  (** * One document *)
  Lemma zones_ok (r : option region) : nested_zones wl -> exists zs, mapM (fun e : (coord * risc_type) * list zone => let! f := zone_forest r (snd e) in Ok (fst e, f)) (zord (wl_zones wl)) = Ok zs.
  Proof.
    intros HN. apply mapM_ok. intros [k zs] Hin. eapply Permutation_in in Hin; [|apply zord_perm]. destruct (HN k zs Hin) as (f & -> & HO & HU). cbn [snd fst]. rewrite (forest_entries r f HO HU). cbn [bind]. eauto.
  Qed.
  Lemma doc_chips topo chips stt ds sf r : chips_of d topo = Ok (Some chips) -> registered wl -> wl_groups wl + Z.of_nat (List.length (all_transfers wl)) < 2 ^ 31 -> nested_zones wl ->
    runSinglePerfSim A ord bord d model cpt wl = Ok (Stats stt) -> stats_get A stt MESH_DEVICE = Some ds -> succ sf ->
    exists tl, v1 A gord zord d topo wl ds (sm_sts A sf) r = Ok (Some tl).
  Proof.
    intros EC HRG HB HN HR HDS HS.
    unfold v1. rewrite EC. cbn [bind].
    pose proof (final_fine sf HS) as FF. set (sts := sm_sts A sf) in *.
    assert (IDS : forall i x, nth_error sts i = Some x -> sid x = Z.of_nat i) by (intros i x Hx; exact (final_ids A ord bord bord_perm d cpt wl HW HC model sf i x HS Hx)).
    assert (EM : map sid sts = map Z.of_nat (seq 0 (List.length sts))).
    { apply nth_ext_error. intros i. rewrite !nth_error_map. destruct (nth_error sts i) as [x|] eqn:Ex.
      - pose proof (nth_some_lt _ _ _ Ex) as L. rewrite (nth_error_nth' _ 0%nat) by (rewrite seq_length; exact L). rewrite seq_nth by exact L. cbn [option_map]. f_equal. exact (IDS _ _ Ex).
      - apply nth_error_None in Ex. assert (EN : nth_error (seq 0 (List.length sts)) i = None) by (apply nth_error_None; rewrite seq_length; exact Ex). rewrite EN. reflexivity. }
    assert (ND : NoDup (map sid sts)) by (rewrite EM; apply FinFun.Injective_map_NoDup; [intros a b; lia|apply seq_NoDup]).
    destruct (succeeds_end A ord bord d cong cpt wl sf HS) as [HE _]. pose proof (or_intror HE : visited A ord bord d cong cpt wl sf) as V.
    assert (TR : forall i x, nth_error sts i = Some x -> nth_error (all_transfers wl) i = Some (s_tr x)) by (intros i x Hx; exact (visited_transfer A ord bord bord_perm d cong cpt wl HW HC sf i x V Hx)).
    assert (LEN : (List.length sts <= List.length (all_transfers wl))%nat).
    { destruct (List.length sts) as [|n] eqn:EL; [lia|]. destruct (nth_lt_some sts n ltac:(lia)) as (x & Hx). apply TR, nth_some_lt in Hx. lia. }
    destruct (groups_partition wl sts ND) with (gord := gord) as (gs & G1 & G2 & _ & G3 & _); [|lia|exact gord_perm|].
    { intros x Hx Hg. apply In_nth_error in Hx as (i & Hx). apply HRG; [eapply nth_error_In, TR; exact Hx|exact Hg]. }
    destruct (group_strong wl sts ND) as (gs' & G1' & ST); [|lia|].
    { intros x Hx Hg. apply In_nth_error in Hx as (i & Hx). apply HRG; [eapply nth_error_In, TR; exact Hx|exact Hg]. }
    rewrite G1 in G1'. injection G1' as <-. rewrite G1. cbn [bind]. cbv zeta. rewrite G2. cbn [bind].
    destruct (mapM_ok (group_of A d sts r) (gord (gs_groups gs))) as (tgs & ->).
    { intros [g ids] Hin. eapply Permutation_in in Hin; [|apply gord_perm]. apply group_ok; [exact HD| | |exact FF].
      - apply (st_lists _ _ _ ST _ _ Hin).
      - intros id Hid. destruct (G3 g id) as (x & Hx & ->); [exists ids; auto|]. apply In_nth_error in Hx as (i & Hx). rewrite (IDS _ _ Hx). apply nth_some_lt in Hx. lia. }
    cbn [bind]. destruct (zones_ok r HN) as (zs & ->). cbn [bind].
    destruct (mapM_ok (step_of A d (gs_ids gs)) (filter (fun t => in_region r (ts_start A t) (ts_end A t)) (ds_ts A ds))) as (ps & ->).
    { intros t Ht. apply filter_In in Ht as [Ht _]. apply step_ok. pose proof (all_sized stt ds HR HDS) as FA. rewrite Forall_forall in FA. apply FA. exact Ht. }
    cbn [bind]. eauto.
  Qed.

  Lemma doc_ok topo stt ds sf r : registered wl -> wl_groups wl + Z.of_nat (List.length (all_transfers wl)) < 2 ^ 31 -> nested_zones wl ->
    runSinglePerfSim A ord bord d model cpt wl = Ok (Stats stt) -> stats_get A stt MESH_DEVICE = Some ds -> succ sf ->
    (mesh_known d topo -> exists tl, v1 A gord zord d topo wl ds (sm_sts A sf) r = Ok (Some tl)) /\ (mesh_unknown d topo -> v1 A gord zord d topo wl ds (sm_sts A sf) r = Ok None).
  Proof.
    intros HRG HB HN HR HDS HS. split.
    2: { intros [H1 H2]. unfold v1, chips_of. destruct (Nat.ltb_spec 1 (dv_chips d)); [|lia]. destruct topo as [| | |j]; try reflexivity. exfalso. exact (H2 j eq_refl). }
    intros HK. assert (HC1 : exists chips, chips_of d topo = Ok (Some chips)).
    { destruct (Nat.ltb_spec 1 (dv_chips d)) as [L|L].
      - destruct HK as [E|(j & ns & ew & nodes & -> & HM & K1 & K2 & K3 & K4)]; [lia|]. destruct (chips_mesh d ns ew nodes j L K1 K2 K3 K4 HM) as (cs & E & _). eauto.
      - unfold chips_of. destruct (Nat.ltb_spec 1 (dv_chips d)); [lia|]. eauto. }
    destruct HC1 as (chips & EC). eapply doc_chips; eauto.
  Qed.

  (** * The files *)
  Lemma run_split topo legacy thr stt : runSinglePerfSim A ord bord d model cpt wl = Ok (Stats stt) ->
    exists sf, succ sf /\ forall files, emitSimTimelineToFile A gord zord d topo legacy thr wl stt (sm_sts A sf) = Ok files ->
      runWithTimeline A ord bord gord zord topo legacy thr d model cpt wl = Ok (Stats stt, files).
  Proof.
    unfold runSinglePerfSim. intros H. apply bind_ok in H as (r & Hr & H). destruct r as [s|e]; [|discriminate].
    apply bind_ok in H as (stt1 & H1 & H). apply bind_ok in H as (stt2 & H2 & H). injection H as <-. exists s. split; [exact Hr|]. intros files HE.
    unfold runWithTimeline. rewrite Hr. cbn [bind]. rewrite H1. cbn [bind]. rewrite H2. cbn [bind]. rewrite HE. reflexivity.
  Qed.
  Lemma region_ok ts num thr i : num = Z.of_nat (List.length ts) -> 0 < thr < num -> num < 2 ^ 63 -> 0 <= i < num_splits num thr -> exists rg, split_region A ts num thr i = Ok rg.
  Proof.
    intros EN H1 H2 H3. pose proof (splits_bound num thr H1 H2) as B. cbv zeta in B. unfold split_region. rewrite (split_range_eq num thr i H1 H2 H3).
    destruct (grid_get_ok ts (i * thr)) as (a & ->); [nia|]. cbn [bind]. destruct (grid_get_ok ts (Z.min ((i + 1) * thr) num - 1)) as (b & ->); [nia|]. cbn [bind]. eauto.
  Qed.
  Theorem run_emits topo thr stt : window_from wl -> registered wl -> wl_groups wl + Z.of_nat (List.length (all_transfers wl)) < 2 ^ 31 -> nested_zones wl -> 0 < thr ->
    mesh_known d topo \/ mesh_unknown d topo -> runSinglePerfSim A ord bord d model cpt wl = Ok (Stats stt) ->
    exists ds files, stats_get A stt MESH_DEVICE = Some ds /\ runWithTimeline A ord bord gord zord topo false thr d model cpt wl = Ok (Stats stt, files) /\
      file_count (Z.of_nat (List.length (ds_ts A ds))) thr (Z.of_nat (List.length files)) /\ (mesh_known d topo -> Forall has_document files).
  Proof.
    intros HWin HRG HB HN HT HM HR. destruct (mesh_present stt HR) as (ds & HDS). destruct (run_split topo false thr stt HR) as (sf & HS & HE).
    pose proof (few_timesteps stt ds HWin HR HDS) as FEW. pose proof (fun r => doc_ok topo stt ds sf r HRG HB HN HR HDS HS) as DOC.
    assert (DK : forall r, exists o, v1 A gord zord d topo wl ds (sm_sts A sf) r = Ok o /\ (mesh_known d topo -> o <> None)).
    { intros r. destruct (DOC r) as [D1 D2]. destruct HM as [HM|HM].
      - destruct (D1 HM) as (tl & E). exists (Some tl). split; [exact E|discriminate].
      - exists None. split; [exact (D2 HM)|]. intros HK. destruct (D1 HK) as (tl & E). rewrite (D2 HM) in E. discriminate E. }
    exists ds. set (num := Z.of_nat (List.length (ds_ts A ds))) in *. unfold emitSimTimelineToFile in HE. rewrite HDS in HE. cbv zeta in HE. fold num in HE.
    destruct (DK None) as (full & EF & FK). rewrite EF in HE. cbn [bind] in HE. destruct (Z.ltb_spec thr num) as [L|L].
    - replace (thr =? 0) with false in HE by lia.
      destruct (mapM_ok (fun i : nat => let! rg := split_region A (ds_ts A ds) num thr (Z.of_nat i) in let! doc := v1 A gord zord d topo wl ds (sm_sts A sf) (Some rg) in Ok (Split A (Z.of_nat i) rg doc))
        (seq 0 (Z.to_nat (num_splits num thr)))) as (sp & ESP).
      { intros i Hi. apply in_seq in Hi. destruct (region_ok (ds_ts A ds) num thr (Z.of_nat i) eq_refl (conj HT L) FEW ltac:(lia)) as (rg & ->). cbn [bind]. destruct (DK (Some rg)) as (o & -> & _). cbn [bind]. eauto. }
      rewrite ESP in HE. cbn [bind] in HE. exists (FullV1 A full :: sp). split; [exact HDS|]. split; [apply HE; reflexivity|]. apply mapM_Forall2 in ESP. split.
      + right. split; [exact L|]. pose proof (splits_bound num thr (conj HT L) FEW) as B. cbv zeta in B. exists (num_splits num thr). split; [|exact (proj1 B)].
        apply Forall2_length' in ESP. rewrite seq_length in ESP. cbn [List.length]. lia.
      + intros HK. constructor; [exact (FK HK)|]. clear -ESP DK HK. induction ESP as [|i c is sp H HF IH]; constructor; [|exact IH]. apply bind_ok in H as (rg & _ & H). apply bind_ok in H as (doc & H1 & H). injection H as <-.
        cbn [has_document]. destruct (DK (Some rg)) as (o & E & K). rewrite H1 in E. injection E as ->. exact (K HK).
    - exists [FullV1 A full]. split; [exact HDS|]. split; [apply HE; reflexivity|]. split; [left; split; [exact L|reflexivity]|]. intros HK. constructor; [exact (FK HK)|constructor].
  Qed.
  (* the old format needs neither groups nor zones nor a topology *)
  Theorem run_emits_legacy topo thr stt : runSinglePerfSim A ord bord d model cpt wl = Ok (Stats stt) ->
    exists doc, runWithTimeline A ord bord gord zord topo true thr d model cpt wl = Ok (Stats stt, [FullV0 A doc]).
  Proof.
    intros HR. destruct (mesh_present stt HR) as (ds & HDS). destruct (run_split topo true thr stt HR) as (sf & HS & HE). unfold emitSimTimelineToFile in HE. rewrite HDS in HE.
    assert (EX : exists doc, v0 A d ds (sm_sts A sf) = Ok doc); [|destruct EX as (doc & E); rewrite E in HE; exists doc; apply HE; reflexivity].
    unfold v0. destruct (mapM_ok (v0_transfer_of A d) (sm_sts A sf)) as (trs & ->).
    { intros x Hx. pose proof (final_fine sf HS) as FF. rewrite Forall_forall in FF. unfold v0_transfer_of. destruct (segment_ok A d HD x (FF x Hx)) as (sg & ->). cbn [bind]. eauto. }
    cbn [bind]. destruct (mapM_ok (v0_step_of A d) (ds_ts A ds)) as (ps & ->).
    { intros t Ht. pose proof (all_sized stt ds HR HDS) as FA. rewrite Forall_forall in FA. unfold v0_step_of. destruct (demands_ok A d t (FA t Ht)) as (dem & ->). cbn [bind]. eauto. }
    cbn [bind]. eauto.
  Qed.
End R.
Theorem run_no_files A ord bord gord zord topo legacy thr d model cpt wl e : runSinglePerfSim A ord bord d model cpt wl = Ok (Failure e) ->
  runWithTimeline A ord bord gord zord topo legacy thr d model cpt wl = Ok (Failure e, []).
Proof.
  unfold runSinglePerfSim, runWithTimeline. intros H. apply bind_ok in H as (r & -> & H). cbn [bind]. destruct r as [s|e']; [|injection H as ->; reflexivity].
  apply bind_ok in H as (stt1 & _ & H). apply bind_ok in H as (stt2 & _ & H). discriminate H.
Qed.
