(* Facts about runs, generic in the arithmetic (C24-C32, C34). *)
From Coq Require Import ZArith Arith String List Bool Lia ZifyBool ZifyNat Sorting.Permutation Sorting.Sorted.
From Verif Require Import Base Arith Util Device Workload SpecWorkload DepTracker Rates Stats Engine UtilProofs
  WorkloadProofs SpecTracker TrackerProofs DepGenProofs StepProofs SpecEngine EngineProofs RunProofs DepFacts.
Import ListNotations.
Open Scope Z_scope.
Ltac Zify.zify_post_hook ::= idtac.

(** * exit(1) *)
Definition stays {X} (m : outcome X) : Prop := m <> Exit.
Lemma stays_bind {X Y} (m : outcome X) (f : X -> outcome Y) : stays m -> (forall x, m = Ok x -> stays (f x)) -> stays (bind m f).
Proof. unfold stays. destruct m; cbn; intros H G; try discriminate; auto. Qed.
Lemma stays_fold {X S} (f : S -> X -> outcome S) l : (forall s x, stays (f s x)) -> forall s, stays (foldM f l s).
Proof. intros H. induction l as [|x l IH]; intros s; cbn [foldM]; [discriminate|]. apply stays_bind; auto. Qed.
Lemma stays_map {X Y} (f : X -> outcome Y) l : (forall x, stays (f x)) -> stays (mapM f l).
Proof.
  intros H. induction l as [|x l IH]; cbn [mapM]; [discriminate|]. apply stays_bind; auto. intros y _. apply stays_bind; auto. discriminate.
Qed.
Ltac stay := repeat first
  [ discriminate | assumption | progress cbv zeta
  | apply stays_bind; [|let x := fresh "x" in intros x ?; try destruct x]
  | apply stays_fold; intros | apply stays_map; intros
  | match goal with |- stays (match ?x with _ => _ end) => destruct x end ].
Lemma stays_uint A b x : stays (f_to_uint A b x).
Proof. unfold f_to_uint. stay. Qed.
Lemma stays_assert b : stays (tt_assert b).
Proof. unfold tt_assert. stay. Qed.
Lemma stays_get {X} (l : list X) n : stays (vec_get l n).
Proof. unfold vec_get. stay. Qed.
Lemma stays_mod {X} (l : list X) n f : stays (vec_mod l n f).
Proof. unfold vec_mod. stay. Qed.
Lemma stays_gget {X} (l : list X) n : stays (grid_get l n).
Proof. unfold grid_get, vec_get. stay. Qed.
Lemma stays_gmod {X} (l : list X) n f : stays (grid_mod l n f).
Proof. unfold grid_mod, vec_mod. stay. Qed.
Lemma stays_linkid d a : stays (getLinkID d a).
Proof. unfold getLinkID. stay. Qed.
Lemma stays_niuid d a : stays (getNIUID d a).
Proof. unfold getNIUID. stay. Qed.
Lemma stays_linkattr d a : stays (getLinkAttributes d a).
Proof. unfold getLinkAttributes. stay. Qed.
Lemma stays_wrap a b : stays (wrapToRange a b).
Proof. unfold wrapToRange. stay. Qed.
Lemma stays_modulo a b : stays (modulo a b).
Proof. unfold modulo. stay. Qed.
Lemma stays_core d c : stays (getCoreType d c).
Proof. unfold getCoreType. stay. Qed.
Lemma stays_mcast m : stays (mcast_coords m).
Proof. unfold mcast_coords. stay. Qed.
Lemma stays_cp tk k : stays (cp_at tk k).
Proof. unfold cp_at. stay. Qed.
Lemma stays_golden {Fl} (wl : workload Fl) k : stays (getGoldenResultCycles wl k).
Proof. unfold getGoldenResultCycles. stay. Qed.
#[local] Hint Resolve stays_uint stays_assert stays_get stays_mod stays_gget stays_gmod stays_linkid stays_niuid stays_linkattr stays_wrap
  stays_modulo stays_core stays_mcast stays_cp stays_golden : stays.
Ltac stay2 := repeat first
  [ discriminate | assumption | solve [auto with stays] | progress cbv zeta
  | apply stays_bind; [|let x := fresh "x" in intros x ?; try destruct x]
  | apply stays_fold; intros | apply stays_map; intros
  | match goal with |- stays (match ?x with _ => _ end) => destruct x end ].

Lemma stays_unicast f d n r c er ec : stays (unicast_loop f d n r c er ec).
Proof. revert r c. induction f as [|f IH]; intros r c; cbn [unicast_loop]; stay2; apply IH. Qed.
Lemma stays_route d n s e : stays (route d n s e).
Proof.
  unfold route, route_f, chip_route, changeRouteDeviceID, unicastRoute. 
  repeat first [apply stays_unicast | progress stay2].
Qed.
Lemma stays_update tk k e : stays (updateCheckpoint tk k e).
Proof. unfold updateCheckpoint. stay2. Qed.
Lemma stays_done tk k e : stays (done tk k e).
Proof. unfold done. stay2. Qed.
Lemma stays_end tk k : stays (end_cycle tk k).
Proof. unfold end_cycle. stay2. Qed.
Lemma stays_endd tk k : stays (end_cycle_plus_delay tk k).
Proof. unfold end_cycle_plus_delay. stay2. Qed.
#[local] Hint Resolve stays_unicast stays_route stays_update stays_done stays_end stays_endd : stays.

Section Stay.
  Context (A : arith).
  Lemma stays_init ord d wl : stays (initTransferState A ord d wl).
  Proof.
    unfold initTransferState. apply stays_bind; [apply stays_fold; intros; unfold make_state; stay2|].
    intros l _. induction l as [|[s|] l IH]; cbn [all_written]; stay2.
  Qed.
  Lemma stays_edges bord d sts : stays (dep_edges A bord d sts).
  Proof.
    unfold dep_edges, make_buckets, bucket_key, group_edges, group_edge, group_delay, write_latency, route_hops. stay2.
  Qed.
  Lemma stays_interp tb m p n : stays (interpolateBW A tb m p n).
  Proof. unfold interpolateBW. apply stays_bind; [auto with stays|]. intros _ _. induction tb as [|lo tb IH]; cbn [interp_loop]; unfold interp_pair; stay2. Qed.
  Lemma stays_niuof d c t : stays (niu_of d c t).
  Proof. unfold niu_of. stay2. Qed.
  Lemma stays_rates d s e sts live g c : stays (computeCurrentTransferRate A d s e sts live g c).
  Proof.
    unfold computeCurrentTransferRate, updateTransferBandwidth, uncongested_bw, modelCongestion, add_demand, add_niu_demand, add_link_demand,
      derate, max_link_demand, sink_derate, getSinkAbsorptionRate.
    pose proof stays_interp. pose proof stays_niuof. repeat first [apply stays_interp | apply stays_niuof | progress stay2].
  Qed.
  Lemma stays_insert wl s e st : stays (insertTimestep A (Fl := F A) wl s e st).
  Proof. unfold insertTimestep, stats_map. stay2. Qed.
  Lemma stays_activate n : forall curr tk sp acts sts live q, stays (activate A n curr tk sp acts sts live q).
  Proof. induction n as [|n IH]; intros; cbn [activate]; unfold swap; repeat first [apply IH | progress stay2]. Qed.
  Lemma stays_live wl cpt curr sot st id : stays (live_step A wl cpt curr sot st id).
  Proof. destruct st as [[sts tk] stt]. unfold live_step, credited_cycles. stay2. Qed.
  Lemma stays_step d c cpt wl s : stays (timestep A d c cpt wl s).
  Proof.
    unfold timestep. cbv zeta. apply stays_bind; [apply stays_insert|]. intros stt _. apply stays_bind; [apply stays_activate|].
    intros [[[sts live] q] acts] _. apply stays_bind; [apply stays_rates|]. intros [sts2 g] _. apply stays_bind; [|intros [[? ?] ?] _; discriminate].
    apply stays_fold. intros. apply stays_live.
  Qed.
  Lemma stays_loop d c cpt wl f : forall s, stays (sim_loop A f d c cpt wl s).
  Proof.
    induction f as [|f IH]; intros s; cbn [sim_loop]; [discriminate|]. apply stays_bind; [apply stays_step|]. intros s' _. stay2.
  Qed.
End Stay.

Section Facts.
  Context (A : arith) (ord : Z -> list Z -> list Z) (bord : list bucket -> list bucket) (bord_perm : bucket_order bord).
  Context (d : device) (congestion : bool) (cpt : Z) (wl : workload (F A)).
  Context (HW : proper wl) (HC : proper_cpt cpt).
  Notation state := (tstate (F A)).
  Notation reach := (reach A ord bord d congestion cpt wl).
  Notation step_end := (step_end A ord bord d congestion cpt wl).
  Notation visited := (visited A ord bord d congestion cpt wl).
  Notation succeeds := (succeeds A ord bord d congestion cpt wl).
  Notation setup := (setup A ord bord d wl).

  (** * C25 *)
  Theorem check_never_exits : simulate A ord bord d congestion cpt wl <> Exit.
  Proof.
    change (stays (simulate A ord bord d congestion cpt wl)). unfold simulate, sim_init.
    apply stays_bind; [|intros s _; apply stays_loop]. apply stays_bind; [apply stays_init|]. intros sts H.
    destruct (init_states A ord d wl HW _ H) as (_ & HF & _). rewrite (genDependencies_eq A ord bord bord_perm d sts HF).
    cbv zeta. apply stays_bind; [|intros x _; discriminate]. apply stays_bind; [apply stays_edges|]. intros; discriminate.
  Qed.
  Lemma linked_reqs (E : list edge) (l : list state) : (forall i s, nth_error l i = Some s -> s_req s = []) ->
    forall a, flat_map s_req (map (fun p => linked A 0 E (fst p) (snd p)) (combine (seq a (List.length l)) l)) = flat_map (reqs_of E) (seq a (List.length l)).
  Proof.
    intros H a. revert a H. induction l as [|s l IH]; intros a H; cbn; [reflexivity|]. rewrite IH.
    - rewrite (H O s) by reflexivity. reflexivity.
    - intros i. apply (H (S i)).
  Qed.
  Theorem checkpoints_initial s : sim_init A ord bord d cpt wl = Ok s ->
    Forall (fun c => cp_completed c = 0 /\ cp_total c = 1 /\ cp_end c = 0) (sm_trk A s) /\
    NoDup (flat_map s_req (sm_sts A s)) /\
    (forall k, In k (flat_map s_req (sm_sts A s)) <-> (k < List.length (sm_trk A s))%nat) /\
    forall i x k, nth_error (sm_sts A s) i = Some x -> s_dep x = Some k -> (k < List.length (sm_trk A s))%nat.
  Proof.
    intros H. destruct (sim_init_eq A ord bord bord_perm d cpt wl HW _ H) as (sts0 & E & HS & ->). cbn [sm_trk sm_sts].
    destruct (setup_ok A ord bord bord_perm d wl HW _ _ HS) as [HE _]. destruct HS as [H0 _].
    destruct (init_states A ord d wl HW _ H0) as (_ & HF & _).
    assert (HR : forall i s, nth_error sts0 i = Some s -> s_req s = []) by (intros i s Hs; apply (HF i s Hs)).
    rewrite (linked_reqs E sts0 HR). split.
    - apply Forall_forall. intros c Hc. apply in_map_iff in Hc as (e & <- & _). cbn. auto.
    - split; [apply reqs_all_NoDup|]. split.
      + intros k. rewrite in_flat_map, map_length. split.
        * intros (j & _ & Hk). apply reqs_of_in in Hk as (e & He & _). eapply nth_some_lt; eassumption.
        * intros Hk. destruct (nth_lt_some _ _ Hk) as [e He]. exists (e_parent e). rewrite Forall_forall in HE. destruct (HE _ (nth_error_In _ _ He)).
          split; [apply in_seq; lia|]. apply reqs_of_in. eauto.
      + intros i x k Hx Hk. rewrite map_length. pose proof (nth_some_lt _ _ _ Hx) as Hlt. rewrite map_length, combine_length, seq_length, Nat.min_id in Hlt.
        destruct (nth_lt_some _ _ Hlt) as [x0 Hx0]. rewrite (linked_nth A ord cpt sts0 E _ _ Hx0) in Hx. injection Hx as <-. cbn [linked s_dep] in Hk.
        destruct (HF _ _ Hx0) as (_ & _ & D0). rewrite D0 in Hk. apply dep_of_some in Hk as (e & He & _). eapply nth_some_lt; eassumption.
  Qed.

  (** * Dependencies in a state *)
  Lemma depends_iff sts0 E h s fin : inv A sts0 E h s fin -> Forall (edge_ok (List.length sts0)) E -> forall i j dl,
    depends A (sm_sts A s) (sm_trk A s) i j dl <->
    exists k e, dep_of E i = Some k /\ nth_error E k = Some e /\ e_parent e = j /\ e_delay e = dl.
  Proof.
    intros I HE i j dl. destruct (inv_static _ _ _ _ _ _ I) as [HL HST]. pose proof (inv_trk _ _ _ _ _ _ I) as HT. split.
    - intros (x & y & k & c & Hx & Hy & Hd & Hr & Hc & Hdl). destruct (HST _ _ Hx) as (x0 & _ & _ & _ & _ & Dx).
      destruct (HST _ _ Hy) as (y0 & _ & _ & _ & Ry & _). rewrite Ry in Hr. apply reqs_of_in in Hr as (e & He & Hp).
      exists k, e. split; [congruence|]. split; [assumption|]. split; [assumption|]. rewrite HT, (trk_nth _ _ _ _ _ _ He) in Hc.
      injection Hc as <-. unfold cp_of in Hdl. destruct (in_dec _ _ _); exact Hdl.
    - intros (k & e & Hk & He & Hp & Hdl). rewrite Forall_forall in HE. destruct (HE _ (nth_error_In _ _ He)) as [Hc1 Hp1].
      destruct (dep_of_some _ _ _ Hk) as (e' & He' & Hc & _). assert (e' = e) by congruence. subst e'.
      rewrite <- HL in Hc1, Hp1. destruct (nth_lt_some _ _ Hc1) as [x Hx]. destruct (nth_lt_some _ _ Hp1) as [y Hy].
      rewrite Hc in Hx. rewrite Hp in Hy. destruct (HST _ _ Hx) as (x0 & _ & _ & _ & _ & Dx). destruct (HST _ _ Hy) as (y0 & _ & _ & _ & Ry & _).
      exists x, y, k, (cp_of A fin (sm_sts A s) e). split; [assumption|]. split; [assumption|]. split; [congruence|].
      split; [rewrite Ry; apply reqs_of_in; eauto|]. split; [rewrite HT; apply trk_nth; assumption|].
      unfold cp_of. destruct (in_dec _ _ _); exact Hdl.
  Qed.
  (* the static data of a state are those of the initial states *)
  Lemma static_same sts0 E h s fin : inv A sts0 E h s fin -> forall i x, nth_error (sm_sts A s) i = Some x ->
    exists x0, nth_error sts0 i = Some x0 /\ s_tr x = s_tr x0 /\ s_route x = s_route x0.
  Proof. intros I i x Hx. destruct (inv_static _ _ _ _ _ _ I) as [_ HST]. destruct (HST _ _ Hx) as (x0 & H0 & H1 & H2 & _). eauto. Qed.
  Lemma static_back sts0 E h s fin : inv A sts0 E h s fin -> forall i x0, nth_error sts0 i = Some x0 ->
    exists x, nth_error (sm_sts A s) i = Some x /\ s_tr x = s_tr x0 /\ s_route x = s_route x0.
  Proof.
    intros I i x0 Hx0. destruct (inv_static _ _ _ _ _ _ I) as [HL HST]. pose proof (nth_some_lt _ _ _ Hx0) as Hlt. rewrite <- HL in Hlt.
    destruct (nth_lt_some _ _ Hlt) as [x Hx]. destruct (HST _ _ Hx) as (x1 & H1 & H2 & H3 & _). assert (x1 = x0) by congruence. subst. eauto.
  Qed.

  Lemma lane_static x x' y y' : s_tr x = s_tr x' -> s_route x = s_route x' -> s_tr y = s_tr y' -> s_route y = s_route y' ->
    same_lane A d x' y' -> same_lane A d x y.
  Proof. unfold same_lane, first_direction. intros -> -> -> ->. auto. Qed.
  Lemma before_static x x' y y' : s_tr x = s_tr x' -> s_tr y = s_tr y' -> before A x' y' -> before A x y.
  Proof. unfold before. intros -> ->. auto. Qed.
  Lemma two_before_static (l l' : list state) i j :
    (forall i x, nth_error l i = Some x -> exists x', nth_error l' i = Some x' /\ s_tr x = s_tr x' /\ s_route x = s_route x') ->
    (forall i x', nth_error l' i = Some x' -> exists x, nth_error l i = Some x /\ s_tr x = s_tr x' /\ s_route x = s_route x') ->
    two_before A d l j i -> two_before A d l' j i.
  Proof.
    intros H1 H2 (x & y & Hx & Hy & L & B & m & Hm). destruct (H1 _ _ Hx) as (x' & Hx' & X1 & X2). destruct (H1 _ _ Hy) as (y' & Hy' & Y1 & Y2).
    exists x', y'. split; [assumption|]. split; [assumption|]. split; [eapply lane_static; [..|exact L]; auto|].
    split; [eapply before_static; [..|exact B]; auto|]. exists m. intros k. rewrite Hm. split.
    - intros (z & Hz & L1 & B1 & B2). destruct (H1 _ _ Hz) as (z' & Hz' & Z1 & Z2). exists z'. split; [assumption|].
      split; [eapply lane_static; [..|exact L1]; auto|]. split; [eapply before_static; [..|exact B1]|eapply before_static; [..|exact B2]]; auto.
    - intros (z & Hz & L1 & B1 & B2). destruct (H2 _ _ Hz) as (z' & Hz' & Z1 & Z2). exists z'. split; [assumption|].
      split; [eapply lane_static; [..|exact L1]; auto|]. split; [eapply before_static; [..|exact B1]|eapply before_static; [..|exact B2]]; auto.
  Qed.
  Lemma first_two_static (l l' : list state) i :
    (forall i x, nth_error l i = Some x -> exists x', nth_error l' i = Some x' /\ s_tr x = s_tr x' /\ s_route x = s_route x') ->
    (forall i x', nth_error l' i = Some x' -> exists x, nth_error l i = Some x /\ s_tr x = s_tr x' /\ s_route x = s_route x') ->
    first_two A d l i -> first_two A d l' i.
  Proof.
    intros H1 H2 (x & Hx & H). destruct (H1 _ _ Hx) as (x' & Hx' & X1 & X2). exists x'. split; [assumption|].
    intros j k y z Hy Hz L1 L2 B1 B2. destruct (H2 _ _ Hy) as (y' & Hy' & Y1 & Y2). destruct (H2 _ _ Hz) as (z' & Hz' & Z1 & Z2).
    apply (H j k y' z'); auto; first [eapply lane_static; [..|exact L1]; auto; fail | eapply lane_static; [..|exact L2]; auto; fail
      | eapply before_static; [..|exact B1]; auto; fail | eapply before_static; [..|exact B2]; auto; fail].
  Qed.

  (* everything known at a timestep boundary *)
  Lemma visited_facts s : visited s -> exists sts0 E h fin, setup sts0 E /\ Forall (edge_ok (List.length sts0)) E /\
    inv A sts0 E h s fin /\ 0 <= h <= sm_curr A s /\ 0 <= sm_curr A s < 2 ^ 32 /\ (forall i, In i fin <-> is_finished A s i).
  Proof.
    intros H. destruct (visited_inv A ord bord bord_perm d congestion cpt wl HW HC s H) as (sts0 & E & h & fin & HS & I & Hh & Hc).
    exists sts0, E, h, fin. split; [assumption|]. split; [apply (setup_ok A ord bord bord_perm d wl HW _ _ HS)|].
    split; [assumption|]. split; [assumption|]. split; [assumption|]. eapply finished_spec; eassumption.
  Qed.
  Lemma setup_facts sts0 E : setup sts0 E -> fresh_states A sts0 /\
    (forall i s, nth_error sts0 i = Some s -> s_start s = t_off (s_tr s) /\ 0 <= t_id (s_tr s)).
  Proof.
    intros [H0 _]. destruct (init_states A ord d wl HW _ H0) as (_ & HF & HS). split; [assumption|]. intros i s Hs.
    destruct (HS _ _ Hs) as (Ht & H1 & _). split; [assumption|]. destruct HW as [(_ & HD & _) _]. rewrite of_nat_seq in HD.
    apply (map_nth_error t_id) in Ht. rewrite HD in Ht. rewrite zseq_nth in Ht.
    - injection Ht as <-. lia. - apply nth_some_lt in Ht. rewrite zseq_length in Ht. assumption.
  Qed.

  (* the dependency rules (C24, C28, C29) *)
  Theorem depends_rule s : visited s -> forall i x, nth_error (sm_sts A s) i = Some x -> forall j dl,
    depends A (sm_sts A s) (sm_trk A s) i j dl ->
    (has_group_parent A (s_tr x) /\
       (j = O \/ exists y, nth_error (sm_sts A s) j = Some y /\ names_parent A (s_tr x) (s_tr y)) /\
       exists p, nth_error (sm_sts A s) j = Some p) \/
    (~ has_group_parent A (s_tr x) /\ two_before A d (sm_sts A s) j i /\ dl = 0).
  Proof.
    intros H i x Hx j dl HD. destruct (visited_facts _ H) as (sts0 & E & h & fin & HS & HE & I & _).
    pose proof (depends_iff _ _ _ _ _ I HE i j dl) as DI. apply DI in HD. destruct (setup_facts _ _ HS) as [HF HO].
    destruct (static_same _ _ _ _ _ I _ _ Hx) as (x0 & Hx0 & T0 & R0).
    pose proof HD as (k & e & Hk & He & Hp & _). apply (dep_char A ord bord bord_perm d sts0 HF HO E (proj2 HS) i x0 Hx0 j dl) in HD.
    rewrite T0. destruct HD as [(HG & Hj & _)|(HG & HT & Hdl)]; [left|right].
    - split; [assumption|]. split.
      + destruct (group_get_cases ord (group_map A sts0) (t_gid (s_tr x0)) (t_gpar (s_tr x0))) as [C|(id & H1 & H2)]; [left; congruence|right].
        unfold group_map in H1. apply group_map_in in H1. destruct H1 as [[]|(y0 & Hy0 & Hid & G1 & G2)]. apply In_nth_error in Hy0 as [q Hq].
        destruct (HF _ _ Hq) as [Hq' _]. assert (EQ : q = j) by congruence. rewrite EQ in Hq.
        destruct (static_back _ _ _ _ _ I _ _ Hq) as (y & Hy & T1 & _). exists y. split; [exact Hy|].
        unfold names_parent. rewrite T1. split; assumption.
      + apply nth_lt_some. rewrite Forall_forall in HE. destruct (HE _ (nth_error_In _ _ He)). destruct (inv_static _ _ _ _ _ _ I) as [-> _]. lia.
    - split; [assumption|]. split; [|assumption]. eapply two_before_static; [| |exact HT].
      + intros a b Hab. destruct (static_back _ _ _ _ _ I _ _ Hab) as (c & C1 & C2 & C3). exists c. auto.
      + intros a b Hab. destruct (static_same _ _ _ _ _ I _ _ Hab) as (c & C1 & C2 & C3). exists c. auto.
  Qed.
  Theorem depends_lane s : visited s -> forall i x, nth_error (sm_sts A s) i = Some x -> ~ has_group_parent A (s_tr x) ->
    forall j, two_before A d (sm_sts A s) j i -> depends A (sm_sts A s) (sm_trk A s) i j 0.
  Proof.
    intros H i x Hx HG j HT. destruct (visited_facts _ H) as (sts0 & E & h & fin & HS & HE & I & _).
    apply (depends_iff _ _ _ _ _ I HE i j 0). destruct (setup_facts _ _ HS) as [HF HO].
    destruct (static_same _ _ _ _ _ I _ _ Hx) as (x0 & Hx0 & T0 & R0).
    apply (dep_char A ord bord bord_perm d sts0 HF HO E (proj2 HS) i x0 Hx0 j 0). right. rewrite <- T0. split; [assumption|]. split; [|reflexivity].
    eapply two_before_static; [| |exact HT].
    - intros a b Hab. exact (static_same _ _ _ _ _ I _ _ Hab).
    - intros a b Hab. exact (static_back _ _ _ _ _ I _ _ Hab).
  Qed.

  (** * C26 *)
  Theorem start_after_dependency s : visited s -> forall i x, nth_error (sm_sts A s) i = Some x -> has_started A s i ->
    t_off (s_tr x) <= s_start x <= sm_curr A s /\
    forall j dl, depends A (sm_sts A s) (sm_trk A s) i j dl -> is_finished A s j /\
      exists y, nth_error (sm_sts A s) j = Some y /\ s_start x = Z.max (t_off (s_tr x)) (u32 (s_end y + dl)).
  Proof.
    intros H i x Hx HST. destruct (visited_facts _ H) as (sts0 & E & h & fin & HS & HE & I & Hh & Hc & HFN).
    assert (Hin : In i (sm_live A s ++ fin)).
    { destruct HST as [HL|HFI]; apply in_or_app; [left; assumption|right; apply HFN; assumption]. }
    destruct (inv_started _ _ _ _ _ _ I _ _ Hin Hx) as (SO & Hsh & HP). unfold start_ok in SO. split.
    - split; [|lia]. destruct (dep_of E i) as [k|]; [|lia]. destruct (nth_error E k); lia.
    - intros j dl HD. apply (depends_iff _ _ _ _ _ I HE i j dl) in HD. destruct HD as (k & e & Hk & He & Hp & Hdl).
      pose proof (HP _ _ Hk He) as Hfin. rewrite Hp in Hfin. split; [apply HFN; assumption|].
      rewrite Forall_forall in HE. destruct (HE _ (nth_error_In _ _ He)) as [_ Hlt]. destruct (inv_static _ _ _ _ _ _ I) as [HL _]. rewrite <- HL, Hp in Hlt.
      destruct (nth_lt_some _ _ Hlt) as [y Hy]. exists y. split; [assumption|]. rewrite Hk, He in SO. unfold end_at in SO. rewrite Hp, Hy, Hdl in SO. assumption.
  Qed.
  Theorem start_without_dependency s : visited s -> forall i x, nth_error (sm_sts A s) i = Some x -> has_started A s i ->
    (forall j dl, ~ depends A (sm_sts A s) (sm_trk A s) i j dl) -> s_start x = t_off (s_tr x).
  Proof.
    intros H i x Hx HST HN. destruct (visited_facts _ H) as (sts0 & E & h & fin & HS & HE & I & Hh & Hc & HFN).
    assert (Hin : In i (sm_live A s ++ fin)).
    { destruct HST as [HL|HFI]; apply in_or_app; [left; assumption|right; apply HFN; assumption]. }
    destruct (inv_started _ _ _ _ _ _ I _ _ Hin Hx) as (SO & _ & _). unfold start_ok in SO. destruct (dep_of E i) as [k|] eqn:Ek; [|assumption].
    destruct (nth_error E k) as [e|] eqn:He; [|assumption]. exfalso. apply (HN (e_parent e) (e_delay e)). apply (depends_iff _ _ _ _ _ I HE). exists k, e. auto.
  Qed.

  (** * C24 *)
  Theorem lane_order s : visited s -> forall i j x, nth_error (sm_sts A s) i = Some x -> ~ has_group_parent A (s_tr x) ->
    two_before A d (sm_sts A s) j i -> has_started A s i ->
    is_finished A s j /\ exists y, nth_error (sm_sts A s) j = Some y /\ 0 <= s_end y < 2 ^ 32 /\ s_start x = Z.max (t_off (s_tr x)) (s_end y).
  Proof.
    intros H i j x Hx HG HT HST. pose proof (depends_lane _ H _ _ Hx HG _ HT) as HD.
    destruct (start_after_dependency _ H _ _ Hx HST) as [_ HA]. destruct (HA _ _ HD) as (Hf & y & Hy & Hs). split; [assumption|].
    exists y. split; [assumption|]. destruct (visited_facts _ H) as (sts0 & E & h & fin & HS & HE & I & Hh & Hc & HFN).
    destruct (inv_fin _ _ _ _ _ _ I j y) as [_ Hr]; [apply HFN; assumption|assumption|]. split; [assumption|].
    rewrite Z.add_0_r, u32_id in Hs by assumption. assumption.
  Qed.
  Theorem lane_first s : visited s -> forall i x, nth_error (sm_sts A s) i = Some x -> ~ has_group_parent A (s_tr x) ->
    first_two A d (sm_sts A s) i -> has_started A s i -> s_start x = t_off (s_tr x).
  Proof.
    intros H i x Hx HG HF HST. eapply start_without_dependency; eauto. intros j dl HD.
    destruct (depends_rule _ H _ _ Hx _ _ HD) as [[HP _]|(_ & HT & _)]; [contradiction|]. destruct HF as (x' & Hx' & H1). destruct HT as (x2 & y & Hx2 & Hy & Ly & By & m & Hm).
    assert (x' = x) by congruence. assert (x2 = x) by congruence. subst x' x2.
    destruct (proj1 (Hm m) eq_refl) as (z & Hz & Lz & B1 & B2). assert (j = m) by (eapply (H1 j m y z); eassumption).
    assert (z = y) by congruence. subst z. unfold before in B1. lia.
  Qed.
End Facts.
