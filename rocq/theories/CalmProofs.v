(* The simulation of a validated workload throws no npe exception, unless a multicast has several rectangles or a
   Blackhole workload has groups (C55). *)
From Coq Require Import ZArith Arith Reals String List Bool Lia Lra ZifyBool ZifyNat Sorting.Permutation Sorting.Sorted Floats.SpecFloat.
From Flocq Require Import Core IEEE754.BinarySingleNaN.
From Verif Require Import Base Arith Util Device SpecDevice Workload SpecWorkload DepTracker Rates Stats Engine UtilProofs DeviceProofs RouteProofs MulticastProofs FactoryProofs
  WorkloadProofs SpecTracker TrackerProofs DepGenProofs StepProofs SpecEngine SpecRates SpecStats EngineProofs RunProofs EngineFacts EngineFacts2 EngineFacts3 FloatProofs RateFloat4 EngineFloat IngestTotal SafeProofs SafeFloat SafeRun.
Import ListNotations.
Local Open Scope list_scope.
Open Scope Z_scope.
Ltac Zify.zify_post_hook ::= idtac.

(* no npe exception *)
Definition calm {X} (m : outcome X) : Prop := forall e, m <> Throw e.
Lemma calm_ok {X} (x : X) : calm (Ok x).
Proof. intros e. discriminate. Qed.
Lemma calm_is {X} (m : outcome X) x : m = Ok x -> calm m.
Proof. intros -> e. discriminate. Qed.
Lemma calm_bind {X Y} (m : outcome X) (f : X -> outcome Y) : calm m -> (forall x, m = Ok x -> calm (f x)) -> calm (bind m f).
Proof. intros H G e. apply nothrow_bind; [exact H|]. intros x Hx. apply G. exact Hx. Qed.
Lemma calm_fold {X S} (P : S -> Prop) (f : S -> X -> outcome S) l :
  (forall s x, P s -> In x l -> calm (f s x) /\ forall s', f s x = Ok s' -> P s') -> forall s, P s -> calm (foldM f l s).
Proof.
  induction l as [|x l IH]; intros H s HP; cbn [foldM]; [apply calm_ok|]. destruct (H s x HP (or_introl eq_refl)) as [H1 H2].
  apply calm_bind; [exact H1|]. intros s1 E1. apply IH; [|apply H2; exact E1]. intros s2 y HP2 Hy. apply H; auto. right; assumption.
Qed.
Lemma calm_fold_all {X S} (f : S -> X -> outcome S) l s : (forall s x, In x l -> calm (f s x)) -> calm (foldM f l s).
Proof. intros H. apply calm_fold with (P := fun _ => True); auto. Qed.
Lemma calm_map {X Y} (f : X -> outcome Y) l : (forall x, In x l -> calm (f x)) -> calm (mapM f l).
Proof.
  induction l as [|x l IH]; intros H; cbn [mapM]; [apply calm_ok|]. apply calm_bind; [apply H; left; reflexivity|]. intros y _.
  apply calm_bind; [apply IH; intros z Hz; apply H; right; assumption|]. intros ys _. apply calm_ok.
Qed.
Lemma calm_vec {X} (l : list X) n : calm (vec_get l n).
Proof. unfold vec_get. intros e. destruct (nth_error l n); discriminate. Qed.
Lemma calm_gget {X} (l : list X) z : calm (grid_get l z).
Proof. unfold grid_get. destruct (_ <? _); [intros e; discriminate|apply calm_vec]. Qed.
Lemma calm_gmod {X} (l : list X) z f : calm (grid_mod l z f).
Proof. unfold grid_mod, vec_mod. destruct (_ <? _); [intros e; discriminate|]. destruct (nth_error _ _); intros e; discriminate. Qed.
Lemma calm_core d c : calm (getCoreType d c).
Proof. intros e. unfold getCoreType. repeat match goal with |- context [match ?x with _ => _ end] => destruct x end; discriminate. Qed.
Lemma calm_walk m : calm (mcast_coords m).
Proof. intros e. unfold mcast_coords. destruct m; [discriminate|]. destruct (mc_walk _ _ _); discriminate. Qed.

Section Device.
  Context (d : device) (HD : supported d).
  Let WF : wf_device d := supported_wf d HD.

  Lemma calm_niu c ty : in_grid d c -> calm (niu_of d c ty).
  Proof.
    intros HG. pose proof WF as (W1 & W2 & W3 & W4 & _). assert (B : Z.of_nat (dv_chips d) < 2 ^ 15 /\ Z.of_nat (dv_rows d) < 2 ^ 15 /\ Z.of_nat (dv_cols d) < 2 ^ 15) by (change (2 ^ 15) with 32768 in *; nia).
    assert (G : forall k, 0 <= k < Z.of_nat (dv_chips d) -> calm (getNIUID d (mkNiu (Coord_make k (c_row c) (c_col c)) ty))).
    { intros k Hk. apply calm_is with (niu_idx d (mkNiu (Coord_make k (c_row c) (c_col c)) ty)). apply getNIUID_eq; [exact WF|]. destruct HG as (G1 & G2 & G3).
      unfold in_grid, Coord_make. cbn [n_coord c_dev c_row c_col]. rewrite !i16_small by lia. auto. }
    unfold niu_of. destruct HG as (G1 & G2). destruct (dv_class d); apply G; lia.
  Qed.
  (* the route exists *)
  Lemma route_made {Fl} noc (t : transfer Fl) : accepted d t -> at_most_one_rectangle t -> exists r, route d noc (t_src t) (t_dst t) = Ok r.
  Proof.
    intros (_ & _ & HS & HA) HO. unfold at_most_one_rectangle in HO. destruct (t_dst t) as [c|m].
    - destruct HA as [HG HE]. rewrite route_unicast_eq by (auto; symmetry; assumption). eauto.
    - destruct HA as ((g & m' & -> & Hd) & (g' & Hin & [G1 G1'] & [G2 G2'])). destruct m' as [|g2 m']; [|cbn [List.length] in HO; lia].
      destruct Hin as [->|[]]. destruct (route_multicast_gen d noc (t_src t) g' WF HS G1 G1' G2 G2' Hd) as (ids & E & _ & _). eauto.
  Qed.
  Lemma link_attr_made id : link_ok d id -> exists a, getLinkAttributes d id = Ok a.
  Proof. intros H. apply getLinkAttributes_dom; [apply wf_small; exact WF|]. unfold link_ok in H. rewrite link_table_length in H. lia. Qed.

  (** * Rates *)
  Definition cells_ok {Fl} (t : transfer Fl) : Prop := forall cs, mcast_coords (match t_dst t with Multicast m => m | Unicast _ => [] end) = Ok cs -> forall c, In c cs -> in_grid d c.
  Definition state_calm (x : tstate (F f32A)) : Prop := state_fine f32A d x /\ sound_transfer (s_tr x).
  Lemma cells (x : tstate (F f32A)) g : state_fine f32A d x -> t_dst (s_tr x) = Multicast [g] -> forall cs, mcast_coords [g] = Ok cs -> forall c, In c cs -> in_grid d c.
  Proof.
    intros ((_ & _ & (S1 & _) & HA) & HT & _) E cs Hcs c Hc. rewrite E in HA, HT. destruct HA as ((g1 & m' & E1 & Hd) & _). injection E1 as <- <-. destruct HT as (g2 & E2 & G1 & G2). injection E2 as <-.
    destruct (coords_ok d g WF G1 G2) as (cs' & Hcs' & F). assert (cs' = cs) as -> by congruence. rewrite Forall_forall in F. destruct (F c Hc) as [[F1 F2] F3]. split; [|auto]. rewrite F3, Hd. exact S1.
  Qed.
  Lemma demand_calm st en sts live g : (forall i, In i live -> exists x, nth_error sts i = Some x /\ state_calm x) -> calm (foldM (add_demand f32A d st en sts) live g).
  Proof.
    intros HS. apply calm_fold_all. intros g1 i Hi. destruct (HS i Hi) as (x & Hx & [FX SX]). unfold add_demand, vec_get. rewrite Hx. cbn [bind]. cbv zeta.
    pose proof FX as ((_ & _ & S1 & HA) & HT & _).
    apply calm_bind; [|intros n _; apply calm_bind; [|intros l _; apply calm_bind; [|intros; apply calm_ok]]].
    - unfold add_niu_demand. cbv zeta beta. apply calm_bind; [apply calm_bind; [apply calm_niu; exact S1|intros; apply calm_gmod]|]. intros n _. destruct (t_dst (s_tr x)) as [c|m] eqn:ED.
      + apply calm_bind; [apply calm_niu; apply HT|intros; apply calm_gmod].
      + destruct HT as (g2 & -> & G1 & G2). apply calm_bind; [apply calm_walk|]. intros cs Hcs. apply calm_fold_all. intros n2 c Hc. apply calm_bind; [apply calm_core|]. intros ty _. destruct ty; try apply calm_ok.
        apply calm_bind; [apply calm_niu; exact (cells x g2 FX ED cs Hcs c Hc)|intros; apply calm_gmod].
    - unfold add_link_demand. apply calm_fold_all. intros; apply calm_gmod.
    - destruct (String.eqb _ _); [|apply calm_ok]. unfold add_link_demand. apply calm_fold_all. intros; apply calm_gmod.
  Qed.
  Lemma sink_calm (x : tstate (F f32A)) n : state_calm x -> calm (sink_derate f32A d (s_tr x) n).
  Proof.
    intros [FX SX]. pose proof FX as ((_ & _ & S1 & HA) & HT & _). unfold sink_derate. destruct (t_dst (s_tr x)) as [c|m] eqn:ED.
    - apply calm_bind; [apply calm_niu; apply HT|]. intros id _. apply calm_bind; [apply calm_gget|]. intros dem _. apply calm_bind; [|intros; apply calm_ok]. unfold getSinkAbsorptionRate. apply calm_bind; [apply calm_core|intros; apply calm_ok].
    - destruct HT as (g2 & -> & G1 & G2). apply calm_bind; [apply calm_walk|]. intros cs Hcs. apply calm_bind; [|intros; apply calm_ok]. apply calm_fold_all. intros a c Hc. apply calm_bind; [apply calm_core|]. intros ty _.
      destruct ty; try apply calm_ok. apply calm_bind; [apply calm_niu; exact (cells x g2 FX ED cs Hcs c Hc)|]. intros id _. apply calm_bind; [apply calm_gget|intros; apply calm_ok].
  Qed.
  Lemma derate_calm g sts live : (forall i, In i live -> exists x, nth_error sts i = Some x /\ state_calm x) -> calm (foldM (derate f32A d g) live sts).
  Proof.
    intros HS. apply (calm_fold (same_bw f32A sts)); [|intros i x Hx; exists (s_bw x); rewrite Hx; destruct x; reflexivity].
    intros sts' i SB Hi. destruct (HS i Hi) as (x & Hx & FX). destruct (SB i x Hx) as (b & Hx'). split.
    - unfold derate, vec_get. rewrite Hx'. cbn [bind]. cbv zeta. cbn [with_bw s_tr s_route s_bw].
      apply calm_bind. { unfold max_link_demand. apply calm_fold_all. intros m id Hid. apply calm_bind; [apply calm_gget|intros; apply calm_ok]. }
      intros m _. apply calm_bind; [apply calm_niu; destruct FX as ((( _ & _ & S1 & _) & _) & _); exact S1|]. intros id _. apply calm_bind; [apply calm_gget|]. intros dem _. apply calm_bind; [apply sink_calm; exact FX|]. intros sd _. destruct (_ || _); apply calm_ok.
    - intros s' H. unfold derate, vec_get in H. rewrite Hx' in H. cbn [bind] in H. cbv zeta in H. apply bind_ok in H as (m & _ & H). apply bind_ok in H as (id & _ & H). apply bind_ok in H as (dem & _ & H). apply bind_ok in H as (sd & _ & H).
      destruct (_ || _) in H; injection H as <-; [|exact SB]. apply (same_upd f32A sts sts' i _ _ SB Hx').
  Qed.
  Lemma update_calm sts live : (forall i, In i live -> exists x, nth_error sts i = Some x /\ state_calm x) -> calm (updateTransferBandwidth f32A d sts live).
  Proof.
    intros HS. apply (calm_fold (same_bw f32A sts)); [|intros i x Hx; exists (s_bw x); rewrite Hx; destruct x; reflexivity].
    intros sts' i SB Hi. destruct (HS i Hi) as (x & Hx & [FX SX]). destruct (SB i x Hx) as (b & Hx'). unfold vec_get. rewrite Hx'. cbn [bind with_bw s_tr].
    destruct (uncongested_ok d (s_tr x) SX) as (b' & nb & -> & _). cbn [bind]. split; [apply calm_ok|]. intros s' [= <-]. apply (same_upd f32A sts sts' i _ _ SB Hx').
  Qed.
  Lemma rates_calm st en sts live g c : (forall i, In i live -> exists x, nth_error sts i = Some x /\ state_calm x) ->
    calm (computeCurrentTransferRate f32A d st en sts live g c).
  Proof.
    intros HS. unfold computeCurrentTransferRate. apply calm_bind; [apply update_calm; exact HS|]. intros sts1 E1.
    destruct (update_safe f32A d sts live) as [_ K1]; [intros i Hi; destruct (HS i Hi) as (x & Hx & [FX _]); eauto|]. specialize (K1 _ E1).
    destruct c; [|apply calm_ok]. assert (HS1 : forall i, In i live -> exists x, nth_error sts1 i = Some x /\ state_calm x).
    { intros i Hi. destruct (HS i Hi) as (x & Hx & FX). destruct (K1 i x Hx) as (b & Hb). exists (with_bw x b). split; [exact Hb|exact FX]. }
    unfold modelCongestion. apply calm_bind; [apply demand_calm; exact HS1|]. intros g2 E2. apply calm_bind; [apply derate_calm; exact HS1|intros; apply calm_ok].
  Qed.
End Device.

(* what the engine refuses in a validated workload *)
Definition simple_workload (d : device) (wl : workload (F f32A)) : Prop :=
  Forall at_most_one_rectangle (all_transfers wl) /\ (dv_arch d = Blackhole -> Forall (fun t => ~ has_group_parent f32A t) (all_transfers wl)).

Section Run.
  Context (ord : Z -> list Z -> list Z) (ord_perm : link_order ord) (bord : list bucket -> list bucket) (bord_perm : bucket_order bord).
  Context (d : device) (HD : supported d) (congestion : bool) (cpt : Z) (wl : workload (F f32A)) (HC : proper_cpt cpt) (HR : ready_workload d wl) (HP : simple_workload d wl).
  Let WF : wf_device d := supported_wf d HD.
  Let HW : proper wl := proj1 HR.
  Notation state := (tstate (F f32A)).
  Notation reach := (reach f32A ord bord d congestion cpt wl).
  Notation step := (timestep f32A d congestion cpt wl).
  Notation fine := (state_fine f32A d).

  Lemma init_calm : calm (initTransferState f32A ord d wl).
  Proof.
    rewrite (init_dense f32A ord d wl (proj1 HW)). fold (all_transfers wl). pose proof HR as (_ & _ & HA & _). destruct HP as [HO _]. rewrite Forall_forall in HA, HO.
    apply calm_map. intros t Ht. unfold make_state. destruct (route_made d HD (t_noc t) t (HA t Ht) (HO t Ht)) as (r & ->). apply calm_ok.
  Qed.
  Lemma edges_calm sts : initTransferState f32A ord d wl = Ok sts -> calm (dep_edges f32A bord d sts).
  Proof.
    intros H. destruct (init_states f32A ord d wl HW _ H) as (_ & FS & NS). destruct (init_safe ord ord_perm d HD wl HR) as [_ FF]. specialize (FF _ H). rewrite Forall_forall in FF.
    unfold dep_edges. apply calm_bind; [|intros bs _; apply calm_bind; [|intros; apply calm_ok]].
    - apply calm_fold_all. intros bs x Hx. apply calm_bind; [|intros; apply calm_ok]. unfold bucket_key. apply calm_bind; [|intros; apply calm_ok].
      destruct (FF x Hx) as (_ & _ & FR). destruct (s_route x) as [|id r]; [apply calm_ok|]. inversion FR as [|? ? F1 F2]. destruct (link_attr_made d HD id F1) as (a & ->). apply calm_ok.
    - unfold group_edges. apply calm_bind; [|intros; apply calm_ok]. apply calm_map. intros x Hx. unfold group_edge. destruct (_ && _) eqn:EG; [|apply calm_ok].
      apply calm_bind; [|intros; apply calm_ok]. destruct (In_nth_error _ _ Hx) as (i & Hi). destruct (NS i x Hi) as (Ht & _). pose proof (nth_error_In _ _ Ht) as Hin.
      unfold group_delay. destruct (t_dst (s_tr x)) as [c|m]; [|intros e; discriminate].
      destruct (latency_made d HD (c_col (t_src (s_tr x))) (c_row (t_src (s_tr x))) (c_col c) (c_row c) (noc_name (t_noc (s_tr x)))) as (l & El). rewrite El. cbn [bind].
      destruct (dv_arch d) eqn:EA.
      + apply calm_bind; [apply calm_vec|]. intros p _. destruct (c_dev _ =? c_dev _); [apply calm_ok|]. intros e. apply nothrow_uint.
      + exfalso. destruct HP as [_ HG]. specialize (HG EA). rewrite Forall_forall in HG. apply (HG _ Hin). split; lia.
  Qed.
  Lemma sim_init_calm : calm (sim_init f32A ord bord d cpt wl).
  Proof.
    unfold sim_init. apply calm_bind; [apply init_calm|]. intros sts H. cbv zeta. apply calm_bind; [|intros; apply calm_ok].
    destruct (init_states f32A ord d wl HW _ H) as (_ & FS & _). rewrite (genDependencies_eq f32A ord bord bord_perm d sts FS). apply calm_bind; [apply edges_calm; exact H|]. intros; apply calm_ok.
  Qed.

  Lemma calm_stats f (stt : stats f32A) : (forall id ds, calm (f id ds)) -> calm (stats_map f32A f stt).
  Proof. intros H. unfold stats_map. apply calm_map. intros x _. apply calm_bind; [apply H|intros; apply calm_ok]. Qed.
  Lemma step_calm s : reach s -> calm (step s).
  Proof.
    intros HRe. destruct (reach_setup f32A ord bord bord_perm d congestion cpt wl HW s HRe) as (sts0 & E & HS).
    destruct (reach_inv f32A ord bord bord_perm d congestion cpt wl HW HC _ _ _ HS HRe) as (fin & IV).
    destruct (part_ids _ _ _ _ _ _ IV) as [ND IDS]. pose proof IV as [HST HPT HTK HQ HSO HSTA HLV HFN].
    unfold timestep. cbv zeta. apply calm_bind.
    { apply calm_stats. intros id ds. apply calm_bind; [intros e; apply nothrow_golden|intros; apply calm_ok]. }
    intros stt1 Hins.
    assert (HV : forall p, In p (sm_queue f32A s) -> exists x, nth_error (sm_sts f32A s) (snd p) = Some x /\ dep_ok f32A (sm_trk f32A s) x).
    { intros p Hp. destruct (HQ _ Hp) as (x & Hx & _). exists x. split; [assumption|]. rewrite HTK. eapply static_dep_ok. apply HST. eassumption. }
    destruct (activate_spec f32A (sm_trk f32A s) (sm_curr f32A s) (sm_queue f32A s) [] [] (sm_sts f32A s) (sm_live f32A s) O) as (P1 & P2 & B' & C' & sts1 & E1 & E2 & E3 & E4 & E5 & E6 & E7 & E8).
    { eapply NoDup_app_l; exact ND. } { exact HV. }
    cbn [List.length app] in E2. rewrite Nat.add_0_r, app_nil_r in E2. unfold qpair in *. pose proof E2 as HACTV. rewrite E2. cbn [bind].
    apply calm_bind; [apply rates_calm; [exact HD|]|].
    - intros i Hi. assert (Hlt : (i < List.length (sm_sts f32A s))%nat).
      { apply IDS. apply in_app_or in Hi as [Hi|Hi]; [rewrite !in_app_iff; auto|]. apply in_or_app. left. rewrite E1, map_app. apply in_or_app. right.
        apply in_map_iff in Hi as (p & <- & Hp). apply filter_In in Hp as [Hp _]. apply in_map, in_rev. exact Hp. }
      destruct (nth_lt_some _ _ Hlt) as [x Hx]. eexists. split; [apply E8; exact Hx|].
      destruct (activated_fields f32A (sm_trk f32A s) x) as (F1 & F2 & F3 & F4 & F5 & F6 & F7).
      assert (FX : fine x) by (eapply static_fine; [exact ord_perm|exact HD|exact HR|exact HS|exact HST|exact Hx]).
      assert (SX : sound_transfer (s_tr x)).
      { destruct HST as [_ N0]. destruct (N0 _ _ Hx) as (x0 & Hx0 & -> & _). destruct HS as [HI _]. destruct (init_states f32A ord d wl HW _ HI) as (_ & _ & NS). destruct (NS _ _ Hx0) as (Ht & _).
        pose proof HR as (_ & R2 & _). rewrite Forall_forall in R2. apply R2. eapply nth_error_In; exact Ht. }
      destruct (in_dec _ _ _); [|split; assumption]. split; [|rewrite F1; exact SX]. destruct FX as (K1 & K2 & K3). unfold state_fine. rewrite F1. split; [exact K1|]. split; [exact K2|].
      match goal with |- Forall _ ?r => replace r with (s_route x) by congruence end. exact K3.
    - intros [sts2 g2] Hrate. apply calm_bind; [|intros [[? ?] ?] _; apply calm_ok].
      exact (assertions_hold f32A ord bord bord_perm d congestion cpt wl HW HC s sts1 _ _ _ sts2 g2 _ HRe HACTV Hrate).
  Qed.
  Lemma loop_calm fuel : forall s, reach s -> calm (sim_loop f32A fuel d congestion cpt wl s).
  Proof.
    induction fuel as [|fuel IH]; intros s HRe; cbn [sim_loop]; [intros e; discriminate|]. apply calm_bind; [apply step_calm; exact HRe|]. intros s' ES.
    destruct (finished f32A s') eqn:EF; [apply calm_ok|]. destruct (Z.ltb_spec MAX_CYCLE_LIMIT (sm_curr f32A s')); [apply calm_ok|]. apply IH. eapply reach_step; eassumption.
  Qed.
  Theorem simulate_calm : calm (simulate f32A ord bord d congestion cpt wl).
  Proof. unfold simulate. apply calm_bind; [apply sim_init_calm|]. intros s H. apply loop_calm. apply reach_init. exact H. Qed.
End Run.
