(* The transfer groups of the timeline files: proofs of C66. *)
From Coq Require Import ZArith Arith Lia Bool String List Sorting.Permutation Sorting.Sorted ZifyBool ZifyNat.
From Verif Require Import Base Arith Util SpecUtil Device SpecDevice Workload SpecWorkload DepTracker Rates Stats Engine UtilProofs DeviceProofs RouteProofs MulticastProofs FactoryProofs WorkloadProofs SpecTracker TrackerProofs DepGenProofs
  SpecEngine SpecStats StepProofs EngineProofs RunProofs DepFacts EngineFacts EngineFacts2 EngineFacts3 EngineFacts4 EngineFacts5 StatsFacts StatsRun Timeline SpecTimeline TimelineProofs TimelineSplit TimelineLive SpecZones ZoneProofs SpecGroups.
Import ListNotations.
Local Open Scope list_scope.
Open Scope Z_scope.
Ltac Zify.zify_post_hook ::= idtac.

Section P.
  Context (A : arith) (d : device) (HD : supported d).
  Let WF : wf_device d := supported_wf d HD.
  Notation state := (tstate (F A)).

  Lemma reads_mapM ids links : mapM (fun l => let! a := getLinkAttributes d l in Ok (l_coord a, HopLink (l_type a))) ids = Ok links ->
    exists ls, reads_as d ids ls /\ links = map (fun l => (l_coord l, HopLink (l_type l))) ls.
  Proof.
    revert links. induction ids as [|i ids IH]; intros links H.
    - injection H as <-. exists []. split; [constructor|reflexivity].
    - cbn [mapM] in H. apply bind_ok in H as (y & Hy & H). apply bind_ok in Hy as (a & Ha & Hy). injection Hy as <-. apply bind_ok in H as (ys & Hys & H). injection H as <-.
      destruct (IH _ Hys) as (ls & H1 & ->). exists (a :: ls). split; [constructor; assumption|reflexivity].
  Qed.
  Lemma reads_fun ids ls ls' : reads_as d ids ls -> reads_as d ids ls' -> ls = ls'.
  Proof. intros H. revert ls'. induction H as [|i l ids ls H HF IH]; intros ls' H'; inversion H'; subst; [reflexivity|]. f_equal; [congruence|auto]. Qed.
  Lemma reads_in ids ls l : reads_as d ids ls -> (In l ls <-> exists id, In id ids /\ getLinkAttributes d id = Ok l).
  Proof.
    induction 1 as [|i a ids ls H HF IH]; [split; [intros []|intros (id & [] & _)]|]. cbn [In]. rewrite IH. split.
    - intros [<-|(id & H1 & H2)]; eauto.
    - intros (id & [<-|H1] & H2); [left; congruence|eauto].
  Qed.
  Lemma reads_nodup ids ls : reads_as d ids ls -> NoDup ids -> NoDup ls.
  Proof.
    intros H. induction H as [|i a ids ls H HF IH]; intros ND; [constructor|]. apply NoDup_cons_iff in ND as [N1 N2]. constructor; [|auto].
    intros HI. apply (reads_in ids ls a HF) in HI as (j & Hj & Ej). apply (link_id_iff d i a WF) in H. apply (link_id_iff d j a WF) in Ej. congruence.
  Qed.

  (* the receivers *)
  Lemma worker_filter cs : (forall c, In c cs -> in_grid d c) -> forall l0 cs', foldM (fun l c => let! ty := getCoreType d c in Ok (match ty with WORKER => l ++ [c] | _ => l end)) cs l0 = Ok cs' ->
    cs' = l0 ++ filter (is_worker d) cs.
  Proof.
    induction cs as [|c cs IH]; intros HG l0 cs' H; [injection H as <-; rewrite app_nil_r; reflexivity|]. cbn [foldM] in H. apply bind_ok in H as (l1 & H1 & H). apply bind_ok in H1 as (ty & Hty & H1). injection H1 as <-.
    rewrite (core_type_in_grid d c HD (HG c (or_introl eq_refl))) in Hty. injection Hty as <-. apply IH in H; [|intros; apply HG; right; assumption]. subst cs'. cbn [filter]. unfold is_worker at 2.
    destruct (layout _ _ _); try reflexivity. rewrite <- app_assoc. reflexivity.
  Qed.
  Lemma rect_wf g : rect_in_grid d g -> wf_rect g.
  Proof.
    intros ((A1 & A2 & A3) & (B1 & B2 & B3) & E & R & C). destruct WF as (W1 & W2 & W3 & W4 & _). change (2 ^ 15) with 32768 in *. unfold wf_rect, coord_i16. change (2 ^ 15) with 32768.
    assert (Z.of_nat (dv_chips d) <= 8192 /\ Z.of_nat (dv_rows d) <= 8192 /\ Z.of_nat (dv_cols d) <= 8192) as (X1 & X2 & X3) by nia. lia.
  Qed.
  Lemma destinations t cs : on_grid d t -> destination_list d (t_dst t) = Ok cs -> receivers A d t cs.
  Proof.
    intros [HS HG] H. unfold receivers. destruct (t_dst t) as [c|m]; [injection H as <-; reflexivity|]. destruct HG as (g & -> & HR & HC). cbn [destination_list] in H. apply bind_ok in H as (cells & Hc & H).
    pose proof (rect_wf g HR) as RW. rewrite (mcast_coords_cells [g]) in Hc by (constructor; [exact RW|constructor]). injection Hc as <-. cbn [map concat] in H. rewrite app_nil_r in H.
    pose proof (rect_cells_enumerates g RW) as EN. exists g, (rect_cells g). split; [reflexivity|]. split; [exact EN|]. apply worker_filter in H; [exact H|].
    intros c HI. apply (proj1 EN) in HI as (D & R & C). destruct HR as ((A1 & A2 & A3) & (B1 & B2 & B3) & E & _ & _). unfold in_grid. rewrite D. lia.
  Qed.

  Definition routed (ord : Z -> list Z -> list Z) (x : state) : Prop :=
    exists ids, route d (t_noc (s_tr x)) (t_src (s_tr x)) (t_dst (s_tr x)) = Ok ids /\
      s_route x = match t_dst (s_tr x) with Unicast _ => ids | Multicast _ => ord (t_id (s_tr x)) ids end.
  Lemma carried ord x ls : link_order ord -> on_grid d (s_tr x) -> routed ord x -> reads_as d (s_route x) ls -> carriers A d (s_tr x) ls.
  Proof.
    intros HO [HS HG] (ids & HR & ER) RD. unfold carriers. destruct (t_dst (s_tr x)) as [c|m].
    - destruct HG as [HC HE]. destruct (route_unicast_spec d (t_noc (s_tr x)) (t_src (s_tr x)) c WF HS HC HE) as (ids' & ls' & R1 & R2 & R3 & R4 & R5 & _).
      assert (ids' = ids) as -> by congruence. rewrite ER in RD. rewrite (reads_fun _ _ _ RD R2). split; [assumption|]. split; [assumption|]. eapply reads_nodup; eassumption.
    - destruct HG as (g & -> & HG & HE). destruct (route_multicast_union d (t_noc (s_tr x)) (t_src (s_tr x)) g WF HS HG HE) as (ids' & R1 & R2 & R3). assert (ids' = ids) as -> by congruence.
      rewrite ER in RD. pose proof (HO (t_id (s_tr x)) ids) as PM. split; [eapply reads_nodup; [exact RD|]; eapply Permutation_NoDup; [symmetry; exact PM|assumption]|].
      exists g. split; [reflexivity|]. intros l. rewrite (reads_in _ _ l RD).
      assert (RE : forall e, far_edge (t_noc (s_tr x)) g e -> exists u us, route d (t_noc (s_tr x)) (t_src (s_tr x)) (Unicast e) = Ok u /\ reads_as d u us).
      { intros e ((D & R & C) & _). destruct HG as ((A1 & A2 & A3) & (B1 & B2 & B3) & _). destruct (route_unicast_spec d (t_noc (s_tr x)) (t_src (s_tr x)) e WF HS) as (u & us & H1 & H2 & _); [unfold in_grid; rewrite D; lia|congruence|]. eauto. }
      split.
      + intros (id & H1 & H2). apply (Permutation_in _ PM) in H1. apply R3 in H1 as (e & u & F1 & F2 & F3). destruct (RE e F1) as (u' & us & F4 & F5). assert (u' = u) as -> by congruence.
        exists e, u, us. split; [assumption|]. split; [assumption|]. split; [assumption|]. apply (reads_in u us l F5). eauto.
      + intros (e & u & us & F1 & F2 & F3 & F4). apply (reads_in u us l F3) in F4 as (id & F4 & F5). exists id. split; [|assumption]. apply (Permutation_in _ (Permutation_sym PM)). apply R3. eauto.
  Qed.
  Lemma segment_describes ord x sg : link_order ord -> on_grid d (s_tr x) -> routed ord x -> segment_of A d x = Ok sg -> describes A d x sg.
  Proof.
    intros HO HG HR H. unfold segment_of in H. apply bind_ok in H as (cs & Hcs & H). apply bind_ok in H as (links & HL & H). injection H as <-. apply reads_mapM in HL as (ls & RD & ->).
    unfold describes. cbn [sg_src sg_noc sg_rate sg_start sg_end sg_dst sg_links]. do 5 (split; [reflexivity|]). split; [apply destinations; assumption|].
    exists ls. split; [eapply carried; eassumption|reflexivity].
  Qed.
End P.

Section G.
  Context (A : arith) (d : device).
  Notation state := (tstate (F A)).
  Lemma prefix_spec p s : String.prefix p s = true <-> exists r, s = (p ++ r)%string.
  Proof.
    revert s. induction p as [|a p IH]; intros s; [split; [intros _; exists s; reflexivity|intros _; destruct s; reflexivity]|]. destruct s as [|b s]; cbn [String.prefix].
    - split; [discriminate|intros (r & H); discriminate].
    - destruct (Ascii.ascii_dec a b) as [->|N].
      + rewrite IH. split; intros (r & H); exists r; [rewrite H; reflexivity|injection H; auto].
      + split; [discriminate|]. intros (r & H). injection H as -> _. contradiction.
  Qed.
  Lemma keyed_sorted (ks : list (Z * state)) : StronglySorted (fun a b => fst a <= fst b) (sort (fun a b => fst a <? fst b) ks).
  Proof.
    induction ks as [|k ks IH]; [constructor|]. cbn [sort]. revert IH. generalize (sort (fun a b : Z * state => fst a <? fst b) ks) as m. clear. induction m as [|a m IH]; intros S.
    - constructor; constructor.
    - inversion S as [|? ? S1 S2]; subst. cbn [sort_insert]. destruct (Z.ltb_spec (fst a) (fst k)).
      + constructor; [apply IH; assumption|]. eapply Permutation_Forall; [apply sort_insert_perm|]. constructor; [lia|assumption].
      + constructor; [assumption|]. constructor; [lia|]. eapply Forall_impl; [|exact S2]. cbn. lia.
  Qed.
  Lemma state_of_nth sts id x : state_of A sts id = Ok x <-> exists i, id = Z.of_nat i /\ nth_error sts i = Some x.
  Proof.
    unfold state_of, grid_get, vec_get. destruct (Z.ltb_spec id 0).
    - split; [discriminate|intros (i & -> & _); lia].
    - split.
      + destruct (nth_error sts (Z.to_nat id)) eqn:E; [|discriminate]. intros H'. injection H' as <-. exists (Z.to_nat id). split; [lia|assumption].
      + intros (i & -> & Hi). rewrite Nat2Z.id, Hi. reflexivity.
  Qed.
  (* one group *)
  Lemma group_inv sts r g l o : group_of A d sts r (g, l) = Ok o ->
    exists ss xs, Forall2 (fun id x => state_of A sts id = Ok x) l xs /\ Permutation ss xs /\ StronglySorted (by_index A) ss /\
      (r = None -> o <> None) /\
      forall tg, o = Some tg -> tg_id A tg = g /\ Forall2 (fun x sg => segment_of A d x = Ok sg) ss (tg_route A tg) /\
        exists first last mid mid', ss = first :: mid /\ ss = mid' ++ [last] /\
        tg_src A tg = t_src (s_tr first) /\ tg_bytes A tg = t_bytes (s_tr first) /\ tg_event A tg = t_event (s_tr first) /\ tg_zone A tg = t_zone (s_tr first) /\
        tg_start A tg = s_start first /\ tg_end A tg = s_end last /\ destination_list d (t_dst (s_tr last)) = Ok (tg_dst A tg) /\ tg_fabric A tg = is_fabric (t_event (s_tr first)).
  Proof.
    unfold group_of. cbn [fst snd]. intros H. apply bind_ok in H as (u & _ & H). apply bind_ok in H as (ks & HK & H). cbv zeta in H. apply mapM_Forall2 in HK.
    assert (KS : Forall2 (fun id x => state_of A sts id = Ok x) l (map snd ks) /\ Forall (fun k => fst k = t_gix (s_tr (snd k))) ks).
    { clear H. induction HK as [|id k l ks Hk HK IH]; [split; constructor|]. apply bind_ok in Hk as (x & Hx & E). injection E as <-. destruct IH as [I1 I2]. cbn [map snd]. split; constructor; try assumption. reflexivity. }
    destruct KS as [K1 K2]. exists (map snd (sort (fun a b => fst a <? fst b) ks)), (map snd ks). split; [exact K1|].
    pose proof (sort_perm (fun a b : Z * state => fst a <? fst b) ks) as PK. split; [apply Permutation_map; symmetry; exact PK|]. split.
    { pose proof (keyed_sorted ks) as S. eapply Permutation_Forall in K2; [|exact PK]. revert S K2. generalize (sort (fun a b : Z * state => fst a <? fst b) ks) as m. clear. induction m as [|a m IH]; intros S K; [constructor|].
      inversion S as [|? ? S1 S2]; subst. pose proof (Forall_inv K) as E. apply Forall_inv_tail in K. cbn [map]. constructor; [auto|]. apply Forall_forall. intros x Hx. apply in_map_iff in Hx as (b & <- & Hb).
      rewrite Forall_forall in S2, K. unfold by_index. rewrite <- E, <- (K b Hb). apply S2. assumption. }
    set (ss := map snd (sort _ ks)) in *. clearbody ss. destruct ss as [|a la]; [discriminate|]. destruct (rev (a :: la)) as [|b lb] eqn:ER; [discriminate|].
    assert (EL : a :: la = rev lb ++ [b]) by (rewrite <- (rev_involutive (a :: la)), ER; reflexivity). split.
    - intros ->. apply bind_ok in H as (dst & _ & H). apply bind_ok in H as (sg & _ & H). injection H as <-. discriminate.
    - intros tg ->. destruct (match r with None => true | Some rg => _ end); [|discriminate]. apply bind_ok in H as (dst & HD & H). apply bind_ok in H as (sg & HS & H). injection H as <-. cbn.
      split; [reflexivity|]. split; [apply mapM_Forall2; assumption|]. exists a, b, la, (rev lb). split; [reflexivity|]. split; [exact EL|]. do 6 (split; [reflexivity|]). split; [exact HD|reflexivity].
  Qed.
  (* the checks make the groups disjoint *)
  Lemma mem_false x l : negb (mem x l) = true -> ~ In x l.
  Proof. intros H HI. apply negb_true_iff in H. unfold mem in H. assert (E : existsb (Z.eqb x) l = true) by (apply existsb_exists; exists x; split; [assumption|apply Z.eqb_refl]). congruence. Qed.
  Lemma assert_ok b u : tt_assert b = Ok u -> b = true.
  Proof. destruct b; [reflexivity|discriminate]. Qed.
  Lemma check_inner (gid : Z) ids l : forall all r, foldM (fun all id =>
      let! _ := tt_assert (match i_get ids id with Some _ => true | None => false end) in
      let! _ := tt_assert (match i_get ids id with Some g => g =? gid | None => false end) in
      let! _ := tt_assert (negb (mem id all)) in
      Ok (id :: all)) l all = Ok r -> NoDup all -> NoDup r /\ (forall x, In x r <-> In x l \/ In x all) /\ NoDup l /\ (forall x, In x l -> ~ In x all).
  Proof.
    induction l as [|id l IH]; intros all r H ND; [injection H as <-; split; [assumption|]; split; [cbn; tauto|]; split; [constructor|intros x []]|]. cbn [foldM] in H. apply bind_ok in H as (a' & H1 & H).
    apply bind_ok in H1 as (u1 & _ & H1). apply bind_ok in H1 as (u2 & _ & H1). apply bind_ok in H1 as (u3 & H3 & H1). injection H1 as <-. apply assert_ok, mem_false in H3.
    apply IH in H as (R1 & R2 & R3 & R4); [|constructor; assumption]. split; [assumption|]. split; [intros x; rewrite R2; cbn; tauto|]. split.
    - constructor; [|assumption]. intros HI. apply (R4 _ HI). left. reflexivity.
    - intros x [<-|HI]; [assumption|]. intros HA. apply (R4 _ HI). right. assumption.
  Qed.
  Lemma check_disjoint n gs ids : check_groups n gs ids = Ok tt -> NoDup (flat_map snd gs).
  Proof.
    unfold check_groups. intros H. apply bind_ok in H as (r & H & _).
    assert (G : forall all, NoDup all -> foldM (check_group n ids) gs all = Ok r -> NoDup (flat_map snd gs) /\ forall x, In x (flat_map snd gs) -> ~ In x all); [|apply (G []); [constructor|exact H]].
    clear H. revert r. induction gs as [|[g l] gs IH]; intros r all ND H; [split; [constructor|intros x []]|]. cbn [foldM] in H. apply bind_ok in H as (all' & H1 & H). unfold check_group in H1. cbn [fst snd] in H1.
    apply bind_ok in H1 as (u & _ & H1). apply bind_ok in H1 as (a2 & H2 & H1). apply bind_ok in H1 as (u2 & _ & H1). injection H1 as <-. apply check_inner in H2 as (R1 & R2 & R3 & R4); [|assumption].
    destruct (IH _ _ R1 H) as [I1 I2]. cbn [flat_map snd]. split.
    - clear -I1 I2 R2 R3. induction l as [|x l IHl]; [exact I1|]. apply NoDup_cons_iff in R3 as [N1 N2]. cbn [app]. constructor.
      + intros HI. apply in_app_or in HI as [HI|HI]; [contradiction|]. apply (I2 x HI). apply R2. left. left. reflexivity.
      + assert (forall y, In y (flat_map snd gs) -> ~ In y l) as D by (intros y Hy Hl; apply (I2 y Hy), R2; left; right; assumption). clear -I1 N2 D.
        induction l as [|x l IHl]; [exact I1|]. apply NoDup_cons_iff in N2 as [N1 N2]. cbn [app]. constructor; [|apply IHl; [assumption|intros y Hy Hl; apply (D y Hy); right; assumption]].
        intros HI. apply in_app_or in HI as [HI|HI]; [contradiction|]. apply (D x HI). left. reflexivity.
    - intros x HI HA. apply in_app_or in HI as [HI|HI]; [exact (R4 x HI HA)|]. apply (I2 x HI). apply R2. right. assumption.
  Qed.
End G.

Section R.
  Context (A : arith) (ord : Z -> list Z -> list Z) (bord : list bucket -> list bucket) (ord_perm : link_order ord) (bord_perm : bucket_order bord).
  Context (gord : gmap -> gmap) (zord : zone_map -> zone_map) (gord_perm : map_order gord) (topo : topology).
  Context (d : device) (cpt : Z) (wl : workload (F A)) (HD : supported d).
  Context (HW : proper wl) (HC : proper_cpt cpt) (HG : Forall (on_grid d) (all_transfers wl)) (model : string).
  Notation cong := (negb (String.eqb model "none")).
  Notation run := (runWithTimeline A ord bord gord zord topo).
  Notation state := (tstate (F A)).
  Notation succ := (succeeds A ord bord d cong cpt wl).

  Lemma final_routed sf i x : succ sf -> nth_error (sm_sts A sf) i = Some x -> routed A d ord x /\ on_grid d (s_tr x).
  Proof.
    intros HS Hx. destruct (succeeds_end A ord bord d cong cpt wl sf HS) as [HE _]. pose proof (or_intror HE : visited A ord bord d cong cpt wl sf) as V.
    pose proof (visited_transfer A ord bord bord_perm d cong cpt wl HW HC sf i x V Hx) as Ht. split.
    - destruct (visited_facts A ord bord bord_perm d cong cpt wl HW HC sf V) as (sts0 & E & h & fin & S & _ & I & _). destruct (static_same A _ _ _ _ _ I _ _ Hx) as (x0 & H0 & E1 & E2).
      destruct S as [S _]. destruct (init_states A ord d wl HW _ S) as (FM & _ & _).
      assert (MS : make_state A ord d (s_tr x) = Ok x0) by (exact (Forall2_nth _ _ _ FM _ _ _ Ht H0)). unfold make_state in MS. apply bind_ok in MS as (ids & HR & MS). exists ids. split; [exact HR|].
      rewrite E2. injection MS as <-. reflexivity.
    - rewrite Forall_forall in HG. apply HG. eapply nth_error_In; eassumption.
  Qed.
  Lemma v1_checked ds sts r tl : v1 A gord zord d topo wl ds sts r = Ok (Some tl) -> exists gs tgs, group_transfers wl sts = Ok gs /\
    check_groups (wl_groups wl) (gord (gs_groups gs)) (gs_ids gs) = Ok tt /\
    Forall2 (fun e o => group_of A d sts r e = Ok o) (gord (gs_groups gs)) tgs /\ tl_groups A tl = flat_map (fun o => match o with Some g => [g] | None => [] end) tgs.
  Proof.
    unfold v1. intros H. apply bind_ok in H as ([chips|] & _ & H); [|discriminate]. apply bind_ok in H as (gs & H1 & H). cbv zeta in H. apply bind_ok in H as ([] & H2 & H). apply bind_ok in H as (tgs & H3 & H).
    apply bind_ok in H as (zs & _ & H). apply bind_ok in H as (ps & _ & H). injection H as <-. exists gs, tgs. split; [assumption|]. split; [assumption|]. split; [apply mapM_Forall2; assumption|reflexivity].
  Qed.
  Lemma run_doc thr stt files r tl : run false thr d model cpt wl = Ok (Stats stt, files) -> document A files r tl ->
    exists sf gs tgs, succ sf /\ group_transfers wl (sm_sts A sf) = Ok gs /\ check_groups (wl_groups wl) (gord (gs_groups gs)) (gs_ids gs) = Ok tt /\
    Forall2 (fun e o => group_of A d (sm_sts A sf) r e = Ok o) (gord (gs_groups gs)) tgs /\ tl_groups A tl = flat_map (fun o => match o with Some g => [g] | None => [] end) tgs.
  Proof.
    intros H HDc. destruct (run_emit A ord bord gord zord topo d cpt wl _ _ _ _ _ H) as (sf & HS & HE). eapply emit_doc in HE as (ds & HV); [|exact HDc].
    destruct (v1_checked _ _ _ _ HV) as (gs & tgs & H1 & H2 & H3 & H4). exists sf, gs, tgs. auto.
  Qed.
  Lemma groups_segments sts r es tgs : Forall2 (fun e o => group_of A d sts r e = Ok o) es tgs ->
    exists ss rest xs, Forall2 (fun id x => state_of A sts id = Ok x) (flat_map snd es) xs /\ Permutation (ss ++ rest) xs /\ (r = None -> rest = []) /\
      Forall2 (fun x sg => segment_of A d x = Ok sg) ss (flat_map (tg_route A) (flat_map (fun o => match o with Some g => [g] | None => [] end) tgs)).
  Proof.
    intros HF. induction HF as [|e o es tgs H HF IH]; [exists [], [], []; split; [constructor|]; split; [constructor|]; split; [reflexivity|constructor]|]. destruct e as [g l]. destruct IH as (ss & rest & xs & I1 & I2 & I3 & I4).
    apply group_inv in H as (s1 & x1 & G1 & G2 & _ & G3 & G4). destruct o as [tg|].
    - destruct (G4 tg eq_refl) as (_ & G5 & _). exists (s1 ++ ss), rest, (x1 ++ xs). cbn [flat_map snd app]. split; [apply Forall2_app; assumption|]. split; [rewrite <- app_assoc; apply Permutation_app; assumption|]. split; [assumption|]. apply Forall2_app; assumption.
    - exists ss, (s1 ++ rest), (x1 ++ xs). cbn [flat_map snd app]. split; [apply Forall2_app; assumption|]. split.
      + transitivity (s1 ++ (ss ++ rest)); [rewrite !app_assoc; apply Permutation_app_tail, Permutation_app_comm|apply Permutation_app; assumption].
      + split; [intros E; exfalso; exact (G3 E eq_refl)|assumption].
  Qed.
  Lemma all_states (sts : list state) xs : Forall2 (fun id x => state_of A sts id = Ok x) (map Z.of_nat (seq 0 (List.length sts))) xs -> xs = sts.
  Proof.
    intros H. apply nth_ext_error. intros i. pose proof (Forall2_length' _ _ _ H) as L. rewrite map_length, seq_length in L.
    destruct (nth_error xs i) as [x|] eqn:Ex.
    - pose proof (nth_some_lt _ _ _ Ex) as Hi. rewrite <- L in Hi. assert (Hs : nth_error (map Z.of_nat (seq 0 (List.length sts))) i = Some (Z.of_nat i)) by (apply map_nth_error; rewrite (nth_error_nth' _ 0%nat) by (rewrite seq_length; exact Hi); rewrite seq_nth by exact Hi; reflexivity).
      pose proof (Forall2_nth _ _ _ H _ _ _ Hs Ex) as HS. apply state_of_nth in HS as (j & E & Hj). apply Nat2Z.inj in E. subst j. congruence.
    - symmetry. apply nth_error_None. apply nth_error_None in Ex. lia.
  Qed.
  Theorem run_segments thr stt files r tl : run false thr d model cpt wl = Ok (Stats stt, files) -> document A files r tl ->
    exists sf ss rest, succ sf /\ Permutation (ss ++ rest) (sm_sts A sf) /\ (r = None -> rest = []) /\ Forall2 (describes A d) ss (flat_map (tg_route A) (tl_groups A tl)).
  Proof.
    intros H HDc. destruct (run_doc _ _ _ _ _ H HDc) as (sf & gs & tgs & HS & H1 & H2 & H3 & ->). destruct (groups_segments _ _ _ _ H3) as (ss & rest & xs & G1 & G2 & G3 & G4).
    exists sf, ss, rest. split; [assumption|]. set (sts := sm_sts A sf) in *. set (l := flat_map snd (gord (gs_groups gs))) in *.
    assert (PL : Permutation l (map Z.of_nat (seq 0 (List.length sts)))).
    { apply NoDup_Permutation; [eapply check_disjoint; exact H2|apply FinFun.Injective_map_NoDup; [intros a b; lia|apply seq_NoDup]|]. intros id. split.
      - intros Hl. assert (exists x, state_of A sts id = Ok x) as (x & Hx) by (clear -G1 Hl; induction G1; [destruct Hl|destruct Hl as [<-|Hl]; eauto]).
        apply state_of_nth in Hx as (i & -> & Hx). apply in_map, in_seq. apply nth_some_lt in Hx. lia.
      - intros Hl. apply in_map_iff in Hl as (i & <- & Hl). apply in_seq in Hl. destruct (nth_lt_some sts i) as [x Hx]; [lia|]. destruct (group_weak wl _ _ H1) as [W1 W2 W3].
        destruct (W2 x (nth_error_In _ _ Hx)) as (g & Hg). apply W3 in Hg as (ids & I1 & I2). unfold sid in I2. rewrite (final_ids A ord bord bord_perm d cpt wl HW HC model sf i x HS Hx) in I2.
        apply in_flat_map. exists (g, ids). split; [eapply Permutation_in; [symmetry; apply gord_perm|assumption]|assumption]. }
    destruct (Permutation_Forall2 PL G1) as (xs' & P1 & P2). apply all_states in P2. subst xs'. assert (PX : Permutation (ss ++ rest) sts) by (etransitivity; eassumption).
    split; [exact PX|]. split; [exact G3|]. assert (IN : forall x, In x ss -> In x sts) by (intros x Hx; eapply Permutation_in; [exact PX|apply in_or_app; left; exact Hx]).
    clear -G4 IN HS HG HW HC HD ord_perm bord_perm. revert G4 IN. generalize (flat_map (tg_route A) (flat_map (fun o : option (tgroup A) => match o with Some g => [g] | None => [] end) tgs)) as sg. subst sts.
    intros sg G4 IN. induction G4 as [|x y ss sg Hx HF IH]; constructor; [|apply IH; intros; apply IN; right; assumption].
    pose proof (IN x (or_introl eq_refl)) as Ix. apply In_nth_error in Ix as [i Hi]. destruct (final_routed sf i x HS Hi) as [R1 R2]. eapply segment_describes; eassumption.
  Qed.

  Lemma flat_nodup (es : gmap) e : NoDup (flat_map snd es) -> In e es -> NoDup (snd e).
  Proof.
    induction es as [|a es IH]; intros ND HI; [destruct HI|]. cbn [flat_map] in ND. destruct HI as [->|HI].
    - clear -ND. revert ND. generalize (flat_map snd es) as m. induction (snd e) as [|x l IH]; intros m ND; [constructor|]. cbn [app] in ND. apply NoDup_cons_iff in ND as [N1 N2]. constructor; [|eapply IH; exact N2].
      intros Hx. apply N1, in_or_app. left. assumption.
    - apply IH; [|assumption]. clear -ND. induction (snd a) as [|x l IH]; [exact ND|]. cbn [app] in ND. apply NoDup_cons_iff in ND as [_ ND]. auto.
  Qed.
  Theorem run_group thr stt files r tl tg : registered wl -> wl_groups wl + Z.of_nat (List.length (all_transfers wl)) < 2 ^ 31 ->
    run false thr d model cpt wl = Ok (Stats stt, files) -> document A files r tl -> In tg (tl_groups A tl) ->
    exists sf ss, succ sf /\ members A wl (sm_sts A sf) (tg_id A tg) ss /\ header A d ss tg /\ Forall2 (describes A d) ss (tg_route A tg).
  Proof.
    intros HRG HB H HDc Htg. destruct (run_doc _ _ _ _ _ H HDc) as (sf & gs & tgs & HS & H1 & H2 & H3 & ET). rewrite ET in Htg. clear ET. exists sf. set (sts := sm_sts A sf) in *.
    apply in_flat_map in Htg as ([tg'|] & Ho & Htg); [|destruct Htg]. destruct Htg as [->|[]].
    assert (exists g l, In (g, l) (gord (gs_groups gs)) /\ group_of A d sts r (g, l) = Ok (Some tg)) as (g & l & He & Hg).
    { clear -H3 Ho. induction H3 as [|[g l] o es os H HF IH]; [destruct Ho|]. destruct Ho as [->|Ho]; [exists g, l; split; [left; reflexivity|assumption]|]. destruct (IH Ho) as (g' & l' & I1 & I2). exists g', l'. split; [right; assumption|assumption]. }
    apply group_inv in Hg as (ss & xs & G1 & G2 & G3 & _ & G4). destruct (G4 tg eq_refl) as (<- & G5 & first & last & mid & mid' & E1 & E2 & F1 & F2 & F3 & F4 & F5 & F6 & F7 & F8). exists ss. split; [assumption|].
    pose proof (flat_nodup _ _ (check_disjoint _ _ _ H2) He) as NL. cbn [snd] in NL. assert (Hgl : In (tg_id A tg, l) (gs_groups gs)) by (eapply Permutation_in; [apply gord_perm|assumption]).
    assert (XI : map sid xs = l /\ forall x, In x xs -> In x sts).
    { clear -G1 HS bord_perm HW HC. induction G1 as [|id x l xs Hx HF IH]; [split; [reflexivity|intros x []]|]. destruct IH as [I1 I2]. apply state_of_nth in Hx as (i & -> & Hx). cbn [map]. split.
      - f_equal; [exact (final_ids A ord bord bord_perm d cpt wl HW HC model sf i x HS Hx)|assumption].
      - intros y [<-|Hy]; [eapply nth_error_In; exact Hx|auto]. }
    destruct XI as [X1 X2].
    assert (SI : forall x, In x ss <-> In x sts /\ In (sid x) l).
    { intros x. split.
      - intros Hx. apply (Permutation_in _ G2) in Hx. split; [auto|]. rewrite <- X1. apply in_map. assumption.
      - intros [Hx Hl]. apply (Permutation_in _ (Permutation_sym G2)). rewrite <- X1 in Hl. apply in_map_iff in Hl as (y & Ey & Hy). pose proof (X2 y Hy) as Hy'. apply In_nth_error in Hy' as [j Hj]. apply In_nth_error in Hx as [i Hi].
        unfold sid in Ey. rewrite (final_ids A ord bord bord_perm d cpt wl HW HC model sf i x HS Hi), (final_ids A ord bord bord_perm d cpt wl HW HC model sf j y HS Hj) in Ey. apply Nat2Z.inj in Ey. subst j. congruence. }
    assert (NS : NoDup ss). { eapply Permutation_NoDup; [symmetry; exact G2|]. apply (NoDup_map_inv sid). rewrite X1. assumption. }
    destruct (run_groups A ord bord bord_perm gord gord_perm d cpt wl HW HC model sf HRG HB HS) as (gs' & R1 & _ & R3 & _ & R5). fold sts in R1. rewrite H1 in R1. injection R1 as <-.
    assert (TR : forall x, In x sts -> In (s_tr x) (all_transfers wl)).
    { intros x Hx. apply In_nth_error in Hx as [i Hi]. destruct (success_complete A ord bord bord_perm d cong cpt wl HW HC sf HS) as (_ & SC & _). eapply nth_error_In, (SC i x Hi). }
    assert (INL : forall x, In x sts -> (In (sid x) l <-> in_group (gs_groups gs) (tg_id A tg) (sid x))).
    { intros x _. split; [intros Hl; exists l; auto|]. intros (l' & L1 & L2). apply (g_get_in _ _ _ R3) in L1. apply (g_get_in _ _ _ R3) in Hgl. congruence. }
    assert (SF : In first ss) by (rewrite E1; left; reflexivity). pose proof (proj1 (SI first) SF) as [SF1 SF2]. split.
    - split; [assumption|]. split; [assumption|]. destruct (groupedb (s_tr first)) eqn:EG.
      + left. intros x. split.
        * intros Hx. apply SI in Hx as [S1 S2]. split; [assumption|]. destruct (R5 _ (TR x S1)) as (g & Q1 & Q2 & Q3). apply INL in S2; [|assumption]. apply Q1 in S2. subst g.
          destruct (groupedb (s_tr x)) eqn:EX; [apply groupedb_spec in EX; split; [assumption|symmetry; apply Q2; assumption]|]. exfalso. destruct Q3 as [_ Q3]; [intros C; apply groupedb_spec in C; congruence|].
          apply INL in SF2; [|assumption]. pose proof (Q3 _ SF2) as E. apply In_nth_error in S1 as [i Hi]. apply In_nth_error in SF1 as [j Hj]. unfold sid in E.
          rewrite (final_ids A ord bord bord_perm d cpt wl HW HC model sf i x HS Hi), (final_ids A ord bord bord_perm d cpt wl HW HC model sf j first HS Hj) in E. apply Nat2Z.inj in E. subst j. assert (first = x) by congruence. subst x. congruence.
        * intros (S1 & S2 & S3). apply SI. split; [assumption|]. apply INL; [assumption|]. destruct (R5 _ (TR x S1)) as (g & Q1 & Q2 & _). apply Q1. rewrite (Q2 S2). symmetry. assumption.
      + right. exists first. assert (NG : ~ grouped (s_tr first)) by (intros C; apply groupedb_spec in C; congruence). destruct (R5 _ (TR first SF1)) as (g & Q1 & _ & Q3). destruct (Q3 NG) as [Q4 Q5].
        pose proof SF2 as SG. apply INL in SG; [|assumption]. apply Q1 in SG. subst g. split; [|auto]. rewrite E1. f_equal. destruct mid as [|x mid]; [reflexivity|]. exfalso.
        assert (Hx : In x ss) by (rewrite E1; right; left; reflexivity). apply SI in Hx as [S1 S2]. apply INL in S2; [|assumption]. pose proof (Q5 _ S2) as E. rewrite E1 in NS. apply NoDup_cons_iff in NS as [NS _]. apply NS. left.
        apply In_nth_error in S1 as [i Hi]. apply In_nth_error in SF1 as [j Hj]. unfold sid in E.
        rewrite (final_ids A ord bord bord_perm d cpt wl HW HC model sf i x HS Hi), (final_ids A ord bord bord_perm d cpt wl HW HC model sf j first HS Hj) in E. apply Nat2Z.inj in E. subst j. congruence.
    - assert (DE : Forall (fun x => on_grid d (s_tr x) /\ routed A d ord x) ss).
      { apply Forall_forall. intros x Hx. apply SI in Hx as [Hx _]. apply In_nth_error in Hx as [i Hi]. destruct (final_routed sf i x HS Hi). auto. }
      split.
      + exists first, last, mid, mid'. do 8 (split; [assumption|]). split; [|rewrite F8; apply prefix_spec]. apply destinations; [assumption| |assumption]. rewrite Forall_forall in DE. apply DE. rewrite E2. apply in_or_app. right. left. reflexivity.
      + clear -G5 DE HD ord_perm. induction G5 as [|x y s1 s2 Hx HF IH]; [constructor|]. destruct (Forall_inv DE). constructor; [eapply segment_describes; eassumption|apply IH; exact (Forall_inv_tail DE)].
  Qed.
End R.
