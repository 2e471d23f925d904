(* The timesteps of the timeline files show the simulated timesteps (C67). *)
From Coq Require Import ZArith Arith Lia Bool String List Sorting.Permutation Sorting.Sorted ZifyBool ZifyNat.
From Verif Require Import Base Arith Util SpecUtil Device SpecDevice Workload SpecWorkload DepTracker Rates Stats Engine UtilProofs WorkloadProofs SpecTracker TrackerProofs DepGenProofs SpecEngine SpecRates SpecStats
  DeviceProofs FactoryProofs StepProofs EngineProofs RunProofs DepFacts EngineFacts EngineFacts2 EngineFacts3 EngineFacts4 EngineFacts5 StatsFacts EngineRates StatsRun Timeline SpecTimeline TimelineProofs TimelineSplit TimelineLive SpecZones ZoneProofs SpecGroups GroupProofs SpecDemands.
Import ListNotations.
Local Open Scope list_scope.
Open Scope Z_scope.
Ltac Zify.zify_post_hook ::= idtac.

Section D.
  Context (A : arith) (d : device) (WF : wf_device d).
  Definition big (g : list (F A)) : list (Z * F A) := filter (fun x => f_lt A (f_lit A 1 1000) (snd x)) (combine (map Z.of_nat (seq 0 (List.length g))) g).
  Lemma number_in (g : list (F A)) m id v : In (id, v) (combine (map Z.of_nat (seq m (List.length g))) g) <-> exists k, id = Z.of_nat (m + k) /\ nth_error g k = Some v.
  Proof.
    revert m. induction g as [|a g IH]; intros m; cbn [List.length seq map combine].
    - split; [intros []|]. intros (k & _ & H). destruct k; discriminate H.
    - cbn [In]. rewrite IH. split.
      + intros [E|(k & -> & H)]; [injection E as <- <-; exists 0%nat; split; [f_equal; lia|reflexivity]|]. exists (S k). split; [f_equal; lia|exact H].
      + intros ([|k] & -> & H); [left; cbn in H; injection H as ->; do 2 f_equal; lia|]. right. exists k. split; [f_equal; lia|exact H].
  Qed.
  Lemma number_nodup (g : list (F A)) m : NoDup (map fst (combine (map Z.of_nat (seq m (List.length g))) g)).
  Proof.
    revert m. induction g as [|a g IH]; intros m; cbn [List.length seq map combine]; [constructor|]. cbn [fst]. constructor; [|apply IH].
    intros H. apply in_map_iff in H as ([id v] & E & H). apply number_in in H as (k & -> & _). cbn [fst] in E. lia.
  Qed.
  Lemma big_in g id v : In (id, v) (big g) <-> exists k, id = Z.of_nat k /\ nth_error g k = Some v /\ f_lt A (f_lit A 1 1000) v = true.
  Proof.
    unfold big. rewrite filter_In, number_in. cbn [snd Nat.add]. split; [intros ((k & E & H) & L); exists k; auto|intros (k & E & H & L); split; [exists k; auto|assumption]].
  Qed.
  Lemma filter_nodup {X Y} (f : X -> Y) (p : X -> bool) l : NoDup (map f l) -> NoDup (map f (filter p l)).
  Proof.
    induction l as [|x l IH]; cbn [map filter]; [auto|]. intros H. apply NoDup_cons_iff in H as [H1 H2]. destruct (p x); [|auto]. cbn [map]. constructor; [|auto].
    intros C. apply H1. apply in_map_iff in C as (y & E & C). apply filter_In in C as [C _]. rewrite <- E. apply in_map. assumption.
  Qed.
  Lemma big_nodup g : NoDup (map fst (big g)).
  Proof. apply filter_nodup, number_nodup. Qed.

  Section N.
    Context {X : Type} (get : Z -> outcome X) (name : X -> coord * hop_name).
    Lemma named_in ps l : mapM (fun x : Z * F A => let! a := get (fst x) in Ok (name a, snd x)) ps = Ok l ->
      forall y v, In (y, v) l <-> exists id a, In (id, v) ps /\ get id = Ok a /\ name a = y.
    Proof.
      intros H. apply mapM_Forall2 in H. induction H as [|[id w] o ps l H HF IH]; intros y v.
      - split; [intros []|intros (id & a & [] & _)].
      - cbn [fst snd] in H. apply bind_ok in H as (a & Ha & H). injection H as <-. cbn [In]. rewrite IH. split.
        + intros [E|(id' & a' & H1 & H2 & H3)]; [injection E as <- <-; exists id, a; auto|exists id', a'; auto].
        + intros (id' & a' & [E|H1] & H2 & H3); [|right; exists id', a'; auto]. injection E as -> ->. left. rewrite Ha in H2. injection H2 as ->. rewrite H3. reflexivity.
    Qed.
    Lemma named_nodup ps l : (forall i j a b, get i = Ok a -> get j = Ok b -> name a = name b -> i = j) -> NoDup (map fst ps) ->
      mapM (fun x : Z * F A => let! a := get (fst x) in Ok (name a, snd x)) ps = Ok l -> NoDup (map fst l).
    Proof.
      intros INJ ND H. pose proof (named_in _ _ H) as IN. apply mapM_Forall2 in H. induction H as [|[id w] o ps l H HF IH]; [constructor|].
      cbn [fst snd] in H. apply bind_ok in H as (a & Ha & H). injection H as <-. cbn [map fst] in ND |- *. apply NoDup_cons_iff in ND as [N1 N2].
      assert (IN' : forall y v, In (y, v) l -> exists id a, In (id, v) ps /\ get id = Ok a /\ name a = y).
      { clear -HF. induction HF as [|[id w] o ps l H HF IH]; intros y v Hy; [destruct Hy|]. cbn [fst snd] in H. apply bind_ok in H as (a & Ha & H). injection H as <-.
        destruct Hy as [E|Hy]; [injection E as <- <-; exists id, a; split; [left; reflexivity|auto]|]. destruct (IH _ _ Hy) as (id' & a' & H1 & H2). exists id', a'. split; [right; assumption|assumption]. }
      constructor.
      - intros C. apply in_map_iff in C as ([y v] & E & C). cbn [fst] in E. subst y. destruct (IN' _ _ C) as (id' & a' & H1 & H2 & H3).
        apply N1. rewrite (INJ id id' a a' Ha H2 (eq_sym H3)). apply (in_map fst) in H1. exact H1.
      - apply IH; [assumption|]. intros y v. split; [apply IN'|]. intros (id' & a' & H1 & H2 & H3). clear -HF H1 H2 H3. induction HF as [|[id w] o ps l H HF IH]; [destruct H1|].
        cbn [fst snd] in H. apply bind_ok in H as (a & Ha & H). injection H as <-. destruct H1 as [E|H1]; [|right; auto]. injection E as -> ->. left. rewrite Ha in H2. injection H2 as ->. rewrite H3. reflexivity.
    Qed.
  End N.

  Definition niu_name (a : niu_attr) : coord * hop_name :=
    (n_coord a, match n_type a with NOC0_SRC => HopIn NOC0 | NOC0_SINK => HopOut NOC0 | NOC1_SRC => HopIn NOC1 | NOC1_SINK => HopOut NOC1 end).
  Definition link_name (a : link_attr) : coord * hop_name := (l_coord a, HopLink (l_type a)).
  Lemma niu_name_inj i j a b : getNIUAttributes d i = Ok a -> getNIUAttributes d j = Ok b -> niu_name a = niu_name b -> i = j.
  Proof.
    intros Ha Hb E. apply (proj2 (niu_id_iff d i a WF)) in Ha. apply (proj2 (niu_id_iff d j b WF)) in Hb.
    assert (a = b); [|congruence]. destruct a as [ca ta], b as [cb tb]. unfold niu_name in E. cbn [n_coord n_type] in E. injection E as -> E. f_equal. destruct ta, tb; first [reflexivity|discriminate E].
  Qed.
  Lemma link_name_inj i j a b : getLinkAttributes d i = Ok a -> getLinkAttributes d j = Ok b -> link_name a = link_name b -> i = j.
  Proof.
    intros Ha Hb E. apply (proj2 (link_id_iff d i a WF)) in Ha. apply (proj2 (link_id_iff d j b WF)) in Hb.
    assert (a = b); [|congruence]. destruct a as [ca ta], b as [cb tb]. unfold link_name in E. cbn [l_coord l_type] in E. injection E as -> ->. reflexivity.
  Qed.
  Lemma demands_spec t dem (g : grids (F A)) : ts_link A t = g_link g -> ts_niu A t = g_niu g -> demands A d t = Ok dem -> NoDup (map fst dem) /\
    forall c h v, In (c, h, v) dem <-> demand_at d g c h v /\ f_lt A (f_lit A 1 1000) v = true.
  Proof.
    intros EL EN H. unfold demands in H. cbv zeta in H. rewrite EL, EN in H. fold (big (g_niu g)) in H. fold (big (g_link g)) in H.
    apply bind_ok in H as (ns & HN & H). apply bind_ok in H as (ls & HL & H). injection H as <-.
    assert (HN' : mapM (fun x : Z * F A => let! a := getNIUAttributes d (fst x) in Ok (niu_name a, snd x)) (big (g_niu g)) = Ok ns) by exact HN.
    assert (HL' : mapM (fun x : Z * F A => let! a := getLinkAttributes d (fst x) in Ok (link_name a, snd x)) (big (g_link g)) = Ok ls) by exact HL. clear HN HL.
    pose proof (named_in _ _ _ _ HN') as IN. pose proof (named_in _ _ _ _ HL') as IL. split.
    - rewrite map_app. pose proof (named_nodup _ _ _ _ niu_name_inj (big_nodup _) HN') as N1. pose proof (named_nodup _ _ _ _ link_name_inj (big_nodup _) HL') as N2.
      assert (DJ : forall y, In y (map fst ns) -> ~ In y (map fst ls)).
      { intros y H1 H2. apply in_map_iff in H1 as ([y1 v1] & E1 & H1). apply in_map_iff in H2 as ([y2 v2] & E2 & H2). cbn [fst] in E1, E2. subst y1 y2.
        apply IN in H1 as (i & a & _ & _ & Ea). apply IL in H2 as (j & b & _ & _ & Eb). rewrite <- Eb in Ea. unfold niu_name, link_name in Ea. destruct (n_type a); discriminate Ea. }
      clear -N1 N2 DJ. induction (map fst ns) as [|y l IH]; [exact N2|]. cbn [app]. apply NoDup_cons_iff in N1 as [N1 N3]. constructor.
      + intros C. apply in_app_or in C as [C|C]; [contradiction|]. apply (DJ y); [left; reflexivity|assumption].
      + apply IH; [assumption|]. intros z Hz. apply DJ. right. assumption.
    - intros c h v. rewrite in_app_iff, IN, IL.
      assert (NI : forall ty, (exists id a, In (id, v) (big (g_niu g)) /\ getNIUAttributes d id = Ok a /\ a = mkNiu c ty) <->
        (exists k, getNIUID d (mkNiu c ty) = Ok (Z.of_nat k) /\ nth_error (g_niu g) k = Some v) /\ f_lt A (f_lit A 1 1000) v = true).
      { intros ty. split.
        - intros (id & a & H1 & H2 & ->). apply big_in in H1 as (k & -> & H1 & H3). split; [|assumption]. exists k. split; [apply niu_id_iff; assumption|assumption].
        - intros [(k & H1 & H2) H3]. exists (Z.of_nat k), (mkNiu c ty). split; [apply big_in; exists k; auto|]. split; [apply niu_id_iff; assumption|reflexivity]. }
      destruct h as [[]|[]|ty]; cbn [demand_at].
      + rewrite <- NI. split.
        * intros [(id & a & H1 & H2 & H3)|(id & a & _ & _ & H3)]; [|discriminate H3]. exists id, a. split; [assumption|]. split; [assumption|]. destruct a as [ca []]; unfold niu_name in H3; cbn [n_coord n_type] in H3; try discriminate H3. injection H3 as ->. reflexivity.
        * intros (id & a & H1 & H2 & ->). left. eexists _, _. split; [exact H1|]. split; [exact H2|reflexivity].
      + rewrite <- NI. split.
        * intros [(id & a & H1 & H2 & H3)|(id & a & _ & _ & H3)]; [|discriminate H3]. exists id, a. split; [assumption|]. split; [assumption|]. destruct a as [ca []]; unfold niu_name in H3; cbn [n_coord n_type] in H3; try discriminate H3. injection H3 as ->. reflexivity.
        * intros (id & a & H1 & H2 & ->). left. eexists _, _. split; [exact H1|]. split; [exact H2|reflexivity].
      + rewrite <- NI. split.
        * intros [(id & a & H1 & H2 & H3)|(id & a & _ & _ & H3)]; [|discriminate H3]. exists id, a. split; [assumption|]. split; [assumption|]. destruct a as [ca []]; unfold niu_name in H3; cbn [n_coord n_type] in H3; try discriminate H3. injection H3 as ->. reflexivity.
        * intros (id & a & H1 & H2 & ->). left. eexists _, _. split; [exact H1|]. split; [exact H2|reflexivity].
      + rewrite <- NI. split.
        * intros [(id & a & H1 & H2 & H3)|(id & a & _ & _ & H3)]; [|discriminate H3]. exists id, a. split; [assumption|]. split; [assumption|]. destruct a as [ca []]; unfold niu_name in H3; cbn [n_coord n_type] in H3; try discriminate H3. injection H3 as ->. reflexivity.
        * intros (id & a & H1 & H2 & ->). left. eexists _, _. split; [exact H1|]. split; [exact H2|reflexivity].
      + split.
        * intros [(id & a & _ & _ & H3)|(id & a & H1 & H2 & H3)]; [unfold niu_name in H3; destruct (n_type a); discriminate H3|]. destruct a as [ca ta]. unfold link_name in H3. cbn [l_coord l_type] in H3. injection H3 as -> ->.
          apply big_in in H1 as (k & -> & H1 & H3). split; [|assumption]. exists k. split; [apply link_id_iff; assumption|assumption].
        * intros [(k & H1 & H2) H3]. right. exists (Z.of_nat k), (mkLink c ty). split; [apply big_in; exists k; auto|]. split; [apply link_id_iff; assumption|reflexivity].
  Qed.
End D.

(* the labels *)
Section L.
  Context {Fl : Type} (wl : workload Fl).
  Lemma loose_grouped (t : transfer Fl) : loose t = negb (groupedb t).
  Proof. unfold loose, groupedb. lia. Qed.
  Definition label_of (ts : list (transfer Fl)) (i : nat) (t : transfer Fl) : Z :=
    if loose t then wl_groups wl + Z.of_nat (List.length (filter loose (firstn i ts))) else t_gid t.
  Lemma assigned (sts : list (tstate Fl)) : (forall i x, nth_error sts i = Some x -> t_id (s_tr x) = Z.of_nat i) -> forall gs, group_transfers wl sts = Ok gs ->
    gs_dummy gs = wl_groups wl + Z.of_nat (List.length (filter loose (map s_tr sts))) /\
    forall i x, nth_error sts i = Some x -> i_get (gs_ids gs) (Z.of_nat i) = Some (label_of (map s_tr sts) i (s_tr x)).
  Proof.
    unfold group_transfers. induction sts as [|s sts IH] using rev_ind; intros HI gs H.
    - injection H as <-. cbn [gs_dummy map filter List.length]. split; [lia|]. intros [|i] x Hx; discriminate Hx.
    - rewrite foldM_app in H. apply bind_ok in H as (gs1 & H1 & H). cbn [foldM] in H. apply bind_ok in H as (gs2 & H2 & H). injection H as <-.
      destruct (IH (fun i x Hx => HI i x ltac:(rewrite nth_error_app1 by (eapply nth_some_lt; exact Hx); exact Hx)) gs1 H1) as [I1 I2]. clear IH.
      assert (EI : t_id (s_tr s) = Z.of_nat (List.length sts)) by (apply HI; rewrite nth_error_app2 by lia; rewrite Nat.sub_diag; reflexivity).
      assert (Q : gs_dummy gs2 = gs_dummy gs1 + (if loose (s_tr s) then 1 else 0) /\ gs_ids gs2 = i_set (gs_ids gs1) (t_id (s_tr s)) (if loose (s_tr s) then gs_dummy gs1 else t_gid (s_tr s))).
      { unfold assign in H2. fold (groupedb (s_tr s)) in H2. rewrite loose_grouped. destruct (groupedb (s_tr s)); cbn [negb]; [injection H2 as <-; cbn [gs_dummy gs_ids]; split; [lia|reflexivity]|].
        destruct (_ <? _); [|discriminate H2]. injection H2 as <-. split; reflexivity. }
      destruct Q as [Q1 Q2]. rewrite Q1, Q2, map_app, filter_app, app_length. cbn [map filter]. split; [destruct (loose (s_tr s)); cbn [List.length]; lia|].
      intros i x Hx. rewrite i_get_set, EI. destruct (Nat.eq_dec i (List.length sts)) as [->|NE].
      + rewrite Z.eqb_refl. rewrite nth_error_app2, Nat.sub_diag in Hx by lia. injection Hx as <-. unfold label_of. rewrite firstn_app, map_length, Nat.sub_diag, firstn_O, app_nil_r.
        rewrite firstn_all2 by (rewrite map_length; lia). rewrite I1. reflexivity.
      + destruct (Z.eqb_spec (Z.of_nat i) (Z.of_nat (List.length sts))) as [E|_]; [lia|]. pose proof (nth_some_lt _ _ _ Hx) as L. rewrite app_length in L. cbn [List.length] in L.
        rewrite nth_error_app1 in Hx by lia. rewrite (I2 i x Hx). unfold label_of. rewrite firstn_app, map_length. replace (i - List.length sts)%nat with 0%nat by lia. rewrite firstn_O, app_nil_r. reflexivity.
  Qed.
End L.

Section R.
  Context (A : arith) (ord : Z -> list Z -> list Z) (bord : list bucket -> list bucket) (bord_perm : bucket_order bord).
  Context (gord : gmap -> gmap) (zord : zone_map -> zone_map) (topo : topology).
  Context (d : device) (cpt : Z) (wl : workload (F A)) (SD : supported d).
  Context (HW : proper wl) (HC : proper_cpt cpt) (model : string).
  Notation cong := (negb (String.eqb model "none")).
  Notation run := (runWithTimeline A ord bord gord zord topo).
  Notation succ := (succeeds A ord bord d cong cpt wl).
  Notation begins := (begins A ord bord d cong cpt wl).
  Notation step := (timestep A d cong cpt wl).

  (* a recorded timestep of the mesh *)
  Definition records (t : tstats A) : Prop :=
    t = fresh_ts A 0 0 \/ exists n s s', begins n s /\ step s = Ok s' /\ (ts_start A t, ts_end A t) = (sm_curr A s - cpt, sm_curr A s) /\
      ts_link A t = g_link (sm_grids A s') /\ ts_niu A t = g_niu (sm_grids A s') /\ NoDup (ts_live A t) /\ (forall i, In i (ts_live A t) <-> takes_part s s' i) /\
      (forall i, In i (ts_live A t) -> has_started A s' i).
  Lemma all_records stt ds : runSinglePerfSim A ord bord d model cpt wl = Ok (Stats stt) -> stats_get A stt MESH_DEVICE = Some ds -> Forall records (ds_ts A ds).
  Proof.
    intros HR HD. destruct (all_final A ord bord bord_perm d cpt wl HW HC model MESH_DEVICE (or_intror eq_refl) records) with (stt := stt) (ds := ds) as (FA & _); try assumption.
    - intros s s' live R T HL [ND HT]. right. destruct (reach_begins A ord bord d cong cpt wl s R) as (n & Hn). exists n, s, s'. split; [exact Hn|]. split; [exact T|].
      pose proof (device_timestep_iv A d (sm_grids A s') live MESH_DEVICE (fresh_ts A (sm_curr A s - cpt) (sm_curr A s))) as IV. split; [exact IV|]. clear IV.
      rewrite device_timestep_live. unfold device_timestep. cbn [ts_link ts_niu]. rewrite Z.eqb_refl. auto.
    - left. reflexivity.
  Qed.
  Lemma shown t dem : records t -> demands A d t = Ok dem -> t = fresh_ts A 0 0 /\ dem = [] \/
    exists n s s', begins n s /\ step s = Ok s' /\ (ts_start A t, ts_end A t) = (sm_curr A s - cpt, sm_curr A s) /\
      (NoDup (map fst dem) /\ forall c h v, In (c, h, v) dem <-> demand_at d (sm_grids A s') c h v /\ f_lt A (f_lit A 1 1000) v = true) /\
      NoDup (ts_live A t) /\ (forall i, In i (ts_live A t) <-> takes_part s s' i) /\ (forall i, In i (ts_live A t) -> has_started A s' i).
  Proof.
    intros [->|(n & s & s' & HB & HT & IV & EL & EN & ND & HI & HS)] H.
    - left. split; [reflexivity|]. injection H as <-. reflexivity.
    - right. exists n, s, s'. split; [assumption|]. split; [assumption|]. split; [assumption|]. split; [|auto]. apply (demands_spec A d (supported_wf d SD) t); assumption.
  Qed.

  Theorem run_steps thr stt files r tl p : run false thr d model cpt wl = Ok (Stats stt, files) -> document A files r tl -> In p (tl_steps A tl) -> filler A p \/
    exists n s s', begins n s /\ step s = Ok s' /\ shows_demand A d cpt s s' p /\ StronglySorted Z.lt (tp_active A p) /\
      forall g, In g (tp_active A p) <-> exists i, takes_part s s' i /\ label wl i g.
  Proof.
    intros H HDc Hp. pose proof (run_result A ord bord gord zord topo d cpt wl _ _ _ _ _ H) as HR. destruct (run_emit A ord bord gord zord topo d cpt wl _ _ _ _ _ H) as (sf & HS & HE).
    destruct (stats_get A stt MESH_DEVICE) as [ds|] eqn:HD; [|unfold emitSimTimelineToFile in HE; rewrite HD in HE; discriminate].
    assert (HV : v1 A gord zord d topo wl ds (sm_sts A sf) r = Ok (Some tl)) by (eapply emit_doc_at; eassumption).
    destruct (v1_inv A gord zord d topo wl _ _ _ _ HV) as (gs & tgs & HG & _ & _ & HP).
    assert (Q : exists t, In t (filter (fun t => in_region r (ts_start A t) (ts_end A t)) (ds_ts A ds)) /\ step_of A d (gs_ids gs) t = Ok p).
    { clear -HP Hp. induction HP as [|t q ts ps H HP IH]; [destruct Hp|]. destruct Hp as [<-|Hp]; [exists t; split; [left; reflexivity|assumption]|]. destruct (IH Hp) as (t' & H1 & H2). exists t'. split; [right; assumption|assumption]. }
    destruct Q as (t & Ht & Hst). apply filter_In in Ht as [Ht _]. pose proof (all_records stt ds HR HD) as FA. rewrite Forall_forall in FA. specialize (FA t Ht).
    unfold step_of in Hst. apply bind_ok in Hst as (dem & Hdem & Hst). injection Hst as <-. destruct (shown t dem FA Hdem) as [[-> ->]|(n & s & s' & HB & HT & IV & DS & ND & HI & HST)].
    - left. split; [reflexivity|]. split; reflexivity.
    - right. exists n, s, s'. split; [assumption|]. split; [assumption|]. split; [split; [exact IV|exact DS]|]. cbn [tp_active]. destruct (uniquify_Z_spec (map (fun i => group_id (gs_ids gs) (Z.of_nat i)) (ts_live A t))) as [U1 U2].
      split; [exact U1|]. intros g. rewrite U2, in_map_iff.
      assert (LB : forall i, In i (ts_live A t) -> forall k, group_id (gs_ids gs) (Z.of_nat i) = k <-> label wl i k).
      { intros i Hi k. destruct (final_start A ord bord bord_perm d cong cpt wl HW HC s s' sf i) as (x & Hx & _); try assumption; [eapply begins_reach; eassumption|apply HST; assumption|].
        destruct (assigned wl (sm_sts A sf) (fun i y => final_ids A ord bord bord_perm d cpt wl HW HC model sf i y HS) gs HG) as [_ AS]. pose proof (AS i x Hx) as E. unfold group_id. rewrite E. clear AS E.
        destruct (success_complete A ord bord bord_perm d cong cpt wl HW HC sf HS) as (LEN & SC & _).
        assert (ET : map s_tr (sm_sts A sf) = all_transfers wl).
        { apply nth_ext_error. intros j. rewrite nth_error_map. destruct (nth_error (sm_sts A sf) j) as [y|] eqn:Ey; cbn [option_map]; [symmetry; apply (SC j y Ey)|].
          symmetry. apply nth_error_None. apply nth_error_None in Ey. lia. }
        rewrite ET. pose proof (SC i x Hx) as [SX _]. unfold label, label_of. split; [intros <-; exists (s_tr x); auto|]. intros (t' & Ht' & ->). assert (t' = s_tr x) by congruence. subst t'. reflexivity. }
      split; [intros (i & E & Hi); exists i; split; [apply HI; assumption|apply LB; assumption]|intros (i & Hi & Hl)]. apply HI in Hi. exists i. split; [apply LB; assumption|assumption].
  Qed.

  (* the legacy format *)
  Theorem run_legacy thr stt files doc : run true thr d model cpt wl = Ok (Stats stt, files) -> In (FullV0 A doc) files -> Forall (fun p => filler A p \/
    exists n s s', begins n s /\ step s = Ok s' /\ shows_demand A d cpt s s' p /\ NoDup (tp_active A p) /\
      forall i, In i (tp_active A p) <-> exists k, takes_part s s' k /\ i = Z.of_nat k) (v0_steps A doc).
  Proof.
    intros H Hin. pose proof (run_result A ord bord gord zord topo d cpt wl _ _ _ _ _ H) as HR. destruct (run_emit A ord bord gord zord topo d cpt wl _ _ _ _ _ H) as (sf & HS & HE).
    unfold emitSimTimelineToFile in HE. destruct (stats_get A stt MESH_DEVICE) as [ds|] eqn:HD; [|discriminate]. apply bind_ok in HE as (doc' & HE & E). injection E as <-. destruct Hin as [E|[]]. injection E as ->.
    unfold v0 in HE. apply bind_ok in HE as (trs & _ & HE). apply bind_ok in HE as (ps & HP & HE). injection HE as <-. cbn [v0_steps]. apply mapM_Forall2 in HP.
    pose proof (all_records stt ds HR HD) as FA. clear H. induction HP as [|t p ts ps Hp HP IH]; [constructor|]. constructor; [|apply IH; exact (Forall_inv_tail FA)]. apply Forall_inv in FA.
    unfold v0_step_of in Hp. apply bind_ok in Hp as (dem & Hdem & Hp). injection Hp as <-. destruct (shown t dem FA Hdem) as [[-> ->]|(n & s & s' & HB & HT & IV & DS & ND & HI & HST)].
    - left. split; [reflexivity|]. split; reflexivity.
    - right. exists n, s, s'. split; [assumption|]. split; [assumption|]. split; [split; [exact IV|exact DS]|]. cbn [tp_active]. pose proof (sort_perm Z.ltb (map Z.of_nat (ts_live A t))) as P. split.
      + eapply Permutation_NoDup; [exact P|]. apply FinFun.Injective_map_NoDup; [intros a b; apply Nat2Z.inj|assumption].
      + intros i. split.
        * intros Hi. apply (Permutation_in _ (Permutation_sym P)) in Hi. apply in_map_iff in Hi as (k & <- & Hk). exists k. split; [apply HI; assumption|reflexivity].
        * intros (k & Hk & ->). apply (Permutation_in _ P). apply in_map, HI. assumption.
  Qed.
  (* without congestion no demand is shown *)
  Theorem run_calm thr stt files r tl p : f_lt A (f_lit A 1 1000) (f_zero A) = false -> cong = false -> run false thr d model cpt wl = Ok (Stats stt, files) -> document A files r tl -> In p (tl_steps A tl) -> tp_demand A p = [].
  Proof.
    intros HZ HF H HDc Hp. destruct (run_steps thr stt files r tl p H HDc Hp) as [(_ & _ & E)|(n & s & s' & HB & HT & (_ & _ & HD) & _)]; [exact E|].
    destruct (tp_demand A p) as [|[[c h] v] l]; [reflexivity|exfalso]. destruct (proj1 (HD c h v) (or_introl eq_refl)) as [H1 H2].
    assert (V : visited A ord bord d cong cpt wl s') by (right; exists s; split; [eapply begins_reach; eassumption|assumption]).
    rewrite (free_demand A ord bord bord_perm d cong cpt wl HW HC s' HF V) in H1.
    assert (Z : v = f_zero A).
    { destruct h as [[]|[]|ty]; destruct H1 as (k & _ & H1); cbn [zero_grids g_niu g_link] in H1; rewrite nth_error_map in H1; destruct (nth_error _ k); first [discriminate H1|injection H1 as <-; reflexivity]. }
    subst v. congruence.
  Qed.
End R.

Section V.
  Context (A : arith) (ord : Z -> list Z -> list Z) (bord : list bucket -> list bucket) (ord_perm : link_order ord) (bord_perm : bucket_order bord).
  Context (gord : gmap -> gmap) (zord : zone_map -> zone_map) (topo : topology).
  Context (d : device) (cpt : Z) (wl : workload (F A)) (SD : supported d).
  Context (HW : proper wl) (HC : proper_cpt cpt) (HG : Forall (on_grid d) (all_transfers wl)) (model : string).
  (* the transfers of a file in the legacy format *)
  Theorem legacy_transfers thr stt files doc : runWithTimeline A ord bord gord zord topo true thr d model cpt wl = Ok (Stats stt, files) -> In (FullV0 A doc) files ->
    exists sf, succeeds A ord bord d (negb (String.eqb model "none")) cpt wl sf /\ Forall2 (fun x v => v0_id A v = t_id (s_tr x) /\ v0_state A v = x /\ exists sg, describes A d x sg /\ v0_dst A v = sg_dst A sg /\ v0_route A v = sg_links A sg) (sm_sts A sf) (v0_transfers A doc).
  Proof.
    intros H Hin. destruct (run_emit A ord bord gord zord topo d cpt wl _ _ _ _ _ H) as (sf & HS & HE). exists sf. split; [assumption|].
    unfold emitSimTimelineToFile in HE. destruct (stats_get A stt MESH_DEVICE) as [ds|] eqn:HD; [|discriminate]. apply bind_ok in HE as (doc' & HE & E). injection E as <-. destruct Hin as [E|[]]. injection E as ->.
    unfold v0 in HE. apply bind_ok in HE as (trs & HT & HE). apply bind_ok in HE as (ps & _ & HE). injection HE as <-. cbn [v0_transfers]. apply mapM_Forall2 in HT.
    assert (FR : Forall (fun x => routed A d ord x /\ on_grid d (s_tr x)) (sm_sts A sf)).
    { apply Forall_forall. intros x Hx. apply In_nth_error in Hx as [i Hi]. eapply final_routed; eassumption. }
    clear -HT FR SD ord_perm. induction HT as [|x v xs vs Hx HT IH]; [constructor|]. constructor; [|apply IH; exact (Forall_inv_tail FR)]. apply Forall_inv in FR. cbn beta in FR. destruct FR as [F1 F2].
    unfold v0_transfer_of in Hx. apply bind_ok in Hx as (sg & Hs & Hx). injection Hx as <-. cbn [v0_id v0_state v0_dst v0_route]. split; [reflexivity|]. split; [reflexivity|]. exists sg. split; [|auto]. eapply segment_describes; eassumption.
  Qed.
End V.
