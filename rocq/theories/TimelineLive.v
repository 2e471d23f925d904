(* The transfers that the timeline lists as active are described (C45). *)
From Coq Require Import ZArith Arith Lia Bool String List Sorting.Permutation Sorting.Sorted ZifyBool ZifyNat.
From Verif Require Import Base Arith Util Device Workload SpecWorkload DepTracker Rates Stats Engine UtilProofs WorkloadProofs SpecTracker TrackerProofs DepGenProofs SpecEngine SpecStats
  StepProofs EngineProofs RunProofs DepFacts EngineFacts EngineFacts2 EngineFacts3 EngineFacts4 EngineFacts5 StatsFacts StatsRun Timeline SpecTimeline TimelineProofs TimelineSplit.
Import ListNotations.
Local Open Scope list_scope.
Open Scope Z_scope.
Ltac Zify.zify_post_hook ::= idtac.

Section L.
  Context (A : arith) (ord : Z -> list Z -> list Z) (bord : list bucket -> list bucket) (bord_perm : bucket_order bord).
  Context (d : device) (congestion : bool) (cpt : Z) (wl : workload (F A)).
  Context (HW : proper wl) (HC : proper_cpt cpt).
  Notation reach := (reach A ord bord d congestion cpt wl).
  Notation begins := (begins A ord bord d congestion cpt wl).
  Notation visited := (visited A ord bord d congestion cpt wl).
  Notation step := (timestep A d congestion cpt wl).

  (* the start of a started transfer stays *)
  Lemma start_stays s s' i x : reach s -> step s = Ok s' -> has_started A s i -> nth_error (sm_sts A s) i = Some x ->
    has_started A s' i /\ exists x', nth_error (sm_sts A s') i = Some x' /\ s_start x' = s_start x.
  Proof.
    intros HR HT HI Hx. destruct (reach_setup A ord bord bord_perm d congestion cpt wl HW s HR) as (sts0 & E & HS).
    destruct (step_inv A ord bord bord_perm d congestion cpt wl HW HC _ _ _ _ HS HR HT) as (fin & act & sts1 & sts2 & stt & I & SR & I').
    assert (HF : In i (sm_live A s ++ fin)).
    { apply in_or_app. destruct HI as [HI|HI]; [left; exact HI|right; apply (finished_spec A ord cpt _ _ _ _ _ I); assumption]. }
    assert (NA : ~ In i act).
    { intros Ha. apply (sr_act _ _ _ _ _ _ _ _ _ _ _ SR) in Ha as [Ha _]. destruct (part_ids _ _ _ _ _ _ I) as [ND _]. eapply NoDup_app_not; [exact ND|exact Ha|exact HF]. }
    split.
    - apply in_app_or in HF as [HF|HF].
      + destruct (complete A (sm_sts A s') i) eqn:EC; [right; apply (finished_spec A ord cpt _ _ _ _ _ I'); apply in_or_app; right; apply filter_In; split; [apply in_or_app; left; exact HF|exact EC]|].
        left. unfold is_live. rewrite (sr_live _ _ _ _ _ _ _ _ _ _ _ SR). apply filter_In. rewrite EC. split; [apply in_or_app; left; exact HF|reflexivity].
      + right. apply (finished_spec A ord cpt _ _ _ _ _ I'). apply in_or_app. left. exact HF.
    - destruct (sr_sts1 _ _ _ _ _ _ _ _ _ _ _ SR) as [_ S1]. specialize (S1 _ _ Hx). rewrite if_not_in in S1 by assumption.
      destruct (rates_frame _ _ _ _ _ _ _ _ _ _ (sr_rates _ _ _ _ _ _ _ _ _ _ _ SR)) as [_ F2]. destruct (F2 _ _ S1) as (b & Hx2 & _).
      destruct (sr_sts _ _ _ _ _ _ _ _ _ _ _ SR) as [_ S2]. destruct (S2 _ _ Hx2) as [L1 L2].
      destruct (in_dec Nat.eq_dec i (sm_live A s ++ act)) as [Hi|Hi].
      + destruct (L1 Hi) as (x' & Ha & Hx'). apply adv_static in Ha as (_ & Ha & _). exists x'. split; [assumption|]. rewrite Ha. reflexivity.
      + eexists. split; [apply L2; assumption|]. reflexivity.
  Qed.
  Lemma begins_same n s s1 : begins n s -> begins n s1 -> s = s1.
  Proof.
    intros H. revert s1. induction H as [s H|n s s' HB IH HT HF HM]; intros s1 H1; inversion H1 as [? H2|? s0 s0' HB0 HT0 HF0 HM0]; subst.
    - congruence.
    - exfalso. inversion HB0.
    - exfalso. inversion HB.
    - apply IH in HB0. subst s0. rewrite HT in HT0. injection HT0 as <-. reflexivity.
  Qed.
  Lemma start_later n s s' i x : begins n s -> step s = Ok s' -> has_started A s' i -> nth_error (sm_sts A s') i = Some x ->
    forall m s2, begins m s2 -> (n < m)%nat -> has_started A s2 i /\ exists x2, nth_error (sm_sts A s2) i = Some x2 /\ s_start x2 = s_start x.
  Proof.
    intros HB HT HI Hx m s2 HB2. induction HB2 as [s2 H2|m s2 s2' HB2 IH HT2 HF2 HM2]; intros L.
    - inversion HB; lia.
    - destruct (Nat.eq_dec n m) as [->|N].
      + pose proof (begins_same _ _ _ HB HB2) as <-. rewrite HT in HT2. injection HT2 as <-. split; [exact HI|]. exists x. split; [exact Hx|reflexivity].
      + destruct IH as (HI2 & x2 & Hx2 & E2); [lia|]. destruct (start_stays s2 s2' i x2) as (HI3 & x3 & Hx3 & E3); try assumption.
        { eapply begins_reach; eassumption. }
        split; [exact HI3|]. exists x3. split; [exact Hx3|congruence].
  Qed.
  Lemma started_bound s s' i x : reach s -> step s = Ok s' -> has_started A s' i -> nth_error (sm_sts A s') i = Some x -> s_start x <= sm_curr A s.
  Proof.
    intros HR HT HI Hx. destruct (reach_setup A ord bord bord_perm d congestion cpt wl HW s HR) as (sts0 & E & HS).
    destruct (step_inv A ord bord bord_perm d congestion cpt wl HW HC _ _ _ _ HS HR HT) as (fin & act & sts1 & sts2 & stt & I & SR & I').
    apply (inv_started _ _ _ _ _ _ I' i x); [|assumption]. apply in_or_app. destruct HI as [HI|HI]; [left; exact HI|right; apply (finished_spec A ord cpt _ _ _ _ _ I'); assumption].
  Qed.
  (* the start recorded at the end of the run, for a transfer that is active in a timestep *)
  Lemma final_start s s' sf i : reach s -> step s = Ok s' -> has_started A s' i -> succeeds A ord bord d congestion cpt wl sf ->
    exists x, nth_error (sm_sts A sf) i = Some x /\ s_start x <= sm_curr A s.
  Proof.
    intros HR HT HI HF. destruct (succeeds_end A ord bord d congestion cpt wl sf HF) as [(s0 & HR0 & HT0) HFin].
    assert (V : visited s') by (right; exists s; auto).
    assert (EX : exists x, nth_error (sm_sts A s') i = Some x).
    { apply nth_lt_some. destruct (places A ord bord bord_perm d congestion cpt wl HW HC s' V) as (_ & _ & HL & HP). destruct HI as [HI|HI]; [|destruct HI as [HI _]; exact HI].
      destruct (reach_setup A ord bord bord_perm d congestion cpt wl HW s HR) as (sts0 & E & HS).
      destruct (step_inv A ord bord bord_perm d congestion cpt wl HW HC _ _ _ _ HS HR HT) as (fin & act & sts1 & sts2 & stt & I & SR & I').
      apply (part_ids _ _ _ _ _ _ I'). rewrite !in_app_iff. right. left. exact HI. }
    destruct EX as [x Hx]. pose proof (started_bound _ _ _ _ HR HT HI Hx) as B.
    destruct (reach_begins A ord bord d congestion cpt wl s HR) as (n & Hn).
    destruct (reach_begins A ord bord d congestion cpt wl s0 HR0) as (m & Hm).
    destruct (Nat.lt_trichotomy n m) as [L|[->|L]].
    - destruct (start_later _ _ _ _ _ Hn HT HI Hx _ _ Hm L) as (HI2 & x2 & Hx2 & E2). destruct (start_stays _ _ _ _ HR0 HT0 HI2 Hx2) as (_ & x3 & Hx3 & E3).
      exists x3. split; [assumption|lia].
    - pose proof (begins_same _ _ _ Hn Hm) as <-. rewrite HT in HT0. injection HT0 as <-. exists x. auto.
    - exfalso. clear HI Hx. revert HFin. clear -Hn Hm HT0 L. intros HFin. revert L. induction Hn as [s H|n s s' HB IH HT HF HM]; intros L; [inversion Hm; lia|].
      destruct (Nat.eq_dec m n) as [->|N]; [|apply IH; lia]. pose proof (begins_same _ _ _ HB Hm) as <-. rewrite HT in HT0. injection HT0 as <-. congruence.
  Qed.
End L.

Section D.
  Context (A : arith) (ord : Z -> list Z -> list Z) (bord : list bucket -> list bucket) (bord_perm : bucket_order bord).
  Context (gord : gmap -> gmap) (zord : zone_map -> zone_map) (gord_perm : map_order gord) (topo : topology).
  Context (d : device) (cpt : Z) (wl : workload (F A)).
  Context (HW : proper wl) (HC : proper_cpt cpt) (model : string).
  Notation cong := (negb (String.eqb model "none")).
  Notation run := (runWithTimeline A ord bord gord zord topo).

  Lemma device_timestep_live g live s e : ts_live A (device_timestep A d g live MESH_DEVICE (fresh_ts A s e)) = live.
  Proof. unfold device_timestep. cbn [ts_live]. rewrite Z.eqb_refl. reflexivity. Qed.

  (* every transfer that a recorded timestep lists has a state, and started by the end of the timestep *)
  Lemma live_final stt ds sf : runSinglePerfSim A ord bord d model cpt wl = Ok (Stats stt) -> succeeds A ord bord d cong cpt wl sf -> stats_get A stt MESH_DEVICE = Some ds ->
    forall t i, In t (ds_ts A ds) -> In i (ts_live A t) -> exists x, nth_error (sm_sts A sf) i = Some x /\ s_start x <= ts_end A t.
  Proof.
    intros HR HS HD. pose (P := fun t : tstats A => forall i, In i (ts_live A t) -> exists x, nth_error (sm_sts A sf) i = Some x /\ s_start x <= ts_end A t).
    destruct (all_final A ord bord bord_perm d cpt wl HW HC model MESH_DEVICE (or_intror eq_refl) P) with (stt := stt) (ds := ds) as (FA & _); try assumption.
    - intros s s' live R T HL _ i Hi. rewrite device_timestep_live in Hi.
      destruct (final_start A ord bord bord_perm d cong cpt wl HW HC s s' sf i R T (HL i Hi) HS) as (x & Hx & B). exists x. split; [exact Hx|].
      pose proof (f_equal snd (device_timestep_iv A d (sm_grids A s') live MESH_DEVICE (fresh_ts A (sm_curr A s - cpt) (sm_curr A s)))) as IV. cbn [snd] in IV. rewrite IV. exact B.
    - intros i [].
    - intros t i Ht. rewrite Forall_forall in FA. exact (FA t Ht i).
  Qed.

  Lemma succeeds_same s s' : succeeds A ord bord d cong cpt wl s -> succeeds A ord bord d cong cpt wl s' -> s = s'.
  Proof. unfold succeeds. congruence. Qed.
  Lemma final_ids sf i x : succeeds A ord bord d cong cpt wl sf -> nth_error (sm_sts A sf) i = Some x -> t_id (s_tr x) = Z.of_nat i.
  Proof.
    intros HS Hx. destruct (succeeds_end A ord bord d cong cpt wl sf HS) as [HE _].
    pose proof (visited_transfer A ord bord bord_perm d cong cpt wl HW HC sf i x (or_intror HE) Hx) as Ht. destruct HW as [(_ & HD & _) _].
    pose proof (map_nth_error t_id _ _ Ht) as H. rewrite HD in H. pose proof (nth_some_lt _ _ _ Ht) as L.
    assert (Hs : nth_error (map Z.of_nat (seq 0 (List.length (all_transfers wl)))) i = Some (Z.of_nat i)).
    { apply map_nth_error. rewrite (nth_error_nth' _ 0%nat) by (rewrite seq_length; exact L). rewrite seq_nth by exact L. reflexivity. }
    congruence.
  Qed.

  (* an active group: one of its transfers is live in a timestep of the file *)
  Lemma active_group stt ds sf r tl g : runSinglePerfSim A ord bord d model cpt wl = Ok (Stats stt) -> succeeds A ord bord d cong cpt wl sf -> stats_get A stt MESH_DEVICE = Some ds ->
    v1 A gord zord d topo wl ds (sm_sts A sf) r = Ok (Some tl) -> active tl g ->
    exists gs l, group_transfers wl (sm_sts A sf) = Ok gs /\ NoDup (map fst (gs_groups gs)) /\ In (g, l) (gs_groups gs) /\
      (exists t x, In t (ds_ts A ds) /\ in_region r (ts_start A t) (ts_end A t) = true /\ In x (sm_sts A sf) /\ In (t_id (s_tr x)) l /\ s_start x <= ts_end A t) /\
      (described tl g \/ group_of A d (sm_sts A sf) r (g, l) = Ok None).
  Proof.
    intros HR HS HD HV (p & Hp & Hg). destruct (v1_inv A gord zord d topo wl _ _ _ _ HV) as (gs & tgs & HG & HT & EG & HP). exists gs.
    assert (Q : exists t, In t (filter (fun t => in_region r (ts_start A t) (ts_end A t)) (ds_ts A ds)) /\ step_of A d (gs_ids gs) t = Ok p).
    { clear -HP Hp. induction HP as [|t q ts ps H HP IH]; [destruct Hp|]. destruct Hp as [<-|Hp]; [exists t; split; [left; reflexivity|assumption]|]. destruct (IH Hp) as (t' & H1 & H2). exists t'. split; [right; assumption|assumption]. }
    destruct Q as (t & Ht & Hst). apply filter_In in Ht as [Ht Hr]. unfold step_of in Hst. apply bind_ok in Hst as (dem & _ & Hst). injection Hst as <-. cbn [tp_active] in Hg.
    apply (proj1 (proj2 (uniquify_Z_spec _) _)) in Hg. apply in_map_iff in Hg as (i & Hi & Hl). destruct (live_final stt ds sf HR HS HD t i Ht Hl) as (x & Hx & B).
    pose proof (final_ids sf i x HS Hx) as EI. destruct (group_weak wl _ _ HG) as [W1 W2 W3].
    destruct (W2 x (nth_error_In _ _ Hx)) as (g' & Hg'). unfold sid in Hg'. rewrite EI in Hg'. unfold group_id in Hi. rewrite Hg' in Hi. subst g'.
    destruct (W3 _ _ Hg') as (l & Hgl & Hin). exists l. split; [assumption|]. split; [assumption|]. split; [assumption|]. split.
    - exists t, x. split; [assumption|]. split; [assumption|]. split; [eapply nth_error_In; eassumption|]. rewrite EI. auto.
    - assert (Hgo : In (g, l) (gord (gs_groups gs))) by (eapply Permutation_in; [symmetry; apply gord_perm|assumption]).
      assert (Q : exists o, group_of A d (sm_sts A sf) r (g, l) = Ok o /\ In o tgs).
      { clear -HT Hgo. induction HT as [|e o es os H HT IH]; [destruct Hgo|]. destruct Hgo as [->|Hgo]; [exists o; split; [assumption|left; reflexivity]|]. destruct (IH Hgo) as (o' & H1 & H2). exists o'. split; [assumption|right; assumption]. }
      destruct Q as ([tg|] & H1 & H2); [left|right; assumption]. exists tg. split.
      + rewrite EG. apply in_flat_map. exists (Some tg). split; [assumption|left; reflexivity].
      + unfold group_of in H1. apply bind_ok in H1 as (u & _ & H1). apply bind_ok in H1 as (ks & _ & H1). cbv zeta in H1.
        destruct (map snd (sort _ ks)) as [|a la]; [discriminate|]. destruct (rev (a :: la)) as [|b lb]; [discriminate|]. destruct (match r with None => true | Some rg => _ end); [|discriminate].
        apply bind_ok in H1 as (dst & _ & H1). apply bind_ok in H1 as (sg & _ & H1). injection H1 as <-. reflexivity.
  Qed.
  Theorem full_described thr stt files tl g : run false thr d model cpt wl = Ok (Stats stt, files) -> In (FullV1 A (Some tl)) files -> active tl g -> described tl g.
  Proof.
    intros H Hin HA. pose proof (run_result A ord bord gord zord topo d cpt wl _ _ _ _ _ H) as HR. destruct (run_emit A ord bord gord zord topo d cpt wl _ _ _ _ _ H) as (sf & HS & HE).
    destruct (stats_get A stt MESH_DEVICE) as [ds|] eqn:HD; [|unfold emitSimTimelineToFile in HE; rewrite HD in HE; discriminate].
    destruct (emit_cases A gord zord d topo wl _ _ _ _ _ HE HD) as (full & HV & HCs). cbv zeta in HCs.
    assert (EF : full = Some tl).
    { destruct HCs as [(_ & ->)|(_ & _ & sp & -> & HF)]; [destruct Hin as [E|[]]; injection E as ->; reflexivity|]. destruct Hin as [E|Hin]; [injection E as ->; reflexivity|].
      exfalso. clear -HF Hin. induction HF as [|i c is cs (rg & doc & -> & _) HF IH]; [destruct Hin|]. destruct Hin as [E|Hin]; [discriminate E|auto]. }
    subst full. destruct (active_group stt ds sf None tl g HR HS HD HV HA) as (gs & l & _ & _ & _ & _ & [D|D]); [exact D|exfalso].
    unfold group_of in D. apply bind_ok in D as (u & _ & D). apply bind_ok in D as (ks & _ & D). cbv zeta in D.
    destruct (map snd (sort _ ks)) as [|a la]; [discriminate|]. destruct (rev (a :: la)) as [|b lb]; [discriminate|].
    apply bind_ok in D as (dst & _ & D). apply bind_ok in D as (sg & _ & D). discriminate.
  Qed.

  (* the first and the last transfer of a group *)
  Lemma group_left_out sts rg g l : (forall i x, nth_error sts i = Some x -> t_id (s_tr x) = Z.of_nat i) -> group_of A d sts (Some rg) (g, l) = Ok None ->
    exists first last, In first sts /\ In last sts /\ In (t_id (s_tr first)) l /\ In (t_id (s_tr last)) l /\
      (forall y, In y sts -> In (t_id (s_tr y)) l -> t_gix (s_tr first) <= t_gix (s_tr y) <= t_gix (s_tr last)) /\
      ~ (rg_start rg <= s_start first < rg_end rg) /\ ~ (rg_start rg < s_end last <= rg_end rg).
  Proof.
    intros HI H. unfold group_of in H. cbn [fst snd] in H. apply bind_ok in H as (u & _ & H). apply bind_ok in H as (ks & HK & H). cbv zeta in H. apply mapM_Forall2 in HK.
    assert (KS : forall k, In k ks -> In (snd k) sts /\ In (t_id (s_tr (snd k))) l /\ fst k = t_gix (s_tr (snd k))).
    { clear H. induction HK as [|id k l ks Hk HK IH]; [intros k []|]. apply bind_ok in Hk as (x & Hx & E). injection E as <-. intros k' [<-|Hk'].
      - cbn [fst snd]. unfold state_of, grid_get in Hx. destruct (Z.ltb_spec id 0); [discriminate|]. unfold vec_get in Hx. destruct (nth_error sts (Z.to_nat id)) eqn:EN; [|discriminate]. injection Hx as <-.
        rewrite (HI _ _ EN). split; [eapply nth_error_In; eassumption|]. split; [left; lia|reflexivity].
      - destruct (IH k' Hk') as (H1 & H2 & H3). auto using in_cons. }
    assert (SK : forall y, In y sts -> In (t_id (s_tr y)) l -> In (t_gix (s_tr y), y) ks).
    { clear H KS. intros y Hy Hl. apply In_nth_error in Hy as [j Hj]. pose proof (HI _ _ Hj) as EJ. induction HK as [|id k l ks Hk HK IH]; [destruct Hl|].
      destruct Hl as [->|Hl]; [|right; auto]. left. rewrite EJ in Hk. unfold state_of, grid_get in Hk. replace (Z.of_nat j <? 0) with false in Hk by lia. rewrite Nat2Z.id in Hk. unfold vec_get in Hk. rewrite Hj in Hk. cbn [bind] in Hk. injection Hk as <-. reflexivity. }
    set (sk := sort (fun a b => fst a <? fst b) ks) in *.
    assert (PK : Permutation ks sk) by apply sort_perm.
    assert (ST : StronglySorted (fun a b => fst a <= fst b) sk).
    { unfold sk. clear. induction ks as [|k ks IH]; [constructor|]. cbn [sort]. revert IH. generalize (sort (fun a b : Z * tstate (F A) => fst a <? fst b) ks) as m. clear. induction m as [|a m IH]; intros S.
      - constructor; constructor.
      - inversion S as [|? ? S1 S2]; subst. cbn [sort_insert]. destruct (Z.ltb_spec (fst a) (fst k)).
        + constructor; [apply IH; assumption|]. eapply Permutation_Forall; [apply sort_insert_perm|]. constructor; [lia|assumption].
        + constructor; [assumption|]. constructor; [lia|]. eapply Forall_impl; [|exact S2]. cbn. lia. }
    destruct sk as [|kf rest] eqn:ESK; [cbn in H; discriminate|]. cbn [map] in H.
    destruct (rev (snd kf :: map snd rest)) as [|lastx rb] eqn:ER; [discriminate|].
    assert (EX : exists pre kl, kf :: rest = pre ++ [kl] /\ snd kl = lastx).
    { destruct (exists_last (l := kf :: rest)) as (pre & kl & EE); [discriminate|]. exists pre, kl. split; [assumption|].
      change (snd kf :: map snd rest) with (map snd (kf :: rest)) in ER. rewrite EE, map_app, rev_app_distr in ER. cbn in ER. injection ER as -> _. reflexivity. }
    destruct EX as (pre & kl & EE & <-). destruct (partially_contained rg (s_start (snd kf)) (s_end (snd kl))) eqn:EP.
    { apply bind_ok in H as (dst & _ & H). apply bind_ok in H as (sg & _ & H). discriminate. }
    assert (Kf : In kf ks) by (eapply Permutation_in; [symmetry; exact PK|left; reflexivity]).
    assert (Kl : In kl ks) by (eapply Permutation_in; [symmetry; exact PK|rewrite EE; apply in_or_app; right; left; reflexivity]).
    destruct (KS _ Kf) as (F1 & F2 & F3). destruct (KS _ Kl) as (L1 & L2 & L3). exists (snd kf), (snd kl). split; [assumption|]. split; [assumption|]. split; [assumption|]. split; [assumption|]. split.
    - intros y Hy Hl. pose proof (SK y Hy Hl) as K. eapply Permutation_in in K; [|exact PK]. rewrite <- F3, <- L3. split.
      + inversion ST as [|? ? S1 S2]; subst. destruct K as [->|K]; [cbn; lia|]. rewrite Forall_forall in S2. exact (S2 _ K).
      + rewrite EE in K, ST. apply in_app_or in K as [K|[->|[]]]; [|cbn; lia]. clear -ST K. induction pre as [|a pre IH]; [destruct K|]. cbn [app] in ST. inversion ST as [|? ? S1 S2]; subst.
        destruct K as [->|K]; [|auto]. rewrite Forall_forall in S2. apply (S2 kl). apply in_or_app. right. left. reflexivity.
    - unfold partially_contained in EP. lia.
  Qed.
  Theorem split_described thr stt files k rg tl g : run false thr d model cpt wl = Ok (Stats stt, files) -> In (Split A k rg (Some tl)) files -> active tl g -> ~ described tl g ->
    exists sf gs first last live, succeeds A ord bord d cong cpt wl sf /\ group_transfers wl (sm_sts A sf) = Ok gs /\
      In first (sm_sts A sf) /\ In last (sm_sts A sf) /\ In live (sm_sts A sf) /\
      in_group (gs_groups gs) g (t_id (s_tr first)) /\ in_group (gs_groups gs) g (t_id (s_tr last)) /\ in_group (gs_groups gs) g (t_id (s_tr live)) /\
      (forall y, In y (sm_sts A sf) -> in_group (gs_groups gs) g (t_id (s_tr y)) -> t_gix (s_tr first) <= t_gix (s_tr y) <= t_gix (s_tr last)) /\
      ~ (rg_start rg <= s_start first < rg_end rg) /\ ~ (rg_start rg < s_end last <= rg_end rg) /\ s_start live <= rg_end rg.
  Proof.
    intros H Hin HA ND. pose proof (run_result A ord bord gord zord topo d cpt wl _ _ _ _ _ H) as HR. destruct (run_emit A ord bord gord zord topo d cpt wl _ _ _ _ _ H) as (sf & HS & HE).
    destruct (stats_get A stt MESH_DEVICE) as [ds|] eqn:HD; [|unfold emitSimTimelineToFile in HE; rewrite HD in HE; discriminate].
    destruct (emit_cases A gord zord d topo wl _ _ _ _ _ HE HD) as (full & _ & HCs). cbv zeta in HCs.
    assert (HV : v1 A gord zord d topo wl ds (sm_sts A sf) (Some rg) = Ok (Some tl)).
    { destruct HCs as [(_ & ->)|(_ & _ & sp & -> & HF)]; [destruct Hin as [E|[]]; discriminate E|]. destruct Hin as [E|Hin]; [discriminate E|].
      clear -HF Hin. induction HF as [|i c is cs (rg' & doc & -> & _ & HV) HF IH]; [destruct Hin|]. destruct Hin as [E|Hin]; [injection E as _ E1 E2; subst; assumption|auto]. }
    destruct (active_group stt ds sf (Some rg) tl g HR HS HD HV HA) as (gs & l & HG & NDk & Hl & (t & x & Ht & Hr & Hx & Hxl & B) & [D|D]); [contradiction|].
    destruct (group_left_out (sm_sts A sf) rg g l (fun i y => final_ids sf i y HS) D) as (first & last & F1 & L1 & F2 & L2 & MM & O1 & O2).
    exists sf, gs, first, last, x. split; [assumption|]. split; [assumption|]. split; [assumption|]. split; [assumption|]. split; [assumption|].
    split; [exists l; auto|]. split; [exists l; auto|]. split; [exists l; auto|]. split.
    - intros y Hy (l' & Hl' & Hyl). apply MM; [assumption|]. apply (g_get_in _ _ _ NDk) in Hl. apply (g_get_in _ _ _ NDk) in Hl'. congruence.
    - split; [assumption|]. split; [assumption|]. cbn [in_region] in Hr. unfold fully_contained in Hr. lia.
  Qed.

  Lemma nth_ext_error {X} (l m : list X) : (forall i, nth_error l i = nth_error m i) -> l = m.
  Proof.
    revert m. induction l as [|a l IH]; intros [|b m] H; [reflexivity|specialize (H 0%nat); discriminate|specialize (H 0%nat); discriminate|].
    pose proof (H 0%nat) as E. cbn in E. injection E as ->. f_equal. apply IH. intros i. exact (H (S i)).
  Qed.
  (* the transfers of a finished run fall into groups *)
  Theorem run_groups sf : (forall t, In t (all_transfers wl) -> grouped t -> t_gid t < wl_groups wl) ->
    wl_groups wl + Z.of_nat (List.length (all_transfers wl)) < 2 ^ 31 -> succeeds A ord bord d cong cpt wl sf ->
    exists gs, group_transfers wl (sm_sts A sf) = Ok gs /\ check_groups (wl_groups wl) (gord (gs_groups gs)) (gs_ids gs) = Ok tt /\ NoDup (map fst (gs_groups gs)) /\
      (forall g id, in_group (gs_groups gs) g id -> exists t, In t (all_transfers wl) /\ id = t_id t) /\
      forall t, In t (all_transfers wl) -> exists g, (forall g', in_group (gs_groups gs) g' (t_id t) <-> g' = g) /\
        (grouped t -> g = t_gid t) /\
        (~ grouped t -> wl_groups wl <= g /\ forall id, in_group (gs_groups gs) g id -> id = t_id t).
  Proof.
    intros HG HB HS. destruct (succeeds_end A ord bord d cong cpt wl sf HS) as [HE _].
    assert (ET : map s_tr (sm_sts A sf) = all_transfers wl).
    { apply nth_ext_error. intros i. rewrite nth_error_map. destruct (nth_error (sm_sts A sf) i) as [x|] eqn:Ex; cbn [option_map].
      - symmetry. exact (visited_transfer A ord bord bord_perm d cong cpt wl HW HC sf i x (or_intror HE) Ex).
      - destruct (nth_error (all_transfers wl) i) as [t|] eqn:Et; [|reflexivity]. exfalso.
        destruct (visited_state A ord bord bord_perm d cong cpt wl HW HC sf i t (or_intror HE) Et) as (x & Hx & _). congruence. }
    assert (EI : map (fun s => t_id (s_tr s)) (sm_sts A sf) = map Z.of_nat (seq 0 (List.length (all_transfers wl)))).
    { rewrite <- (map_map s_tr t_id), ET. destruct HW as [(_ & HD & _) _]. exact HD. }
    destruct (groups_partition wl (sm_sts A sf)) with (gord := gord) as (gs & G1 & G2 & G3 & G4 & G5).
    - change (NoDup (map (fun s : tstate (F A) => t_id (s_tr s)) (sm_sts A sf))). rewrite EI. apply FinFun.Injective_map_NoDup; [intros a b; lia|apply seq_NoDup].
    - intros s Hs. apply HG. rewrite <- ET. apply in_map. exact Hs.
    - rewrite <- (map_length s_tr), ET. exact HB.
    - exact gord_perm.
    - exists gs. split; [exact G1|]. split; [exact G2|]. split; [exact G3|]. split.
      + intros g id Hg. destruct (G4 g id Hg) as (s & Hs & ->). exists (s_tr s). split; [rewrite <- ET; apply in_map, Hs|reflexivity].
      + intros t Ht. rewrite <- ET in Ht. apply in_map_iff in Ht as (s & <- & Hs). exact (G5 s Hs).
  Qed.
End D.
