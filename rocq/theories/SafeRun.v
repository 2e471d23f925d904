(* Simulating a validated workload in binary32 gives a result or an npe exception: no undefined behaviour, no other
   exception, no endless loop (C22, C31). *)
From Coq Require Import ZArith Arith Reals String List Bool Lia Lra ZifyBool ZifyNat Sorting.Permutation Sorting.Sorted Floats.SpecFloat.
From Flocq Require Import Core IEEE754.BinarySingleNaN.
From Verif Require Import Base Arith Util Device SpecDevice Workload SpecWorkload DepTracker Rates Stats Engine UtilProofs DeviceProofs RouteProofs MulticastProofs FactoryProofs
  WorkloadProofs SpecTracker TrackerProofs DepGenProofs StepProofs SpecEngine SpecRates SpecStats EngineProofs RunProofs EngineFacts EngineFacts2 EngineFacts3 FloatProofs EngineFloat IngestTotal SafeProofs SafeFloat.
Import ListNotations.
Local Open Scope list_scope.
Open Scope Z_scope.
Ltac Zify.zify_post_hook ::= idtac.

Lemma make_fine (A : arith) ord d (t : transfer (F A)) : link_order ord -> supported d -> accepted d t ->
  safe (make_state A ord d t) /\ forall x, make_state A ord d t = Ok x -> state_fine A d x.
Proof.
  intros OP HD HA. unfold make_state. destruct (route_safe d (t_noc t) t (supported_wf d HD) HA) as [S K]. split.
  - apply safe_bind; [exact S|]. intros; exact I.
  - intros x H. apply bind_ok in H as (r & Hr & H). injection H as <-. destruct (K r Hr) as [K1 K2]. split; [exact HA|]. split; [exact K2|]. cbn [s_route].
    destruct (t_dst t); [exact K1|]. rewrite Forall_forall in *. intros l Hl. apply K1. eapply Permutation_in; [apply OP|exact Hl].
Qed.

(** * Statistics *)
Section Keys.
  Context (A : arith) (wl : workload (F A)).
  Definition golden (id : Z) : Prop := exists w, getGoldenResultCycles wl id = Ok w.
  Definition keyed (stt : stats A) : Prop := Forall (fun e => golden (fst e)) stt.
  Lemma map_keys f stt stt' : stats_map A f stt = Ok stt' -> keyed stt -> keyed stt'.
  Proof.
    unfold stats_map. revert stt'. induction stt as [|[k ds] stt IH]; intros stt' H HK; cbn [mapM] in H; [injection H as <-; constructor|].
    apply bind_ok in H as (e & He & H). apply bind_ok in He as (ds' & _ & He). injection He as <-. apply bind_ok in H as (r & Hr & H). injection H as <-.
    inversion HK as [|? ? K1 K2]; subst. constructor; [exact K1|]. apply IH; assumption.
  Qed.
  Lemma insert_safe s e stt : keyed stt -> safe (insertTimestep A wl s e stt).
  Proof.
    intros HK. apply safe_map. intros [k ds] Hk. unfold keyed in HK. rewrite Forall_forall in HK. destruct (HK _ Hk) as (w & Hw). cbn [fst snd] in *. rewrite Hw. exact I.
  Qed.
  Lemma finish_safe cpt stt : cpt <> 0 -> keyed stt -> safe (finishSimulation A wl cpt stt).
  Proof.
    intros HC HK. apply safe_map. intros [k ds] Hk. unfold keyed in HK. rewrite Forall_forall in HK. destruct (HK _ Hk) as (w & Hw). cbn [fst snd] in *. unfold finish_device. rewrite Hw. cbn [bind].
    destruct (_ <=? _); [exact I|]. destruct (Z.eqb_spec cpt 0); [contradiction|exact I].
  Qed.
  Lemma update_keys d g live stt : keyed stt -> keyed (updateSimulationStats A d g live stt).
  Proof.
    unfold keyed, updateSimulationStats. intros H. apply Forall_map. eapply Forall_impl; [|exact H]. intros [k ds] Hk. cbn [fst snd] in *. destruct (rev _); exact Hk.
  Qed.
  Lemma worst_keys id off e g stt : golden id -> keyed stt -> keyed (updateWorstCase A id off e g stt).
  Proof.
    intros HI. unfold updateWorstCase. destruct (_ && _); [|trivial]. unfold keyed. induction stt as [|[k ds] stt IH]; intros H; cbn [stats_mod].
    - constructor; [exact HI|constructor].
    - inversion H as [|? ? H1 H2]; subst. destruct (k =? id); constructor; auto.
  Qed.
  Lemma note_safe (x : tstate (F A)) stt : golden (c_dev (t_src (s_tr x))) -> golden MESH_DEVICE -> safe (note A wl x stt).
  Proof. intros [w Hw] [v Hv]. unfold note. rewrite Hw, Hv. exact I. Qed.
  Lemma note_keys (x : tstate (F A)) stt stt' : golden (c_dev (t_src (s_tr x))) -> golden MESH_DEVICE -> note A wl x stt = Ok stt' -> keyed stt -> keyed stt'.
  Proof.
    intros G1 G2 H HK. unfold note in H. apply bind_ok in H as (w & _ & H). apply bind_ok in H as (v & _ & H). injection H as <-. apply worst_keys; [exact G2|]. apply worst_keys; assumption.
  Qed.
End Keys.

(* a workload whose simulation needs nothing that is missing *)
Definition ready_workload (d : device) (wl : workload (F f32A)) : Prop :=
  proper wl /\ Forall sound_transfer (all_transfers wl) /\ Forall (accepted d) (all_transfers wl) /\
  Forall (fun t => 0 < t_bytes t) (all_transfers wl) /\
  Forall (fun t => has_group_parent f32A t -> exists c, t_dst t = Unicast c) (all_transfers wl) /\
  forall id, has_stats d id -> golden f32A wl id.

Section Run.
  Context (ord : Z -> list Z -> list Z) (ord_perm : link_order ord) (bord : list bucket -> list bucket) (bord_perm : bucket_order bord).
  Context (d : device) (HD : supported d) (congestion : bool) (cpt : Z) (wl : workload (F f32A)) (HC : proper_cpt cpt) (HR : ready_workload d wl).
  Let WF : wf_device d := supported_wf d HD.
  Let HW : proper wl := proj1 HR.
  Notation state := (tstate (F f32A)).
  Notation reach := (reach f32A ord bord d congestion cpt wl).
  Notation step := (timestep f32A d congestion cpt wl).
  Notation fine := (state_fine f32A d).

  Lemma init_safe : safe (initTransferState f32A ord d wl) /\ forall sts, initTransferState f32A ord d wl = Ok sts -> Forall fine sts.
  Proof.
    rewrite (init_dense f32A ord d wl (proj1 HW)). fold (all_transfers wl). pose proof HR as (_ & _ & HA & _). rewrite Forall_forall in HA. split.
    - apply safe_map. intros t Ht. apply make_fine; [exact ord_perm|exact HD|apply HA; exact Ht].
    - intros sts H. apply mapM_Forall2 in H. apply Forall_forall. intros x Hx. destruct (In_nth_error _ _ Hx) as (i & Hi).
      assert (L : List.length (all_transfers wl) = List.length sts) by (eapply Forall2_length'; exact H).
      pose proof (nth_some_lt _ _ _ Hi) as Hlt. rewrite <- L in Hlt. destruct (nth_lt_some _ _ Hlt) as (t & Ht). apply (make_fine f32A ord d t); [exact ord_perm|exact HD|apply HA; eapply nth_error_In; exact Ht|].
      exact (Forall2_nth _ _ _ H _ _ _ Ht Hi).
  Qed.
  Lemma latency_made sx sy dx dy noc : exists l, write_latency d sx sy dx dy noc = Ok l.
  Proof.
    pose proof WF as (W1 & W2 & W3 & W4 & _). unfold write_latency, route_hops. cbv zeta. destruct (String.eqb noc "NOC_0").
    - destruct (modulo_range (dx - sx) (Z.of_nat (dv_cols d)) ltac:(lia)) as (a & -> & _). destruct (modulo_range (dy - sy) (Z.of_nat (dv_rows d)) ltac:(lia)) as (b & -> & _). cbn [bind]. eauto.
    - destruct (String.eqb noc "NOC_1").
      + destruct (modulo_range (sx - dx) (Z.of_nat (dv_cols d)) ltac:(lia)) as (a & -> & B1). destruct (modulo_range (sy - dy) (Z.of_nat (dv_rows d)) ltac:(lia)) as (b & -> & B2). cbn [bind]. eauto.
      + cbn [bind]. eauto.
  Qed.
  Lemma edges_safe sts : initTransferState f32A ord d wl = Ok sts -> safe (dep_edges f32A bord d sts).
  Proof.
    intros H. destruct (init_states f32A ord d wl HW _ H) as (_ & FS & NS). unfold dep_edges. apply safe_bind; [|intros bs _; apply safe_bind; [|intros; exact I]].
    - apply (safe_fold (fun _ => True)); [|exact I]. intros bs x _ _. split; [|auto]. apply safe_bind; [|intros; exact I]. unfold bucket_key. apply safe_bind; [|intros; exact I].
      destruct (s_route x); [exact I|]. apply safe_bind; [apply safe_linkattr|intros; exact I].
    - unfold group_edges. apply safe_bind; [|intros; exact I]. apply safe_map. intros x Hx. unfold group_edge. destruct (_ && _) eqn:EG; [|exact I].
      apply safe_bind; [|intros; exact I]. pose proof (group_parent_lt f32A ord sts x FS Hx) as PL. set (parent := group_get _ _ _) in *.
      destruct (In_nth_error _ _ Hx) as (i & Hi). destruct (NS i x Hi) as (Ht & _). pose proof (nth_error_In _ _ Ht) as Hin.
      pose proof HR as (_ & _ & _ & _ & HG & _). rewrite Forall_forall in HG. destruct (HG _ Hin) as (c & Hc); [split; lia|]. unfold group_delay. rewrite Hc.
      destruct (latency_made (c_col (t_src (s_tr x))) (c_row (t_src (s_tr x))) (c_col c) (c_row c) (noc_name (t_noc (s_tr x)))) as (l & El). rewrite El. cbn [bind].
      destruct (dv_arch d); [|exact I]. apply safe_bind; [apply safe_vec; exact PL|]. intros p _. destruct (c_dev (t_src (s_tr x)) =? c_dev (t_src (s_tr p))); [exact I|].
      assert (LR := latency_range ord d _ _ _ _ _ _ WF El). change (2 ^ 20) with 1048576 in LR. assert (U : u32 l = l) by (apply u32_id; change (2 ^ 32) with 4294967296; lia). rewrite U.
      pose proof HW as [_ HRg]. rewrite Forall_forall in HRg. destruct (HRg _ Hin) as (_ & _ & T3 & _).
      destruct (packet_delay_ok l (t_psize (s_tr x))) as (dl & Edl); [change (2 ^ 20) with 1048576; lia|exact T3|]. rewrite Edl. exact I.
  Qed.
  Lemma sim_init_safe : safe (sim_init f32A ord bord d cpt wl).
  Proof.
    unfold sim_init. apply safe_bind; [apply init_safe|]. intros sts H. cbv zeta. apply safe_bind; [|intros; exact I].
    destruct (init_states f32A ord d wl HW _ H) as (_ & FS & _). rewrite (genDependencies_eq f32A ord bord bord_perm d sts FS). apply safe_bind; [apply edges_safe; exact H|]. intros; exact I.
  Qed.

  (** * A timestep *)
  Lemma chip_stats c : in_grid d c -> has_stats d (c_dev c).
  Proof.
    intros (H & _). left. unfold dv_device_ids. apply in_map_iff. exists (Z.to_nat (c_dev c)). split; [lia|]. apply in_seq. lia.
  Qed.
  Lemma fine_golden x : fine x -> golden f32A wl (c_dev (t_src (s_tr x))).
  Proof. intros (HA & _). pose proof HR as (_ & _ & _ & _ & _ & HG). apply HG. apply chip_stats. apply HA. Qed.
  Lemma mesh_golden : golden f32A wl MESH_DEVICE.
  Proof. pose proof HR as (_ & _ & _ & _ & _ & HG). apply HG. right. reflexivity. Qed.
  Lemma static_fine sts0 E sts : setup f32A ord bord d wl sts0 E -> all_static f32A sts0 E sts -> forall i x, nth_error sts i = Some x -> fine x.
  Proof.
    intros [HS _] [_ HA] i x Hx. destruct (HA i x Hx) as (x0 & Hx0 & E1 & E2 & _). destruct init_safe as [_ K]. specialize (K _ HS). rewrite Forall_forall in K. specialize (K _ (nth_error_In _ _ Hx0)).
    destruct K as (K1 & K2 & K3). unfold state_fine. rewrite E1, E2. auto.
  Qed.
  Lemma note_all_keys sts ids : (forall i x, nth_error sts i = Some x -> fine x) -> forall stt stt', note_all f32A wl sts ids stt = Ok stt' -> keyed f32A wl stt -> keyed f32A wl stt'.
  Proof.
    intros HF. unfold note_all. induction ids as [|i ids IH]; intros stt stt' H HK; cbn [foldM] in H; [injection H as <-; exact HK|].
    apply bind_ok in H as (st1 & H1 & H). apply bind_ok in H1 as (x & Hx & H1). apply vec_get_ok in Hx. apply (IH _ _ H). eapply note_keys; [apply fine_golden; eapply HF; exact Hx|apply mesh_golden|exact H1|exact HK].
  Qed.
  Lemma reach_keys s : reach s -> keyed f32A wl (sm_stats f32A s).
  Proof.
    intros HRe. induction HRe as [s H|s s' HRe IH HT HF HM].
    - destruct (sim_init_eq f32A ord bord bord_perm d cpt wl HW _ H) as (sts0 & E & _ & ->). cbn [sm_stats]. unfold stats_make, keyed. apply Forall_app. split.
      + apply Forall_map. apply Forall_forall. intros id Hid. cbn [fst]. pose proof HR as (_ & _ & _ & _ & _ & HG). apply HG. left. exact Hid.
      + constructor; [apply mesh_golden|constructor].
    - cbn [advance sm_stats]. destruct (reach_setup f32A ord bord bord_perm d congestion cpt wl HW s HRe) as (sts0 & E & HS).
      destruct (step_inv f32A ord bord bord_perm d congestion cpt wl HW HC _ _ _ _ HS HRe HT) as (fin & act & sts1 & sts2 & stt & I & SR & I').
      destruct (sr_stats0 _ _ _ _ _ _ _ _ _ _ _ SR) as (stt1 & Hins & ->).
      refine (note_all_keys _ _ _ _ _ (sr_stats _ _ _ _ _ _ _ _ _ _ _ SR) _).
      + intros i x Hx. eapply static_fine; [exact HS|apply (inv_static _ _ _ _ _ _ I')|exact Hx].
      + apply update_keys. eapply map_keys; [exact Hins|exact IH].
  Qed.
  Lemma live_safe sts0 E fin sts2 stt0 curr sot : Forall (edge_ok (List.length sts0)) E -> all_static f32A sts0 E sts2 ->
    (forall i x, nth_error sts2 i = Some x -> fine x) ->
    forall r p st, live_inv f32A E wl cpt curr sot fin sts2 stt0 p st -> NoDup (p ++ r) -> (forall i, In i (p ++ r) -> ~ In i fin) -> (forall i, In i r -> parent_in E fin i) ->
    (forall i, In i r -> (i < List.length sts2)%nat) ->
    (forall i x, In i r -> nth_error sts2 i = Some x -> safe (adv f32A cpt curr sot (trk_of f32A E fin sts2) x)) ->
    safe (foldM (live_step f32A wl cpt curr sot) r st).
  Proof.
    intros HE HS HF. induction r as [|id r IH]; intros p st LI ND HDj HP HL HA; cbn [foldM]; [exact I|].
    assert (ND' : NoDup (p ++ [id])) by (replace (p ++ id :: r) with ((p ++ [id]) ++ r) in ND by (rewrite <- app_assoc; reflexivity); eapply NoDup_app_l; exact ND).
    assert (HD1 : forall i, In i (p ++ [id]) -> ~ In i fin) by (intros i Hi; apply HDj; rewrite in_app_iff in *; cbn [In] in *; tauto).
    assert (SS : safe (live_step f32A wl cpt curr sot st id)).
    { destruct st as [[sts tk] stt]. rewrite live_step_eq. destruct (nth_lt_some _ _ (HL id (or_introl eq_refl))) as (x & Hx).
      assert (Hid : ~ In id p) by (intros Hin; eapply NoDup_app_not; [exact ND|exact Hin|left; reflexivity]).
      destruct (live_trk_end f32A sts0 E wl cpt curr sot fin sts2 stt0 HS p _ id x LI) as [Hend _]; [intros i Hi; apply HDj; apply in_or_app; auto|exact Hid|exact Hx|apply HP; left; reflexivity|].
      destruct LI as [L1 L2 L3 L4 L5]. cbn [fst snd] in *. pose proof (L3 _ _ Hx Hid) as Hx'. unfold vec_get. rewrite Hx'. cbn [bind].
      apply safe_bind; [apply safe_done|]. intros dn _. apply safe_bind; [apply safe_assert|]. intros _ _.
      rewrite (adv_ext _ _ _ _ _ _ _ Hend). apply safe_bind; [apply (HA id x); [left; reflexivity|exact Hx]|]. intros x' Hadv. destruct (is_complete f32A x'); [|exact I].
      apply safe_bind. { apply (safe_fold (fun _ => True)); [|exact I]. intros tk' k _ _. split; [apply safe_update|auto]. }
      intros tk' _. apply safe_bind; [|intros; exact I]. apply adv_static in Hadv as ((E1 & _) & _). apply note_safe; [rewrite E1; apply fine_golden; eapply HF; exact Hx|apply mesh_golden]. }
    apply safe_bind; [exact SS|]. intros st' Hst'. apply (IH (p ++ [id])).
    - eapply live_step_inv; [exact HS|exact LI|exact ND'|exact HD1|apply HP; left; reflexivity|exact Hst'].
    - rewrite <- app_assoc. exact ND.
    - rewrite <- app_assoc. exact HDj.
    - intros i Hi. apply HP. right; assumption.
    - intros i Hi. apply HL. right; assumption.
    - intros i x Hi Hx. apply (HA i x); [right; exact Hi|exact Hx].
  Qed.

  Theorem step_safe s : reach s -> safe (step s).
  Proof.
    intros HRe. destruct (reach_setup f32A ord bord bord_perm d congestion cpt wl HW s HRe) as (sts0 & E & HS).
    destruct (reach_inv f32A ord bord bord_perm d congestion cpt wl HW HC _ _ _ HS HRe) as (fin & IV).
    destruct (setup_ok f32A ord bord bord_perm d wl HW _ _ HS) as [HE HRa].
    destruct (part_ids _ _ _ _ _ _ IV) as [ND IDS]. pose proof IV as [HST HPT HTK HQ HSO HSTA HLV HFN].
    pose proof (reach_time f32A ord bord bord_perm d congestion cpt wl HW HC s HRe) as TO. destruct (time_range ord cpt HC _ TO) as [TR1 TR2]. pose proof HC as [HC1 HC2]. destruct (time_sot ord cpt HC _ TO ltac:(lia)) as [SOT SOT0].
    unfold timestep. set (curr := sm_curr f32A s) in *. cbv zeta. rewrite SOT. set (sot := curr - cpt) in *.
    apply safe_bind; [apply insert_safe; apply reach_keys; exact HRe|]. intros stt1 Hins.
    assert (HV : forall p, In p (sm_queue f32A s) -> exists x, nth_error (sm_sts f32A s) (snd p) = Some x /\ dep_ok f32A (sm_trk f32A s) x).
    { intros p Hp. destruct (HQ _ Hp) as (x & Hx & _). exists x. split; [assumption|]. rewrite HTK. eapply static_dep_ok. apply HST. eassumption. }
    destruct (activate_spec f32A (sm_trk f32A s) curr (sm_queue f32A s) [] [] (sm_sts f32A s) (sm_live f32A s) O) as (P1 & P2 & B' & C' & sts1 & E1 & E2 & E3 & E4 & E5 & E6 & E7 & E8).
    { eapply NoDup_app_l; exact ND. } { exact HV. }
    cbn [List.length app] in E2, E3. rewrite Nat.add_0_r, app_nil_r in E2. unfold qpair in *. rewrite E2. cbn [bind]. clear E2.
    set (act := map snd (filter (ready_at f32A (sm_trk f32A s) curr (sm_sts f32A s)) (rev P2))) in *.
    set (actP := filter (ready_at f32A (sm_trk f32A s) curr (sm_sts f32A s)) P2) in *.
    assert (Eact : forall i, In i act <-> In i (map snd actP)).
    { intros i. unfold act. rewrite filter_rev, map_rev, <- in_rev. reflexivity. }
    cbn [app] in E4.
    assert (PQ : Permutation (sm_queue f32A s) (actP ++ P1 ++ B')).
    { rewrite E1 at 1. rewrite E4. rewrite (filter_perm_split (ready_at f32A (sm_trk f32A s) curr (sm_sts f32A s)) P2) at 1. fold actP.
      rewrite !app_assoc. apply Permutation_app_tail. apply Permutation_app_comm. }
    assert (PA : Permutation act (map snd actP)).
    { unfold act. rewrite filter_rev, map_rev. symmetry. apply Permutation_rev. }
    assert (PQ' : Permutation (map snd (sm_queue f32A s)) (act ++ map snd (P1 ++ B'))).
    { rewrite PA, <- map_app. apply Permutation_map. exact PQ. }
    assert (HACT : forall i, In i act -> In i (map snd (sm_queue f32A s)) /\
        exists x, nth_error (sm_sts f32A s) i = Some x /\ t_off (s_tr x) <= curr /\ ready f32A (sm_trk f32A s) curr x = true).
    { intros i. rewrite Eact. intros Hi. apply in_map_iff in Hi as (p & <- & Hp). unfold actP in Hp. apply filter_In in Hp as [Hp Hr].
      assert (Hin : In p (sm_queue f32A s)) by (rewrite E1; apply in_or_app; auto). split; [apply in_map; assumption|].
      destruct (HQ _ Hin) as (x & Hx & Hf & _). exists x. split; [assumption|]. rewrite Forall_forall in E5. specialize (E5 _ Hp). split; [lia|].
      unfold ready_at in Hr. rewrite Hx in Hr. assumption. }
    assert (HS1 : forall i x, nth_error (sm_sts f32A s) i = Some x -> nth_error sts1 i = Some (if in_dec Nat.eq_dec i act then activated f32A (sm_trk f32A s) x else x)).
    { intros i x Hx. rewrite (E8 _ _ Hx). f_equal. apply if_in_ext. rewrite Eact. reflexivity. }
    assert (HALL1 : all_static f32A sts0 E sts1).
    { destruct HST as [L0 N0]. split; [congruence|]. intros i x Hx. pose proof (nth_some_lt _ _ _ Hx) as Hlt. rewrite E7 in Hlt.
      destruct (nth_lt_some _ _ Hlt) as [x0 Hx0]. rewrite (HS1 _ _ Hx0) in Hx. injection Hx as <-. specialize (N0 _ _ Hx0). destruct (in_dec _ _ _); [|assumption].
      destruct N0 as (y & Y1 & Y2 & Y3 & Y4 & Y5). exists y. rewrite <- Y2, <- Y3, <- Y4, <- Y5. split; [assumption|].
      pose proof (activated_fields f32A (sm_trk f32A s) x0). tauto. }
    assert (NDL : NoDup ((sm_live f32A s ++ act) ++ fin ++ map snd (P1 ++ B'))).
    { eapply Permutation_NoDup; [|exact ND]. apply perm_step. exact PQ'. }
    assert (HDF : forall i, In i (sm_live f32A s ++ act) -> ~ In i fin).
    { intros i H1 H2. eapply NoDup_app_not; [exact NDL|exact H1|]. apply in_or_app; auto. }
    assert (HPAR : forall i, In i (sm_live f32A s ++ act) -> parent_in E fin i).
    { intros i Hi. apply in_app_or in Hi as [Hi|Hi].
      - assert (Hlt : (i < List.length (sm_sts f32A s))%nat) by (apply IDS; rewrite !in_app_iff; auto).
        destruct (nth_lt_some _ _ Hlt) as [x Hx]. destruct (HSTA i x) as (_ & _ & HP); [apply in_or_app; auto|assumption|]. exact HP.
      - apply HACT in Hi as [_ (x & Hx & _ & Hr)]. rewrite HTK in Hr. eapply ready_parent; [|exact Hr]. apply HST. assumption. }
    assert (HIN : forall i, In i (sm_live f32A s ++ act) -> (i < List.length (sm_sts f32A s))%nat).
    { intros i Hi. apply IDS. apply in_app_or in Hi as [Hi|Hi]; [rewrite !in_app_iff; auto|]. apply HACT in Hi as [Hi _]. apply in_or_app; auto. }
    (* the transfers that take part *)
    assert (HLIVE : forall i, In i (sm_live f32A s ++ act) -> exists y, nth_error sts1 i = Some y /\ fine y /\ sound_transfer (s_tr y) /\ 0 <= s_start y <= curr /\
        0 <= s_done y < t_bytes (s_tr y) /\ t_bytes (s_tr y) < 2 ^ 32 /\ s_end y = 0).
    { intros i Hi. destruct (nth_lt_some _ _ (HIN i Hi)) as [x Hx]. exists (if in_dec Nat.eq_dec i act then activated f32A (sm_trk f32A s) x else x). split; [apply HS1; exact Hx|].
      pose proof (HS1 _ _ Hx) as Hx1. set (y := if in_dec Nat.eq_dec i act then activated f32A (sm_trk f32A s) x else x) in *.
      destruct (activated_fields f32A (sm_trk f32A s) x) as (F1 & F2 & F3 & F4 & F5 & F6 & F7).
      assert (T : s_tr y = s_tr x) by (unfold y; destruct (in_dec _ _ _); [exact F1|reflexivity]).
      assert (Hin : In (s_tr x) (all_transfers wl)).
      { destruct HST as [_ N0]. destruct (N0 _ _ Hx) as (x0 & Hx0 & -> & _). destruct HS as [HI _]. destruct (init_states f32A ord d wl HW _ HI) as (_ & _ & NS). destruct (NS _ _ Hx0) as (Ht & _). eapply nth_error_In; exact Ht. }
      pose proof HR as (_ & R2 & _ & R4 & _). pose proof HW as [_ HRg]. rewrite Forall_forall in R2, R4, HRg. specialize (R2 _ Hin). specialize (R4 _ Hin). destruct (HRg _ Hin) as (T1 & T2 & _).
      split; [eapply static_fine; [exact HS|exact HALL1|exact Hx1]|]. rewrite T. split; [exact R2|].
      assert (NN : start_ok f32A E (sm_sts f32A s) i y -> 0 <= s_start y).
      { intros SO. unfold start_ok in SO. rewrite SO, T. destruct (dep_of E i) as [k|]; [|lia]. destruct (nth_error E k); lia. }
      destruct (in_dec Nat.eq_dec i act) as [Ha|Ha].
      - unfold y in *. destruct (HACT i Ha) as [Hq (x1 & Hx1' & Hoff & Hr)]. rewrite Hx in Hx1'. injection Hx1' as <-. apply in_map_iff in Hq as (p & Hp1 & Hp2). destruct (HQ _ Hp2) as (x1 & Hx1' & Q1 & Q2 & Q3 & Q4). rewrite Hp1, Hx in Hx1'. injection Hx1' as <-.
        destruct HST as [_ N0]. pose proof (N0 _ _ Hx) as SX. rewrite HTK in Hr. destruct (ready_parent f32A sts0 E fin (sm_sts f32A s) curr i x SX Hr) as [RP1 RP2].
        pose proof (activated_start f32A sts0 E fin (sm_sts f32A s) i x SX Q2 RP1) as SO. rewrite <- HTK in SO.
        split; [split; [apply NN; exact SO|]|].
        + unfold start_ok in SO. rewrite SO, T. destruct (dep_of E i) as [k|] eqn:Ek; [|exact Hoff]. destruct (nth_error E k) as [e|] eqn:Ee; [|exact Hoff]. specialize (RP2 _ _ eq_refl Ee). lia.
        + repeat split; try lia; congruence.
      - unfold y in *. assert (Hl : In i (sm_live f32A s)) by (apply in_app_or in Hi as [|]; [assumption|contradiction]). destruct (HSTA i x) as (S1 & S2 & _); [apply in_or_app; auto|exact Hx|]. destruct (HLV i x Hl Hx) as [L1 L2].
        split; [split; [apply NN; exact S1|lia]|]. split; [exact L1|]. split; [lia|exact L2]. }
    apply safe_bind. { apply rates_safe; [exact HD|]. intros i Hi. destruct (HLIVE i Hi) as (y & Hy & FY & _). eauto. }
    intros [sts2 g2] Hrate. apply safe_bind; [|intros [[? ?] ?] _; exact I].
    pose proof (rates_frame _ _ _ _ _ _ _ _ _ _ Hrate) as [L2 N2].
    assert (HALL2 : all_static f32A sts0 E sts2).
    { destruct HALL1 as [L0 N0]. split; [congruence|]. intros i x Hx. pose proof (nth_some_lt _ _ _ Hx) as Hlt. rewrite L2 in Hlt.
      destruct (nth_lt_some _ _ Hlt) as [x1 Hx1]. destruct (N2 _ _ Hx1) as (b & Hb & _). rewrite Hx in Hb. injection Hb as ->. exact (N0 _ _ Hx1). }
    assert (HSRC : forall i x2, nth_error sts2 i = Some x2 -> exists x b, nth_error (sm_sts f32A s) i = Some x /\
              x2 = with_bw (if in_dec Nat.eq_dec i act then activated f32A (sm_trk f32A s) x else x) b).
    { intros i x2 Hx2. pose proof (nth_some_lt _ _ _ Hx2) as Hlt. rewrite L2, E7 in Hlt.
      destruct (nth_lt_some _ _ Hlt) as [x Hx]. exists x. destruct (N2 _ _ (HS1 _ _ Hx)) as (b & Hb & _). exists b. split; [assumption|]. congruence. }
    assert (HEND2 : forall i, end_at f32A sts2 i = end_at f32A (sm_sts f32A s) i).
    { intros i. unfold end_at. destruct (nth_error sts2 i) as [x2|] eqn:Ex2.
      - destruct (HSRC _ _ Ex2) as (x & b & Hx & ->). rewrite Hx. cbn [with_bw s_end]. destruct (in_dec _ _ _); [|reflexivity].
        apply (activated_fields f32A (sm_trk f32A s) x).
      - apply nth_error_None in Ex2. replace (nth_error (sm_sts f32A s) i) with (@None state); [reflexivity|]. symmetry. apply nth_error_None. lia. }
    assert (HTK2 : sm_trk f32A s = trk_of f32A E fin sts2).
    { rewrite HTK. unfold trk_of. apply map_ext. intros e. unfold cp_of. rewrite HEND2. reflexivity. }
    assert (G : safe (foldM (live_step f32A wl cpt curr sot) (sm_live f32A s ++ act) (sts2, trk_of f32A E fin sts2, updateSimulationStats f32A d g2 (sm_live f32A s ++ act) stt1))); [|rewrite <- HTK2 in G; exact G].
    apply (live_safe sts0 E fin sts2 (updateSimulationStats f32A d g2 (sm_live f32A s ++ act) stt1) curr sot HE HALL2) with (p := []).
    - intros i x Hx. eapply static_fine; [exact HS|exact HALL2|exact Hx].
    - apply live_inv_start.
    - cbn [app]. eapply NoDup_app_l; exact NDL.
    - cbn [app]. exact HDF.
    - exact HPAR.
    - intros i Hi. rewrite L2, E7. apply HIN. exact Hi.
    - intros i x2 Hi Hx2. destruct (HLIVE i Hi) as (y & Hy & _ & SD & ST & DN & BY & _). destruct (N2 _ _ Hy) as (b & Hb & _). rewrite Hx2 in Hb. injection Hb as ->.
      destruct (bounded_bw d sot curr sts1 (sm_live f32A s ++ act) (sm_grids f32A s) congestion sts2 g2) with (i := i) (x := with_bw y b) as [B1 B2]; try assumption.
      + split; [destruct HC; lia|]. lia.
      + split; [eapply NoDup_app_l; exact NDL|]. intros j z Hj Hz. destruct (HLIVE j Hj) as (z' & Hz' & _ & SD' & ST' & _). assert (z' = z) as -> by (assert (Some z' = Some z) by (rewrite <- Hz'; exact Hz); congruence). split; assumption.
      + apply adv_safe; [exact HC|exact B1|exact B2| | |exact DN|exact BY]; [|lia]. change (s_start (with_bw y b)) with (s_start y). lia.
  Qed.

  (** * The simulation *)
  Lemma loop_safe fuel : forall s, reach s -> safe (sim_loop f32A fuel d congestion cpt wl s) \/ sim_loop f32A fuel d congestion cpt wl s = Diverge.
  Proof.
    induction fuel as [|fuel IH]; intros s HRe; cbn [sim_loop]; [right; reflexivity|]. pose proof (step_safe s HRe) as S. destruct (step s) as [s'| | | | | |] eqn:ES; try contradiction; cbn [bind]; [|left; exact I].
    destruct (finished f32A s') eqn:EF; [left; exact I|]. destruct (Z.ltb_spec MAX_CYCLE_LIMIT (sm_curr f32A s')); [left; exact I|]. apply IH. eapply reach_step; eassumption.
  Qed.
  Theorem simulate_safe : safe (simulate f32A ord bord d congestion cpt wl).
  Proof.
    assert (S : safe (simulate f32A ord bord d congestion cpt wl) \/ simulate f32A ord bord d congestion cpt wl = Diverge).
    { unfold simulate. pose proof sim_init_safe as S. destruct (sim_init f32A ord bord d cpt wl) as [s| | | | | |] eqn:EI; try contradiction; cbn [bind]; [|left; exact I].
      apply loop_safe. apply reach_init. exact EI. }
    destruct S as [S|S]; [exact S|]. exfalso. destruct (simulation_diverges f32A ord bord bord_perm d congestion cpt wl HW HC S) as [H|(s1 & H1 & H2)].
    - pose proof sim_init_safe as S1. rewrite H in S1. contradiction.
    - pose proof (step_safe s1 H1) as S1. rewrite H2 in S1. contradiction.
  Qed.
End Run.
