(* Facts about runs, continued: credited cycles and assertions (C34), states across a timestep. *)
From Coq Require Import ZArith Arith QArith String List Bool Lia ZifyBool ZifyNat Sorting.Permutation Sorting.Sorted.
From Verif Require Import Base Arith Util Device Workload SpecWorkload DepTracker Rates Stats Engine UtilProofs
  WorkloadProofs SpecTracker TrackerProofs DepGenProofs StepProofs SpecEngine EngineProofs RunProofs DepFacts EngineFacts EngineFacts2.
Import ListNotations.
Open Scope Z_scope.
Ltac Zify.zify_post_hook ::= idtac.

(** * The middle of a timestep *)
Section Mid.
  Context (A : arith).
  Notation state := (tstate (F A)).
  Context (sts0 : list state) (E : list edge).
  Context (HE : Forall (edge_ok (List.length sts0)) E).
  Notation inv := (inv A sts0 E).
  Notation trk_of := (trk_of A E).
  Notation all_static := (all_static A sts0 E).
  Notation start_ok := (start_ok A E).
  Notation parent_in := (parent_in E).

  Lemma middle d congestion cpt s fin sts1 live1 q1 acts sts2 g2 : inv (sm_curr A s - cpt) s fin -> 0 <= cpt ->
    let n := List.length (sm_queue A s) in
    activate A n (sm_curr A s) (sm_trk A s) (Nat.pred n) 0 (sm_sts A s) (sm_live A s) (sm_queue A s) = Ok (sts1, live1, q1, acts) ->
    computeCurrentTransferRate A d (u32 (sm_curr A s - cpt)) (sm_curr A s) sts1 live1 (sm_grids A s) congestion = Ok (sts2, g2) ->
    NoDup live1 /\ (forall i, In i live1 -> ~ In i fin) /\ (forall i, In i live1 -> parent_in fin i) /\ all_static sts2 /\
    sm_trk A s = trk_of fin sts2 /\
    forall i x2, In i live1 -> nth_error sts2 i = Some x2 -> start_ok sts2 i x2 /\ s_start x2 <= sm_curr A s.
  Proof.
    intros I Hcpt n Hact Hrate. unfold n in Hact. clear n. destruct (part_ids _ _ _ _ _ _ I) as [ND IDS]. pose proof I as [HST HPT HTK HQ HSO HSTA HLV HFN].
    set (curr := sm_curr A s) in *. set (sot := u32 (curr - cpt)) in *.
    assert (HV : forall p, In p (sm_queue A s) -> exists x, nth_error (sm_sts A s) (snd p) = Some x /\ dep_ok A (sm_trk A s) x).
    { intros p Hp. destruct (HQ _ Hp) as (x & Hx & _). exists x. split; [assumption|]. rewrite HTK. eapply static_dep_ok. apply HST. eassumption. }
    destruct (activate_spec A (sm_trk A s) curr (sm_queue A s) [] [] (sm_sts A s) (sm_live A s) O) as (P1 & P2 & B' & C' & sts1' & E1 & E2 & E3 & E4 & E5 & E6 & E7 & E8).
    { eapply NoDup_app_l; exact ND. } { exact HV. }
    cbn [List.length app] in E2, E3. rewrite Nat.add_0_r, app_nil_r in E2. pose proof (eq_trans (eq_sym E2) Hact) as Hact'. clear E2 Hact. injection Hact' as <- <- <- <-. rename sts1' into sts1.
    set (act := map snd (filter (ready_at A (sm_trk A s) curr (sm_sts A s)) (rev P2))) in *.
    set (actP := filter (ready_at A (sm_trk A s) curr (sm_sts A s)) P2) in *.
    assert (Eact : forall i, In i act <-> In i (map snd actP)).
    { intros i. unfold act. rewrite filter_rev, map_rev, <- in_rev. reflexivity. }
    cbn [app] in E4.
    assert (PQ : Permutation (sm_queue A s) (actP ++ P1 ++ B')).
    { rewrite E1 at 1. rewrite E4. rewrite (filter_perm_split (ready_at A (sm_trk A s) curr (sm_sts A s)) P2) at 1. fold actP.
      rewrite !app_assoc. apply Permutation_app_tail. apply Permutation_app_comm. }
    assert (PA : Permutation act (map snd actP)).
    { unfold act. rewrite filter_rev, map_rev. symmetry. apply Permutation_rev. }
    assert (PQ' : Permutation (map snd (sm_queue A s)) (act ++ map snd (P1 ++ B'))).
    { rewrite PA, <- map_app. apply Permutation_map. exact PQ. }
    assert (HACT : forall i, In i act -> exists x, nth_error (sm_sts A s) i = Some x /\ t_off (s_tr x) <= curr /\
        ready A (sm_trk A s) curr x = true /\ s_start x = t_off (s_tr x)).
    { intros i. rewrite Eact. intros Hi. apply in_map_iff in Hi as (p & <- & Hp). unfold actP in Hp. apply filter_In in Hp as [Hp Hr].
      assert (Hin : In p (sm_queue A s)) by (rewrite E1; apply in_or_app; auto).
      destruct (HQ _ Hin) as (x & Hx & Hf & Hs & _). exists x. split; [assumption|]. rewrite Forall_forall in E5. specialize (E5 _ Hp). split; [lia|].
      unfold ready_at in Hr. rewrite Hx in Hr. auto. }
    assert (HS1 : List.length sts1 = List.length (sm_sts A s) /\ forall i x, nth_error (sm_sts A s) i = Some x ->
               nth_error sts1 i = Some (if in_dec Nat.eq_dec i act then activated A (sm_trk A s) x else x)).
    { split; [assumption|]. intros i x Hx. rewrite (E8 _ _ Hx). f_equal. apply if_in_ext. rewrite Eact. reflexivity. }
    assert (HALL1 : all_static sts1).
    { destruct HS1 as [L1 N1]. destruct HST as [L0 N0]. split; [congruence|]. intros i x Hx. pose proof (nth_some_lt _ _ _ Hx) as Hlt. rewrite L1 in Hlt.
      destruct (nth_lt_some _ _ Hlt) as [x0 Hx0]. rewrite (N1 _ _ Hx0) in Hx. injection Hx as <-. specialize (N0 _ _ Hx0). destruct (in_dec _ _ _); [|assumption].
      destruct N0 as (y & Y1 & Y2 & Y3 & Y4 & Y5). exists y. rewrite <- Y2, <- Y3, <- Y4, <- Y5. split; [assumption|].
      pose proof (activated_fields A (sm_trk A s) x0). tauto. }
    pose proof (rates_frame _ _ _ _ _ _ _ _ _ _ Hrate) as [L2 N2].
    assert (HALL2 : all_static sts2).
    { destruct HALL1 as [L0 N0]. split; [congruence|]. intros i x Hx. pose proof (nth_some_lt _ _ _ Hx) as Hlt. rewrite L2 in Hlt.
      destruct (nth_lt_some _ _ Hlt) as [x1 Hx1]. destruct (N2 _ _ Hx1) as (b & Hb & _). rewrite Hx in Hb. injection Hb as ->. exact (N0 _ _ Hx1). }
    assert (HSRC : forall i x2, nth_error sts2 i = Some x2 -> exists x b, nth_error (sm_sts A s) i = Some x /\
              x2 = with_bw (if in_dec Nat.eq_dec i act then activated A (sm_trk A s) x else x) b).
    { intros i x2 Hx2. pose proof (nth_some_lt _ _ _ Hx2) as Hlt. rewrite L2 in Hlt. destruct HS1 as [L1 N1]. rewrite L1 in Hlt.
      destruct (nth_lt_some _ _ Hlt) as [x Hx]. exists x. destruct (N2 _ _ (N1 _ _ Hx)) as (b & Hb & _). exists b. split; [assumption|]. congruence. }
    assert (HEND2 : forall i, end_at A sts2 i = end_at A (sm_sts A s) i).
    { intros i. unfold end_at. destruct (nth_error sts2 i) as [x2|] eqn:Ex2.
      - destruct (HSRC _ _ Ex2) as (x & b & Hx & ->). rewrite Hx. cbn [with_bw s_end]. destruct (in_dec _ _ _); [|reflexivity].
        apply (activated_fields A (sm_trk A s) x).
      - apply nth_error_None in Ex2. replace (nth_error (sm_sts A s) i) with (@None state); [reflexivity|]. symmetry. apply nth_error_None. destruct HS1. lia. }
    assert (HTK2 : sm_trk A s = trk_of fin sts2).
    { rewrite HTK. unfold EngineProofs.trk_of. apply map_ext. intros e. unfold cp_of. rewrite HEND2. reflexivity. }
    assert (NDL : NoDup ((sm_live A s ++ act) ++ fin ++ map snd (P1 ++ B'))).
    { eapply Permutation_NoDup; [|exact ND]. apply perm_step. exact PQ'. }
    assert (HDF : forall i, In i (sm_live A s ++ act) -> ~ In i fin).
    { intros i H1 H2. eapply NoDup_app_not; [exact NDL|exact H1|]. apply in_or_app; auto. }
    assert (HPAR : forall i, In i (sm_live A s ++ act) -> parent_in fin i).
    { intros i Hi. apply in_app_or in Hi as [Hi|Hi].
      - assert (Hlt : (i < List.length (sm_sts A s))%nat) by (apply IDS; rewrite !in_app_iff; auto).
        destruct (nth_lt_some _ _ Hlt) as [x Hx]. destruct (HSTA i x) as (_ & _ & HP); [apply in_or_app; auto|assumption|]. exact HP.
      - apply HACT in Hi as (x & Hx & _ & Hr & _). rewrite HTK in Hr. eapply ready_parent; [|exact Hr]. apply HST. assumption. }
    split; [eapply NoDup_app_l; exact NDL|]. split; [exact HDF|]. split; [exact HPAR|]. split; [exact HALL2|]. split; [exact HTK2|].
    intros i x2 Hi Hx2. destruct (HSRC _ _ Hx2) as (x & b & Hx & EX).
    set (y := if in_dec Nat.eq_dec i act then activated A (sm_trk A s) x else x) in *.
    assert (HY : start_ok (sm_sts A s) i y /\ s_start y <= curr).
    { unfold y. destruct (in_dec Nat.eq_dec i act) as [Ha|Ha].
      - destruct (HACT i Ha) as (x1 & Hx1 & Hoff & Hr & Hst). rewrite Hx in Hx1. injection Hx1 as <-.
        destruct HST as [_ HST']. pose proof (HST' _ _ Hx) as Hsx. rewrite HTK in Hr |- *. pose proof (ready_parent _ _ _ _ _ _ _ _ Hsx Hr) as [Hpa Hb].
        assert (SO : start_ok (sm_sts A s) i (activated A (trk_of fin (sm_sts A s)) x)) by (eapply activated_start; eassumption).
        split; [assumption|]. rewrite SO. assert (Et : s_tr (activated A (trk_of fin (sm_sts A s)) x) = s_tr x).
        { apply activated_fields. }
        rewrite Et. destruct (dep_of E i) as [k|] eqn:Ek; [|assumption]. destruct (nth_error E k) as [e|] eqn:Ee; [|assumption]. specialize (Hb _ _ eq_refl Ee). lia.
      - assert (In i (sm_live A s ++ fin)) by (rewrite !in_app_iff in *; tauto). destruct (HSTA i x H Hx) as (S1 & S2 & _). split; [assumption|]. lia. }
    destruct HY as [HY1 HY2]. subst x2. split; [|exact HY2]. unfold EngineProofs.start_ok in *. cbn [with_bw s_start s_tr]. rewrite HY1.
    destruct (dep_of E i) as [k|]; [|reflexivity]. destruct (nth_error E k); [|reflexivity]. rewrite HEND2. reflexivity.
  Qed.
End Mid.

(** * The credited cycles *)
Section Credit.
  Context (A : arith).
  Notation state := (tstate (F A)).
  (* the end cycle of the dependency, if there is one *)
  Lemma credited_bounds cpt curr tk (x : state) : 1 <= cpt < 2 ^ 32 -> 0 <= curr - cpt -> curr < 2 ^ 32 -> 0 <= s_start x <= curr ->
    (forall k, s_dep x = Some k -> exists c, nth_error tk k = Some c /\ 0 <= cp_end c < 2 ^ 32) ->
    exists c, credited_cycles A cpt curr (curr - cpt) tk x = Ok c /\ 0 <= c <= 2 * cpt /\
      (c <= Z.min cpt (curr - s_start x) \/
       exists k cp, s_dep x = Some k /\ nth_error tk k = Some cp /\ curr - 2 * cpt <= cp_end cp < curr - cpt /\ s_start x < curr - cpt /\
         0 <= curr - 2 * cpt /\ c = curr - Z.max (s_start x) (cp_end cp)).
  Proof.
    intros H1 H2 H3 H4 H5. unfold credited_cycles. rewrite (u32_id (curr - s_start x)) by lia.
    destruct (s_dep x) as [k|] eqn:Ek.
    2:{ eexists. split; [reflexivity|]. split; [lia|]. left. lia. }
    destruct (H5 _ eq_refl) as (c & Hc & Hr). unfold end_cycle, cp_at. rewrite Hc. cbn [bind].
    destruct ((s_start x <? curr - cpt) && ((u64 (curr - cpt - cpt) <=? cp_end c) && (cp_end c <? curr - cpt))) eqn:EB.
    2:{ eexists. split; [reflexivity|]. split; [lia|]. left. lia. }
    assert (P : 0 <= curr - cpt - cpt).
    { destruct (Z.lt_ge_cases (curr - cpt - cpt) 0) as [Hn|]; [|assumption]. exfalso.
      unfold u64 in EB. rewrite <- (Z.mod_add (curr - cpt - cpt) 1) in EB by discriminate. rewrite Z.mod_small in EB; change (2 ^ 64) with 18446744073709551616 in *; change (2 ^ 32) with 4294967296 in *; lia. }
    rewrite u64_id in EB by (change (2 ^ 32) with 4294967296 in *; change (2 ^ 64) with 18446744073709551616; lia).
    rewrite (u32_id (curr - Z.max _ _)) by lia. rewrite (u32_id (2 * cpt)) by lia. unfold tt_assert.
    replace (cpt <=? curr - Z.max (s_start x) (cp_end c)) with true by lia. cbn [bind].
    replace (curr - Z.max (s_start x) (cp_end c) <=? 2 * cpt) with true by lia. cbn [bind].
    eexists. split; [reflexivity|]. split; [lia|]. right. exists k, c. split; [reflexivity|]. split; [assumption|]. split; [lia|]. split; [lia|]. split; [lia|reflexivity].
  Qed.
End Credit.

(** * Assertions *)
Lemma nothrow_bind {X Y} (m : outcome X) (f : X -> outcome Y) e : (forall e', m <> Throw e') -> (forall x, m = Ok x -> f x <> Throw e) -> bind m f <> Throw e.
Proof. destruct m; cbn; intros H G; try discriminate; auto. exfalso. eapply H; reflexivity. Qed.
Lemma nothrow_uint A b x e : f_to_uint A b x <> Throw e.
Proof. unfold f_to_uint. destruct (f_trunc A x); [|discriminate]. destruct (_ && _); discriminate. Qed.
Lemma nothrow_golden {Fl} (wl : workload Fl) k e : getGoldenResultCycles wl k <> Throw e.
Proof. unfold getGoldenResultCycles. repeat match goal with |- context [match ?x with _ => _ end] => destruct x end; discriminate. Qed.

Section Run.
  Context (A : arith) (ord : Z -> list Z -> list Z) (bord : list bucket -> list bucket) (bord_perm : bucket_order bord).
  Context (d : device) (congestion : bool) (cpt : Z) (wl : workload (F A)).
  Context (HW : proper wl) (HC : proper_cpt cpt).
  Notation state := (tstate (F A)).
  Notation reach := (reach A ord bord d congestion cpt wl).
  Notation step_end := (step_end A ord bord d congestion cpt wl).
  Notation visited := (visited A ord bord d congestion cpt wl).
  Notation succeeds := (succeeds A ord bord d congestion cpt wl).
  Notation setup := (setup A ord bord d wl).
  Notation step := (timestep A d congestion cpt wl).

  Lemma reach_clock s : reach s -> u32 (sm_curr A s - cpt) = sm_curr A s - cpt /\ 0 <= sm_curr A s - cpt <= MAX_CYCLE_LIMIT /\ cpt <= sm_curr A s < 2 ^ 32.
  Proof.
    intros H. pose proof (reach_time A ord bord bord_perm d congestion cpt wl HW HC s H) as T. destruct (time_range ord cpt HC _ T) as [T1 T2].
    split; [|auto]. apply u32_id. destruct HC. lia.
  Qed.

  Theorem assertions_hold s sts1 live q acts sts2 g stt : reach s ->
    let curr := sm_curr A s in let sot := u32 (curr - cpt) in let n := List.length (sm_queue A s) in
    activate A n curr (sm_trk A s) (Nat.pred n) 0 (sm_sts A s) (sm_live A s) (sm_queue A s) = Ok (sts1, live, q, acts) ->
    computeCurrentTransferRate A d sot curr sts1 live (sm_grids A s) congestion = Ok (sts2, g) ->
    forall e, foldM (live_step A wl cpt curr sot) live (sts2, sm_trk A s, stt) <> Throw e.
  Proof.
    intros HR curr sot n H1 H2 e.
    destruct (reach_setup A ord bord bord_perm d congestion cpt wl HW s HR) as (sts0 & E & HS).
    destruct (setup_ok A ord bord bord_perm d wl HW _ _ HS) as [HE HRa].
    destruct (reach_inv A ord bord bord_perm d congestion cpt wl HW HC _ _ _ HS HR) as [fin I].
    destruct (reach_clock _ HR) as (K1 & K2 & K3). destruct HC as [HC1 HC2].
    destruct (middle A sts0 E d congestion cpt s fin sts1 live q acts sts2 g I ltac:(lia) H1 H2) as (ND & HDF & HPAR & HAS & HTK & HST).
    fold curr in HST, K1, K2, K3. rewrite HTK.
    assert (FB : forall i x, In i fin -> nth_error sts2 i = Some x -> 0 <= s_end x < 2 ^ 32).
    { intros i x Hi Hx. destruct (rates_frame _ _ _ _ _ _ _ _ _ _ H2) as [L2 N2].
      (* the end cycles come from s *)
      assert (EQ : end_at A sts2 i = end_at A (sm_sts A s) i -> 0 <= s_end x < 2 ^ 32).
      { intros EQ. unfold end_at in EQ. rewrite Hx in EQ. rewrite EQ. destruct (nth_error (sm_sts A s) i) as [y|] eqn:Ey; [|lia].
        apply (inv_fin _ _ _ _ _ _ I i y Hi Ey). }
      apply EQ. clear EQ. pose proof HTK as HT. rewrite (inv_trk _ _ _ _ _ _ I) in HT.
      (* activation and rates leave the end cycle *)
      assert (AE : forall m tk sp ac l lv qq r, activate A m curr tk sp ac l lv qq = Ok r -> forall k, end_at A (fst (fst (fst r))) k = end_at A l k).
      { clear. induction m as [|m IH]; intros tk sp ac l lv qq r H k; cbn [activate] in H; [injection H as <-; reflexivity|].
        apply bind_ok in H as (p & Hp & H). destruct (fst p <=? curr); [|injection H as <-; reflexivity].
        apply bind_ok in H as (x & Hx & H). apply vec_get_ok in Hx. apply bind_ok in H as (rd & _ & H). destruct rd; [|eapply IH; exact H].
        apply bind_ok in H as (l1 & Hl1 & H). apply bind_ok in H as (q1 & _ & H). rewrite (IH _ _ _ _ _ _ _ H).
        destruct (s_dep x); [|injection Hl1 as <-; reflexivity]. apply bind_ok in Hl1 as (ee & _ & Hl1). injection Hl1 as <-.
        unfold end_at. rewrite upd_nth. destruct (Nat.eqb_spec (snd p) k) as [<-|]; [|reflexivity]. rewrite Hx. reflexivity. }
      pose proof (AE _ _ _ _ _ _ _ _ H1 i) as AE'. cbn [fst] in AE'. rewrite <- AE'. unfold end_at.
      destruct (nth_error sts1 i) as [y|] eqn:Ey; [destruct (N2 _ _ Ey) as (b & -> & _); reflexivity|].
      apply nth_error_None in Ey. apply nth_some_lt in Hx. lia. }
    assert (SP : forall i x, In i live -> nth_error sts2 i = Some x -> 0 <= s_start x <= curr).
    { intros i x Hi Hx. destruct (HST _ _ Hi Hx) as [SO Hle]. split; [|exact Hle]. rewrite SO.
      destruct HAS as [_ HAS]. pose proof (static_ranges A sts0 E HRa i x (HAS _ _ Hx)) as (Ho & _).
      destruct (dep_of E i) as [k|]; [|lia]. destruct (nth_error E k); lia. }
    assert (G : forall r p st, live_inv A E wl cpt curr sot fin sts2 stt p st -> NoDup (p ++ r) -> (forall i, In i (p ++ r) -> In i live) ->
      foldM (live_step A wl cpt curr sot) r st <> Throw e).
    { induction r as [|id r IH]; intros p st LI NDp HIN; cbn [foldM]; [discriminate|].
      assert (Hid : In id live) by (apply HIN; apply in_or_app; right; left; reflexivity).
      assert (Hnp : ~ In id p) by (intros Hn; eapply NoDup_app_not; [exact NDp|exact Hn|left; reflexivity]).
      apply nothrow_bind.
      2:{ intros st1 Hst1. replace (p ++ id :: r) with ((p ++ [id]) ++ r) in * by (rewrite <- app_assoc; reflexivity).
          eapply IH; [|exact NDp|exact HIN]. eapply live_step_inv; [exact HAS|exact LI| | | |exact Hst1].
          - eapply NoDup_app_l; exact NDp. - intros i Hi. apply HDF, HIN. apply in_or_app; auto. - apply HPAR. exact Hid. }
      intros e'. destruct st as [[sts tk] stt1]. rewrite live_step_eq. apply nothrow_bind.
      { intros. unfold vec_get. destruct (nth_error sts id); discriminate. }
      intros x Hx. apply vec_get_ok in Hx.
      assert (Hx2 : nth_error sts2 id = Some x).
      { destruct (nth_error sts2 id) as [y|] eqn:Ey; [pose proof (li_rest _ _ _ _ _ _ _ _ _ _ _ LI _ _ Ey Hnp) as Hy; cbn [fst] in Hy; congruence|].
        apply nth_error_None in Ey. apply nth_some_lt in Hx. pose proof (li_len _ _ _ _ _ _ _ _ _ _ _ LI) as HL. cbn [fst] in HL. lia. }
      assert (HDp : forall i, In i p -> ~ In i fin) by (intros i Hi; apply HDF, HIN; apply in_or_app; auto).
      destruct (live_trk_end _ _ _ _ _ _ _ _ _ _ HAS _ _ _ _ LI HDp Hnp Hx2 (HPAR _ Hid)) as [Hend Hdone]. cbn [fst snd] in Hend, Hdone.
      pose proof HAS as [HAL HAS']. destruct (HAS' _ _ Hx2) as (x0 & Hx0 & _ & _ & Hreq & Hdep).
      destruct (HST _ _ Hid Hx2) as [SO Sle]. pose proof (SP _ _ Hid Hx2) as SPx.
      (* the dependency is done *)
      assert (DN : done (trk_of A E fin sts2) (s_dep x) curr = Ok true).
      { rewrite Hdep. unfold done. destruct (dep_of E id) as [k|] eqn:Ek; [|reflexivity]. destruct (dep_edge E _ _ Ek) as (ed & He & _).
        unfold cp_at. rewrite (trk_nth A E fin sts2 _ _ He). cbn [bind]. unfold cp_of. rewrite if_in by (eapply HPAR; eassumption).
        unfold cp_done. cbn [cp_completed cp_total cp_end cp_delay]. f_equal. unfold start_ok in SO. rewrite Ek, He in SO. cbn. lia. }
      rewrite Hdone, DN. cbn [bind tt_assert].
      assert (CR : exists c, credited_cycles A cpt curr sot (trk_of A E fin sts2) x = Ok c).
      { unfold sot. rewrite K1. destruct (credited_bounds A cpt curr (trk_of A E fin sts2) x) as (c & Hc & _); try lia; [|eauto].
        intros k Hk. rewrite Hdep in Hk. destruct (dep_edge E _ _ Hk) as (ed & He & _). eexists. split; [apply (trk_nth A E fin sts2 _ _ He)|].
        unfold cp_of. rewrite if_in by (eapply HPAR; eassumption). cbn [cp_end]. unfold end_at.
        rewrite Forall_forall in HE. destruct (HE _ (nth_error_In _ _ He)) as [_ Hp]. rewrite <- HAL in Hp. destruct (nth_lt_some _ _ Hp) as [y Hy].
        rewrite Hy. apply (FB (e_parent ed)); [eapply HPAR; eassumption|assumption]. }
      destruct CR as [c Hc]. rewrite (adv_ext _ _ _ _ _ _ _ Hend). unfold adv. rewrite Hc. cbn [bind].
      apply nothrow_bind.
      { intros e1. apply nothrow_bind; [intros; apply nothrow_uint|]. intros mb _. cbv zeta. destruct (_ =? _); [|discriminate].
        apply nothrow_bind; [intros; apply nothrow_uint|]. discriminate. }
      intros x' Hx'. destruct (is_complete A x'); [|discriminate].
      apply bind_ok in Hx' as (mb & _ & Hx'). assert (RQ : s_req x' = s_req x).
      { cbv zeta in Hx'. destruct (_ =? _); [apply bind_ok in Hx' as (ee & _ & Hx')|]; injection Hx' as <-; reflexivity. }
      destruct (update_all_spec (s_req x') (s_end x') tk) as (tk1 & T1 & _).
      { rewrite RQ, Hreq. apply reqs_from_NoDup. }
      { intros k Hk. rewrite RQ, Hreq in Hk. apply reqs_of_in in Hk as (ed & He & _). pose proof (li_trk _ _ _ _ _ _ _ _ _ _ _ LI) as LT. cbn [fst snd] in LT.
        rewrite LT, trk_length. eapply nth_some_lt; eassumption. }
      rewrite T1. cbn [bind]. apply nothrow_bind; [|discriminate]. intros e2. unfold note. apply nothrow_bind; [intros; apply nothrow_golden|].
      intros. apply nothrow_bind; [intros; apply nothrow_golden|]. discriminate. }
    apply (G live [] _); [apply live_inv_start|exact ND|auto].
  Qed.
End Run.
