(* The span of a group in the timeline files covers its transfers (C66). *)
From Coq Require Import ZArith Arith Lia Bool String List Sorting.Permutation Sorting.Sorted ZifyBool ZifyNat.
From Verif Require Import Base Arith Util SpecUtil Device SpecDevice Workload SpecWorkload DepTracker Rates Stats Engine UtilProofs FactoryProofs WorkloadProofs SpecTracker TrackerProofs DepGenProofs
  SpecEngine SpecStats StepProofs EngineProofs RunProofs DepFacts EngineFacts EngineFacts2 EngineFacts3 EngineFacts4 EngineFacts5 SpecRates EngineFloat Timeline SpecTimeline TimelineProofs TimelineSplit TimelineLive SpecZones SpecGroups GroupProofs.
Import ListNotations.
Local Open Scope list_scope.
Open Scope Z_scope.
Ltac Zify.zify_post_hook ::= idtac.

Lemma strict_same {X} (k : X -> Z) (l m : list X) : StronglySorted (fun a b => k a < k b) l -> StronglySorted (fun a b => k a < k b) m -> (forall x, In x l <-> In x m) -> l = m.
Proof.
  revert m. induction l as [|a l IH]; intros m Sl Sm E.
  - destruct m as [|b m]; [reflexivity|]. destruct (proj2 (E b) (or_introl eq_refl)).
  - destruct m as [|b m]; [destruct (proj1 (E a) (or_introl eq_refl))|]. inversion Sl as [|? ? L1 L2]; inversion Sm as [|? ? M1 M2]; subst. rewrite Forall_forall in L2, M2.
    assert (a = b) as <-.
    { destruct (proj1 (E a) (or_introl eq_refl)) as [|Ha]; [congruence|]. destruct (proj2 (E b) (or_introl eq_refl)) as [|Hb]; [congruence|]. specialize (M2 _ Ha). specialize (L2 _ Hb). lia. }
    f_equal. apply IH; [assumption|assumption|]. intros x. split; intros Hx.
    + destruct (proj1 (E x) (or_intror Hx)) as [<-|]; [|assumption]. specialize (L2 _ Hx). lia.
    + destruct (proj2 (E x) (or_intror Hx)) as [<-|]; [|assumption]. specialize (M2 _ Hx). lia.
Qed.
Lemma adjacent_strict {X} (k : X -> Z) (l : list X) : (forall p a b q, l = p ++ [a; b] ++ q -> k a < k b) -> StronglySorted (fun a b => k a < k b) l.
Proof.
  intros H. apply Sorted_StronglySorted; [intros a b c; lia|]. induction l as [|a l IH]; [constructor|]. constructor.
  - apply IH. intros p x y q E. apply (H (a :: p) x y q). rewrite E. reflexivity.
  - destruct l as [|b l]; constructor. apply (H [] a b l). reflexivity.
Qed.
Lemma strict_key {X} (k : X -> Z) (l : list X) : StronglySorted (fun a b => k a < k b) l -> forall a b, In a l -> In b l -> k a = k b -> a = b.
Proof.
  induction 1 as [|x l S IH F]; intros a b Ha Hb E; [destruct Ha|]. rewrite Forall_forall in F. destruct Ha as [<-|Ha], Hb as [<-|Hb].
  - reflexivity.
  - specialize (F _ Hb). lia.
  - specialize (F _ Ha). lia.
  - auto.
Qed.
Lemma weak_strict {X} (k : X -> Z) (l : list X) : StronglySorted (fun a b => k a <= k b) l -> NoDup l -> (forall a b, In a l -> In b l -> k a = k b -> a = b) -> StronglySorted (fun a b => k a < k b) l.
Proof.
  induction 1 as [|x l S IH F]; intros ND K; [constructor|]. apply NoDup_cons_iff in ND as [N1 N2]. constructor.
  - apply IH; [assumption|]. intros a b Ha Hb. apply K; right; assumption.
  - rewrite Forall_forall in *. intros y Hy. specialize (F _ Hy). assert (k x <> k y); [|lia]. intros E. apply N1. rewrite (K x y (or_introl eq_refl) (or_intror Hy) E). assumption.
Qed.
(* intervals one after the other *)
Lemma chained_span {X} (s e : X -> Z) (l : list X) : Forall (fun x => s x <= e x) l -> (forall p a b q, l = p ++ [a; b] ++ q -> e a <= s b) ->
  forall first last mid mid', l = first :: mid -> l = mid' ++ [last] -> forall x, In x l -> s first <= s x /\ e x <= e last.
Proof.
  induction l as [|a l IH]; intros F H first last mid mid' E1 E2 x Hx; [destruct Hx|]. injection E1 as <- ->. pose proof (Forall_inv F) as Fa. cbn beta in Fa. apply Forall_inv_tail in F.
  destruct mid as [|b mid].
  - destruct Hx as [<-|[]]. destruct mid' as [|c mid']; [injection E2 as ->; split; lia|]. injection E2 as _ E2. destruct mid'; discriminate.
  - destruct mid' as [|c mid']; [discriminate|]. injection E2 as _ E2. pose proof (H [] a b mid eq_refl) as Hab. cbn beta in Hab.
    assert (HI : forall y, In y (b :: mid) -> s b <= s y /\ e y <= e last).
    { intros y Hy. eapply (IH F); [|reflexivity|exact E2|exact Hy]. intros p u v q E. apply (H (a :: p) u v q). rewrite E. reflexivity. }
    destruct Hx as [<-|Hx].
    + split; [lia|]. destruct (HI b (or_introl eq_refl)). pose proof (Forall_inv F) as Fb. cbn beta in Fb. lia.
    + destruct (HI x Hx). lia.
Qed.

Section Span.
  Context (ord : Z -> list Z -> list Z) (bord : list bucket -> list bucket) (ord_perm : link_order ord) (bord_perm : bucket_order bord).
  Context (gord : gmap -> gmap) (zord : zone_map -> zone_map) (gord_perm : map_order gord) (topo : topology).
  Context (d : device) (cpt : Z) (wl : workload (F f32A)) (HD : supported d).
  Context (HW : proper wl) (HC : proper_cpt cpt) (HG : Forall (on_grid d) (all_transfers wl)) (model : string).
  Context (HSnd : Forall sound_transfer (all_transfers wl)) (HCP : cpt <= 2 ^ 30).
  Notation cong := (negb (String.eqb model "none")).
  Notation run := (runWithTimeline f32A ord bord gord zord topo).

  Theorem run_span thr stt files r tl tg : registered wl -> wl_groups wl + Z.of_nat (List.length (all_transfers wl)) < 2 ^ 31 ->
    run false thr d model cpt wl = Ok (Stats stt, files) -> document f32A files r tl -> In tg (tl_groups f32A tl) ->
    chain f32A wl (tg_id f32A tg) -> Forall (fun sg => sg_start f32A sg <= 2 ^ 24) (tg_route f32A tg) ->
    Forall (fun sg => tg_start f32A tg <= sg_start f32A sg <= sg_end f32A sg /\ sg_end f32A sg <= tg_end f32A tg) (tg_route f32A tg).
  Proof.
    intros HRG HB H HDc Htg (ts & T1 & T2) HST.
    destruct (run_group f32A ord bord ord_perm bord_perm gord zord gord_perm topo d cpt wl HD HW HC HG model thr stt files r tl tg HRG HB H HDc Htg) as (sf & ss & HS & (M1 & M2 & M3) & HH & HF).
    destruct HH as (first & last & mid & mid' & E1 & E2 & _ & _ & _ & _ & F5 & F6 & _ & _).
    destruct (succeeds_end f32A ord bord d cong cpt wl sf HS) as [HE HFn]. pose proof (or_intror HE : visited f32A ord bord d cong cpt wl sf) as V.
    destruct (finished_all f32A sf HFn) as [HLv HQ].
    assert (FIN : forall i, (i < List.length (sm_sts f32A sf))%nat -> is_finished f32A sf i) by (intros i Hi; unfold is_finished, is_queued, is_live; rewrite HLv, HQ; cbn; auto).
    assert (SIN : forall x, In x ss -> In x (sm_sts f32A sf)).
    { intros x Hx. destruct M3 as [M3|(y & -> & M3 & _)]; [apply M3; assumption|]. destruct Hx as [<-|[]]. assumption. }
    assert (SST : Forall (fun x => s_start x <= 2 ^ 24) ss).
    { clear -HF HST. induction HF as [|x sg ss sgs (_ & _ & _ & E & _) HF IH]; [constructor|]. constructor; [rewrite <- E; exact (Forall_inv HST)|apply IH; exact (Forall_inv_tail HST)]. }
    assert (SE : Forall (fun x => s_start x <= s_end x) ss).
    { apply Forall_forall. intros x Hx. rewrite Forall_forall in SST. specialize (SST x Hx). apply SIN, In_nth_error in Hx as [i Hi].
      apply (end_after_start ord bord bord_perm d cong cpt wl HW HC HSnd sf i x HCP V (FIN i (nth_some_lt _ _ _ Hi)) Hi). assumption. }
    assert (ADJ : forall p a b q, ss = p ++ [a; b] ++ q -> s_end a <= s_start b).
    { destruct M3 as [M3|(y & -> & _)].
      2: { intros [|c [|c' p]] a b q E; discriminate E. }
      pose proof (adjacent_strict (fun t : transfer (F f32A) => t_gix t) ts (fun p a b q E => proj2 (T2 p a b q E))) as TS.
      assert (TR : forall x, In x (sm_sts f32A sf) -> In (s_tr x) (all_transfers wl)).
      { intros x Hx. apply In_nth_error in Hx as [i Hi]. eapply nth_error_In. eapply (visited_transfer f32A ord bord bord_perm d cong cpt wl HW HC sf i x V Hi). }
      assert (INJ : forall x y, In x (sm_sts f32A sf) -> In y (sm_sts f32A sf) -> s_tr x = s_tr y -> x = y).
      { intros x y Hx Hy E. apply In_nth_error in Hx as [i Hi]. apply In_nth_error in Hy as [j Hj].
        pose proof (final_ids f32A ord bord bord_perm d cpt wl HW HC model sf i x HS Hi) as Ei. pose proof (final_ids f32A ord bord bord_perm d cpt wl HW HC model sf j y HS Hj) as Ej. rewrite E in Ei. assert (i = j) by lia. congruence. }
      assert (STS : forall x, In x ss <-> In x (sm_sts f32A sf) /\ In (s_tr x) ts).
      { intros x. rewrite M3, T1. split; [intros (A1 & A2 & A3)|intros (A1 & A2 & A3 & A4)]; auto. }
      assert (SS : StronglySorted (fun a b => t_gix (s_tr a) < t_gix (s_tr b)) ss).
      { apply (weak_strict (fun x : tstate (F f32A) => t_gix (s_tr x))); [exact M2|assumption|]. intros a b Ha Hb E. apply STS in Ha as [A1 A2]. apply STS in Hb as [B1 B2]. apply INJ; [assumption|assumption|].
        exact (strict_key _ _ TS _ _ A2 B2 E). }
      assert (ET : map s_tr ss = ts).
      { apply (strict_same (fun t : transfer (F f32A) => t_gix t)); [|exact TS|].
        - clear -SS. induction SS as [|x l S IH F]; [constructor|]. cbn [map]. constructor; [assumption|]. rewrite Forall_forall in *. intros t Ht. apply in_map_iff in Ht as (y & <- & Hy). auto.
        - intros t. rewrite in_map_iff. split; [intros (x & <- & Hx); apply STS; assumption|]. intros Ht. pose proof Ht as Ht'. apply T1 in Ht' as (Ht' & _). apply In_nth_error in Ht' as [i Hi].
          destruct (visited_state f32A ord bord bord_perm d cong cpt wl HW HC sf i t V Hi) as (x & Hx & <-). exists x. split; [reflexivity|]. apply STS. split; [eapply nth_error_In; exact Hx|assumption]. }
      intros p a b q E. destruct (T2 (map s_tr p) (s_tr a) (s_tr b) (map s_tr q)) as [Q1 Q2]; [rewrite <- ET, E, map_app; reflexivity|].
      assert (Ia : In a ss) by (rewrite E; apply in_or_app; right; left; reflexivity). assert (Ib : In b ss) by (rewrite E; apply in_or_app; right; right; left; reflexivity).
      pose proof (proj1 (M3 a) Ia) as (A1 & A2 & A3). pose proof (proj1 (M3 b) Ib) as (B1 & B2 & B3). apply In_nth_error in B1 as [i Hi]. apply In_nth_error in A1 as [k Hk].
      assert (GP : has_group_parent f32A (s_tr b)) by (split; [apply B2|rewrite Q1; apply A2]).
      destruct (group_rule f32A ord bord bord_perm d cong cpt wl HW HC sf V i b Hi GP) as (_ & j & dl & y & D1 & D2 & _ & D4).
      assert (NP : names_parent f32A (s_tr b) (s_tr a)) by (split; congruence).
      assert (y = a) as ->.
      { destruct D4 as [[D4 D5]|[_ D4]]; [|exfalso; exact (D4 _ _ Hk NP)]. assert (Iy : In y ss).
        { apply M3. split; [eapply nth_error_In; exact D2|]. split; [split; [rewrite D4; apply B2|rewrite D5, Q1; apply A2]|congruence]. }
        apply STS in Iy as [Y1 Y2]. apply STS in Ia as [I1 I2]. apply INJ; [assumption|assumption|]. apply (strict_key _ _ TS); [assumption|assumption|]. congruence. }
      destruct (start_no_wrap ord bord bord_perm d cong cpt wl HW HC HSnd sf (supported_wf d HD) V i b Hi) with (j := j) (dl := dl) as (_ & z & Z1 & Z2 & Z3 & Z4 & Z5); [right; apply FIN; eapply nth_some_lt; exact Hi|exact D1|].
      assert (z = a) as -> by congruence. lia. }
    pose proof (chained_span s_start s_end ss SE ADJ first last mid mid' E1 E2) as SP. rewrite F5, F6. clear -HF SP SE.
    assert (G : Forall2 (fun x sg => sg_start f32A sg = s_start x /\ sg_end f32A sg = s_end x) ss (tg_route f32A tg)) by (eapply Forall2_imp; [exact HF|]; intros x sg (_ & _ & _ & D1 & D2 & _); auto).
    clear HF. apply Forall_forall. intros sg Hsg. assert (exists x, In x ss /\ sg_start f32A sg = s_start x /\ sg_end f32A sg = s_end x) as (x & Hx & X1 & X2).
    { clear -G Hsg. induction G as [|x y s1 s2 Hx HF IH]; [destruct Hsg|]. destruct Hsg as [<-|Hsg]; [exists x; split; [left; reflexivity|assumption]|]. destruct (IH Hsg) as (z & Z1 & Z2). exists z. split; [right; assumption|assumption]. }
    destruct (SP x Hx). rewrite Forall_forall in SE. specialize (SE x Hx). rewrite X1, X2. cbn beta in SE. lia.
  Qed.
End Span.
