(* The dependencies of a run, in terms of the transfers. *)
From Coq Require Import ZArith Arith String List Bool Lia ZifyBool ZifyNat Sorting.Permutation Sorting.Sorted.
From Verif Require Import Base Arith Util Device Workload SpecWorkload DepTracker Rates Stats Engine UtilProofs
  WorkloadProofs SpecTracker TrackerProofs DepGenProofs StepProofs SpecEngine EngineProofs RunProofs.
Import ListNotations.
Open Scope Z_scope.
Ltac Zify.zify_post_hook ::= idtac.

Lemma sorted_nth {X} (R : X -> X -> Prop) l : StronglySorted R l ->
  forall p q a b, nth_error l p = Some a -> nth_error l q = Some b -> (p < q)%nat -> R a b.
Proof.
  induction 1 as [|x l HS IH HF]; intros p q a b Hp Hq Hlt; [destruct p; discriminate|].
  destruct q as [|q]; [lia|]. cbn in Hq. destruct p as [|p]; cbn in Hp.
  - injection Hp as <-. rewrite Forall_forall in HF. apply HF. eapply nth_error_In; eassumption.
  - eapply IH; eauto. lia.
Qed.
Lemma concat_single {X Y} (f : X -> outcome (list Y)) l es : mapM f l = Ok es ->
  forall y, In y (concat es) <-> exists x ys, In x l /\ f x = Ok ys /\ In y ys.
Proof.
  intros H y. apply mapM_Forall2 in H. rewrite in_concat. split.
  - intros (ys & Hys & Hy). destruct (Forall2_In_r _ _ _ _ H Hys) as (x & Hx & Hf). eauto.
  - intros (x & ys & Hx & Hf & Hy). destruct (Forall2_In_l _ _ _ _ H Hx) as (ys' & Hys' & Hf'). exists ys'. split; [assumption|]. congruence.
Qed.

Section Dep.
  Context (A : arith) (ord : Z -> list Z -> list Z) (bord : list bucket -> list bucket) (bord_perm : bucket_order bord).
  Context (d : device).
  Notation state := (tstate (F A)).
  Notation same_lane := (same_lane A d).
  Notation before := (before A).

  (* bucket keys are equal exactly for transfers of one lane *)
  Lemma key_lane (x y : state) kx ky : bucket_key A d x = Ok kx -> bucket_key A d y = Ok ky -> (kx = ky <-> same_lane x y).
  Proof.
    unfold bucket_key. intros Hx Hy. apply bind_ok in Hx as (lx & Hlx & Hx). apply bind_ok in Hy as (ly & Hly & Hy).
    injection Hx as <-. injection Hy as <-.
    assert (G : forall (z : state) lz, match s_route z with
       | id :: _ => let! a := getLinkAttributes d id in Ok (link_type_code (l_type a))
       | [] => Ok (match t_noc (s_tr z) with NOC0 => LOCAL_NOC0 | NOC1 => LOCAL_NOC1 end) end = Ok lz ->
       lz = match first_direction A d z with Some t => link_type_code t
            | None => match t_noc (s_tr z) with NOC0 => LOCAL_NOC0 | NOC1 => LOCAL_NOC1 end end).
    { clear. intros z lz H. unfold first_direction. destruct (s_route z) as [|id r]; [congruence|]. unfold getLinkAttributes in H.
      destruct (id <? 0); [discriminate|]. destruct (nth_error (link_table d) (Z.to_nat id)); [|discriminate]. cbn in H |- *. congruence. }
    apply G in Hlx, Hly. subst lx ly. unfold SpecEngine.same_lane. split.
    - intros H. injection H as -> -> -> H. repeat split; auto. unfold LOCAL_NOC0, LOCAL_NOC1 in H.
      destruct (first_direction A d x) as [[]|], (first_direction A d y) as [[]|]; cbn in H; try reflexivity;
        destruct (t_noc (s_tr x)); try discriminate H; destruct (t_noc (s_tr y)); discriminate H.
    - intros (-> & -> & -> & ->). reflexivity.
  Qed.
  Lemma same_lane_refl x : same_lane x x.
  Proof. unfold SpecEngine.same_lane. tauto. Qed.
  Lemma same_lane_sym x y : same_lane x y -> same_lane y x.
  Proof. unfold SpecEngine.same_lane. intuition congruence. Qed.
  Lemma same_lane_trans x y z : same_lane x y -> same_lane y z -> same_lane x z.
  Proof. unfold SpecEngine.same_lane. intuition congruence. Qed.

  Context (sts : list state) (HF : fresh_states A sts).
  Context (HS : forall i s, nth_error sts i = Some s -> s_start s = t_off (s_tr s) /\ 0 <= t_id (s_tr s)).

  Lemma before_lex i j x y : nth_error sts i = Some x -> nth_error sts j = Some y ->
    (before x y <-> lexlt (start_of A sts) i j).
  Proof.
    intros Hx Hy. unfold SpecEngine.before, lexlt, start_of. rewrite Hx, Hy. destruct (HS _ _ Hx) as [-> Px], (HS _ _ Hy) as [-> Py].
    destruct (HF _ _ Hx) as [Ix _], (HF _ _ Hy) as [Iy _]. unfold idx in *. lia.
  Qed.

  (* the members of a bucket in order *)
  Lemma bucket_list bs k ids : make_buckets A d sts = Ok bs -> In (k, ids) bs ->
    let L := sort (by_start (start_of A sts)) ids in
    StronglySorted (lexlt (start_of A sts)) L /\
    forall i, In i L <-> exists x, nth_error sts i = Some x /\ bucket_key A d x = Ok k.
  Proof.
    intros HB Hin L. destruct (make_buckets_spec A bord d sts bs HF HB) as (_ & _ & H3). destruct (H3 _ _ Hin) as [-> _]. split.
    - apply lex_sort. apply filter_sorted, seq_sorted.
    - intros i. unfold L. transitivity (In i (filter (fun i => match nth_error sts i with
                              | Some s => match bucket_key A d s with Ok k' => bkey_eqb k' k | _ => false end
                              | None => false end) (seq 0 (List.length sts)))).
      + split; intros H; (eapply Permutation_in; [|exact H]); [symmetry|]; apply lex_sort_perm.
      + rewrite filter_In, in_seq. split.
        * intros [_ H]. destruct (nth_error sts i) as [x|]; [|discriminate]. exists x. split; [reflexivity|].
          destruct (bucket_key A d x); try discriminate. apply bkey_eqb_eq in H. congruence.
        * intros (x & Hx & Hk). rewrite Hx, Hk. split; [|apply bkey_eqb_eq; reflexivity]. apply nth_some_lt in Hx. lia.
  Qed.

  Lemma niu_edge_iff bs e : make_buckets A d sts = Ok bs ->
    (In e (flat_map (bucket_edges A sts) (bord bs)) <-> two_before A d sts (e_parent e) (e_child e) /\ e_delay e = 0).
  Proof.
    intros HB. rewrite in_flat_map. destruct (make_buckets_spec A bord d sts bs HF HB) as (_ & HK & _). split.
    - intros ([k ids] & Hb & He). apply (Permutation_in _ (bord_perm bs)) in Hb. destruct (bucket_list _ _ _ HB Hb) as [LS LI].
      unfold bucket_edges in He. cbn [snd] in He. set (L := sort (by_start (start_of A sts)) ids) in *. apply chain_edges_in in He as (p & H1 & H2 & H3).
      split; [|assumption]. destruct (proj1 (LI _) (nth_error_In _ _ H1)) as (y & Hy & Ky). destruct (proj1 (LI _) (nth_error_In _ _ H2)) as (x & Hx & Kx).
      exists x, y. split; [assumption|]. split; [assumption|]. split; [eapply key_lane; eauto|].
      split. { eapply before_lex; eauto. eapply sorted_nth; eauto. lia. }
      assert (Hm : exists m, nth_error L (p + 1) = Some m). { apply nth_lt_some. apply nth_some_lt in H2. lia. }
      destruct Hm as [m Hm]. exists m. intros k0. split.
      + intros ->. destruct (proj1 (LI _) (nth_error_In _ _ Hm)) as (z & Hz & Kz). exists z. split; [assumption|].
        split; [eapply key_lane; eauto|]. split; (eapply before_lex; eauto; eapply sorted_nth; eauto; lia).
      + intros (z & Hz & Lz & B1 & B2). assert (Kz : bucket_key A d z = Ok k).
        { destruct (HK _ _ Hz) as (kz & Kz & _). rewrite Kz. f_equal. eapply key_lane; eauto. }
        destruct (In_nth_error L k0) as [q Hq]. { apply LI. eauto. }
        eapply before_lex in B1; eauto. eapply before_lex in B2; eauto.
        assert (q = (p + 1)%nat) as ->; [|congruence].
        assert (IR : forall a, ~ lexlt (start_of A sts) a a) by (unfold lexlt; lia).
        destruct (Nat.lt_trichotomy q (p + 1)) as [C|[C|C]]; [|assumption|]; exfalso.
        * destruct (Nat.eq_dec q p) as [->|]; [assert (k0 = e_parent e) by congruence; subst; eapply IR; eassumption|].
          assert (lexlt (start_of A sts) k0 (e_parent e)) by (eapply sorted_nth; eauto; lia). eapply IR. eapply lexlt_trans; eauto.
        * destruct (Nat.eq_dec q (p + 2)) as [->|]; [assert (k0 = e_child e) by congruence; subst; eapply IR; eassumption|].
          assert (lexlt (start_of A sts) (e_child e) k0) by (eapply sorted_nth; eauto; lia). eapply IR. eapply lexlt_trans; eauto.
    - intros [(x & y & Hx & Hy & Lyx & Byx & m & Hm) Hd]. destruct (HK _ _ Hx) as (k & Kx & Hin).
      apply in_map_iff in Hin as ([k1 ids] & Ek & Hb). cbn in Ek. subst k1. exists (k, ids).
      split; [eapply Permutation_in; [symmetry; apply bord_perm|exact Hb]|]. destruct (bucket_list _ _ _ HB Hb) as [LS LI].
      unfold bucket_edges. cbn [snd]. set (L := sort (by_start (start_of A sts)) ids) in *. apply chain_edges_in.
      assert (LL : forall j z, nth_error sts j = Some z -> same_lane z x -> In j L).
      { intros j z Hz Lz. apply LI. exists z. split; [assumption|]. destruct (HK _ _ Hz) as (kz & Kz & _). rewrite Kz. f_equal. eapply key_lane; eauto. }
      destruct (In_nth_error L _ (LL _ _ Hx (same_lane_refl x))) as [pi Hpi]. destruct (In_nth_error L _ (LL _ _ Hy Lyx)) as [pj Hpj].
      destruct (proj1 (Hm m) eq_refl) as (z & Hz & Lz & B1 & B2). destruct (In_nth_error L _ (LL _ _ Hz Lz)) as [pm Hpm].
      eapply before_lex in B1; eauto. eapply before_lex in B2; eauto. 
      assert (IR : forall a, ~ lexlt (start_of A sts) a a) by (unfold lexlt; lia).
      assert (LT : forall a b pa pb, nth_error L pa = Some a -> nth_error L pb = Some b -> lexlt (start_of A sts) a b -> (pa < pb)%nat).
      { intros a b pa pb Ha Hb' Hab. destruct (Nat.lt_trichotomy pa pb) as [C|[C|C]]; [assumption| |]; exfalso.
        - subst. assert (a = b) by congruence. subst. eapply IR; eassumption.
        - assert (lexlt (start_of A sts) b a) by (eapply sorted_nth; eauto). eapply IR. eapply lexlt_trans; eauto. }
      pose proof (LT _ _ _ _ Hpj Hpm B1). pose proof (LT _ _ _ _ Hpm Hpi B2).
      assert (forall q, (pj < q < pi)%nat -> q = pm).
      { intros q Hq. destruct (nth_lt_some L q) as [w Hw]. { apply nth_some_lt in Hpi. lia. }
        assert (w = m).
        { apply Hm. destruct (proj1 (LI _) (nth_error_In _ _ Hw)) as (zw & Hzw & Kw). exists zw. split; [assumption|].
          split; [eapply key_lane; eauto|]. split; (eapply before_lex; eauto; eapply sorted_nth; eauto; lia). }
        subst w. destruct (Nat.lt_trichotomy q pm) as [C|[C|C]]; [|assumption|]; exfalso; apply (IR m);
          [exact (sorted_nth _ L LS _ _ _ _ Hw Hpm C)|exact (sorted_nth _ L LS _ _ _ _ Hpm Hw C)]. }
      assert (pm = (pj + 1)%nat) by (symmetry; apply H1; lia). assert (pi = (pj + 2)%nat).
      { destruct (Nat.eq_dec pi (pj + 2)); [assumption|]. assert ((pj + 2)%nat = pm) by (apply H1; lia). lia. }
      exists pj. subst. auto.
  Qed.
  Lemma two_before_unique j j' i : two_before A d sts j i -> two_before A d sts j' i -> j = j'.
  Proof.
    intros (x & y & Hx & Hy & Ly & By & m & Hm) (x' & y' & Hx' & Hy' & Ly' & By' & m' & Hm'). assert (x' = x) by congruence. subst x'.
    assert (TRI : forall a b za zb, nth_error sts a = Some za -> nth_error sts b = Some zb -> before za zb \/ a = b \/ before zb za).
    { intros a b za zb Ha Hb. destruct (HS _ _ Ha) as [_ Pa], (HS _ _ Hb) as [_ Pb]. destruct (HF _ _ Ha) as [Ia _], (HF _ _ Hb) as [Ib _].
      unfold SpecEngine.before, idx in *. lia. }
    assert (G : forall j j' y y' m m', nth_error sts j = Some y -> nth_error sts j' = Some y' -> same_lane y x -> same_lane y' x -> before y x -> before y' x ->
      (forall k, k = m <-> exists z, nth_error sts k = Some z /\ same_lane z x /\ before y z /\ before z x) ->
      (forall k, k = m' <-> exists z, nth_error sts k = Some z /\ same_lane z x /\ before y' z /\ before z x) -> before y y' -> False).
    { clear - HS HF. intros j j' y y' m m' Hy Hy' Ly Ly' By By' Hm Hm' Hb.
      (* y < y' < m' < x: both y' and m' lie between y and x *)
      destruct (proj1 (Hm' m') eq_refl) as (z & Hz & Lz & B1 & B2).
      assert (j' = m) by (apply Hm; eauto). assert (m' = m).
      { apply Hm. exists z. split; [assumption|]. split; [assumption|]. split; [|assumption]. unfold SpecEngine.before in *. lia. }
      subst. assert (z = y') by congruence. subst. unfold SpecEngine.before in B1. lia. }
    destruct (TRI _ _ _ _ Hy Hy') as [H|[H|H]]; [exfalso|assumption|exfalso].
    - exact (G _ _ _ _ _ _ Hy Hy' Ly Ly' By By' Hm Hm' H).
    - exact (G _ _ _ _ _ _ Hy' Hy Ly' Ly By' By Hm' Hm H).
  Qed.
  Lemma first_two_none i : first_two A d sts i -> forall j, ~ two_before A d sts j i.
  Proof.
    intros (x & Hx & H1) j (x' & y & Hx' & Hy & Ly & By & m & Hm). assert (x' = x) by congruence. subst x'.
    destruct (proj1 (Hm m) eq_refl) as (z & Hz & Lz & B1 & B2). assert (j = m) by (eapply (H1 j m y z); eauto). subst m.
    assert (z = y) by congruence. subst. unfold SpecEngine.before in B1. lia.
  Qed.

  (** * Group edges *)
  Lemma group_edge_iff E2 e : group_edges A d sts sts = Ok E2 ->
    (In e E2 <-> exists x, nth_error sts (e_child e) = Some x /\ has_group_parent A (s_tr x) /\
       e_parent e = group_get (group_map A sts) (t_gid (s_tr x)) (t_gpar (s_tr x)) /\
       group_delay A d sts (s_tr x) (e_parent e) = Ok (e_delay e)).
  Proof.
    unfold group_edges. intros H. apply bind_ok in H as (es & Hes & H). injection H as <-. rewrite (concat_single _ _ _ Hes).
    unfold has_group_parent. split.
    - intros (x & ys & Hx & Hg & Hy). unfold group_edge in Hg. destruct (_ && _) eqn:EG; [|injection Hg as <-; destruct Hy].
      apply bind_ok in Hg as (dl & Hdl & Hg). injection Hg as <-. destruct Hy as [<-|[]]. cbn [e_child e_parent e_delay fst snd].
      apply In_nth_error in Hx as [i Hi]. destruct (HF _ _ Hi) as [-> _]. exists x. repeat split; auto; lia.
    - intros (x & Hx & [G1 G2] & Hp & Hd). exists x, [e]. split; [eapply nth_error_In; eassumption|]. split; [|left; reflexivity].
      unfold group_edge. replace (negb (t_gid (s_tr x) =? -1) && negb (t_gpar (s_tr x) =? -1)) with true by lia.
      rewrite <- Hp, Hd. cbn [bind]. do 2 f_equal. destruct (HF _ _ Hx) as [-> _]. destruct e as [[a b] c]. reflexivity.
  Qed.

  (** * The dependency of a transfer *)
  Theorem dep_char E : dep_edges A bord d sts = Ok E -> forall i x, nth_error sts i = Some x ->
    forall j dl, (exists k e, dep_of E i = Some k /\ nth_error E k = Some e /\ e_parent e = j /\ e_delay e = dl) <->
      (has_group_parent A (s_tr x) /\ j = group_get (group_map A sts) (t_gid (s_tr x)) (t_gpar (s_tr x)) /\
         group_delay A d sts (s_tr x) j = Ok dl) \/
      (~ has_group_parent A (s_tr x) /\ two_before A d sts j i /\ dl = 0).
  Proof.
    unfold dep_edges. intros H i x Hx j dl. apply bind_ok in H as (bs & HB & H). apply bind_ok in H as (E2 & HE2 & H). injection H as <-.
    set (E1 := flat_map (bucket_edges A sts) (bord bs)).
    assert (HP : has_group_parent A (s_tr x) \/ ~ has_group_parent A (s_tr x)) by (unfold has_group_parent; lia).
    assert (I1 : forall e, In e E1 <-> two_before A d sts (e_parent e) (e_child e) /\ e_delay e = 0) by (intros; apply niu_edge_iff; assumption).
    assert (I2 := fun e => group_edge_iff E2 e HE2).
    (* with a parent there is a group edge for i, and the dependency is one of those *)
    assert (LAST : forall k e, dep_of (E1 ++ E2) i = Some k -> nth_error (E1 ++ E2) k = Some e ->
      e_child e = i /\ (In e E2 \/ (In e E1 /\ forall e', In e' E2 -> e_child e' <> i))).
    { intros k e Hk He. apply dep_of_some in Hk as (e0 & H0 & Hc & Hl). assert (e0 = e) by congruence. subst e0. split; [assumption|].
      destruct (Nat.lt_ge_cases k (List.length E1)) as [C|C].
      - right. rewrite nth_error_app1 in He by assumption. split; [eapply nth_error_In; eassumption|]. intros e' Hin.
        apply In_nth_error in Hin as [q Hq]. apply (Hl (List.length E1 + q)%nat); [|lia]. rewrite nth_error_app2 by lia.
        replace (List.length E1 + q - List.length E1)%nat with q by lia. assumption.
      - left. rewrite nth_error_app2 in He by assumption. eapply nth_error_In; eassumption. }
    split.
    - intros (k & e & Hk & He & Hj & Hdl). destruct (LAST _ _ Hk He) as [Hc HC]. subst i j dl. destruct HC as [HC|[HC HN]].
      + left. apply I2 in HC as (x' & Hx' & HG & Hp & Hd). assert (x' = x) by congruence. subst x'. auto.
      + right. apply I1 in HC as [HC Hz]. split; [|auto]. intros HG.
        (* the group edge exists because group_edges succeeded *)
        unfold group_edges in HE2. apply bind_ok in HE2 as (es & Hes & Heq). injection Heq as <-. pose proof Hes as Hes'. apply mapM_Forall2 in Hes.
        destruct (Forall2_In_l _ _ _ _ Hes (nth_error_In _ _ Hx)) as (ys & Hys & Hg). unfold group_edge in Hg.
        replace (negb (t_gid (s_tr x) =? -1) && negb (t_gpar (s_tr x) =? -1)) with true in Hg by (unfold has_group_parent in HG; lia).
        apply bind_ok in Hg as (dl & _ & Hg). injection Hg as <-. destruct (HF _ _ Hx) as [Hi _]. rewrite Hi in Hys.
        eapply HN; [apply in_concat; eexists; split; [exact Hys|left; reflexivity]|]. reflexivity.
    - intros C.
      assert (EX : exists e, In e (E1 ++ E2) /\ e_child e = i /\ e_parent e = j /\ e_delay e = dl).
      { destruct C as [(HG & Hj & Hd)|(HG & HT & ->)].
        - exists (i, j, dl). split; [|auto]. apply in_or_app. right. apply I2. exists x. subst j. auto.
        - exists (i, j, 0). split; [|auto]. apply in_or_app. left. apply I1. auto. }
      destruct EX as (e0 & Hin & Hc0 & Hp0 & Hd0).
      destruct (dep_of (E1 ++ E2) i) as [k|] eqn:Hk; [|exfalso; eapply dep_of_none in Hk; eauto].
      destruct (dep_of_some _ _ _ Hk) as (e & He & _). exists k, e. split; [reflexivity|]. split; [assumption|].
      destruct (LAST _ _ eq_refl He) as [Hc HC]. destruct HC as [HC|[HC HN]].
      + apply I2 in HC as (x' & Hx' & HG & Hp & Hd). rewrite Hc in Hx'. assert (x' = x) by congruence. subst x'.
        destruct C as [(_ & Hj & Hd')|(HG' & _)]; [|contradiction]. split; congruence.
      + apply I1 in HC as [HC Hz]. rewrite Hc in HC. destruct C as [(HG & Hj & Hd')|(HG' & HT & ->)].
        * exfalso. eapply HN; [|exact Hc0]. apply in_app_or in Hin as [Hin|Hin]; [|assumption]. exfalso.
          eapply (HN (i, j, dl)); [|reflexivity]. apply I2. exists x. subst j. auto.
        * split; [|assumption]. eapply two_before_unique; eassumption.
  Qed.
End Dep.
