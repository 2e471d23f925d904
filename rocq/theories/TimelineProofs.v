(* Groups and split regions of the timeline (C44, C46). *)
From Coq Require Import ZArith Arith Lia Bool String List Sorting.Permutation ZifyBool ZifyNat.
From Verif Require Import Base Arith Util Device Workload SpecWorkload Rates Stats Engine UtilProofs WorkloadProofs SpecTracker TrackerProofs SpecStats StatsFacts Timeline SpecTimeline.
Import ListNotations.
Local Open Scope list_scope.
Open Scope Z_scope.
Ltac Zify.zify_post_hook ::= idtac.

(** * Maps *)
Lemma i_get_set m id g k : i_get (i_set m id g) k = if k =? id then Some g else i_get m k.
Proof.
  induction m as [|[a b] m IH]; cbn [i_set i_get]; [rewrite (Z.eqb_sym id k); destruct (k =? id); reflexivity|].
  destruct (Z.eqb_spec a id) as [->|N]; cbn [i_get]; [rewrite (Z.eqb_sym id k); destruct (k =? id); reflexivity|].
  destruct (Z.eqb_spec a k) as [->|N']; [destruct (Z.eqb_spec k id); [congruence|reflexivity]|exact IH].
Qed.
Lemma i_set_keys m id g : i_get m id = None -> i_set m id g = m ++ [(id, g)].
Proof. induction m as [|[a b] m IH]; cbn; [reflexivity|]. destruct (a =? id); [discriminate|]. intros H. f_equal. auto. Qed.
Lemma g_push_in m g id a l : NoDup (map fst m) -> In (a, l) (g_push m g id) <->
  (a <> g /\ In (a, l) m) \/ (a = g /\ ((exists l0, In (g, l0) m /\ l = l0 ++ [id]) \/ (~ In g (map fst m) /\ l = [id]))).
Proof.
  induction m as [|[b k] m IH]; intros ND; cbn [g_push].
  - split; [intros [H|[]]; injection H as <- <-; right; split; [reflexivity|]; right; split; [intros []|reflexivity]|].
    intros [[_ []]|[-> [(l0 & [] & _)|[_ ->]]]]. left. reflexivity.
  - cbn [map fst] in ND. inversion ND as [|? ? N1 N2]; subst. destruct (Z.eqb_spec b g) as [->|N].
    + split.
      * intros [H|H]; [injection H as <- <-; right; split; [reflexivity|]; left; exists k; split; [left; reflexivity|reflexivity]|].
        left. split; [|right; assumption]. intros ->. apply N1. apply in_map_iff. exists (g, l). auto.
      * intros [[H1 [H|H]]|[-> [(l0 & [H|H] & ->)|[H _]]]].
        -- congruence. -- right. assumption. -- injection H as <-. left. reflexivity.
        -- exfalso. apply N1. apply in_map_iff. exists (g, l0). auto.
        -- exfalso. apply H. left. reflexivity.
    + cbn [In]. rewrite (IH N2). split.
      * intros [H|[[H1 H2]|[-> [(l0 & H & ->)|[H ->]]]]].
        -- injection H as <- <-. left. auto. -- left. auto. -- right. split; [reflexivity|]. left. exists l0. auto.
        -- right. split; [reflexivity|]. right. split; [|reflexivity]. cbn. intros [E|E]; [congruence|auto].
      * intros [[H1 [H|H]]|[-> [(l0 & [H|H] & ->)|[H ->]]]].
        -- left. assumption. -- right. left. auto. -- congruence. -- right. right. split; [reflexivity|]. left. exists l0. auto.
        -- right. right. split; [reflexivity|]. right. split; [|reflexivity]. intros E. apply H. right. assumption.
Qed.
Lemma g_push_keys m g id a : In a (map fst (g_push m g id)) <-> a = g \/ In a (map fst m).
Proof.
  induction m as [|[b k] m IH]; cbn [g_push map fst In]; [intuition|]. destruct (Z.eqb_spec b g) as [->|]; cbn [map fst In]; [intuition|rewrite IH; intuition].
Qed.
Lemma g_push_nodup m g id : NoDup (map fst m) -> NoDup (map fst (g_push m g id)).
Proof.
  induction m as [|[b k] m IH]; cbn [g_push map fst]; intros ND; [constructor; [intros []|constructor]|].
  inversion ND; subst. destruct (Z.eqb_spec b g) as [->|]; cbn [map fst]; constructor; auto. rewrite g_push_keys. intuition.
Qed.
Lemma g_get_in m g l : NoDup (map fst m) -> g_get m g = Some l <-> In (g, l) m.
Proof.
  induction m as [|[b k] m IH]; cbn [g_get map fst In]; intros ND; [split; [discriminate|intros []]|]. inversion ND as [|? ? N1 N2]; subst.
  destruct (Z.eqb_spec b g) as [->|N].
  - split; [intros H; injection H as <-; auto|]. intros [H|H]; [injection H as <-; reflexivity|]. exfalso. apply N1, in_map_iff. exists (g, l). auto.
  - rewrite (IH N2). split; [auto|]. intros [H|H]; [congruence|assumption].
Qed.
Lemma mem_in x l : mem x l = true <-> In x l.
Proof. unfold mem. rewrite existsb_exists. split; [intros (y & H & E); apply Z.eqb_eq in E; subst; assumption|intros H; exists x; split; [assumption|apply Z.eqb_refl]]. Qed.
Lemma mem_not x l : mem x l = false <-> ~ In x l.
Proof. rewrite <- mem_in. destruct (mem x l); intuition congruence. Qed.

Lemma filter_length {X} (f : X -> bool) l : (List.length (filter f l) <= List.length l)%nat.
Proof. induction l as [|x l IH]; cbn; [lia|]. destruct (f x); cbn; lia. Qed.

(** * C46 *)
Section G.
  Context {Fl : Type} (wl : workload Fl).
  Notation N0 := (wl_groups wl).
  Definition sid (s : tstate Fl) : Z := t_id (s_tr s).
  Definition groupedb (t : transfer Fl) : bool := negb (t_gid t =? -1) && negb (t_gix t =? -1).
  Lemma groupedb_spec t : groupedb t = true <-> grouped t.
  Proof. unfold groupedb, grouped. lia. Qed.

  (* what holds in every execution of the loop *)
  Record weak (p : list (tstate Fl)) (gs : gstate) : Prop := {
    w_nodup : NoDup (map fst (gs_groups gs));
    w_ids : forall s, In s p -> exists g, i_get (gs_ids gs) (sid s) = Some g;
    w_in : forall id g, i_get (gs_ids gs) id = Some g -> in_group (gs_groups gs) g id }.
  Lemma assign_weak p gs s gs' : weak p gs -> assign gs (s_tr s) = Ok gs' -> weak (p ++ [s]) gs'.
  Proof.
    intros [W1 W2 W3] H.
    assert (J : exists g, gs_groups gs' = g_push (gs_groups gs) g (sid s) /\ gs_ids gs' = i_set (gs_ids gs) (sid s) g).
    { unfold assign in H. destruct (_ && _); [injection H as <-; eexists; split; reflexivity|]. destruct (_ <? _); [|discriminate]. injection H as <-. eexists; split; reflexivity. }
    destruct J as (g & E1 & E2). split.
    - rewrite E1. apply g_push_nodup. assumption.
    - intros s' H'. rewrite E2, i_get_set. apply in_app_or in H' as [H'|[->|[]]]; [|rewrite Z.eqb_refl; eauto]. destruct (_ =? _); eauto.
    - intros id g'. rewrite E1, E2, i_get_set. destruct (Z.eqb_spec id (sid s)) as [->|N].
      + intros H'. injection H' as <-. destruct (in_dec Z.eq_dec g (map fst (gs_groups gs))) as [I|I].
        * apply in_map_iff in I as ([a l] & <- & I). exists (l ++ [sid s]). split; [|apply in_or_app; right; left; reflexivity]. apply g_push_in; [assumption|]. right. split; [reflexivity|]. left. eauto.
        * exists [sid s]. split; [|left; reflexivity]. apply g_push_in; [assumption|]. right. split; [reflexivity|]. right. auto.
      + intros H'. destruct (W3 _ _ H') as (l & Hl & Hi). destruct (Z.eq_dec g' g) as [->|N'].
        * exists (l ++ [sid s]). split; [|apply in_or_app; left; assumption]. apply g_push_in; [assumption|]. right. split; [reflexivity|]. left. eauto.
        * exists l. split; [|assumption]. apply g_push_in; [assumption|]. left. auto.
  Qed.
  Lemma group_weak sts gs : group_transfers wl sts = Ok gs -> weak sts gs.
  Proof.
    unfold group_transfers. revert gs. induction sts as [|s sts IH] using rev_ind; intros gs H.
    - injection H as <-. split; [constructor|intros s []|intros id g H; discriminate H].
    - rewrite foldM_app in H. apply bind_ok in H as (gs1 & H1 & H). cbn [foldM] in H. apply bind_ok in H as (gs2 & H2 & H). injection H as <-. eapply assign_weak; eauto.
  Qed.

  (* what holds for registered groups *)
  Record strong (p : list (tstate Fl)) (gs : gstate) : Prop := {
    st_dummy : gs_dummy gs = N0 + Z.of_nat (List.length (filter (fun s => negb (groupedb (s_tr s))) p));
    st_in : forall g id, in_group (gs_groups gs) g id <-> i_get (gs_ids gs) id = Some g;
    st_ids : map fst (gs_ids gs) = map sid p;
    st_lists : forall g l, In (g, l) (gs_groups gs) -> l <> [] /\ NoDup l /\ g < gs_dummy gs /\ (N0 <= g -> List.length l = 1%nat);
    st_grouped : forall s, In s p -> groupedb (s_tr s) = true -> i_get (gs_ids gs) (sid s) = Some (t_gid (s_tr s));
    st_alone : forall s, In s p -> groupedb (s_tr s) = false -> exists g, i_get (gs_ids gs) (sid s) = Some g /\ N0 <= g }.
  Lemma keys_none m id : ~ In id (map fst m) <-> i_get m id = None.
  Proof.
    induction m as [|[a b] m IH]; cbn; [intuition|]. destruct (Z.eqb_spec a id) as [->|N]; [split; [intros H; exfalso; apply H; auto|discriminate]|]. rewrite <- IH. intuition.
  Qed.
  Lemma assign_strong p gs s : strong p gs -> NoDup (map fst (gs_groups gs)) -> ~ In (sid s) (map sid p) -> (groupedb (s_tr s) = true -> t_gid (s_tr s) < N0) ->
    gs_dummy gs + 1 < 2 ^ 31 -> exists gs', assign gs (s_tr s) = Ok gs' /\ strong (p ++ [s]) gs'.
  Proof.
    intros [S1 S2 S3 S4 S5 S6] ND NI HG HB.
    assert (NN : i_get (gs_ids gs) (sid s) = None) by (apply keys_none; rewrite S3; assumption).
    assert (NG : forall g l, In (g, l) (gs_groups gs) -> ~ In (sid s) l).
    { intros g l Hl Hi. assert (H : in_group (gs_groups gs) g (sid s)) by (exists l; auto). apply S2 in H. congruence. }
    pose proof (fun g => g_push_in (gs_groups gs) g (sid s)) as PI.
    assert (COM : forall g k, (g < N0 \/ g = gs_dummy gs) -> k = gs_dummy gs + (if groupedb (s_tr s) then 0 else 1) -> (groupedb (s_tr s) = true -> g = t_gid (s_tr s)) ->
      (groupedb (s_tr s) = false -> g = gs_dummy gs) -> strong (p ++ [s]) (mkGs (g_push (gs_groups gs) g (sid s)) (i_set (gs_ids gs) (sid s) g) k)).
    { intros g k Hg Hk H1 H2.
      assert (FR : g = gs_dummy gs -> ~ In g (map fst (gs_groups gs))).
      { intros -> H. apply in_map_iff in H as ([a l] & E & H). cbn in E. subst a. destruct (S4 _ _ H) as (_ & _ & L & _). lia. }
      assert (D0 : N0 <= gs_dummy gs) by lia.
      split; cbn [gs_dummy gs_groups gs_ids].
      - rewrite filter_app, app_length. cbn [filter]. destruct (groupedb (s_tr s)); cbn [negb List.length]; lia.
      - intros g' id. rewrite i_get_set. split.
        + intros (l & Hl & Hi). apply PI in Hl; [|assumption]. destruct Hl as [[N Hl]|[-> [(l0 & Hl & ->)|[_ ->]]]].
          * destruct (Z.eqb_spec id (sid s)) as [->|_]; [exfalso; eapply NG; eassumption|]. apply S2. exists l. auto.
          * apply in_app_or in Hi as [Hi|[<-|[]]]; [|rewrite Z.eqb_refl; reflexivity]. destruct (Z.eqb_spec id (sid s)) as [->|_]; [reflexivity|]. apply S2. exists l0. auto.
          * destruct Hi as [<-|[]]. rewrite Z.eqb_refl. reflexivity.
        + destruct (Z.eqb_spec id (sid s)) as [->|N].
          * intros H. injection H as <-. destruct (in_dec Z.eq_dec g (map fst (gs_groups gs))) as [I|I].
            -- apply in_map_iff in I as ([a l] & <- & I). exists (l ++ [sid s]). split; [|apply in_or_app; right; left; reflexivity]. apply PI; [assumption|]. right. split; [reflexivity|]. left. eauto.
            -- exists [sid s]. split; [|left; reflexivity]. apply PI; [assumption|]. right. split; [reflexivity|]. right. auto.
          * intros H. apply S2 in H as (l & Hl & Hi). destruct (Z.eq_dec g' g) as [->|N'].
            -- exists (l ++ [sid s]). split; [|apply in_or_app; left; assumption]. apply PI; [assumption|]. right. split; [reflexivity|]. left. eauto.
            -- exists l. split; [|assumption]. apply PI; [assumption|]. left. auto.
      - rewrite i_set_keys by assumption. rewrite !map_app, S3. reflexivity.
      - intros g' l Hl. apply PI in Hl; [|assumption]. destruct Hl as [[N Hl]|[-> [(l0 & Hl & ->)|[NK ->]]]].
        + destruct (S4 _ _ Hl) as (A1 & A2 & A3 & A4). split; [assumption|]. split; [assumption|]. split; [destruct (groupedb (s_tr s)); lia|assumption].
        + destruct (S4 _ _ Hl) as (A1 & A2 & A3 & A4). split; [destruct l0; discriminate|]. split.
          * eapply Permutation_NoDup; [apply Permutation_cons_append|]; constructor; [eapply NG; eassumption|assumption].
          * split; [destruct (groupedb (s_tr s)); lia|]. intros H. exfalso. destruct Hg as [Hg|Hg]; [lia|]. apply (FR Hg). apply in_map_iff. exists (g, l0). auto.
        + split; [discriminate|]. split; [constructor; [intros []|constructor]|]. split; [|reflexivity].
          destruct (groupedb (s_tr s)) eqn:EG; [|rewrite (H2 eq_refl); lia]. destruct Hg as [Hg|Hg]; [lia|]. pose proof (HG eq_refl). rewrite <- (H1 eq_refl) in *. lia.
      - intros s' H' G'. rewrite i_get_set. apply in_app_or in H' as [H'|[->|[]]].
        + destruct (Z.eqb_spec (sid s') (sid s)) as [E|_]; [exfalso; apply NI; rewrite <- E; apply in_map; assumption|]. auto.
        + rewrite Z.eqb_refl, (H1 G'). reflexivity.
      - intros s' H' G'. rewrite i_get_set. apply in_app_or in H' as [H'|[->|[]]].
        + destruct (Z.eqb_spec (sid s') (sid s)) as [E|_]; [exfalso; apply NI; rewrite <- E; apply in_map; assumption|]. auto.
        + rewrite Z.eqb_refl, (H2 G'). eauto. }
    unfold assign. fold (groupedb (s_tr s)). fold (sid s). destruct (groupedb (s_tr s)) eqn:EG.
    - eexists. split; [reflexivity|]. apply COM; auto; [lia|discriminate].
    - replace (gs_dummy gs + 1 <? 2 ^ 31) with true by lia. eexists. split; [reflexivity|]. apply COM; auto. discriminate.
  Qed.

  Context (sts : list (tstate Fl)).
  Context (HN : NoDup (map sid sts)) (HG : forall s, In s sts -> grouped (s_tr s) -> t_gid (s_tr s) < N0) (HB : N0 + Z.of_nat (List.length sts) < 2 ^ 31).
  Lemma group_strong : exists gs, group_transfers wl sts = Ok gs /\ strong sts gs.
  Proof.
    assert (G : forall p, (exists q, sts = p ++ q) -> exists gs, group_transfers wl p = Ok gs /\ strong p gs).
    { induction p as [|s p IH] using rev_ind; intros (q & E).
      - eexists. split; [reflexivity|]. split; cbn [gs_dummy gs_groups gs_ids filter List.length map In].
        + lia. + intros g id. split; [intros (l & [] & _)|discriminate]. + reflexivity. + intros g l []. + intros s []. + intros s [].
      - destruct IH as (gs & H1 & H2); [exists (s :: q); rewrite E, <- app_assoc; reflexivity|].
        pose proof (w_nodup _ _ (group_weak _ _ H1)) as ND.
        destruct (assign_strong p gs s) as (gs' & H3 & H4); try assumption.
        + rewrite E, <- app_assoc, map_app in HN. cbn [map app] in HN. apply NoDup_remove_2 in HN. intros H. apply HN. apply in_or_app. auto.
        + intros H. apply HG; [rewrite E; apply in_or_app; left; apply in_or_app; right; left; reflexivity|apply groupedb_spec; assumption].
        + rewrite (st_dummy _ _ H2). pose proof (filter_length (fun s => negb (groupedb (s_tr s))) p). rewrite E, !app_length in HB. cbn [List.length] in HB. lia.
        + exists gs'. split; [|assumption]. unfold group_transfers in *. rewrite foldM_app, H1. cbn [bind foldM]. rewrite H3. reflexivity. }
    destruct (G sts) as (gs & H1 & H2); [exists []; rewrite app_nil_r; reflexivity|]. eauto.
  Qed.

  (* the checks pass *)
  Lemma check_distinct_ok l : NoDup l -> check_distinct l = Ok tt.
  Proof.
    intros ND. unfold check_distinct.
    assert (G : forall seen, (forall x, In x l -> ~ In x seen) -> exists r, foldM (fun seen id => let! _ := tt_assert (negb (mem id seen)) in Ok (id :: seen)) l seen = Ok r).
    { induction ND as [|x l NI ND IH]; intros seen H; cbn [foldM]; [eauto|]. rewrite (proj2 (mem_not x seen)) by (apply H; left; reflexivity). cbn [tt_assert negb bind].
      apply IH. intros y Hy [->|Hy']; [auto|]. apply (H y); [right; assumption|assumption]. }
    destruct (G []) as [r ->]; [intros x _ []|reflexivity].
  Qed.
  Lemma check_groups_ok gs gord : strong sts gs -> NoDup (map fst (gs_groups gs)) -> map_order gord -> check_groups N0 (gord (gs_groups gs)) (gs_ids gs) = Ok tt.
  Proof.
    intros [S1 S2 S3 S4 S5 S6] ND HO. specialize (HO (gs_groups gs)). set (gl := gord (gs_groups gs)) in *.
    assert (IN : forall e, In e gl <-> In e (gs_groups gs)) by (intros e; split; apply Permutation_in; [exact HO|symmetry; exact HO]).
    assert (NDg : NoDup (map fst gl)) by (eapply Permutation_NoDup; [apply Permutation_map; symmetry; exact HO|assumption]).
    unfold check_groups.
    assert (C : forall rest all, (forall e, In e rest -> In e gl) -> NoDup (map fst rest) ->
      (forall g l id, In (g, l) rest -> In id l -> ~ In id all) -> exists r, foldM (check_group N0 (gs_ids gs)) rest all = Ok r).
    { induction rest as [|[g l] rest IH]; intros all HI HN' HA; cbn [foldM]; [eauto|]. inversion HN' as [|? ? NI' ND']; subst.
      assert (Hl : In (g, l) (gs_groups gs)) by (apply IN, HI; left; reflexivity). destruct (S4 _ _ Hl) as (A1 & A2 & A3 & A4).
      assert (IG : forall id, In id l -> i_get (gs_ids gs) id = Some g) by (intros id Hi; apply S2; exists l; auto).
      assert (F : forall m al, NoDup m -> (forall id, In id m -> In id l /\ ~ In id al) ->
        exists r, foldM (fun all id => let! _ := tt_assert (match i_get (gs_ids gs) id with Some _ => true | None => false end) in
          let! _ := tt_assert (match i_get (gs_ids gs) id with Some g' => g' =? g | None => false end) in
          let! _ := tt_assert (negb (mem id all)) in Ok (id :: all)) m al = Ok r /\ forall x, In x r <-> In x m \/ In x al).
      { induction m as [|id m IHm]; intros al NDm Hm; cbn [foldM]; [exists al; split; [reflexivity|cbn; intuition]|]. inversion NDm as [|? ? NI2 ND2]; subst.
        destruct (Hm id (or_introl eq_refl)) as [H1 H2]. rewrite (IG _ H1), Z.eqb_refl, (proj2 (mem_not _ _) H2). cbn [tt_assert negb bind].
        destruct (IHm (id :: al) ND2) as (r & Hr & HR); [|exists r; split; [assumption|]; intros x; rewrite HR; cbn; intuition].
        intros x Hx. destruct (Hm x (or_intror Hx)). split; [assumption|]. intros [->|H']; auto. }
      unfold check_group. cbn [fst snd]. rewrite (check_distinct_ok _ A2). cbn [bind].
      destruct (F l all A2) as (r & Hr & HR); [intros id Hi; split; [assumption|]; apply (HA g l id); [left; reflexivity|assumption]|]. rewrite Hr. cbn [bind].
      replace (if N0 <=? g then tt_assert (Nat.eqb (List.length l) 1) else Ok tt) with (Ok tt); [|destruct (Z.leb_spec N0 g); [rewrite A4 by assumption; reflexivity|reflexivity]].
      cbn [bind]. apply IH; [intros e He; apply HI; right; assumption|assumption|].
      intros g' l' id Hl' Hi Hx. apply HR in Hx as [Hx|Hx].
      - assert (E1 : i_get (gs_ids gs) id = Some g') by (apply S2; exists l'; split; [apply IN, HI; right; assumption|assumption]). rewrite (IG _ Hx) in E1. injection E1 as <-.
        apply NI'. apply in_map_iff. exists (g, l'). auto.
      - apply (HA g' l' id); [right; assumption|assumption|assumption]. }
    destruct (C gl []) as [r ->]; [auto|assumption|intros g l id _ _ []|]. cbn [bind].
    assert (NK : NoDup (map fst (gs_ids gs))) by (rewrite S3; assumption).
    match goal with |- context [mapM ?f (gs_ids gs)] => assert (E : exists r, mapM f (gs_ids gs) = Ok r) end; [|destruct E as [r' ->]; reflexivity].
    apply mapM_all_ok. apply Forall_forall. intros [id g] Hi. cbn [fst snd].
    assert (HI : i_get (gs_ids gs) id = Some g).
    { clear -Hi NK. induction (gs_ids gs) as [|[a b] m IH]; [destruct Hi|]. cbn [map fst i_get] in *. inversion NK as [|? ? N1 N2]; subst. destruct Hi as [E|Hi].
      - injection E as -> ->. rewrite Z.eqb_refl. reflexivity.
      - destruct (Z.eqb_spec a id) as [->|]; [|auto]. exfalso. apply N1, in_map_iff. exists (id, g). auto. }
    apply S2 in HI as (l & Hl & Hin). apply IN in Hl. apply (g_get_in gl g l NDg) in Hl. rewrite Hl. cbn [tt_assert bind]. rewrite (proj2 (mem_in _ _) Hin). cbn. eauto.
  Qed.
  Theorem groups_partition gord : map_order gord ->
    exists gs, group_transfers wl sts = Ok gs /\ check_groups N0 (gord (gs_groups gs)) (gs_ids gs) = Ok tt /\ NoDup (map fst (gs_groups gs)) /\
      (forall g id, in_group (gs_groups gs) g id -> exists s, In s sts /\ id = sid s) /\
      forall s, In s sts -> exists g, (forall g', in_group (gs_groups gs) g' (sid s) <-> g' = g) /\
        (grouped (s_tr s) -> g = t_gid (s_tr s)) /\
        (~ grouped (s_tr s) -> N0 <= g /\ forall id, in_group (gs_groups gs) g id -> id = sid s).
  Proof.
    intros HO. destruct group_strong as (gs & H1 & H2). pose proof (w_nodup _ _ (group_weak _ _ H1)) as ND. exists gs. split; [assumption|].
    split; [apply check_groups_ok; assumption|]. split; [assumption|]. destruct H2 as [S1 S2 S3 S4 S5 S6]. split.
    - intros g id H. apply S2 in H. assert (K : In id (map fst (gs_ids gs))) by (destruct (in_dec Z.eq_dec id (map fst (gs_ids gs))) as [|N]; [assumption|apply keys_none in N; congruence]).
      rewrite S3 in K. apply in_map_iff in K as (s & <- & Hs). eauto.
    - intros s Hs. destruct (groupedb (s_tr s)) eqn:EG.
      + exists (t_gid (s_tr s)). pose proof (S5 s Hs EG) as H. split; [intros g'; rewrite S2, H; split; [intros E; injection E; auto|intros ->; reflexivity]|].
        split; [reflexivity|]. intros C. exfalso. apply C, groupedb_spec, EG.
      + destruct (S6 s Hs EG) as (g & Hg & L). exists g. split; [intros g'; rewrite S2, Hg; split; [intros E; injection E; auto|intros ->; reflexivity]|].
        split; [intros C; apply groupedb_spec in C; congruence|]. intros _. split; [assumption|]. intros id (l & Hl & Hi).
        apply S2 in Hg as (l' & Hl' & Hi'). assert (l' = l) by (apply (g_get_in _ _ _ ND) in Hl; apply (g_get_in _ _ _ ND) in Hl'; congruence). subst l'.
        destruct (S4 _ _ Hl) as (_ & _ & _ & A4). specialize (A4 L). destruct l as [|a [|b l]]; cbn [List.length] in A4; try discriminate A4. destruct Hi as [->|[]], Hi' as [->|[]]. reflexivity.
  Qed.
End G.
