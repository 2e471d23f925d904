(* Transfer state, dependency buckets and dependency generation (npeEngine.cpp:25-170). *)
From Coq Require Import ZArith Arith String List Bool Lia ZifyBool ZifyNat Sorting.Permutation Sorting.Sorted.
From Verif Require Import Base Arith Util Device Workload SpecWorkload DepTracker Rates Stats Engine UtilProofs
  WorkloadProofs SpecTracker TrackerProofs.
Import ListNotations.
Open Scope Z_scope.
Ltac Zify.zify_post_hook ::= idtac.

(** * Generic facts *)
Lemma foldM_flat_map {X Y S} (f : S -> Y -> outcome S) (g : X -> list Y) l s :
  foldM (fun s x => foldM f (g x) s) l s = foldM f (flat_map g l) s.
Proof.
  revert s. induction l as [|x l IH]; intros s; cbn [foldM flat_map]; [reflexivity|].
  rewrite foldM_app. destruct (foldM f (g x) s); cbn [bind]; auto.
Qed.
Lemma foldM_ext {X S} (f g : S -> X -> outcome S) l s :
  (forall s x, In x l -> f s x = g s x) -> foldM f l s = foldM g l s.
Proof.
  revert s. induction l as [|x l IH]; intros s H; cbn [foldM]; [reflexivity|].
  rewrite H by (left; reflexivity). destruct (g s x); cbn [bind]; auto. apply IH. intros. apply H. right; assumption.
Qed.
(* replacing the body when it agrees on the states satisfying an invariant *)
Lemma foldM_ext_inv {X S} (P : S -> Prop) (f g : S -> X -> outcome S) l : forall s, P s ->
  (forall s x, P s -> In x l -> f s x = g s x /\ forall s', g s x = Ok s' -> P s') ->
  foldM f l s = foldM g l s.
Proof.
  induction l as [|x l IH]; intros s Hs H; cbn [foldM]; [reflexivity|].
  destruct (H s x Hs (or_introl eq_refl)) as [-> H2]. destruct (g s x) eqn:E; cbn [bind]; auto.
  apply IH; auto. intros. apply H; auto. right; assumption.
Qed.
Lemma foldM_inv {X S} (P : S -> Prop) (f : S -> X -> outcome S) l : forall s s', P s -> foldM f l s = Ok s' ->
  (forall s x s', P s -> In x l -> f s x = Ok s' -> P s') -> P s'.
Proof.
  induction l as [|x l IH]; intros s s' Hs H HP; cbn [foldM] in H.
  - injection H as <-. assumption.
  - apply bind_ok in H as (s1 & H1 & H2). eapply IH; [|exact H2|].
    + eapply HP; [exact Hs|left; reflexivity|exact H1].
    + intros s2 y s3 P2 Hy. apply (HP s2 y s3 P2). right; assumption.
Qed.

Lemma vec_get_ok {X} (l : list X) n a : vec_get l n = Ok a <-> nth_error l n = Some a.
Proof. unfold vec_get. destruct (nth_error l n); split; congruence. Qed.
Lemma vec_mod_ok {X} (l l' : list X) n f : vec_mod l n f = Ok l' <-> exists a, nth_error l n = Some a /\ l' = upd l n (f a).
Proof.
  unfold vec_mod. destruct (nth_error l n) as [a|]; split.
  - intros H. injection H as <-. eauto.
  - intros (b & H & ->). injection H as <-. reflexivity.
  - discriminate.
  - intros (b & H & _). discriminate.
Qed.
Lemma nth_some_lt {X} (l : list X) n a : nth_error l n = Some a -> (n < List.length l)%nat.
Proof. intros H. apply nth_error_Some. congruence. Qed.
Lemma nth_lt_some {X} (l : list X) n : (n < List.length l)%nat -> exists a, nth_error l n = Some a.
Proof. intros H. apply nth_error_Some in H. destruct (nth_error l n); [eauto|congruence]. Qed.
Lemma list_ext {X} (l l' : list X) : (forall n, nth_error l n = nth_error l' n) -> l = l'.
Proof.
  revert l'. induction l as [|x l IH]; intros [|y l'] H; auto.
  - specialize (H O). discriminate.
  - specialize (H O). discriminate.
  - f_equal; [specialize (H O); cbn in H; congruence|]. apply IH. intros n. apply (H (S n)).
Qed.
Lemma upd_app_r {X} (a b : list X) n x : upd (a ++ b) (List.length a + n) x = a ++ upd b n x.
Proof. induction a; cbn; congruence. Qed.

(** * Updating several checkpoints *)
Definition bump (c : checkpoint) (e : Z) : checkpoint :=
  mkCp (u32 (cp_completed c + 1)) (cp_total c) (Z.max (cp_end c) e) (cp_delay c).

Lemma update_all_spec ks e : forall tk, NoDup ks -> (forall k, In k ks -> (k < List.length tk)%nat) ->
  exists tk', foldM (fun tk k => updateCheckpoint tk (Some k) e) ks tk = Ok tk' /\
    List.length tk' = List.length tk /\
    forall k c, nth_error tk k = Some c ->
      nth_error tk' k = Some (if in_dec Nat.eq_dec k ks then bump c e else c).
Proof.
  induction ks as [|k ks IH]; intros tk ND H; cbn [foldM].
  - exists tk. split; [reflexivity|]. split; [reflexivity|]. intros k c Hc. destruct (in_dec _ _ _) as [[]|]. assumption.
  - inversion ND as [|? ? Hk ND']; subst. destruct (nth_lt_some tk k (H k (or_introl eq_refl))) as [c Hc].
    cbn [updateCheckpoint]. unfold cp_at. rewrite Hc. cbn [bind]. fold (bump c e).
    destruct (IH (upd tk k (bump c e))) as (tk' & H1 & H2 & H3); auto.
    { intros. rewrite upd_length. apply H. right; assumption. }
    exists tk'. split; [assumption|]. rewrite upd_length in H2. split; [assumption|].
    intros m cm Hm. destruct (Nat.eq_dec k m).
    + subst m. rewrite Hc in Hm. injection Hm as <-. rewrite (H3 k (bump c e)) by (eapply upd_nth_same; eassumption).
      destruct (in_dec _ k ks); [contradiction|]. destruct (in_dec _ k (k :: ks)) as [|n0]; [reflexivity|].
      exfalso. apply n0. left; reflexivity.
    + rewrite (H3 m cm) by (rewrite upd_nth_other; auto).
      destruct (in_dec _ m ks), (in_dec _ m (k :: ks)) as [I|I]; auto.
      * exfalso. apply I. right; assumption.
      * exfalso. destruct I; auto.
Qed.

(** * Dependency edges *)
Definition edge : Type := (nat * nat * Z)%type.      (* child, parent, delay *)
Definition e_child (e : edge) : nat := fst (fst e).
Definition e_parent (e : edge) : nat := snd (fst e).
Definition e_delay (e : edge) : Z := snd e.

Fixpoint reqs_from (o : nat) (E : list edge) (i : nat) : list nat :=
  match E with
  | [] => []
  | e :: E' => (if Nat.eqb (e_parent e) i then [o] else []) ++ reqs_from (S o) E' i
  end.
Fixpoint dep_from (o : nat) (E : list edge) (i : nat) (cur : option nat) : option nat :=
  match E with
  | [] => cur
  | e :: E' => dep_from (S o) E' i (if Nat.eqb (e_child e) i then Some o else cur)
  end.
Definition reqs_of := reqs_from 0.
Definition dep_of (E : list edge) (i : nat) : option nat := dep_from 0 E i None.

Lemma reqs_from_in o E i k : In k (reqs_from o E i) <-> (o <= k)%nat /\ exists e, nth_error E (k - o) = Some e /\ e_parent e = i.
Proof.
  revert o. induction E as [|e E IH]; intros o; cbn [reqs_from].
  - split; [intros []|]. intros (_ & e & H & _). destruct (k - o)%nat; discriminate.
  - rewrite in_app_iff, IH. destruct (Nat.eq_dec k o) as [->|N].
    + rewrite Nat.sub_diag. cbn [nth_error]. split.
      * intros [H|[H _]]; [|lia]. destruct (Nat.eqb_spec (e_parent e) i); [|destruct H]. split; [lia|]. eauto.
      * intros (_ & e' & H & Hp). injection H as <-. left. rewrite Hp, Nat.eqb_refl. left; reflexivity.
    + split.
      * intros [H|[H (e' & H1 & H2)]]; [destruct (Nat.eqb_spec (e_parent e) i); [destruct H as [H|[]]; congruence|destruct H]|].
        split; [lia|]. exists e'. replace (k - o)%nat with (S (k - S o)) by lia. auto.
      * intros (Hle & e' & H1 & H2). right. split; [lia|]. exists e'. split; [|assumption].
        replace (k - o)%nat with (S (k - S o)) in H1 by lia. assumption.
Qed.
Lemma reqs_of_in E i k : In k (reqs_of E i) <-> exists e, nth_error E k = Some e /\ e_parent e = i.
Proof. unfold reqs_of. rewrite reqs_from_in, Nat.sub_0_r. split; [tauto|]. intros; split; [lia|assumption]. Qed.
Lemma reqs_from_NoDup o E i : NoDup (reqs_from o E i).
Proof.
  revert o. induction E as [|e E IH]; intros o; cbn [reqs_from]; [constructor|].
  destruct (Nat.eqb (e_parent e) i); cbn [app]; [|apply IH]. constructor; [|apply IH].
  rewrite reqs_from_in. lia.
Qed.
Lemma dep_from_cases o E i cur k : dep_from o E i cur = Some k ->
  (cur = Some k /\ forall e, In e E -> e_child e <> i) \/
  ((o <= k)%nat /\ exists e, nth_error E (k - o) = Some e /\ e_child e = i /\
     forall k' e', nth_error E (k' - o) = Some e' -> (k < k')%nat -> e_child e' <> i).
Proof.
  revert o cur. induction E as [|e E IH]; intros o cur; cbn [dep_from].
  - intros ->. left. split; [reflexivity|]. intros e [].
  - intros H. apply IH in H. destruct H as [[H HN]|[Hle (e' & H1 & H2 & H3)]].
    + destruct (Nat.eqb_spec (e_child e) i).
      * injection H as <-. right. split; [lia|]. exists e. rewrite Nat.sub_diag. split; [reflexivity|]. split; [assumption|].
        intros k' e' Hk' Hlt. replace (k' - o)%nat with (S (k' - S o)) in Hk' by lia. apply HN. eapply nth_error_In; eassumption.
      * left. split; [assumption|]. intros e' [<-|He']; auto.
    + right. split; [lia|]. exists e'. replace (k - o)%nat with (S (k - S o)) by lia. split; [assumption|]. split; [assumption|].
      intros k' e'' Hk' Hlt. replace (k' - o)%nat with (S (k' - S o)) in Hk' by lia. eapply H3; eassumption.
Qed.
Lemma dep_from_none o E i cur : dep_from o E i cur = None <-> cur = None /\ forall e, In e E -> e_child e <> i.
Proof.
  revert o cur. induction E as [|e E IH]; intros o cur; cbn [dep_from].
  - split; [|tauto]. intros ->. split; [reflexivity|]. intros e [].
  - rewrite IH. destruct (Nat.eqb_spec (e_child e) i).
    + split; [intros [? _]; discriminate|]. intros [_ H]. exfalso. apply (H e); [left; reflexivity|assumption].
    + split; intros [-> H]; (split; [reflexivity|]). { intros e' [<-|He']; auto. } { intros; apply H; right; assumption. }
Qed.
Lemma dep_of_some E i k : dep_of E i = Some k -> exists e, nth_error E k = Some e /\ e_child e = i /\
  forall k' e', nth_error E k' = Some e' -> (k < k')%nat -> e_child e' <> i.
Proof.
  intros H. apply dep_from_cases in H. destruct H as [[H _]|[_ (e & H1 & H2 & H3)]]; [discriminate|].
  rewrite Nat.sub_0_r in H1. exists e. split; [assumption|]. split; [assumption|]. intros k' e' H4 H5.
  apply (H3 k' e'); [rewrite Nat.sub_0_r; assumption|assumption].
Qed.
Lemma dep_of_none E i : dep_of E i = None <-> forall e, In e E -> e_child e <> i.
Proof. unfold dep_of. rewrite dep_from_none. tauto. Qed.
Lemma dep_from_app o E E' i cur : dep_from o (E ++ E') i cur = dep_from (o + List.length E) E' i (dep_from o E i cur).
Proof.
  revert o cur. induction E as [|e E IH]; intros o cur; cbn [dep_from app List.length].
  - rewrite Nat.add_0_r. reflexivity.
  - rewrite IH. f_equal. lia.
Qed.

Fixpoint chain_edges (ids : list nat) : list edge :=
  match ids with
  | a :: ((_ :: c :: _) as rest) => (c, a, 0) :: chain_edges rest
  | _ => []
  end.
Lemma chain_edges_in ids e : In e (chain_edges ids) <->
  exists k, nth_error ids k = Some (e_parent e) /\ nth_error ids (k + 2) = Some (e_child e) /\ e_delay e = 0.
Proof.
  induction ids as [|a ids IH]; [cbn; split; [tauto|intros ([|k] & H & _); discriminate]|].
  destruct ids as [|b [|c ids]].
  - cbn. split; [tauto|]. intros ([|k] & H1 & H2 & _); cbn in *; try discriminate. destruct k; discriminate.
  - cbn. split; [tauto|]. intros ([|[|k]] & H1 & H2 & _); cbn in *; try discriminate. destruct k; discriminate.
  - change (chain_edges (a :: b :: c :: ids)) with ((c, a, 0) :: chain_edges (b :: c :: ids)). cbn [In]. rewrite IH. split.
    + intros [<-|(k & H1 & H2 & H3)].
      * exists O. cbn. auto.
      * exists (S k). cbn [nth_error Nat.add]. auto.
    + intros ([|k] & H1 & H2 & H3).
      * left. cbn in H1, H2. destruct e as [[x y] z]. cbn in *. congruence.
      * right. exists k. auto.
Qed.

(** * Stable sorting by start cycle *)
Section Lex.
  Context (st : nat -> Z).
  Definition lexlt (a b : nat) : Prop := st a < st b \/ (st a = st b /\ (a < b)%nat).
  Definition by_start (x y : nat) : bool := st x <? st y.
  Lemma lexlt_trans a b c : lexlt a b -> lexlt b c -> lexlt a c.
  Proof. unfold lexlt. lia. Qed.
  Lemma lex_insert_perm x l : Permutation (x :: l) (sort_insert by_start x l).
  Proof.
    induction l as [|y l IH]; cbn; auto. destruct (by_start y x); auto. rewrite perm_swap. constructor. exact IH.
  Qed.
  Lemma lex_insert x l : StronglySorted lexlt l -> Forall (fun y => (x < y)%nat) l ->
    StronglySorted lexlt (sort_insert by_start x l).
  Proof.
    induction l as [|y l IH]; intros HS HF; cbn [sort_insert].
    - constructor; constructor.
    - inversion HS as [|? ? HS' HY]; inversion HF as [|? ? Hxy HF']; subst. unfold by_start at 1. destruct (Z.ltb_spec (st y) (st x)).
      + constructor; auto. eapply Permutation_Forall; [apply lex_insert_perm|]. constructor; [left; lia|assumption].
      + constructor; auto. assert (lexlt x y) by (unfold lexlt; lia). constructor; [assumption|].
        eapply Forall_impl; [|exact HY]. intros z Hz. eapply lexlt_trans; eassumption.
  Qed.
  Lemma lex_sort_perm l : Permutation l (sort by_start l).
  Proof. induction l; cbn; auto. rewrite IHl at 1. apply lex_insert_perm. Qed.
  Lemma lex_sort l : StronglySorted lt l -> StronglySorted lexlt (sort by_start l).
  Proof.
    induction 1 as [|x l HS IH HF]; cbn [sort]; [constructor|]. apply lex_insert; auto.
    eapply Permutation_Forall; [apply lex_sort_perm|assumption].
  Qed.
  Lemma sort_by_start_eq f l : (forall x y, f x y = by_start x y) -> sort f l = sort by_start l.
  Proof.
    intros H. induction l as [|x l IH]; cbn [sort]; [reflexivity|]. rewrite IH. generalize (sort by_start l) as m.
    induction m as [|y m IHm]; cbn [sort_insert]; [reflexivity|]. rewrite H, IHm. reflexivity.
  Qed.
End Lex.

Lemma seq_sorted a n : StronglySorted lt (seq a n).
Proof.
  revert a. induction n as [|n IH]; intros a; cbn; constructor; auto. apply Forall_forall. intros x Hx. apply in_seq in Hx. lia.
Qed.
Lemma filter_sorted {X} (R : X -> X -> Prop) p l : StronglySorted R l -> StronglySorted R (filter p l).
Proof.
  induction 1 as [|x l HS IH HF]; cbn; [constructor|]. destruct (p x); auto. constructor; auto.
  apply Forall_forall. intros y Hy. apply filter_In in Hy. rewrite Forall_forall in HF. apply HF. tauto.
Qed.

(** * Buckets *)
Lemma noc_type_eqb_eq a b : noc_type_eqb a b = true <-> a = b.
Proof. destruct a, b; cbn; split; congruence. Qed.
Lemma bkey_eqb_eq a b : bkey_eqb a b = true <-> a = b.
Proof.
  destruct a as [[[n r] c] l], b as [[[n' r'] c'] l']. cbn. rewrite !andb_true_iff, noc_type_eqb_eq, !Z.eqb_eq.
  split; [intros [[[-> ->] ->] ->]; reflexivity|]. intros H. injection H as -> -> -> ->. auto.
Qed.

Lemma bucket_push_in bs k id : NoDup (map fst bs) -> forall k' ids,
  In (k', ids) (bucket_push bs k id) <->
  (k' <> k /\ In (k', ids) bs) \/
  (k' = k /\ ((exists ids0, In (k, ids0) bs /\ ids = ids0 ++ [id]) \/ (~ In k (map fst bs) /\ ids = [id]))).
Proof.
  induction bs as [|[k0 ids0] bs IH]; intros ND k' ids; cbn [bucket_push].
  - cbn [In map]. split.
    + intros [H|[]]. injection H as <- <-. right. split; [reflexivity|]. right. split; auto.
    + intros [[_ []]|[-> [(? & [] & _)|[_ ->]]]]. left; reflexivity.
  - inversion ND as [|? ? HK ND']; subst. cbn [fst] in HK. destruct (bkey_eqb k0 k) eqn:E.
    + apply bkey_eqb_eq in E. subst k0. cbn [In map fst]. split.
      * intros [H|H].
        { injection H as <- <-. right. split; [reflexivity|]. left. exists ids0. split; [left; reflexivity|reflexivity]. }
        { left. split; [|right; assumption]. intros ->. apply HK. apply in_map_iff. exists (k, ids). auto. }
      * intros [[HN [H|H]]|[-> [(i & [H|H] & ->)|[HN _]]]].
        { congruence. } { right; assumption. } { injection H as ->. left; reflexivity. }
        { exfalso. apply HK. apply in_map_iff. exists (k, i). auto. } { exfalso. apply HN. left; reflexivity. }
    + assert (k0 <> k) by (intros ->; assert (bkey_eqb k k = true) by (apply bkey_eqb_eq; reflexivity); congruence).
      cbn [In map fst]. rewrite (IH ND'). split.
      * intros [H0|[[HN H0]|[-> [(i & H0 & ->)|[HN ->]]]]].
        { injection H0 as <- <-. left. split; auto. } { left; auto. }
        { right. split; [reflexivity|]. left. exists i. auto. } { right. split; [reflexivity|]. right. split; [|reflexivity]. tauto. }
      * intros [[HN [H0|H0]]|[-> [(i & [H0|H0] & ->)|[HN ->]]]].
        { left; assumption. } { right; left; auto. } { injection H0 as -> _. congruence. }
        { right; right. split; [reflexivity|]. left. eauto. } { right; right. split; [reflexivity|]. right. split; [tauto|reflexivity]. }
Qed.
Lemma bucket_push_keys bs k id : forall k', In k' (map fst (bucket_push bs k id)) <-> In k' (map fst bs) \/ k' = k.
Proof.
  induction bs as [|[k0 ids0] bs IH]; intros k'; cbn.
  - intuition.
  - destruct (bkey_eqb k0 k) eqn:E; cbn.
    + apply bkey_eqb_eq in E. subst. intuition.
    + rewrite IH. intuition.
Qed.
Lemma bucket_push_NoDup bs k id : NoDup (map fst bs) -> NoDup (map fst (bucket_push bs k id)).
Proof.
  induction bs as [|[k0 ids0] bs IH]; intros ND; cbn.
  - constructor; auto.
  - inversion ND as [|? ? HK ND']; subst. destruct (bkey_eqb k0 k) eqn:E; cbn; [exact ND|].
    constructor; auto. rewrite bucket_push_keys. intros [H|H]; [contradiction|].
    subst k0. assert (bkey_eqb k k = true) by (apply bkey_eqb_eq; reflexivity). congruence.
Qed.

Section Engine.
  Context (A : arith).
  Notation state := (tstate (F A)).
  Context (ord : Z -> list Z -> list Z) (bord : list bucket -> list bucket).

  (** * initTransferState *)
  Lemma init_dense d wl : dense wl ->
    initTransferState A ord d wl = mapM (make_state A ord d) (flat_map ph_trs (wl_phases wl)).
  Proof.
    intros (_ & HD & _). unfold all_transfers in HD. unfold initTransferState.
    set (ts := flat_map ph_trs (wl_phases wl)) in *. set (n := List.length ts) in *. rewrite of_nat_seq in HD.
    set (f := fun (slots : list (option state)) (t : transfer (F A)) => _).
    assert (HF : forall ts1 done0 m, map t_id ts1 = zseq (Z.of_nat (List.length done0)) (List.length ts1) ->
      (List.length done0 + List.length ts1 + m = n)%nat ->
      foldM f ts1 (map Some done0 ++ repeat None (List.length ts1 + m)) =
      let! r := mapM (make_state A ord d) ts1 in Ok (map Some (done0 ++ r) ++ repeat None m)).
    { induction ts1 as [|t ts1 IH]; intros done0 m HI HL; cbn [foldM mapM List.length] in *.
      - cbn. rewrite app_nil_r. reflexivity.
      - cbn [map zseq] in HI. injection HI as Ht HI. unfold f at 1. rewrite Ht.
        replace ((0 <=? Z.of_nat (List.length done0)) && (Z.of_nat (List.length done0) <? Z.of_nat n)) with true by lia.
        cbn [tt_assert bind]. destruct (make_state A ord d t) as [s| | | | | |] eqn:E; cbn [bind]; try reflexivity.
        rewrite Nat2Z.id. unfold vec_mod. cbn [repeat Nat.add].
        rewrite nth_error_app2 by (rewrite map_length; lia). rewrite map_length, Nat.sub_diag. cbn [nth_error bind].
        replace (List.length done0) with (List.length (map (@Some state) done0) + 0)%nat by (rewrite map_length; lia).
        rewrite upd_app_r. cbn [upd].
        specialize (IH (done0 ++ [s]) m). rewrite !app_length in IH. cbn [List.length] in IH.
        replace (map Some done0 ++ Some s :: repeat None (List.length ts1 + m)) with
          (map Some (done0 ++ [s]) ++ repeat None (List.length ts1 + m)).
        2:{ rewrite map_app, <- app_assoc. reflexivity. }
        rewrite IH.
        + destruct (mapM (make_state A ord d) ts1); cbn [bind]; auto. rewrite <- app_assoc. reflexivity.
        + replace (Z.of_nat (List.length done0 + 1)) with (Z.of_nat (List.length done0) + 1) by lia. assumption.
        + lia. }
    specialize (HF ts [] O). cbn [map app List.length] in HF. rewrite !Nat.add_0_r in HF. fold n in HF.
    rewrite HF by (auto; lia).
    destruct (mapM (make_state A ord d) ts) as [r| | | | | |]; cbn [bind]; try reflexivity.
    rewrite app_nil_r. clear. induction r; cbn; [reflexivity|]. rewrite IHr. reflexivity.
  Qed.

  (** * Edges *)
  Definition fresh_cp (e : edge) : checkpoint := mkCp 0 1 0 (e_delay e).
  Definition add_edge (st : dep_state A) (e : edge) : outcome (dep_state A) :=
    add_dependency A st (e_child e) (e_parent e) (e_delay e).
  Definition edge_ok (n : nat) (e : edge) : Prop := (e_child e < n)%nat /\ (e_parent e < n)%nat.
  (* state [s] with the requirements and the dependency of edges [E], numbered from [o] *)
  Definition linked (o : nat) (E : list edge) (i : nat) (s : state) : state :=
    mkTs (s_tr s) (s_req s ++ reqs_from o E i) (dep_from o E i (s_dep s)) (s_route s) (s_start s) (s_end s) (s_bw s) (s_done s).

  Lemma add_edges_spec E : forall sts tk, Forall (edge_ok (List.length sts)) E ->
    exists sts', foldM add_edge E (sts, tk) = Ok (sts', tk ++ map fresh_cp E) /\ List.length sts' = List.length sts /\
      forall i s, nth_error sts i = Some s -> nth_error sts' i = Some (linked (List.length tk) E i s).
  Proof.
    induction E as [|e E IH]; intros sts tk HF; cbn [foldM map].
    - exists sts. rewrite app_nil_r. split; [reflexivity|]. split; [reflexivity|]. intros i s Hs. rewrite Hs. unfold linked.
      cbn [reqs_from dep_from]. rewrite app_nil_r. destruct s; reflexivity.
    - apply Forall_cons_iff in HF as [[H1 H2] HF].
      destruct (nth_lt_some _ _ H1) as [sc Hc]. destruct (nth_lt_some _ _ H2) as [sp Hp].
      unfold add_edge at 1, add_dependency, createCheckpoint. fold (fresh_cp e).
      unfold vec_mod at 1. rewrite Hc. cbn [bind]. set (sts1 := upd sts (e_child e) _).
      destruct (nth_lt_some sts1 (e_parent e)) as [sp1 Hp1]. { unfold sts1. rewrite upd_length. assumption. }
      unfold vec_mod. rewrite Hp1. cbn [bind]. set (sts2 := upd sts1 (e_parent e) _).
      assert (HL2 : List.length sts2 = List.length sts) by (unfold sts2, sts1; rewrite !upd_length; reflexivity).
      change (mkCp 0 1 0 (e_delay e)) with (fresh_cp e).
      destruct (IH sts2 (tk ++ [fresh_cp e])) as (sts' & F1 & F2 & F3). { rewrite HL2. assumption. }
      exists sts'. rewrite F1, <- app_assoc. split; [reflexivity|]. split; [congruence|].
      intros i s Hs. rewrite app_length in F3. cbn [List.length] in F3. rewrite Nat.add_1_r in F3.
      assert (G : nth_error sts2 i = Some (linked (List.length tk) [e] i s)).
      { unfold sts2. rewrite upd_nth, Hp1. unfold sts1 in *. rewrite upd_nth, Hc in Hp1. rewrite (upd_nth _ (e_child e)), Hc.
        unfold linked. cbn [reqs_from dep_from]. rewrite app_nil_r.
        destruct (Nat.eqb_spec (e_child e) (e_parent e)) as [Ecp|Ecp].
        - rewrite <- Ecp in *. injection Hp1 as <-. destruct (Nat.eqb_spec (e_child e) i) as [Eci|Eci].
          + subst i. rewrite Hc in Hs. injection Hs as <-. reflexivity.
          + rewrite Hs, app_nil_r. destruct s; reflexivity.
        - destruct (Nat.eqb_spec (e_parent e) i) as [Epi|Epi], (Nat.eqb_spec (e_child e) i) as [Eci|Eci]; try congruence.
          + subst i. rewrite Hs in Hp1. injection Hp1 as <-. reflexivity.
          + subst i. rewrite Hc in Hs. injection Hs as <-. rewrite app_nil_r. reflexivity.
          + rewrite Hs, app_nil_r. destruct s; reflexivity. }
      rewrite (F3 _ _ G). f_equal. unfold linked. cbn [s_tr s_req s_dep s_route s_start s_end s_bw s_done reqs_from dep_from].
      rewrite <- !app_assoc. reflexivity.
  Qed.

  (* the n-2 rule on one bucket, given the start cycles *)
  Lemma chain_fold ids : forall st, chain A ids st = foldM add_edge (chain_edges ids) st.
  Proof.
    induction ids as [|a ids IH]; intros st; [reflexivity|]. destruct ids as [|b [|c ids]]; try reflexivity.
    change (chain A (a :: b :: c :: ids) st) with (let! st := add_dependency A st c a 0 in chain A (b :: c :: ids) st).
    change (chain_edges (a :: b :: c :: ids)) with ((c, a, 0) :: chain_edges (b :: c :: ids)). cbn [foldM].
    unfold add_edge at 1. cbn [e_child e_parent e_delay fst snd]. destruct (add_dependency A st c a 0); cbn [bind]; auto.
  Qed.

  (* parts of the states that dependency generation does not change *)
  Definition same_frame_st (s s' : state) : Prop :=
    s_tr s' = s_tr s /\ s_route s' = s_route s /\ s_start s' = s_start s /\ s_end s' = s_end s /\ s_bw s' = s_bw s /\ s_done s' = s_done s.
  Lemma same_frame_refl s : same_frame_st s s.
  Proof. unfold same_frame_st. tauto. Qed.
  Definition frame_eq (sts sts' : list state) : Prop :=
    List.length sts' = List.length sts /\ forall i s, nth_error sts i = Some s -> exists s', nth_error sts' i = Some s' /\ same_frame_st s s'.
  Lemma frame_refl sts : frame_eq sts sts.
  Proof. split; [reflexivity|]. intros i s H. exists s. split; [assumption|]. apply same_frame_refl. Qed.
  Lemma frame_trans a b c : frame_eq a b -> frame_eq b c -> frame_eq a c.
  Proof.
    intros [L1 H1] [L2 H2]. split; [congruence|]. intros i s Hs. destruct (H1 _ _ Hs) as (s' & Hs' & F1).
    destruct (H2 _ _ Hs') as (s'' & Hs'' & F2). exists s''. split; [assumption|]. unfold same_frame_st in *. intuition congruence.
  Qed.
  Lemma frame_upd sts i s s' : nth_error sts i = Some s -> same_frame_st s s' -> frame_eq sts (upd sts i s').
  Proof.
    intros Hs HF. split; [apply upd_length|]. intros j sj Hj. rewrite upd_nth. destruct (Nat.eqb_spec i j).
    - subst j. rewrite Hs in Hj |- *. injection Hj as <-. eauto.
    - exists sj. split; [assumption|]. apply same_frame_refl.
  Qed.
  Lemma add_dependency_frame st c p dl st' : add_dependency A st c p dl = Ok st' -> frame_eq (fst st) (fst st').
  Proof.
    destruct st as [sts tk]. cbn [add_dependency createCheckpoint]. intros H.
    apply bind_ok in H as (s1 & H1 & H). apply bind_ok in H as (s2 & H2 & H). injection H as <-. cbn [fst].
    apply vec_mod_ok in H1 as (a & Ha & ->). apply vec_mod_ok in H2 as (b & Hb & ->).
    eapply frame_trans; eapply frame_upd; eauto; unfold same_frame_st; cbn; tauto.
  Qed.
  Lemma frame_start sts sts' i : frame_eq sts sts' -> start_of A sts' i = start_of A sts i.
  Proof.
    intros [HL HF]. unfold start_of. destruct (nth_error sts i) as [s|] eqn:E.
    - destruct (HF _ _ E) as (s' & -> & _ & _ & -> & _). reflexivity.
    - apply nth_error_None in E. replace (nth_error sts' i) with (@None state); [reflexivity|]. symmetry. apply nth_error_None. lia.
  Qed.

  Definition bucket_edges (sts : list state) (b : bucket) : list edge :=
    chain_edges (sort (by_start (start_of A sts)) (snd b)).
  Lemma niu_fold sts bs : forall st, frame_eq sts (fst st) ->
    foldM (niu_dependencies A) bs st = foldM add_edge (flat_map (bucket_edges sts) bs) st.
  Proof.
    intros st HF. rewrite <- foldM_flat_map. apply foldM_ext_inv with (P := fun st => frame_eq sts (fst st)); [assumption|].
    intros s b Hs _. split.
    - unfold niu_dependencies, bucket_edges. rewrite chain_fold. do 2 f_equal.
      apply sort_by_start_eq. intros. unfold by_start. rewrite !(frame_start _ _ _ Hs). reflexivity.
    - intros s' H'. eapply foldM_inv with (P := fun st => frame_eq sts (fst st)); [exact Hs|exact H'|].
      intros s1 e s2 H1 _ H2. apply add_dependency_frame in H2. eapply frame_trans; eassumption.
  Qed.

  (* dependencies on group parents *)
  Definition group_edge (d : device) (sts : list state) (s : state) : outcome (list edge) :=
    let t := s_tr s in
    if negb (t_gid t =? -1) && negb (t_gpar t =? -1) then
      let parent := group_get (group_map A sts) (t_gid t) (t_gpar t) in
      let! delay := group_delay A d sts t parent in
      Ok [(idx A s, parent, delay)]
    else Ok [].
  Definition group_edges (d : device) (sts l : list state) : outcome (list edge) :=
    let! es := mapM (group_edge d sts) l in Ok (concat es).
  Lemma group_delay_frame d sts sts' t p : frame_eq sts sts' -> (p < List.length sts)%nat ->
    group_delay A d sts' t p = group_delay A d sts t p.
  Proof.
    intros [_ HF] HP. unfold group_delay. destruct (t_dst t); [|reflexivity].
    destruct (write_latency _ _ _ _ _ _); cbn [bind]; try reflexivity. destruct (dv_arch d); [|reflexivity].
    destruct (nth_lt_some _ _ HP) as [s Hs]. destruct (HF _ _ Hs) as (s' & Hs' & HT & _).
    unfold vec_get. rewrite Hs, Hs'. cbn [bind]. rewrite HT. reflexivity.
  Qed.

  Lemma group_fold d sts l : forall st, frame_eq sts (fst st) ->
    (forall s, In s l -> (group_get (group_map A sts) (t_gid (s_tr s)) (t_gpar (s_tr s)) < List.length sts)%nat) ->
    (forall s, In s l -> (idx A s < List.length sts)%nat) ->
    foldM (group_dependency A d (group_map A sts)) l st = let! E := group_edges d sts l in foldM add_edge E st.
  Proof.
    unfold group_edges. induction l as [|s l IH]; intros st HF HG HI; cbn [foldM mapM bind]; [reflexivity|].
    unfold group_dependency at 1, group_edge at 1. destruct (_ && _) eqn:EG; cbn [bind].
    - rewrite group_delay_frame with (sts := sts); auto. 2:{ apply HG; left; reflexivity. }
      set (p := group_get (group_map A sts) (t_gid (s_tr s)) (t_gpar (s_tr s))).
      destruct (group_delay A d sts (s_tr s) p) as [dl| | | | | |]; cbn [bind]; try reflexivity.
      destruct (add_edges_spec [(idx A s, p, dl)] (fst st) (snd st)) as (sts1 & H1 & _).
      { constructor; [|constructor]. destruct HF as [-> _]. unfold edge_ok; cbn. split; [apply HI|apply HG]; left; reflexivity. }
      replace (fst st, snd st) with st in H1 by (destruct st; reflexivity). cbn [foldM] in H1.
      apply bind_ok in H1 as (st1 & H1 & H1'). injection H1' as ->. unfold add_edge in H1. cbn [e_child e_parent e_delay fst snd] in H1.
      rewrite H1. cbn [bind]. rewrite IH; auto using in_cons.
      2:{ apply add_dependency_frame in H1. eapply frame_trans; eassumption. }
      destruct (mapM (group_edge d sts) l); cbn [bind]; auto. cbn [concat app]. cbn [foldM].
      unfold add_edge at 2. cbn [e_child e_parent e_delay fst snd]. rewrite H1. reflexivity.
    - rewrite IH by auto using in_cons. destruct (mapM (group_edge d sts) l); reflexivity.
  Qed.

  (* all edges of a list of states *)
  Definition dep_edges (d : device) (sts : list state) : outcome (list edge) :=
    let! bs := make_buckets A d sts in
    let! E2 := group_edges d sts sts in
    Ok (flat_map (bucket_edges sts) (bord bs) ++ E2).

  (* freshly initialised states: the i-th one has identifier i and no links *)
  Definition fresh_states (sts : list state) : Prop :=
    forall i s, nth_error sts i = Some s -> idx A s = i /\ s_req s = [] /\ s_dep s = None.

  Lemma group_map_in sts m0 :
    forall k id, In (k, id) (fold_left (fun m (s : state) =>
      let t := s_tr s in
      if negb (t_gid t =? -1) && negb (t_gix t =? -1) then ((t_gid t, t_gix t), idx A s) :: m else m) sts m0) ->
    In (k, id) m0 \/ exists s, In s sts /\ idx A s = id /\ t_gid (s_tr s) = fst k /\ t_gix (s_tr s) = snd k.
  Proof.
    revert m0. induction sts as [|s sts IH]; intros m0 k id H; cbn [fold_left] in H; [auto|].
    apply IH in H. destruct H as [H|(s' & H1 & H2)]; [|right; exists s'; split; [right; assumption|assumption]].
    cbv zeta in H. destruct (_ && _); [|auto]. destruct H as [H|H]; [|auto].
    injection H as <- <-. right. exists s. cbn. auto.
  Qed.
  Lemma group_get_cases m g x : group_get m g x = O \/ exists id, In ((g, x), id) m /\ group_get m g x = id.
  Proof.
    induction m as [|[[g' x'] id] m IH]; cbn [group_get]; [auto|].
    destruct ((g' =? g) && (x' =? x)) eqn:E.
    - right. exists id. split; [|reflexivity]. left. f_equal. f_equal; lia.
    - destruct IH as [IH|(i & H1 & H2)]; [auto|]. right. exists i. split; [right; assumption|assumption].
  Qed.
  Lemma fresh_idx sts s : fresh_states sts -> In s sts -> (idx A s < List.length sts)%nat.
  Proof. intros HF H. apply In_nth_error in H as [i Hi]. destruct (HF _ _ Hi) as [-> _]. eapply nth_some_lt; eassumption. Qed.
  Lemma group_parent_lt sts s : fresh_states sts -> In s sts ->
    (group_get (group_map A sts) (t_gid (s_tr s)) (t_gpar (s_tr s)) < List.length sts)%nat.
  Proof.
    intros HF Hs. destruct (group_get_cases (group_map A sts) (t_gid (s_tr s)) (t_gpar (s_tr s))) as [->|(id & H1 & H2)].
    - destruct sts; [destruct Hs|cbn; lia].
    - rewrite H2. unfold group_map in H1. apply group_map_in in H1. destruct H1 as [[]|(s' & H3 & <- & _)].
      apply fresh_idx; assumption.
  Qed.

  (* buckets collect the identifiers of the states with equal keys in increasing order *)
  Lemma make_buckets_spec d : forall sts bs, fresh_states sts -> make_buckets A d sts = Ok bs ->
    NoDup (map fst bs) /\
    (forall i s, nth_error sts i = Some s -> exists k, bucket_key A d s = Ok k /\ In k (map fst bs)) /\
    (forall k ids, In (k, ids) bs ->
       ids = filter (fun i => match nth_error sts i with
                              | Some s => match bucket_key A d s with Ok k' => bkey_eqb k' k | _ => false end
                              | None => false end) (seq 0 (List.length sts)) /\ ids <> []).
  Proof.
    intros sts. induction sts as [|s sts IH] using rev_ind; intros bs HF H.
    - cbn in H. injection H as <-. cbn. repeat split; try constructor; try tauto. intros i s Hs. destruct i; discriminate.
    - unfold make_buckets in H. rewrite foldM_snoc in H. apply bind_ok in H as (bs0 & H0 & H).
      apply bind_ok in H as (k0 & Hk0 & H). injection H as <-.
      assert (HF0 : fresh_states sts).
      { intros i s' Hs'. apply HF. rewrite nth_error_app1; [assumption|eapply nth_some_lt; eassumption]. }
      destruct (IH _ HF0 H0) as (I1 & I2 & I3).
      assert (Hidx : idx A s = List.length sts).
      { apply (HF (List.length sts) s). rewrite nth_error_app2, Nat.sub_diag by lia. reflexivity. }
      rewrite Hidx. split; [apply bucket_push_NoDup; assumption|]. split.
      + intros i s' Hs'. destruct (Nat.lt_ge_cases i (List.length sts)).
        * rewrite nth_error_app1 in Hs' by assumption. destruct (I2 _ _ Hs') as (k & Hk & Hin). exists k. split; [assumption|].
          apply bucket_push_keys. auto.
        * rewrite nth_error_app2 in Hs' by assumption. destruct (i - List.length sts)%nat; [|destruct n; discriminate].
          injection Hs' as <-. exists k0. split; [assumption|]. apply bucket_push_keys. auto.
      + set (P := fun (l : list state) (k : bkey) (i : nat) => match nth_error l i with
                              | Some s => match bucket_key A d s with Ok k' => bkey_eqb k' k | _ => false end
                              | None => false end).
        change (forall k ids, In (k, ids) bs0 -> ids = filter (P sts k) (seq 0 (List.length sts)) /\ ids <> []) in I3.
        change (forall k ids, In (k, ids) (bucket_push bs0 k0 (List.length sts)) -> ids = filter (P (sts ++ [s]) k) (seq 0 (List.length (sts ++ [s]))) /\ ids <> []).
        assert (G : forall k, filter (P (sts ++ [s]) k) (seq 0 (List.length (sts ++ [s]))) =
                    filter (P sts k) (seq 0 (List.length sts)) ++ if bkey_eqb k0 k then [List.length sts] else []).
        { intros k. rewrite app_length. cbn [List.length]. rewrite seq_app, filter_app. f_equal.
          - apply filter_ext_in. intros i Hi. apply in_seq in Hi. unfold P. rewrite nth_error_app1 by lia. reflexivity.
          - cbn [seq filter Nat.add]. unfold P. rewrite nth_error_app2, Nat.sub_diag by lia. cbn [nth_error]. rewrite Hk0.
            destruct (bkey_eqb k0 k); reflexivity. }
        intros k ids Hin. rewrite G. apply bucket_push_in in Hin; [|assumption].
        destruct Hin as [[HN Hin]|[-> [(ids0 & Hin & ->)|[HN ->]]]].
        * destruct (bkey_eqb k0 k) eqn:E; [apply bkey_eqb_eq in E; congruence|]. rewrite app_nil_r. auto.
        * destruct (bkey_eqb k0 k0) eqn:E; [|assert (bkey_eqb k0 k0 = true) by (apply bkey_eqb_eq; reflexivity); congruence].
          destruct (I3 _ _ Hin) as [-> _]. split; [reflexivity|]. intros H. apply app_eq_nil in H as [_ H]. discriminate.
        * destruct (bkey_eqb k0 k0) eqn:E; [|assert (bkey_eqb k0 k0 = true) by (apply bkey_eqb_eq; reflexivity); congruence].
          split; [|discriminate]. replace (filter (P sts k0) (seq 0 (List.length sts))) with (@nil nat); [reflexivity|].
          symmetry. destruct (filter (P sts k0) (seq 0 (List.length sts))) as [|i l] eqn:EF; [reflexivity|]. exfalso.
          assert (In i (filter (P sts k0) (seq 0 (List.length sts)))) as Hi by (rewrite EF; left; reflexivity).
          apply filter_In in Hi as [_ Hi]. unfold P in Hi. destruct (nth_error sts i) as [si|] eqn:Es; [|discriminate].
          destruct (I2 _ _ Es) as (ki & Hki & Hin). rewrite Hki in Hi. apply bkey_eqb_eq in Hi. subst ki. contradiction.
  Qed.
  Lemma bucket_ids_lt d sts bs : fresh_states sts -> make_buckets A d sts = Ok bs ->
    forall b id, In b bs -> In id (snd b) -> (id < List.length sts)%nat.
  Proof.
    intros HF H [k ids] id Hb Hid. destruct (make_buckets_spec _ _ _ HF H) as (_ & _ & H3). destruct (H3 _ _ Hb) as [-> _].
    cbn in Hid. apply filter_In in Hid as [Hid _]. apply in_seq in Hid. lia.
  Qed.

  Context (bord_perm : forall bs, Permutation (bord bs) bs).

  Lemma dep_edges_ok d sts E : fresh_states sts -> dep_edges d sts = Ok E -> Forall (edge_ok (List.length sts)) E.
  Proof.
    intros HF H. unfold dep_edges in H. apply bind_ok in H as (bs & Hbs & H). apply bind_ok in H as (E2 & HE2 & H).
    injection H as <-. apply Forall_app. split.
    - apply Forall_forall. intros e He. apply in_flat_map in He as (b & Hb & He).
      apply (Permutation_in _ (bord_perm bs)) in Hb. unfold bucket_edges in He. apply chain_edges_in in He as (k & H1 & H2 & _).
      assert (G : forall id, In id (sort (by_start (start_of A sts)) (snd b)) -> (id < List.length sts)%nat).
      { intros id Hid. eapply bucket_ids_lt; eauto. eapply Permutation_in; [symmetry; apply lex_sort_perm|exact Hid]. }
      split; apply G; eapply nth_error_In; eassumption.
    - unfold group_edges in HE2. apply bind_ok in HE2 as (es & Hes & H). injection H as <-.
      apply mapM_Forall2 in Hes. apply Forall_forall. intros e He. apply in_concat in He as (l & Hl & He).
      destruct (Forall2_In_r _ _ _ _ Hes Hl) as (s & Hs & Hg). unfold group_edge in Hg.
      destruct (_ && _); [|injection Hg as <-; destruct He]. apply bind_ok in Hg as (dl & _ & Hg). injection Hg as <-.
      destruct He as [<-|[]]. split; [apply fresh_idx; assumption|apply group_parent_lt; assumption].
  Qed.

  Lemma reqs_all_NoDup E n : NoDup (flat_map (reqs_of E) (seq 0 n)).
  Proof.
    generalize O as a. induction n as [|n IH]; intros a; cbn [seq flat_map]; [constructor|].
    apply RouteProofs.NoDup_app_disj; [apply reqs_from_NoDup|apply IH|].
    intros k H1 H2. apply reqs_of_in in H1 as (e & He & Hp). apply in_flat_map in H2 as (j & Hj & H2).
    apply reqs_of_in in H2 as (e' & He' & Hp'). apply in_seq in Hj. assert (e = e') by congruence. subst. lia.
  Qed.

  (* dependency generation never fails its own check, and returns the linked states with fresh checkpoints *)
  Theorem genDependencies_eq d sts : fresh_states sts ->
    genDependencies A bord d sts =
    let! E := dep_edges d sts in
    Ok (map (fun p => linked 0 E (fst p) (snd p)) (combine (seq 0 (List.length sts)) sts), map fresh_cp E).
  Proof.
    intros HF. unfold genDependencies, dep_edges. destruct (make_buckets A d sts) as [bs| | | | | |] eqn:Hbs; cbn [bind]; try reflexivity.
    rewrite niu_fold with (sts := sts) by apply frame_refl.
    set (E1 := flat_map (bucket_edges sts) (bord bs)).
    assert (HE1 : Forall (edge_ok (List.length sts)) E1).
    { apply Forall_forall. intros e He. apply in_flat_map in He as (b & Hb & He).
      apply (Permutation_in _ (bord_perm bs)) in Hb. apply chain_edges_in in He as (k & H1 & H2 & _).
      assert (G : forall id, In id (sort (by_start (start_of A sts)) (snd b)) -> (id < List.length sts)%nat).
      { intros id Hid. eapply bucket_ids_lt; eauto. eapply Permutation_in; [symmetry; apply lex_sort_perm|exact Hid]. }
      split; apply G; eapply nth_error_In; eassumption. }
    destruct (add_edges_spec E1 sts [] HE1) as (sts1 & F1 & L1 & N1). cbn [List.length app] in *.
    match goal with |- (let! st := ?m in _) = _ => replace m with (Ok (sts1, map fresh_cp E1) : outcome (dep_state A)) by (symmetry; exact F1) end.
    cbn [bind].
    assert (FR1 : frame_eq sts (fst (sts1, map fresh_cp E1))).
    { split; [assumption|]. intros i s Hs. cbn [fst]. rewrite (N1 _ _ Hs). eexists. split; [reflexivity|]. unfold same_frame_st, linked. cbn. tauto. }
    assert (HG1 : forall s, In s sts1 -> exists i s0, nth_error sts i = Some s0 /\ s = linked 0 E1 i s0).
    { intros s Hs. apply In_nth_error in Hs as [i Hi]. pose proof (nth_some_lt _ _ _ Hi) as Hlt. rewrite L1 in Hlt.
      destruct (nth_lt_some _ _ Hlt) as [s0 Hs0]. exists i, s0. split; [assumption|]. rewrite (N1 _ _ Hs0) in Hi. congruence. }
    rewrite group_fold with (sts := sts); [|assumption| |].
    2:{ intros s Hs. destruct (HG1 _ Hs) as (i & s0 & H0 & ->). cbn [linked s_tr]. apply group_parent_lt; [assumption|]. eapply nth_error_In; eassumption. }
    2:{ intros s Hs. destruct (HG1 _ Hs) as (i & s0 & H0 & ->). unfold idx, linked. cbn [s_tr]. fold (idx A s0). apply fresh_idx; [assumption|]. eapply nth_error_In; eassumption. }
    cbn [fst] in *.     replace (group_edges d sts sts1) with (group_edges d sts sts).
    2:{ unfold group_edges. f_equal. assert (G : forall l l1, Forall2 (fun s s1 => s_tr s1 = s_tr s) l l1 -> mapM (group_edge d sts) l = mapM (group_edge d sts) l1).
        { induction 1; cbn [mapM]; [reflexivity|]. rewrite IHForall2. replace (group_edge d sts y) with (group_edge d sts x); [reflexivity|].
          unfold group_edge, idx. rewrite H. reflexivity. }
        apply G. assert (forall i s s1, nth_error sts i = Some s -> nth_error sts1 i = Some s1 -> s_tr s1 = s_tr s).
        { intros i s s1 Hs Hs1. rewrite (N1 _ _ Hs) in Hs1. injection Hs1 as <-. reflexivity. }
        clear - L1 H. revert sts1 L1 H. induction sts as [|s l IH]; intros [|s1 l1] L H; try discriminate; constructor.
        - apply (H O); reflexivity. - apply IH; [cbn in L; congruence|]. intros i. apply (H (S i)). }
    destruct (group_edges d sts sts) as [E2| | | | | |] eqn:HE2; cbn [bind]; try reflexivity.
    assert (HE2' : Forall (edge_ok (List.length sts)) E2).
    { assert (H : dep_edges d sts = Ok (E1 ++ E2)) by (unfold dep_edges; rewrite Hbs, HE2; reflexivity).
      apply dep_edges_ok in H; [|assumption]. apply Forall_app in H. tauto. }
    destruct (add_edges_spec E2 sts1 (map fresh_cp E1)) as (sts2 & F2 & L2 & N2). { rewrite L1. assumption. }
    match goal with |- (let! st := ?m in _) = _ => replace m with (Ok (sts2, map fresh_cp E1 ++ map fresh_cp E2) : outcome (dep_state A)) by (symmetry; exact F2) end.
    cbn [bind fst snd]. rewrite map_length in N2.
    set (E := E1 ++ E2). rewrite <- map_app. fold E.
    assert (Hsts2 : sts2 = map (fun p => linked 0 E (fst p) (snd p)) (combine (seq 0 (List.length sts)) sts)).
    { apply list_ext. intros i. destruct (Nat.lt_ge_cases i (List.length sts)).
      - destruct (nth_lt_some _ _ H) as [s Hs]. rewrite (N2 _ _ (N1 _ _ Hs)).
        rewrite (map_nth_error _ i _ (d := (i, s))).
        + cbn [fst snd]. f_equal. unfold linked, E. cbn [s_tr s_req s_dep s_route s_start s_end s_bw s_done List.length].
          rewrite dep_from_app. f_equal. rewrite <- app_assoc. f_equal. clear. change (List.length E1) with (0 + List.length E1)%nat. generalize O as o.
          induction E1 as [|e E1 IH]; intros o; cbn [reqs_from app List.length].
          * rewrite Nat.add_0_r. reflexivity.
          * rewrite <- IH, <- app_assoc. do 3 f_equal. lia.
        + clear - Hs H. assert (G : forall a, nth_error (combine (seq a (List.length sts)) sts) i = Some ((a + i)%nat, s)).
          { revert i Hs H. induction sts as [|x l IH]; intros [|i] Hs H a; cbn in *; try discriminate; try lia.
            - injection Hs as <-. do 2 f_equal. lia.
            - rewrite IH by (auto; lia). do 2 f_equal. lia. }
          apply G.
      - transitivity (@None state).
        + apply nth_error_None. lia.
        + symmetry. apply nth_error_None. rewrite map_length, combine_length, seq_length. lia. }
    assert (Hreq : flat_map s_req sts2 = flat_map (reqs_of E) (seq 0 (List.length sts))).
    { rewrite Hsts2. clear - HF.
      assert (G : forall (E : list edge) (l : list state) a, (forall i s, nth_error l i = Some s -> s_req s = []) ->
        flat_map s_req (map (fun p => linked 0 E (fst p) (snd p)) (combine (seq a (List.length l)) l)) = flat_map (reqs_of E) (seq a (List.length l))).
      { clear. intros E. induction l as [|s l IH]; intros a H; cbn; [reflexivity|]. rewrite IH.
        - rewrite (H O s) by reflexivity. reflexivity.
        - intros i. apply (H (S i)). }
      apply G. intros i s Hs. apply (HF i s Hs). }
    unfold fulfil_all. rewrite foldM_flat_map, Hreq.
    destruct (update_all_spec (flat_map (reqs_of E) (seq 0 (List.length sts))) 0 (map fresh_cp E)) as (tk' & F3 & L3 & N3).
    { apply reqs_all_NoDup. }
    { intros k Hk. apply in_flat_map in Hk as (j & _ & Hk). apply reqs_of_in in Hk as (e & He & _). rewrite map_length. eapply nth_some_lt; eassumption. }
    rewrite F3. cbn [bind].
    assert (Hall : tk' = map (fun e => mkCp 1 1 0 (e_delay e)) E).
    { apply list_ext. intros k. destruct (nth_error E k) as [e|] eqn:He.
      - rewrite (N3 k (fresh_cp e)) by (apply map_nth_error; assumption). rewrite (map_nth_error _ _ _ He).
        destruct (in_dec _ _ _) as [|n]; [reflexivity|]. exfalso. apply n. apply in_flat_map. exists (e_parent e). split.
        + apply in_seq. assert (HE : Forall (edge_ok (List.length sts)) E) by (apply Forall_app; auto). rewrite Forall_forall in HE.
          apply nth_error_In, HE in He. destruct He. lia.
        + apply reqs_of_in. eauto.
      - rewrite map_length in L3. apply nth_error_None in He. transitivity (@None checkpoint); [|symmetry]; apply nth_error_None; [lia|rewrite map_length; lia]. }
    rewrite Hall. replace (sanityCheck _ && allComplete _) with true.
    2:{ symmetry. apply andb_true_iff. unfold sanityCheck, allComplete. rewrite !forallb_forall. split; intros c Hc; apply in_map_iff in Hc as (e & <- & _); reflexivity. }
    cbn [fst]. rewrite <- Hsts2. f_equal. f_equal. unfold reset. rewrite map_map. reflexivity.
  Qed.
End Engine.
