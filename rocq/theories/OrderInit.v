(* The order of hash containers and the dependencies of a run (C23). *)
From Coq Require Import ZArith Arith String List Bool Lia ZifyBool ZifyNat Sorting.Permutation Sorting.Sorted FinFun.
From Verif Require Import Base Arith Util Device Workload SpecWorkload DepTracker Rates Stats Engine UtilProofs
  RouteProofs WorkloadProofs SpecTracker TrackerProofs DepGenProofs StepProofs SpecEngine EngineProofs RunProofs SpecOrder OrderProofs.
Import ListNotations.
Open Scope Z_scope.
Ltac Zify.zify_post_hook ::= idtac.

(** * Permuted edges *)
Lemma chain_children ids : map e_child (chain_edges ids) = skipn 2 ids.
Proof.
  induction ids as [|a ids IH]; [reflexivity|]. cbn [chain_edges]. destruct ids as [|b [|c ids]]; [reflexivity|reflexivity|].
  cbn [map skipn e_child fst]. cbn [skipn] in IH. rewrite IH. reflexivity.
Qed.
Lemma skipn_incl {X} n (l : list X) : incl (skipn n l) l.
Proof. revert l. induction n as [|n IH]; intros [|x l]; cbn [skipn]; try apply incl_refl. apply incl_tl, IH. Qed.
Lemma skipn_NoDup {X} n (l : list X) : NoDup l -> NoDup (skipn n l).
Proof. revert l. induction n as [|n IH]; intros [|x l] H; cbn [skipn]; auto. inversion H; auto. Qed.

Lemma reqs_length o E i : List.length (reqs_from o E i) = List.length (filter (fun e => Nat.eqb (e_parent e) i) E).
Proof. revert o. induction E as [|e E IH]; intros o; cbn [reqs_from filter]; [reflexivity|]. destruct (Nat.eqb _ _); cbn [app List.length]; rewrite IH; reflexivity. Qed.
Lemma filter_perm {X} (p : X -> bool) l l' : Permutation l l' -> Permutation (filter p l) (filter p l').
Proof. induction 1; cbn [filter]; auto. - destruct (p x); auto. - destruct (p x), (p y); auto using perm_swap. - etransitivity; eauto. Qed.

(* [f] renames the positions of [E] to those of [E'] *)
Definition renames (f : nat -> nat) (E E' : list edge) : Prop := Injective f /\ forall k, nth_error E' (f k) = nth_error E k.
Lemma reqs_renamed f E E' i : renames f E E' -> Permutation E E' -> Permutation (map f (reqs_of E i)) (reqs_of E' i).
Proof.
  intros [HI HE] HP. apply NoDup_Permutation_bis.
  - apply Injective_map_NoDup; [exact HI|apply reqs_from_NoDup].
  - rewrite map_length. unfold reqs_of. rewrite !reqs_length. rewrite (Permutation_length (filter_perm _ _ _ HP)). reflexivity.
  - intros k Hk. apply in_map_iff in Hk as (j & <- & Hj). apply reqs_of_in in Hj as (e & He & Hp). apply reqs_of_in. exists e. split; [rewrite HE; exact He|exact Hp].
Qed.
Lemma dep_unique E i k e : NoDup (map e_child E) -> nth_error E k = Some e -> e_child e = i -> dep_of E i = Some k.
Proof.
  intros ND He Hc. destruct (dep_of E i) as [k'|] eqn:ED.
  - apply dep_of_some in ED as (e' & He' & Hc' & _). f_equal.
    apply (map_nth_error e_child) in He, He'. rewrite NoDup_nth_error in ND. apply ND; [|congruence]. eapply nth_some_lt. exact He'.
  - exfalso. rewrite dep_of_none in ED. apply (ED e); [eapply nth_error_In; exact He|exact Hc].
Qed.
Lemma extend f E1 E1' E2 : renames f E1 E1' -> List.length E1 = List.length E1' ->
  exists g, renames g (E1 ++ E2) (E1' ++ E2) /\ (forall k, (k < List.length E1)%nat -> g k = f k /\ (f k < List.length E1)%nat) /\ forall k, (List.length E1 <= k)%nat -> g k = k.
Proof.
  intros [HI HE] HL. exists (fun k => if Nat.ltb k (List.length E1) then f k else k).
  assert (HB : forall k, (k < List.length E1)%nat -> (f k < List.length E1)%nat).
  { intros k Hk. destruct (nth_lt_some _ _ Hk) as [e He]. rewrite <- HE in He. apply nth_some_lt in He. lia. }
  split; [split|split].
  - intros a b H. destruct (Nat.ltb_spec a (List.length E1)) as [La|La], (Nat.ltb_spec b (List.length E1)) as [Lb|Lb]; [apply HI; exact H| | |exact H].
    + pose proof (HB a La). lia.
    + pose proof (HB b Lb). lia.
  - intros k. destruct (Nat.ltb_spec k (List.length E1)) as [L|L].
    + rewrite (nth_error_app1 E1 E2 L), nth_error_app1 by (rewrite <- HL; apply HB; exact L). apply HE.
    + rewrite !nth_error_app2 by lia. rewrite HL. reflexivity.
  - intros k Hk. destruct (Nat.ltb_spec k (List.length E1)); [|lia]. split; [reflexivity|]. apply HB. exact Hk.
  - intros k Hk. destruct (Nat.ltb_spec k (List.length E1)); [lia|reflexivity].
Qed.
Lemma dep_from_cur o E i cur : dep_from o E i cur = match dep_from o E i None with Some k => Some k | None => cur end.
Proof.
  revert o cur. induction E as [|e E IH]; intros o cur; cbn [dep_from]; [reflexivity|]. rewrite IH. rewrite (IH _ (if Nat.eqb _ _ then _ else None)). destruct (dep_from (S o) E i None); [reflexivity|]. destruct (Nat.eqb _ _); reflexivity.
Qed.
Lemma dep_renamed f E1 E1' E2 i : renames f E1 E1' -> Permutation E1 E1' -> NoDup (map e_child E1) ->
  forall g, (forall k, (k < List.length E1)%nat -> g k = f k /\ (f k < List.length E1)%nat) -> (forall k, (List.length E1 <= k)%nat -> g k = k) ->
  dep_of (E1' ++ E2) i = option_map g (dep_of (E1 ++ E2) i).
Proof.
  intros [HI HE] HP ND g G1 G2. unfold dep_of. rewrite !dep_from_app, <- (Permutation_length HP). cbn [Nat.add].
  rewrite (dep_from_cur _ E2 i (dep_from 0 E1' i None)), (dep_from_cur _ E2 i (dep_from 0 E1 i None)).
  destruct (dep_from (List.length E1) E2 i None) as [k|] eqn:ED.
  - cbn [option_map]. rewrite G2; [reflexivity|]. apply dep_from_cases in ED. destruct ED as [[ED _]|[ED _]]; [discriminate|exact ED].
  - fold (dep_of E1' i) (dep_of E1 i). destruct (dep_of E1 i) as [k|] eqn:E.
    + cbn [option_map]. apply dep_of_some in E as (e & He & Hc & _). rewrite (proj1 (G1 k (nth_some_lt _ _ _ He))). apply (dep_unique E1' i (f k) e); [|rewrite HE; exact He|exact Hc].
      eapply Permutation_NoDup; [apply Permutation_map; exact HP|exact ND].
    + cbn [option_map]. rewrite dep_of_none in *. intros e He. apply E. eapply Permutation_in; [symmetry; exact HP|exact He].
Qed.

Lemma orel_map {X Y} (R : Y -> Y -> Prop) (f f' : X -> outcome Y) l : (forall x, In x l -> orel R (f x) (f' x)) -> orel (Forall2 R) (mapM f l) (mapM f' l).
Proof.
  induction l as [|x l IH]; intros H; cbn [mapM]; [constructor|]. apply (orel_bind R); [apply H; left; reflexivity|]. intros y y' _ Hy.
  apply (orel_bind (Forall2 R)); [apply IH; intros; apply H; right; assumption|]. intros ys ys' _ Hys. constructor; assumption.
Qed.
Lemma fold_related {X Y S} (R : X -> Y -> Prop) (f : S -> X -> outcome S) (f' : S -> Y -> outcome S) l l' : Forall2 R l l' ->
  (forall s x y, R x y -> f s x = f' s y) -> forall s, foldM f l s = foldM f' l' s.
Proof. intros H HF. induction H as [|x y l l' H HL IH]; intros s; cbn [foldM]; [reflexivity|]. rewrite (HF _ _ _ H). destruct (f' s y); cbn [bind]; auto. Qed.
Lemma map_related {X Y Z} (R : X -> Y -> Prop) (f : X -> outcome Z) (f' : Y -> outcome Z) l l' : Forall2 R l l' -> (forall x y, R x y -> f x = f' y) -> mapM f l = mapM f' l'.
Proof. intros H HF. induction H as [|x y l l' H HL IH]; cbn [mapM]; [reflexivity|]. rewrite (HF _ _ H), IH. reflexivity. Qed.

Section Init.
  Context (A : arith).
  Notation state := (tstate (F A)).
  Context (RR : list Z -> list Z -> Prop) (d : device).
  (* freshly made states of the two runs *)
  Definition mrel (x x' : state) : Prop :=
    s_tr x' = s_tr x /\ s_req x' = s_req x /\ s_dep x' = s_dep x /\ RR (s_route x) (s_route x') /\ heading d (s_route x') = heading d (s_route x) /\
    s_start x' = s_start x /\ s_end x' = s_end x /\ s_bw x' = s_bw x /\ s_done x' = s_done x.

  Lemma key_same x x' : mrel x x' -> bucket_key A d x' = bucket_key A d x.
  Proof.
    intros (E1 & _ & _ & _ & E5 & _). unfold bucket_key. rewrite E1. destruct (s_route x) as [|a r], (s_route x') as [|a' r']; cbn [heading] in E5; try discriminate; [reflexivity|].
    assert (E : (let! a0 := getLinkAttributes d a' in Ok (l_type a0)) = (let! a0 := getLinkAttributes d a in Ok (l_type a0))) by congruence. 
    destruct (getLinkAttributes d a'), (getLinkAttributes d a); cbn [bind] in *; congruence.
  Qed.
  Context (sts sts' : list state) (HM : Forall2 mrel sts sts').
  Lemma idx_same x x' : mrel x x' -> idx A x' = idx A x.
  Proof. intros (E1 & _). unfold idx. rewrite E1. reflexivity. Qed.
  Lemma buckets_same : make_buckets A d sts' = make_buckets A d sts.
  Proof. symmetry. apply (fold_related mrel _ _ _ _ HM). intros s x y H. rewrite (key_same _ _ H), (idx_same _ _ H). reflexivity. Qed.
  Lemma start_same i : start_of A sts' i = start_of A sts i.
  Proof. pose proof (Forall2_nth_error _ _ _ i HM) as H. unfold start_of. destruct (nth_error sts i), (nth_error sts' i); try contradiction; [|reflexivity]. apply H. Qed.
  Lemma bucket_edges_same b : bucket_edges A sts' b = bucket_edges A sts b.
  Proof. unfold bucket_edges. f_equal. apply sort_by_start_eq. intros x y. unfold by_start. rewrite !start_same. reflexivity. Qed.
  Lemma group_map_same : group_map A sts' = group_map A sts.
  Proof.
    unfold group_map. generalize (@nil ((Z * Z) * nat)) as m. clear - HM. induction HM as [|x x' l l' H HL IH]; intros m; cbn [fold_left]; [reflexivity|]. rewrite (idx_same _ _ H). destruct H as (-> & _). apply IH; assumption.
  Qed.
  Lemma group_edges_same : group_edges A d sts' sts' = group_edges A d sts sts.
  Proof.
    unfold group_edges. f_equal. symmetry. apply (map_related mrel _ _ _ _ HM). intros x x' H. unfold group_edge. rewrite (idx_same _ _ H), group_map_same. pose proof H as (-> & _).
    destruct (_ && _); [|reflexivity]. f_equal. unfold group_delay. destruct (t_dst (s_tr x)) as [c|]; [|reflexivity]. destruct (write_latency _ _ _ _ _ _); cbn [bind]; try reflexivity. destruct (dv_arch d); [|reflexivity].
    apply orel_eq. apply (orel_bind mrel); [apply vec_get_rel; exact HM|]. intros p p' _ (-> & _). apply orel_eq. reflexivity.
  Qed.

  Lemma children_NoDup bs : fresh_states A sts -> make_buckets A d sts = Ok bs -> NoDup (map e_child (flat_map (bucket_edges A sts) bs)).
  Proof.
    intros HF HB. destruct (make_buckets_spec A (fun b => b) d sts bs HF HB) as (ND & _ & HI).
    set (K := fun i => match nth_error sts i with Some s => match bucket_key A d s with Ok k => Some k | _ => None end | None => None end).
    assert (HK : forall k ids, In (k, ids) bs -> NoDup ids /\ forall i, In i ids -> K i = Some k).
    { intros k ids Hk. destruct (HI k ids Hk) as [-> _]. split; [apply NoDup_filter, seq_NoDup|]. intros i Hi. apply filter_In in Hi as [_ Hi]. unfold K.
      destruct (nth_error sts i); [|discriminate]. destruct (bucket_key A d t); try discriminate. apply bkey_eqb_eq in Hi. congruence. }
    clear HB HI. induction bs as [|[k ids] bs IH]; [constructor|]. cbn [flat_map map fst] in *. rewrite map_app. inversion ND as [|? ? N1 N2]; subst. unfold bucket_edges at 1. cbn [snd]. rewrite chain_children.
    assert (HIn : forall i, In i (sort (by_start (start_of A sts)) ids) <-> In i ids) by (intros i; split; intros Hi; (eapply Permutation_in; [|exact Hi]); [symmetry|]; apply lex_sort_perm).
    apply NoDup_app_disj.
    - apply skipn_NoDup. eapply Permutation_NoDup; [apply lex_sort_perm|]. apply (HK k ids). left. reflexivity.
    - apply IH; [exact N2|]. intros k' ids' Hk'. apply HK. right. exact Hk'.
    - intros i H1 H2. apply skipn_incl, HIn in H1. apply (proj2 (HK k ids (or_introl eq_refl))) in H1.
      apply in_map_iff in H2 as (e & <- & He). apply in_flat_map in He as ([k' ids'] & Hb & He). unfold bucket_edges in He. cbn [snd] in He.
      assert (Hi : In (e_child e) (map e_child (chain_edges (sort (by_start (start_of A sts)) ids')))) by (apply in_map; exact He). rewrite chain_children in Hi. apply skipn_incl in Hi.
      assert (Hi' : In (e_child e) ids') by (eapply Permutation_in; [symmetry; apply lex_sort_perm|exact Hi]).
      apply (proj2 (HK k' ids' (or_intror Hb))) in Hi'. apply N1. apply in_map_iff. exists (k', ids'). cbn [fst]. split; [congruence|exact Hb].
  Qed.

  Context (bord bord' : list bucket -> list bucket) (HB : bucket_order bord) (HB' : bucket_order bord').
  (* the edges are the same up to a renaming that respects the edge each transfer ends up with *)
  Definition erel (E E' : list edge) : Prop := exists f, renames f E E' /\ Permutation E E' /\ forall i, dep_of E' i = option_map f (dep_of E i).
  Lemma edges_rel : fresh_states A sts -> orel erel (dep_edges A bord d sts) (dep_edges A bord' d sts').
  Proof.
    intros HF. unfold dep_edges. rewrite buckets_same, group_edges_same. apply orel_same; [reflexivity|]. intros bs Ebs. apply orel_same; [reflexivity|]. intros E2 _. cbn [orel].
    assert (EE : flat_map (bucket_edges A sts') (bord' bs) = flat_map (bucket_edges A sts) (bord' bs)) by (apply flat_map_ext; intros; apply bucket_edges_same). rewrite EE. clear EE.
    set (E1 := flat_map (bucket_edges A sts) (bord bs)). set (E1' := flat_map (bucket_edges A sts) (bord' bs)).
    assert (HP : Permutation E1 E1') by (apply Permutation_flat_map; rewrite (HB bs); symmetry; apply HB').
    assert (ND : NoDup (map e_child E1)).
    { eapply Permutation_NoDup; [apply Permutation_map; apply Permutation_flat_map; symmetry; apply HB|]. apply children_NoDup; assumption. }
    destruct (proj1 (Permutation_nth_error _ _) (Permutation_sym HP)) as (HL & f & HI & HE).
    assert (HR : renames f E1 E1') by (split; [exact HI|]; intros k; symmetry; apply HE).
    destruct (extend f E1 E1' E2 HR (eq_sym HL)) as (g & G0 & G1 & G2). exists g. split; [exact G0|]. split; [apply Permutation_app_tail; exact HP|].
    intros i. apply (dep_renamed f E1 E1' E2 i HR HP ND g G1 G2).
  Qed.
End Init.
