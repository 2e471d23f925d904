(* The order of hash containers and the result of a run (C23). *)
From Coq Require Import ZArith Arith String List Bool Lia ZifyBool ZifyNat Sorting.Permutation Sorting.Sorted FinFun.
From Verif Require Import Base Arith Util Device Workload SpecWorkload DepTracker Rates Stats Engine UtilProofs
  WorkloadProofs SpecTracker TrackerProofs DepGenProofs StepProofs SpecEngine EngineProofs RunProofs SpecOrder.
Import ListNotations.
Open Scope Z_scope.
Ltac Zify.zify_post_hook ::= idtac.

(** * Related outcomes *)
Definition orel {X Y} (R : X -> Y -> Prop) (m : outcome X) (m' : outcome Y) : Prop :=
  match m, m' with
  | Ok x, Ok y => R x y
  | Throw e, Throw e' => e = e'
  | StdThrow a, StdThrow b => a = b
  | UB a, UB b => a = b
  | Abort, Abort | Exit, Exit | Diverge, Diverge => True
  | _, _ => False
  end.
Lemma orel_bind {X Y X' Y'} (R : X -> X' -> Prop) (S : Y -> Y' -> Prop) m m' f f' :
  orel R m m' -> (forall x x', m = Ok x -> R x x' -> orel S (f x) (f' x')) -> orel S (bind m f) (bind m' f').
Proof. destruct m, m'; cbn [orel bind]; try contradiction; auto. Qed.
Lemma orel_eq {X} (m m' : outcome X) : orel eq m m' <-> m = m'.
Proof. destruct m, m'; cbn [orel]; split; intros H; try contradiction; try discriminate; try congruence; auto. Qed.
Lemma orel_same {X Y Y'} (S : Y -> Y' -> Prop) (m m' : outcome X) f f' : m = m' -> (forall x, m = Ok x -> orel S (f x) (f' x)) -> orel S (bind m f) (bind m' f').
Proof. intros <- H. destruct m; cbn [orel bind]; auto. Qed.
Lemma orel_fold {X S S'} (R : S -> S' -> Prop) (f : S -> X -> outcome S) (f' : S' -> X -> outcome S') l :
  (forall s s' x, R s s' -> In x l -> orel R (f s x) (f' s' x)) -> forall s s', R s s' -> orel R (foldM f l s) (foldM f' l s').
Proof.
  induction l as [|x l IH]; intros H s s' HR; cbn [foldM]; [exact HR|]. apply (orel_bind R); [apply H; [exact HR|left; reflexivity]|].
  intros s1 s1' _ H1. apply IH; [|exact H1]. intros. apply H; [assumption|right; assumption].
Qed.
Lemma orel_imp {X Y} (R S : X -> Y -> Prop) m m' : orel R m m' -> (forall x y, R x y -> S x y) -> orel S m m'.
Proof. destruct m, m'; cbn [orel]; auto. Qed.

Lemma fold_perm {X S} (P : S -> Prop) (f : S -> X -> outcome S) :
  (forall s x s', P s -> f s x = Ok s' -> P s') ->
  (forall s x y, P s -> bind (f s x) (fun s => f s y) = bind (f s y) (fun s => f s x)) ->
  forall l l', Permutation l l' -> forall s, P s -> foldM f l s = foldM f l' s.
Proof.
  intros HP HC l l' H. induction H as [|x l l' H IH|x y l|l l1 l2 H1 IH1 H2 IH2]; intros s Hs; cbn [foldM].
  - reflexivity.
  - destruct (f s x) eqn:E; cbn [bind]; auto. apply IH. eapply HP; eassumption.
  - transitivity (bind (bind (f s y) (fun s => f s x)) (foldM f l)); [destruct (f s y); reflexivity|]. rewrite (HC s y x Hs). destruct (f s x); reflexivity.
  - rewrite (IH1 s Hs). apply IH2. exact Hs.
Qed.
Lemma upd_comm {X} (l : list X) n m a b : n <> m -> upd (upd l n a) m b = upd (upd l m b) n a.
Proof. revert n m. induction l as [|x l IH]; intros [|n] [|m] H; cbn; try reflexivity; try congruence. f_equal. apply IH. lia. Qed.
Lemma grid_mod_comm {X} (g : list X) a b (f : X -> X) :
  bind (grid_mod g a f) (fun g => grid_mod g b f) = bind (grid_mod g b f) (fun g => grid_mod g a f).
Proof.
  unfold grid_mod, vec_mod. destruct (Z.ltb_spec a 0), (Z.ltb_spec b 0); cbn [bind]; try reflexivity.
  - destruct (nth_error g (Z.to_nat b)); reflexivity.
  - destruct (nth_error g (Z.to_nat a)); reflexivity.
  - destruct (Nat.eq_dec (Z.to_nat a) (Z.to_nat b)) as [E|E]; [rewrite E; reflexivity|].
    destruct (nth_error g (Z.to_nat a)) as [x|] eqn:Ea, (nth_error g (Z.to_nat b)) as [y|] eqn:Eb; cbn [bind]; rewrite ?upd_nth, ?Ea, ?Eb;
      destruct (Nat.eqb_spec (Z.to_nat a) (Z.to_nat b)), (Nat.eqb_spec (Z.to_nat b) (Z.to_nat a)); try lia; try reflexivity.
    rewrite upd_comm by lia. reflexivity.
Qed.
Lemma link_demand_perm (A : arith) eff r r' g : Permutation r r' -> add_link_demand A eff r g = add_link_demand A eff r' g.
Proof. intros H. unfold add_link_demand. apply (fold_perm (fun _ => True)); auto. intros. apply grid_mod_comm. Qed.
Lemma update_comm tk a b e :
  bind (updateCheckpoint tk (Some a) e) (fun tk => updateCheckpoint tk (Some b) e) = bind (updateCheckpoint tk (Some b) e) (fun tk => updateCheckpoint tk (Some a) e).
Proof.
  cbn [updateCheckpoint]. unfold cp_at. destruct (Nat.eq_dec a b) as [->|N]; [reflexivity|].
  destruct (nth_error tk a) as [x|] eqn:Ea, (nth_error tk b) as [y|] eqn:Eb; cbn [bind]; rewrite ?upd_nth, ?Ea, ?Eb; try reflexivity; destruct (Nat.eqb_spec a b), (Nat.eqb_spec b a); try lia; cbn [bind]; try reflexivity.
  rewrite upd_comm by lia. reflexivity.
Qed.

Lemma Forall2_nth_error {X Y} (R : X -> Y -> Prop) l l' n : Forall2 R l l' -> 
  match nth_error l n, nth_error l' n with Some x, Some y => R x y | None, None => True | _, _ => False end.
Proof. intros H. revert n. induction H as [|x y l l' H HF IH]; intros [|n]; cbn [nth_error]; auto. apply IH. Qed.
Lemma Forall2_upd {X Y} (R : X -> Y -> Prop) l l' n x y : Forall2 R l l' -> R x y -> Forall2 R (upd l n x) (upd l' n y).
Proof. intros H HR. revert n. induction H as [|a b l l' H HF IH]; intros [|n]; cbn [upd]; constructor; auto. Qed.
Lemma vec_get_rel {X Y} (R : X -> Y -> Prop) l l' n : Forall2 R l l' -> orel R (vec_get l n) (vec_get l' n).
Proof. intros H. apply (Forall2_nth_error _ _ _ n) in H. unfold vec_get. destruct (nth_error l n), (nth_error l' n); cbn [orel]; auto; contradiction. Qed.

(** * Related states *)
Section Rel.
  Context (A : arith).
  Notation state := (tstate (F A)).
  (* how the routes differ *)
  Context (RR : list Z -> list Z -> Prop) (RR_perm : forall r r', RR r r' -> Permutation r r').
  Context (RR_max : forall g r r', RR r r' -> max_link_demand A g r = max_link_demand A g r').
  (* how the checkpoints are renamed *)
  Context (f : nat -> nat) (f_inj : Injective f).

  Definition srel (x x' : state) : Prop :=
    s_tr x' = s_tr x /\ s_dep x' = option_map f (s_dep x) /\ Permutation (map f (s_req x)) (s_req x') /\ RR (s_route x) (s_route x') /\
    s_start x' = s_start x /\ s_end x' = s_end x /\ s_bw x' = s_bw x /\ s_done x' = s_done x.
  Definition trel (tk tk' : tracker) : Prop := forall k, nth_error tk' (f k) = nth_error tk k.

  Lemma bw_rel x x' b : srel x x' -> srel (with_bw x b) (with_bw x' b).
  Proof. unfold srel. cbn [with_bw s_tr s_dep s_req s_route s_start s_end s_bw s_done]. intuition. Qed.
  Lemma start_rel x x' c : srel x x' -> srel (with_start A x c) (with_start A x' c).
  Proof. unfold srel. cbn [with_start s_tr s_dep s_req s_route s_start s_end s_bw s_done]. intuition. Qed.
  Lemma done_rel x x' c : srel x x' -> srel (with_done A x c) (with_done A x' c).
  Proof. unfold srel. cbn [with_done s_tr s_dep s_req s_route s_start s_end s_bw s_done]. intuition. Qed.
  Lemma end_rel x x' c : srel x x' -> srel (with_end A x c) (with_end A x' c).
  Proof. unfold srel. cbn [with_end s_tr s_dep s_req s_route s_start s_end s_bw s_done]. intuition. Qed.

  (* rates *)
  Lemma bandwidth_rel d live : forall sts sts', Forall2 srel sts sts' ->
    orel (Forall2 srel) (updateTransferBandwidth A d sts live) (updateTransferBandwidth A d sts' live).
  Proof.
    apply orel_fold. intros s s' i H _. apply (orel_bind srel); [apply vec_get_rel; exact H|]. intros x x' _ Hx.
    apply orel_same; [destruct Hx as (-> & _); reflexivity|]. intros b _. cbn [orel]. apply Forall2_upd; [exact H|]. apply bw_rel. exact Hx.
  Qed.
  Lemma demand_rel d st en sts sts' live g : Forall2 srel sts sts' ->
    foldM (add_demand A d st en sts) live g = foldM (add_demand A d st en sts') live g.
  Proof.
    intros H. apply foldM_ext. intros g1 i _. unfold add_demand. apply orel_eq. apply (orel_bind srel); [apply vec_get_rel; exact H|].
    intros x x' _ Hx. apply orel_eq. destruct Hx as (E1 & E2 & E3 & E4 & E5 & E6 & E7 & E8).
    assert (EE : effective_demand A st en x' = effective_demand A st en x) by (unfold effective_demand; rewrite E5, E7; reflexivity). rewrite EE.
    unfold add_niu_demand. rewrite E1. rewrite (link_demand_perm A _ _ _ (g_link g1) (RR_perm _ _ E4)). rewrite (link_demand_perm A _ _ _ (g_mc g1) (RR_perm _ _ E4)). reflexivity.
  Qed.
  Lemma derate_rel d g live : forall sts sts', Forall2 srel sts sts' -> orel (Forall2 srel) (foldM (derate A d g) live sts) (foldM (derate A d g) live sts').
  Proof.
    apply orel_fold. intros s s' i H _. unfold derate. apply (orel_bind srel); [apply vec_get_rel; exact H|]. intros x x' _ Hx. pose proof Hx as (E1 & _ & _ & E4 & _ & _ & E7 & _).
    rewrite E1, E7. apply orel_same; [apply RR_max; exact E4|]. intros m _. apply orel_same; [reflexivity|]. intros sid _. apply orel_same; [reflexivity|]. intros sdem _.
    apply orel_same; [reflexivity|]. intros snk _. destruct (_ || _); [|exact H]. cbn [orel]. apply Forall2_upd; [exact H|]. apply bw_rel. exact Hx.
  Qed.
  Definition rrel (p p' : list state * grids (F A)) : Prop := Forall2 srel (fst p) (fst p') /\ snd p = snd p'.
  Lemma rates_rel d st en sts sts' live g c : Forall2 srel sts sts' ->
    orel rrel (computeCurrentTransferRate A d st en sts live g c) (computeCurrentTransferRate A d st en sts' live g c).
  Proof.
    intros H. unfold computeCurrentTransferRate. apply (orel_bind (Forall2 srel)); [apply bandwidth_rel; exact H|]. intros s1 s1' _ H1. destruct c; [|split; [exact H1|reflexivity]].
    unfold modelCongestion. apply orel_same; [apply demand_rel; exact H1|]. intros g1 _. apply (orel_bind (Forall2 srel)); [apply derate_rel; exact H1|]. intros s2 s2' _ H2. split; [exact H2|reflexivity].
  Qed.

  (* checkpoints *)
  Lemma cp_rel tk tk' k : trel tk tk' -> cp_at tk k = cp_at tk' (f k).
  Proof. intros H. unfold cp_at. rewrite (H k). reflexivity. Qed.
  Lemma done_eq tk tk' dep c : trel tk tk' -> done tk dep c = done tk' (option_map f dep) c.
  Proof. intros H. destruct dep as [k|]; [|reflexivity]. cbn [done option_map]. rewrite (cp_rel _ _ k H). reflexivity. Qed.
  Lemma end_eq tk tk' dep : trel tk tk' -> end_cycle tk dep = end_cycle tk' (option_map f dep).
  Proof. intros H. destruct dep as [k|]; [|reflexivity]. cbn [end_cycle option_map]. rewrite (cp_rel _ _ k H). reflexivity. Qed.
  Lemma plus_eq tk tk' dep : trel tk tk' -> end_cycle_plus_delay tk dep = end_cycle_plus_delay tk' (option_map f dep).
  Proof. intros H. destruct dep as [k|]; [|reflexivity]. cbn [end_cycle_plus_delay option_map]. rewrite (cp_rel _ _ k H). reflexivity. Qed.
  Lemma trel_upd tk tk' k c : trel tk tk' -> trel (upd tk k c) (upd tk' (f k) c).
  Proof.
    intros H j. rewrite !upd_nth, !H. destruct (Nat.eqb_spec k j) as [->|N]; [rewrite Nat.eqb_refl; reflexivity|].
    destruct (Nat.eqb_spec (f k) (f j)) as [E|_]; [apply f_inj in E; contradiction|reflexivity].
  Qed.
  Lemma updates_rel ks ks' e tk tk' : trel tk tk' -> Permutation (map f ks) ks' ->
    orel trel (foldM (fun tk k => updateCheckpoint tk (Some k) e) ks tk) (foldM (fun tk k => updateCheckpoint tk (Some k) e) ks' tk').
  Proof.
    intros H HP. rewrite <- (fold_perm (fun _ => True) (fun tk k => updateCheckpoint tk (Some k) e)) with (l := map f ks) (l' := ks'); auto; [|intros; apply update_comm].
    clear HP. revert tk tk' H. induction ks as [|k ks IH]; intros tk tk' H; cbn [foldM map]; [exact H|]. apply (orel_bind trel); [|intros; apply IH; assumption].
    cbn [updateCheckpoint]. apply orel_same; [apply cp_rel; exact H|]. intros c _. cbn [orel]. apply trel_upd. exact H.
  Qed.

  (* activation *)
  Definition arel (p p' : list state * list nat * list qpair * nat) : Prop :=
    Forall2 srel (fst (fst (fst p))) (fst (fst (fst p'))) /\ snd (fst (fst p)) = snd (fst (fst p')) /\ snd (fst p) = snd (fst p') /\ snd p = snd p'.
  Lemma activate_rel n curr tk tk' : trel tk tk' -> forall sp acts sts sts' live q, Forall2 srel sts sts' ->
    orel arel (activate A n curr tk sp acts sts live q) (activate A n curr tk' sp acts sts' live q).
  Proof.
    intros HT. induction n as [|n IH]; intros sp acts sts sts' live q H; cbn [activate]; [repeat split; exact H|].
    apply orel_same; [reflexivity|]. intros p _. destruct (_ <=? _); [|repeat split; exact H]. apply (orel_bind srel); [apply vec_get_rel; exact H|].
    intros x x' _ Hx. pose proof Hx as (_ & E2 & _ & _ & E5 & _). rewrite E2. apply orel_same; [apply done_eq; exact HT|]. intros [|] _; [|apply IH; exact H].
    apply (orel_bind (Forall2 srel)).
    - destruct (s_dep x) as [k|]; cbn [option_map]; [|exact H]. rewrite E5. apply orel_same; [apply (plus_eq _ _ (Some k) HT)|]. intros e _. cbn [orel]. apply Forall2_upd; [exact H|]. apply start_rel. exact Hx.
    - intros s1 s1' _ H1. apply orel_same; [reflexivity|]. intros q1 _. apply IH. exact H1.
  Qed.

  (* one live transfer *)
  Definition lrel (p p' : list state * tracker * stats A) : Prop := Forall2 srel (fst (fst p)) (fst (fst p')) /\ trel (snd (fst p)) (snd (fst p')) /\ snd p = snd p'.
  Lemma credited_rel cpt curr sot tk tk' x x' : trel tk tk' -> srel x x' -> credited_cycles A cpt curr sot tk x = credited_cycles A cpt curr sot tk' x'.
  Proof.
    intros HT (_ & E2 & _ & _ & E5 & _). unfold credited_cycles. rewrite E2, E5. destruct (s_dep x) as [k|]; cbn [option_map]; [|reflexivity]. rewrite (end_eq _ _ (Some k) HT). reflexivity.
  Qed.
  Lemma live_rel wl cpt curr sot live p p' : lrel p p' -> orel lrel (foldM (live_step A wl cpt curr sot) live p) (foldM (live_step A wl cpt curr sot) live p').
  Proof.
    revert p p'. apply orel_fold. intros [[sts tk] stt] [[sts' tk'] stt'] i (H & HT & HE) _. cbn [fst snd] in *. subst stt'. unfold live_step.
    apply (orel_bind srel); [apply vec_get_rel; exact H|]. intros x x' _ Hx. pose proof Hx as (E1 & E2 & E3 & _ & E5 & _ & E7 & E8). rewrite E2, E1, E8, E7.
    apply orel_same; [apply done_eq; exact HT|]. intros dn _. apply orel_same; [reflexivity|]. intros _ _. apply orel_same; [apply credited_rel; assumption|]. intros cyc _.
    apply orel_same; [reflexivity|]. intros mb _. cbn [with_done with_end s_tr s_done s_start s_end s_req s_bw]. rewrite E1, E5, ?E7.
    destruct (_ =? _).
    - apply orel_same; [reflexivity|]. intros e _. apply (orel_bind trel); [apply updates_rel; assumption|]. intros tk1 tk1' _ HT1. apply orel_same; [reflexivity|]. intros g _. apply orel_same; [reflexivity|]. intros gm _.
      split; [|split; [exact HT1|reflexivity]]. cbn [fst snd]. apply Forall2_upd; [exact H|]. apply end_rel. apply done_rel. exact Hx.
    - split; [|split; [exact HT|reflexivity]]. cbn [fst snd]. apply Forall2_upd; [exact H|]. apply done_rel. exact Hx.
  Qed.

  (* one timestep *)
  Definition simrel (s s' : sim A) : Prop :=
    sm_curr A s' = sm_curr A s /\ Forall2 srel (sm_sts A s) (sm_sts A s') /\ sm_queue A s' = sm_queue A s /\ sm_live A s' = sm_live A s /\
    trel (sm_trk A s) (sm_trk A s') /\ sm_grids A s' = sm_grids A s /\ sm_stats A s' = sm_stats A s.
  Lemma complete_rel sts sts' i : Forall2 srel sts sts' -> complete A sts' i = complete A sts i.
  Proof.
    intros H. apply (Forall2_nth_error _ _ _ i) in H. unfold complete. destruct (nth_error sts i) as [x|], (nth_error sts' i) as [x'|]; try contradiction; [|reflexivity]. destruct H as (-> & _ & _ & _ & _ & _ & _ & ->). reflexivity.
  Qed.
  Lemma step_rel_order d c cpt wl s s' : simrel s s' -> orel simrel (timestep A d c cpt wl s) (timestep A d c cpt wl s').
  Proof.
    intros (E1 & H & E3 & E4 & HT & E6 & E7). unfold timestep. rewrite E1, E3, E4, E6, E7. apply orel_same; [reflexivity|]. intros stt _.
    apply (orel_bind arel); [apply activate_rel; assumption|]. intros [[[sts live] q] acts] [[[sts' live'] q'] acts'] _ (H1 & EL & EQ & EA). cbn [fst snd] in *. subst live' q' acts'.
    apply (orel_bind rrel); [apply rates_rel; assumption|]. intros [sts1 g] [sts1' g'] _ [H2 EG]. cbn [fst snd] in *. subst g'.
    apply (orel_bind lrel); [apply live_rel; split; [exact H2|split; [exact HT|reflexivity]]|]. intros [[sts2 tk] st2] [[sts2' tk'] st2'] _ (H3 & HT3 & ES). cbn [fst snd] in *. subst st2'.
    unfold simrel. cbn [orel sm_curr sm_sts sm_queue sm_live sm_trk sm_grids sm_stats].
    split; [reflexivity|]. split; [exact H3|]. split; [reflexivity|]. split; [|split; [exact HT3|split; reflexivity]]. apply filter_ext. intros i. rewrite (complete_rel _ _ i H3). reflexivity.
  Qed.
  Definition resrel (r r' : sim A + npe_error) : Prop := match r, r' with inl s, inl s' => simrel s s' | inr e, inr e' => e = e' | _, _ => False end.
  Lemma loop_rel fuel d c cpt wl : forall s s', simrel s s' -> orel resrel (sim_loop A fuel d c cpt wl s) (sim_loop A fuel d c cpt wl s').
  Proof.
    induction fuel as [|fuel IH]; intros s s' H; cbn [sim_loop]; [exact I|]. apply (orel_bind simrel); [apply step_rel_order; exact H|]. intros s1 s1' _ H1. pose proof H1 as (E1 & E2 & E3 & E4 & E5 & E6 & E7).
    assert (EF : finished A s1' = finished A s1) by (unfold finished; rewrite E3, E4; reflexivity). rewrite EF, E1. destruct (finished A s1); [exact H1|]. destruct (_ <? _); [reflexivity|]. apply IH.
    unfold simrel, advance. cbn [sm_curr sm_sts sm_queue sm_live sm_trk sm_grids sm_stats]. rewrite E1. auto 10.
  Qed.
End Rel.
