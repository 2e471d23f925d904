(* Two runs with different orders of the hash containers (C23). *)
From Coq Require Import ZArith Arith String List Bool Lia ZifyBool ZifyNat Sorting.Permutation Sorting.Sorted FinFun Floats.SpecFloat.
From Verif Require Import Base Arith Util Device SpecDevice Workload SpecWorkload DepTracker Rates Stats Engine Api UtilProofs
  RouteProofs WorkloadProofs SpecTracker TrackerProofs DepGenProofs StepProofs SpecEngine EngineProofs RunProofs SpecOrder OrderProofs OrderInit
  ScheduleProofs SpecApi ApiProofs.
Import ListNotations.
Open Scope Z_scope.
Ltac Zify.zify_post_hook ::= idtac.

Section Run.
  Context (A : arith).
  Notation state := (tstate (F A)).
  Context (RR : list Z -> list Z -> Prop) (RR_refl : forall r, RR r r) (RR_perm : forall r r', RR r r' -> Permutation r r').
  Context (RR_max : forall g r r', RR r r' -> max_link_demand A g r = max_link_demand A g r').
  Context (ord ord' : Z -> list Z -> list Z) (bord bord' : list bucket -> list bucket) (HB : bucket_order bord) (HB' : bucket_order bord').
  Context (d : device) (wl : workload (F A)) (HW : proper wl) (HO : forall i r, RR (ord i r) (ord' i r)) (HH : same_headings d wl ord ord').

  Lemma init_rel : orel (Forall2 (mrel A RR d)) (initTransferState A ord d wl) (initTransferState A ord' d wl).
  Proof.
    destruct HW as [HD _]. rewrite !(init_dense A _ d wl HD). apply orel_map. intros t Ht. unfold make_state. apply orel_same; [reflexivity|]. intros r Hr. unfold mrel.
    cbn [orel s_tr s_req s_dep s_route s_start s_end s_bw s_done].
    assert (HX : RR (match t_dst t with Unicast _ => r | Multicast _ => ord (t_id t) r end) (match t_dst t with Unicast _ => r | Multicast _ => ord' (t_id t) r end) /\
                 heading d (match t_dst t with Unicast _ => r | Multicast _ => ord' (t_id t) r end) = heading d (match t_dst t with Unicast _ => r | Multicast _ => ord (t_id t) r end)).
    { destruct (t_dst t) as [c|m] eqn:ED; [split; [apply RR_refl|reflexivity]|]. split; [apply HO|]. symmetry. apply (HH t m r Ht ED). rewrite ED. exact Hr. }
    destruct HX. auto 10.
  Qed.
  Definition some_simrel (s s' : sim A) : Prop := exists f, Injective f /\ simrel A RR f s s'.
  Lemma sim_init_rel cpt : orel some_simrel (sim_init A ord bord d cpt wl) (sim_init A ord' bord' d cpt wl).
  Proof.
    unfold sim_init. apply (orel_bind (Forall2 (mrel A RR d))); [exact init_rel|]. intros sts sts' ES HM.
    assert (HF : fresh_states A sts) by apply (init_states A ord d wl HW _ ES).
    assert (HF' : fresh_states A sts').
    { intros i x' Hx'. pose proof (Forall2_nth_error _ _ _ i HM) as H. rewrite Hx' in H. destruct (nth_error sts i) as [x|] eqn:Hx; [|contradiction]. destruct (HF _ _ Hx) as (I1 & I2 & I3).
      rewrite (idx_same A RR d _ _ H). destruct H as (_ & -> & -> & _). auto. }
    rewrite (genDependencies_eq A ord bord HB d sts HF), (genDependencies_eq A ord' bord' HB' d sts' HF').
    assert (EQ : createTransferQueue A sts' = createTransferQueue A sts).
    { unfold createTransferQueue. f_equal. clear - HM. induction HM as [|x x' l l' H HL IH]; cbn [map]; [reflexivity|]. rewrite IH, (idx_same A RR d _ _ H). destruct H as (-> & _). reflexivity. }
    assert (HL : List.length sts' = List.length sts) by (symmetry; clear - HM; induction HM; cbn; congruence).
    pose proof (edges_rel A RR d sts sts' HM bord bord' HB HB' HF) as HE.
    destruct (dep_edges A bord d sts) as [E| | | | | |], (dep_edges A bord' d sts') as [E'| | | | | |]; cbn [orel bind] in *; try contradiction; auto.
    destruct HE as (f & HR & HP & HDep). exists f. split; [apply HR|]. unfold simrel. cbn [fst snd sm_curr sm_sts sm_queue sm_live sm_trk sm_grids sm_stats].
    split; [reflexivity|]. split; [|split; [exact EQ|split; [reflexivity|split; [|split; reflexivity]]]].
    - rewrite HL. assert (G : forall l l' a, Forall2 (mrel A RR d) l l' -> (forall i x, nth_error l i = Some x -> s_req x = [] /\ s_dep x = None) ->
        Forall2 (srel A RR f) (map (fun p => linked A 0 E (fst p) (snd p)) (combine (seq a (List.length l)) l)) (map (fun p => linked A 0 E' (fst p) (snd p)) (combine (seq a (List.length l)) l'))).
      { intros l l' a H. revert a. induction H as [|x x' l l' H HF2 IH]; intros a HN; cbn [List.length seq combine map]; constructor.
        - destruct (HN O x eq_refl) as [N1 N2]. destruct H as (E1 & E2 & E3 & E4 & _ & E5 & E6 & E7 & E8). unfold srel, linked. cbn [fst snd s_tr s_dep s_req s_route s_start s_end s_bw s_done].
          rewrite E2, E3, N1, N2. cbn [app]. split; [exact E1|]. split; [apply HDep|]. split; [apply reqs_renamed; assumption|]. auto.
        - apply IH. intros i y Hy. apply (HN (S i)). exact Hy. }
      apply G; [exact HM|]. intros i x Hx. destruct (HF _ _ Hx) as (_ & ? & ?). auto.
    - intros k. rewrite !nth_error_map. destruct HR as [_ HR]. rewrite HR. reflexivity.
  Qed.
  Definition some_resrel (r r' : sim A + npe_error) : Prop := match r, r' with inl s, inl s' => same_results s s' | inr e, inr e' => e = e' | _, _ => False end.
  Lemma simrel_results f s s' : simrel A RR f s s' -> same_results s s'.
  Proof.
    intros (E1 & H & E3 & E4 & _ & _ & E7). split; [exact E1|]. split; [exact E7|]. split; [exact E4|]. eapply Forall2_imp; [exact H|]. intros x x' (X1 & _ & _ & _ & X5 & X6 & _ & X8). auto.
  Qed.
  Theorem simulate_order congestion cpt : orel some_resrel (simulate A ord bord d congestion cpt wl) (simulate A ord' bord' d congestion cpt wl).
  Proof.
    unfold simulate. apply (orel_bind some_simrel); [apply sim_init_rel|]. intros s s' _ (f & HI & HS). eapply orel_imp; [apply (loop_rel A RR RR_perm RR_max f HI _ d congestion cpt wl _ _ HS)|].
    intros [r|e] [r'|e']; cbn [resrel some_resrel]; auto. apply simrel_results.
  Qed.
  Lemma single_order model cpt : runSinglePerfSim A ord bord d model cpt wl = runSinglePerfSim A ord' bord' d model cpt wl.
  Proof.
    unfold runSinglePerfSim. apply orel_eq. apply (orel_bind some_resrel); [apply simulate_order|]. intros [s|e] [s'|e'] _ H; cbn [some_resrel] in H; try contradiction.
    - destruct H as (_ & E & _). rewrite E. apply orel_eq. reflexivity.
    - subst e'. reflexivity.
  Qed.
  Theorem estimation_order cfg : runPerfEstimation A ord bord d cfg wl = runPerfEstimation A ord' bord' d cfg wl.
  Proof. unfold runPerfEstimation. rewrite !single_order. reflexivity. Qed.
End Run.

(** * The largest link demand does not depend on the order, in binary32 *)
Definition large (x : spec_float) : Prop := match x with S754_zero false | S754_infinity false | S754_finite false _ _ => True | _ => False end.
Definition over (m x : spec_float) : spec_float := if SFltb m x then x else m.
Lemma ltb_small m x : large m -> ~ large x -> SFltb m x = false.
Proof. destruct m as [[]|[]| |[] ? ?], x as [[]|[]| |[] ? ?]; cbn; tauto. Qed.
Lemma over_large m x : large m -> large (over m x).
Proof.
  intros H. unfold over. destruct (SFltb m x) eqn:E; [|exact H]. destruct x as [[]|[]| |[] ? ?]; try exact I; exfalso; destruct m as [[]|[]| |[] ? ?]; cbn in *; try discriminate; contradiction.
Qed.
Lemma ltb_cases x y : large x -> large y -> (x = y /\ SFltb x y = false /\ SFltb y x = false) \/ (SFltb x y = true /\ SFltb y x = false) \/ (SFltb x y = false /\ SFltb y x = true).
Proof.
  destruct x as [[]|[]| |[] m e], y as [[]|[]| |[] m' e']; cbn [large]; try tauto; intros _ _; unfold SFltb; cbn [SFcompare]; auto.
  rewrite (Z.compare_antisym e e'). destruct (Z.compare_spec e e') as [->|H|H]; cbn [CompOpp]; auto.
  change (Pos.compare_cont Eq m m') with (Pos.compare m m'). change (Pos.compare_cont Eq m' m) with (Pos.compare m' m).
  rewrite (Pos.compare_antisym m m'). destruct (Pos.compare_spec m m') as [->|H|H]; cbn [CompOpp]; auto.
Qed.
Lemma ltb_trans x y z : large x -> large y -> large z -> SFltb x y = true -> SFltb y z = true -> SFltb x z = true.
Proof.
  destruct x as [[]|[]| |[] m e], y as [[]|[]| |[] m' e'], z as [[]|[]| |[] m'' e'']; cbn [large]; try tauto; intros _ _ _; unfold SFltb; cbn [SFcompare]; auto; try discriminate.
  change (Pos.compare_cont Eq m m') with (Pos.compare m m'). change (Pos.compare_cont Eq m' m'') with (Pos.compare m' m''). change (Pos.compare_cont Eq m m'') with (Pos.compare m m'').
  destruct (Z.compare_spec e e'), (Z.compare_spec e' e''), (Z.compare_spec e e''), (Pos.compare_spec m m'), (Pos.compare_spec m' m''), (Pos.compare_spec m m''); auto; try discriminate; lia.
Qed.
Lemma over_comm m x y : large m -> over (over m x) y = over (over m y) x.
Proof.
  intros Hm. assert (DX : large x \/ ~ large x) by (destruct x as [[]|[]| |[] ? ?]; cbn; tauto). assert (DY : large y \/ ~ large y) by (destruct y as [[]|[]| |[] ? ?]; cbn; tauto).
  assert (HS : forall m x, large m -> ~ large x -> over m x = m) by (intros m0 x0 H1 H2; unfold over; rewrite ltb_small; auto).
  destruct DX as [Hx|Hx]; [|rewrite !(HS _ x) by (auto using over_large); reflexivity].
  destruct DY as [Hy|Hy]; [|rewrite !(HS _ y) by (auto using over_large); reflexivity].
  unfold over. destruct (ltb_cases m x Hm Hx) as [(E1 & A1 & B1)|[(A1 & B1)|(A1 & B1)]], (ltb_cases m y Hm Hy) as [(E2 & A2 & B2)|[(A2 & B2)|(A2 & B2)]], (ltb_cases x y Hx Hy) as [(E3 & A3 & B3)|[(A3 & B3)|(A3 & B3)]];
    rewrite ?A1, ?A2, ?A3, ?B3; rewrite ?A1, ?A2, ?A3, ?B3; subst; try reflexivity; try congruence.
  - pose proof (ltb_trans _ _ _ Hm Hx Hy A1 A3). congruence.
  - pose proof (ltb_trans _ _ _ Hm Hy Hx A2 B3). congruence.
Qed.
Lemma max_perm g r r' : Permutation r r' -> max_link_demand f32A g r = max_link_demand f32A g r'.
Proof.
  intros H. unfold max_link_demand. apply (fold_perm (S := spec_float) large); [| |exact H|exact I].
  - intros s x s' Hs. destruct (grid_get g x) as [v| | | | | |]; cbn [bind]; intros E; try discriminate. apply (f_equal (fun o => match o with Ok a => a | _ => s' end)) in E. rewrite <- E. apply (over_large s v Hs).
  - change (F f32A) with spec_float in *. intros s x y Hs.
    assert (HU : forall z, (exists v, grid_get (X := spec_float) g z = Ok v) \/ grid_get (X := spec_float) g z = UB "vector index").
    { intros z. unfold grid_get, vec_get. destruct (z <? 0); [auto|]. destruct (nth_error g (Z.to_nat z)); [left; eexists; reflexivity|right; reflexivity]. }
    destruct (HU x) as [[v ->]| ->], (HU y) as [[w ->]| ->]; cbn [bind]; try reflexivity. f_equal. apply (over_comm s v w Hs).
Qed.

(** * The theorems of the two instances *)
Lemma order_eq_same (A : arith) d (wl : workload (F A)) ord : same_headings d wl ord ord.
Proof. intros t m r _ _ _. reflexivity. Qed.
Lemma agree_outcome (A : arith) (o o' : outcome (sim A + npe_error)) : orel (some_resrel A) o o' -> same_outcome o o'.
Proof.
  unfold same_outcome. destruct o as [[s|e]| | | | | |], o' as [[s'|e']| | | | | |]; cbn [orel some_resrel]; intros H; try contradiction; try (left; exists s, s'; auto; fail); right; subst; split; try reflexivity; intros; discriminate.
Qed.
Theorem bucket_order_free (A : arith) ord bord bord' d congestion cpt (wl : workload (F A)) : proper wl -> bucket_order bord -> bucket_order bord' ->
  same_outcome (simulate A ord bord d congestion cpt wl) (simulate A ord bord' d congestion cpt wl).
Proof.
  intros HW HB HB'. apply agree_outcome. apply (simulate_order A eq (@eq_refl _)); auto; try (intros; subst; auto); try apply order_eq_same.
Qed.
Theorem link_order_free ord ord' bord bord' d congestion cpt (wl : workload (F f32A)) : proper wl -> link_order ord -> link_order ord' -> bucket_order bord -> bucket_order bord' -> same_headings d wl ord ord' ->
  same_outcome (simulate f32A ord bord d congestion cpt wl) (simulate f32A ord' bord' d congestion cpt wl).
Proof.
  intros HW HO HO' HB HB' HH. apply agree_outcome. apply (simulate_order f32A (@Permutation Z)); auto; [intros; apply max_perm; assumption|]. intros i r. etransitivity; [apply HO|symmetry; apply HO'].
Qed.
Theorem estimation_free ord ord' bord bord' d cfg (wl : workload (F f32A)) : proper wl -> link_order ord -> link_order ord' -> bucket_order bord -> bucket_order bord' -> same_headings d wl ord ord' ->
  runPerfEstimation f32A ord bord d cfg wl = runPerfEstimation f32A ord' bord' d cfg wl.
Proof.
  intros HW HO HO' HB HB' HH. apply (estimation_order f32A (@Permutation Z)); auto; [intros; apply max_perm; assumption|]. intros i r. etransitivity; [apply HO|symmetry; apply HO'].
Qed.
Lemma straight_headings {Fl} d (wl : workload Fl) ord ord' : link_order ord -> link_order ord' -> straight_multicasts d wl -> same_headings d wl ord ord'.
Proof.
  intros HO HO' HS t m r Ht Hm Hr. pose proof (HO (t_id t) r) as P. pose proof (HO' (t_id t) r) as P'.
  destruct (ord (t_id t) r) as [|a l] eqn:E, (ord' (t_id t) r) as [|b l'] eqn:E'.
  - reflexivity.
  - apply Permutation_nil in P. subst r. apply Permutation_length in P'. discriminate.
  - apply Permutation_nil in P'. subst r. apply Permutation_length in P. discriminate.
  - apply (HS t m r Ht Hm Hr a b); [eapply Permutation_in; [exact P|left; reflexivity]|eapply Permutation_in; [exact P'|left; reflexivity]].
Qed.
Lemma unicasts_straight {Fl} d (wl : workload Fl) : unicasts_only wl -> straight_multicasts d wl.
Proof. intros H t m r Ht Hm. unfold unicasts_only in H. rewrite Forall_forall in H. destruct (H t Ht) as [c Hc]. congruence. Qed.

(** * The whole of runNPE *)
Lemma straight_from {Fl} d (wl wl' : workload Fl) :
  (forall b, In b (all_transfers wl') -> exists a, In a (all_transfers wl) /\ t_src b = t_src a /\ t_dst b = t_dst a /\ t_noc b = t_noc a) -> straight_multicasts d wl -> straight_multicasts d wl'.
Proof. intros H HS b m r Hb Hm Hr. destruct (H b Hb) as (a & Ha & E1 & E2 & E3). rewrite E1, E2, E3 in Hr. apply (HS a m r Ha); congruence. Qed.
Lemma Forall2_in_r {X Y} (R : X -> Y -> Prop) l l' b : Forall2 R l l' -> In b l' -> exists a, In a l /\ R a b.
Proof. induction 1 as [|x y l l' H HF IH]; intros HI; [destruct HI|]. destruct HI as [<-|HI]; [exists x; split; [left|]; auto|]. destruct (IH HI) as (a & Ha & HR). exists a. split; [right|]; auto. Qed.
Lemma preprocess_straight (cfg : config (F f32A)) d (wl wl' : workload (F f32A)) : supported d -> usable_workload d cfg wl -> preprocessWorkload f32A d cfg wl = Ok wl' -> straight_multicasts d wl -> straight_multicasts d wl'.
Proof.
  intros HD HU HP HS. destruct HU as (D & N & P & U & [S1 S2] & G).
  assert (F0 : fit d (cf_infer cfg) wl) by (split; [exact D|]; split; [exact N|]; split; [exact P|]; split; [exact U|exact G]).
  unfold preprocessWorkload in HP. apply bind_ok in HP as (w1 & H1 & HP). apply bind_ok in HP as (w2 & H2 & HP).
  assert (K1 : fit d false w1 /\ straight_multicasts d w1).
  { destruct (cf_infer cfg); [|injection H1 as <-; auto]. split; [eapply infer_fit; eassumption|]. eapply straight_from; [|exact HS]. intros b Hb.
    apply infer_phases in H1. destruct H1 as [_ HF].
    assert (HT : Forall2 (fun a b : transfer (F f32A) => same_but_rate a b) (all_transfers wl) (all_transfers w1)).
    { unfold all_transfers. eapply Forall2_flat_map; [exact HF|]. cbn beta. intros x y [_ E]. eapply Forall2_imp; [exact E|]. cbn beta. intros u v [E' _]. exact E'. }
    destruct (Forall2_in_r _ _ _ b HT Hb) as (a & Ha & E). exists a. split; [exact Ha|]. destruct E as (_ & _ & E1 & E2 & _ & E3 & _). auto. }
  destruct K1 as [F1 T1].
  assert (K2 : fit d false w2 /\ straight_multicasts d w2).
  { destruct (scale_set f32A (cf_scale cfg)); [|injection H2 as <-; auto]. split; [eapply scale_fit; [exact S1|exact F1|exact H2]|]. eapply straight_from; [|exact T1]. intros b Hb.
    destruct (Forall2_in_r _ _ _ b (scale_transfers _ _ _ _ H2) Hb) as (a & Ha & E & _). exists a. split; [exact Ha|]. destruct E as (_ & _ & E1 & E2 & _ & E3 & _). auto. }
  destruct K2 as [F2 T2]. destruct (cf_remove_local cfg); [|injection HP as <-; exact T2].
  pose proof F2 as (D2 & N2 & P2 & _). destruct (removeLocal_spec w2 D2 N2 P2) as (w3 & E & _ & _ & HF & _). assert (w3 = wl') as -> by congruence.
  eapply straight_from; [|exact T2]. intros b Hb. unfold all_transfers in Hb. apply in_flat_map in Hb. destruct Hb as (q & Hq & Hb).
  destruct (Forall2_in_r _ _ _ q HF Hq) as (p & Hp & HE). destruct (Forall2_in_r _ _ _ b HE Hb) as (a & Ha & EA & _). apply filter_In in Ha. destruct Ha as [Ha _].
  exists a. split; [apply in_flat_map; exists p; auto|]. unfold same_content in EA. intuition.
Qed.
Theorem npe_order_free ord ord' bord bord' (cfg : config (F f32A)) d (wl : workload (F f32A)) : link_order ord -> link_order ord' -> bucket_order bord -> bucket_order bord' ->
  npeAPI_make f32A cfg = Ok d -> usable_workload d cfg wl -> straight_multicasts d wl -> runNPE f32A ord bord d cfg wl = runNPE f32A ord' bord' d cfg wl.
Proof.
  intros HO HO' HB HB' HM HU HS. apply make_iff in HM. destruct HM as [HM _].
  assert (HD : supported d) by (exists (cf_device cfg); exact HM).
  destruct (preprocess_fit cfg d wl HD HU) as (wl' & HP & F). pose proof (preprocess_straight cfg d wl wl' HD HU HP HS) as HS'.
  unfold runNPE. rewrite HP. cbn [bind]. rewrite (estimation_free ord ord' bord bord' d cfg wl'); auto; [|apply straight_headings; assumption].
  destruct F as (D' & _ & _ & U' & _). split; [exact D'|]. eapply Forall_impl; [|exact U']. intros t (R & _). exact R.
Qed.
