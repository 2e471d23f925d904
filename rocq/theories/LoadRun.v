(* More transfers never make the others end earlier (C91): the runs. *)
From Coq Require Import ZArith Arith Reals String List Bool Lia Lra ZifyBool ZifyNat Sorting.Permutation Sorting.Sorted Floats.SpecFloat.
From Flocq Require Import Core IEEE754.BinarySingleNaN.
From Verif Require Import Base Arith Util Device Workload SpecWorkload DepTracker Rates Stats Engine UtilProofs
  WorkloadProofs SpecTracker TrackerProofs DepGenProofs StepProofs SpecEngine SpecRates EngineProofs RunProofs DepFacts EngineFacts EngineFacts2 EngineFacts3 EngineFacts4 EngineFacts5
  RateFacts FloatProofs FloatProofs2 RateFloat RateFloat2 RateFloat3 RateFloat4 EngineRates SpecAlone AloneProofs BehindProofs SpecLoad LoadProofs.
Import ListNotations.
Local Open Scope list_scope.
Open Scope Z_scope.
Ltac Zify.zify_post_hook ::= idtac.

Lemma filter_all {X} (h : X -> bool) l : (forall x, In x l -> h x = true) -> filter h l = l.
Proof. induction l as [|a l IH]; intros H; [reflexivity|]. cbn [filter]. rewrite (H a (or_introl eq_refl)). f_equal. apply IH. intros x Hx. apply H. right. exact Hx. Qed.
Lemma filter_none {X} (h : X -> bool) l : (forall x, In x l -> h x = false) -> filter h l = [].
Proof. induction l as [|a l IH]; intros H; [reflexivity|]. cbn [filter]. rewrite (H a (or_introl eq_refl)). apply IH. intros x Hx. apply H. right. exact Hx. Qed.

(** * A timestep in which nothing waits *)
Section Plain.
  Context (A : arith) (ord : Z -> list Z -> list Z) (bord : list bucket -> list bucket) (BP : bucket_order bord).
  Context (d : device) (c : bool) (cpt : Z) (wl : workload (F A)) (HW : proper wl) (HC : proper_cpt cpt).
  Notation state := (tstate (F A)).
  Notation reach := (reach A ord bord d c cpt wl).
  Notation step := (timestep A d c cpt wl).
  Context (sts0 : list state) (E : list edge) (HS : setup A ord bord d wl sts0 E) (NE : forall i, dep_of E i = None).

  Lemma live_fold sot curr : forall live sts tk stt sts' tk' stt', foldM (live_step A wl cpt curr sot) live (sts, tk, stt) = Ok (sts', tk', stt') ->
    forall i x', nth_error sts' i = Some x' -> exists x, nth_error sts i = Some x /\ s_bw x' = s_bw x.
  Proof.
    induction live as [|j live IH]; intros sts tk stt sts' tk' stt' H i x' Hx'; [injection H as <- <- <-; eauto|].
    cbn [foldM] in H. apply bind_ok in H as ([[sts1 tk1] stt1] & H1 & H). destruct (IH _ _ _ _ _ _ H i x' Hx') as (x1 & Hx1 & E1).
    assert (G : exists z, nth_error sts j = Some z /\ exists z', sts1 = upd sts j z' /\ s_bw z' = s_bw z).
    { unfold live_step in H1. apply bind_ok in H1 as (z & Hz & H1). apply vec_get_ok in Hz. exists z. split; [exact Hz|]. apply bind_ok in H1 as (dn & _ & H1). apply bind_ok in H1 as (u & _ & H1).
      apply bind_ok in H1 as (cy & _ & H1). apply bind_ok in H1 as (mb & _ & H1). destruct (_ =? _).
      - apply bind_ok in H1 as (e & _ & H1). apply bind_ok in H1 as (tk2 & _ & H1). apply bind_ok in H1 as (g & _ & H1). apply bind_ok in H1 as (gm & _ & H1). injection H1 as <- <- <-. eexists. split; [reflexivity|reflexivity].
      - injection H1 as <- <- <-. eexists. split; [reflexivity|reflexivity]. }
    destruct G as (z & Hz & z' & -> & EB). rewrite upd_nth in Hx1. destruct (Nat.eqb_spec j i) as [->|]; [|eauto].
    rewrite Hz in Hx1. injection Hx1 as <-. exists z. split; [exact Hz|]. congruence.
  Qed.

  Lemma plain_round s s' : reach s -> step s = Ok s' -> exists P2 sts2, sm_queue A s = sm_queue A s' ++ P2 /\
    computeCurrentTransferRate A d (sm_curr A s - cpt) (sm_curr A s) (sm_sts A s) (sm_live A s ++ map snd (rev P2)) (sm_grids A s) c = Ok (sts2, sm_grids A s') /\
    sm_live A s' = filter (fun i => negb (complete A (sm_sts A s') i)) (sm_live A s ++ map snd (rev P2)) /\
    (forall i x', nth_error (sm_sts A s') i = Some x' -> exists x2, nth_error sts2 i = Some x2 /\ s_bw x' = s_bw x2).
  Proof.
    intros R T. destruct (step_inv A ord bord BP d c cpt wl HW HC _ _ _ _ HS R T) as (fin & _ & _ & _ & _ & I & _).
    destruct (reach_clock A ord bord BP d c cpt wl HW HC s R) as (K1 & _ & _). destruct (part_ids _ _ _ _ _ _ I) as [ND IDS]. pose proof I as [HST HPT HTK HQ HSO HSTA HLV HFN].
    assert (HD : forall i x, nth_error (sm_sts A s) i = Some x -> s_dep x = None).
    { intros i x Hx. destruct HST as [_ HST]. destruct (HST _ _ Hx) as (x0 & _ & _ & _ & _ & Hd). rewrite Hd. apply NE. }
    unfold timestep in T. apply bind_ok in T as (stt1 & Hins & T). apply bind_ok in T as ([[[sts1 live1] q1] acts] & Hact & T).
    destruct (activate_spec A (sm_trk A s) (sm_curr A s) (sm_queue A s) [] [] (sm_sts A s) (sm_live A s) O) as (P1 & P2 & B' & C' & sts1' & E1 & E2 & E3 & E4 & E5 & E6 & E7 & E8).
    { eapply NoDup_app_l; exact ND. }
    { intros p Hp. destruct (HQ _ Hp) as (x & Hx & _). exists x. split; [assumption|]. intros k Hk. rewrite (HD _ _ Hx) in Hk. discriminate. }
    cbn [List.length app] in E2, E3, E4. rewrite Nat.add_0_r, app_nil_r in E2. pose proof (eq_trans (eq_sym E2) Hact) as Hact'. clear E2 Hact. injection Hact' as <- <- <- <-.
    assert (RD : forall p, In p P2 -> ready_at A (sm_trk A s) (sm_curr A s) (sm_sts A s) p = true).
    { intros p Hp. destruct (HQ p) as (x & Hx & _); [rewrite E1; apply in_or_app; right; exact Hp|]. unfold ready_at. rewrite Hx. unfold ready. rewrite (HD _ _ Hx). reflexivity. }
    assert (F1 : filter (ready_at A (sm_trk A s) (sm_curr A s) (sm_sts A s)) P2 = P2) by (apply filter_all; exact RD).
    assert (F2 : filter (ready_at A (sm_trk A s) (sm_curr A s) (sm_sts A s)) (rev P2) = rev P2) by (apply filter_all; intros p Hp; apply RD; apply in_rev; exact Hp).
    assert (F3 : B' = []). { rewrite (filter_none _ P2) in E4; [apply Permutation_sym, Permutation_nil in E4; exact E4|]. intros p Hp. rewrite (RD p Hp). reflexivity. }
    rewrite F1 in E3, E8, T. rewrite F2 in T. subst B'. cbn [app Nat.add] in T.
    assert (ES : sts1' = sm_sts A s).
    { apply list_ext. intros i. destruct (nth_error (sm_sts A s) i) as [x|] eqn:Hx.
      - rewrite (E8 _ _ Hx). destruct (in_dec _ _ _); [|reflexivity]. unfold activated. rewrite (HD _ _ Hx). reflexivity.
      - apply nth_error_None in Hx. apply nth_error_None. rewrite E7. exact Hx. }
    subst sts1'.
    apply bind_ok in T as ([sts2 g2] & Hrate & T). apply bind_ok in T as ([[sts3 tk3] stt3] & Hfold & T). injection T as <-. cbn [sm_queue sm_sts sm_live sm_grids].
    exists P2, sts2. split; [|split; [|split]].
    - unfold qpair in *. match goal with |- context [firstn ?k (P1 ++ C')] => replace k with (List.length P1) by (rewrite app_length; lia) end.
      rewrite firstn_app, Nat.sub_diag, firstn_all. cbn [firstn]. rewrite app_nil_r. exact E1.
    - rewrite <- K1 at 1. exact Hrate.
    - reflexivity.
    - exact (live_fold _ _ _ _ _ _ _ _ _ Hfold).
  Qed.

  (** * The transfers stay in the order of the queue *)
  Definition key (i : nat) : qpair := (match nth_error (all_transfers wl) i with Some t => t_off t | None => 0 end, i).
  Definition qlt (a b : qpair) : Prop := qgt b a = true.
  Definition in_order (s : sim A) : Prop := StronglySorted qlt (map key (sm_live A s) ++ rev (sm_queue A s)).

  Lemma queue_key s p : visited A ord bord d c cpt wl s -> In p (sm_queue A s) -> key (snd p) = p.
  Proof.
    intros V Hp. destruct (visited_facts A ord bord BP d c cpt wl HW HC s V) as (sts1 & E1 & h & fin & HS1 & HE & I & _).
    destruct (inv_queue _ _ _ _ _ _ I p Hp) as (x & Hx & Hf & _). pose proof (visited_transfer A ord bord BP d c cpt wl HW HC s _ x V Hx) as Ht. unfold key. rewrite Ht, <- Hf. destruct p; reflexivity.
  Qed.
  Lemma order_init s : sim_init A ord bord d cpt wl = Ok s -> in_order s.
  Proof.
    intros H. pose proof (places A ord bord BP d c cpt wl HW HC s (or_introl (reach_init _ _ _ _ _ _ _ _ H))) as (PL1 & _).
    destruct (init_inv A ord bord BP d cpt wl HW _ _ _ HS H) as [I _]. destruct (part_ids _ _ _ _ _ _ I) as [ND _].
    unfold in_order. destruct (sim_init_eq A ord bord BP d cpt wl HW s H) as (s1 & E1 & _ & ->). cbn [sm_live sm_queue map app] in *. rewrite app_nil_r in ND.
    unfold createTransferQueue in *.
    assert (S : StronglySorted (le qgt) (sort qgt (map (fun s => (t_off (s_tr s), idx A s)) s1))).
    { apply sort_sorted; unfold qgt; intros; [lia|lia|]. destruct a as [a1 a2], b as [b1 b2]; cbn [fst snd]. destruct (Z.lt_trichotomy a1 b1) as [H1|[H1|H1]]; [right; right; lia| |left; lia].
      destruct (Nat.lt_trichotomy a2 b2) as [H2|[H2|H2]]; [right; right; lia|subst; right; left; reflexivity|left; lia]. }
    unfold qlt. apply sorted_rev. revert S ND. generalize (sort qgt (map (fun s => (t_off (s_tr s), idx A s)) s1)). intros l S. induction S as [|a l S IH F]; intros ND; [constructor|].
    cbn [map] in ND. inversion ND as [|? ? N1 N2]; subst. constructor; [apply IH; exact N2|]. rewrite Forall_forall in F |- *. intros b Hb. specialize (F b Hb). unfold le in F.
    assert (snd b <> snd a) by (intros C; apply N1; rewrite <- C; apply in_map; exact Hb). unfold qgt in *. lia.
  Qed.
  Lemma order_round s s' P2 : reach s -> in_order s -> sm_queue A s = sm_queue A s' ++ P2 -> StronglySorted qlt (map key (sm_live A s ++ map snd (rev P2)) ++ rev (sm_queue A s')).
  Proof.
    intros R O EQ. unfold in_order in O. rewrite EQ, rev_app_distr in O. rewrite map_app, map_map.
    assert (EK : map (fun p => key (snd p)) (rev P2) = rev P2).
    { rewrite <- (map_id (rev P2)) at 2. apply map_ext_in. intros p Hp. apply (queue_key s); [left; exact R|]. rewrite EQ. apply in_or_app. right. apply in_rev. exact Hp. }
    rewrite EK, <- app_assoc. exact O.
  Qed.
  Lemma order_step s s' : reach s -> step s = Ok s' -> in_order s -> in_order s'.
  Proof.
    intros R T O. destruct (plain_round s s' R T) as (P2 & sts2 & EQ & _ & EL & _). pose proof (order_round s s' P2 R O EQ) as O1. unfold in_order. rewrite EL. eapply sub_sorted; [|exact O1].
    apply sub_app; [apply sub_map, sub_filter|apply sub_refl].
  Qed.
  Lemma order_reach s : reach s -> in_order s.
  Proof. intros R. induction R as [s H|s s' R IH T F M]; [apply order_init; exact H|]. apply (order_step s s' R T) in IH. exact IH. Qed.
  Lemma round_order s s' P2 : reach s -> sm_queue A s = sm_queue A s' ++ P2 -> StronglySorted qlt (map key (sm_live A s ++ map snd (rev P2))).
  Proof. intros R EQ. eapply sorted_app_l. apply (order_round s s' P2 R); [apply order_reach; exact R|exact EQ]. Qed.
  Lemma round_part s s' P2 i : reach s -> sm_queue A s = sm_queue A s' ++ P2 -> In i (sm_live A s ++ map snd (rev P2)) <-> takes_part s s' i.
  Proof.
    intros R EQ. destruct (visited_facts A ord bord BP d c cpt wl HW HC s (or_introl R)) as (sts1 & E1 & h & fin & HS1 & HE & I & _). destruct (part_ids _ _ _ _ _ _ I) as [ND _].
    apply NoDup_app_l in ND. rewrite EQ, map_app in ND. unfold takes_part, is_live, is_queued. rewrite in_app_iff, map_rev, <- in_rev, EQ, map_app, in_app_iff.
    assert (In i (map snd P2) -> ~ In i (map snd (sm_queue A s'))); [|tauto]. intros H1 H2. exact (NoDup_app_not _ _ _ ND H2 H1).
  Qed.
End Plain.

Lemma qlt_irr a : ~ qlt a a. Proof. unfold qlt, qgt. lia. Qed.
Lemma qlt_asym a b : qlt a b -> qlt b a -> False. Proof. unfold qlt, qgt. lia. Qed.
Lemma qpair_dec (a b : qpair) : {a = b} + {a <> b}. Proof. decide equality; [apply Nat.eq_dec|apply Z.eq_dec]. Defined.
Lemma sub_unmap {X Y} (h : X -> Y) : (forall a b, h a = h b -> a = b) -> forall l l', sub (map h l) (map h l') -> sub l l'.
Proof.
  intros INJ l l' H. remember (map h l) as u eqn:U. remember (map h l') as u' eqn:U'. revert l l' U U'. induction H as [w|a w w' H IH|a w w' H IH]; intros l l' U U'.
  - destruct l; [constructor|discriminate].
  - destruct l' as [|b l']; [discriminate|]. injection U' as -> ->. apply sub_skip. apply IH; auto.
  - destruct l' as [|b l']; [discriminate|]. destruct l as [|b' l]; [discriminate|]. injection U' as -> ->. injection U as U1 U2. apply INJ in U1. subst b'. apply sub_keep. apply IH; auto.
Qed.

(** * A run with more transfers *)
Section More.
  Context (ord : Z -> list Z -> list Z) (ORD : forall a b l, ord a l = ord b l) (bord : list bucket -> list bucket) (BP : bucket_order bord).
  Context (d : device) (cpt : Z) (HC : proper_cpt cpt) (C20 : cpt <= 2 ^ 20).
  Notation A := f32A.
  (* [wl'] has the transfers of [wl] and others *)
  Context (wl : workload (F f32A)) (HW : proper wl) (HF : Forall sound_transfer (all_transfers wl)).
  Context (sts0 : list st32) (E : list edge) (HS : setup A ord bord d wl sts0 E) (NE : forall i, dep_of E i = None).
  Context (wl' : workload (F f32A)) (HW' : proper wl') (HF' : Forall sound_transfer (all_transfers wl')).
  Context (sts0' : list st32) (E' : list edge) (HS' : setup A ord bord d wl' sts0' E') (NE' : forall i, dep_of E' i = None).
  Context (f : nat -> nat) (CT : outgrows f wl wl').
  Notation reach := (reach A ord bord d true cpt).
  Notation begins := (begins A ord bord d true cpt).
  Notation step := (timestep A d true cpt).

  Lemma twin i : (i < List.length (all_transfers wl))%nat -> exists t t', nth_error (all_transfers wl) i = Some t /\ nth_error (all_transfers wl') (f i) = Some t' /\ enlarges t t'.
  Proof. intros Hi. destruct (nth_lt_some _ _ Hi) as [t Ht]. destruct CT as [_ C]. destruct (C i t Ht) as (t' & Ht' & RP). eauto 6. Qed.
  Lemma twin_lt i : (i < List.length (all_transfers wl))%nat -> (f i < List.length (all_transfers wl'))%nat.
  Proof. intros Hi. destruct (twin i Hi) as (t & t' & _ & Ht' & _). eapply nth_some_lt. exact Ht'. Qed.
  Lemma twin_alike i t t' : nth_error (all_transfers wl') (f i) = Some t' -> nth_error (all_transfers wl) i = Some t -> t_off t = t_off t' /\ t_bytes t <= t_bytes t'.
  Proof. intros Ht' Ht. destruct (twin i (nth_some_lt _ _ _ Ht)) as (u & u' & Hu & Hu' & (_ & R2 & _ & _ & _ & R6 & _)). assert (u = t) by congruence. assert (u' = t') by congruence. subst. auto. Qed.
  Lemma made w st e i x : proper w -> setup A ord bord d w st e -> nth_error st i = Some x -> make_state A ord d (s_tr x) = Ok x.
  Proof.
    intros PW [S1 _] Hx. destruct (init_states A ord d w PW _ S1) as (M & _ & G). destruct (G _ _ Hx) as [Ht _]. exact (Forall2_nth _ _ _ M _ _ _ Ht Hx).
  Qed.
  Lemma same_route s s' i x x' : reach wl s -> reach wl' s' -> nth_error (sm_sts A s) i = Some x -> nth_error (sm_sts A s') (f i) = Some x' -> enlarges (s_tr x) (s_tr x') /\ s_route x' = s_route x.
  Proof.
    intros R R' Hx Hx'.
    pose proof (visited_transfer A ord bord BP d true cpt wl HW HC s i x (or_introl R) Hx) as Ht. pose proof (visited_transfer A ord bord BP d true cpt wl' HW' HC s' (f i) x' (or_introl R') Hx') as Ht'.
    destruct (twin i (nth_some_lt _ _ _ Ht)) as (u & u' & Hu & Hu' & RP). assert (u = s_tr x) by congruence. assert (u' = s_tr x') by congruence. subst u u'. split; [exact RP|].
    destruct (visited_facts A ord bord BP d true cpt wl HW HC s (or_introl R)) as (a0 & e0 & h0 & f0 & SU & _ & I & _). destruct (visited_facts A ord bord BP d true cpt wl' HW' HC s' (or_introl R')) as (a1 & e1 & h1 & f1 & SU' & _ & I' & _).
    destruct (static_same A _ _ _ _ _ I _ _ Hx) as (z & Hz & T1 & T2). destruct (static_same A _ _ _ _ _ I' _ _ Hx') as (z' & Hz' & T1' & T2').
    pose proof (made wl a0 e0 i z HW SU Hz) as M. pose proof (made wl' a1 e1 (f i) z' HW' SU' Hz') as M'. rewrite T2, T2'. rewrite T1, T1' in RP.
    destruct RP as (_ & _ & R3 & R4 & _ & _ & R7 & _). unfold make_state in M, M'. rewrite R3, R4, R7 in M'. apply bind_ok in M as (r & Hr & M). rewrite Hr in M'. cbn [bind] in M'.
    assert (EM : s_route z = match t_dst (s_tr z) with Unicast _ => r | Multicast _ => ord (t_id (s_tr z)) r end) by (injection M; intros <-; reflexivity).
    assert (EM' : s_route z' = match t_dst (s_tr z) with Unicast _ => r | Multicast _ => ord (t_id (s_tr z')) r end) by (injection M'; intros <-; reflexivity).
    rewrite EM, EM'. destruct (t_dst (s_tr z)); [reflexivity|apply ORD].
  Qed.
  Lemma started w st e s s1 i x : proper w -> setup A ord bord d w st e -> (forall j, dep_of e j = None) -> reach w s -> step w s = Ok s1 -> takes_part s s1 i -> nth_error (sm_sts A s) i = Some x ->
    s_start x = t_off (s_tr x) /\ 0 <= t_off (s_tr x) <= sm_curr A s.
  Proof.
    intros PW SU ND R T P Hx. pose proof (visited_transfer A ord bord BP d true cpt w PW HC s i x (or_introl R) Hx) as Ht. split.
    - destruct P as [L|[Q _]].
      + apply (start_free ord bord BP d cpt HC true w PW st e SU i (ND i) s x (or_introl R) Hx). left. exact L.
      + destruct (visited_facts A ord bord BP d true cpt w PW HC s (or_introl R)) as (a0 & e0 & h0 & f0 & _ & _ & I & _). apply in_map_iff in Q as (p & Hp & Q). destruct (inv_queue _ _ _ _ _ _ I p Q) as (y & Hy & _ & Y1 & _).
        rewrite Hp in Hy. assert (y = x) by congruence. subst y. exact Y1.
    - pose proof PW as [_ HRG]. rewrite Forall_forall in HRG. destruct (HRG _ (nth_error_In _ _ Ht)) as (T1 & _). split; [lia|].
      assert (V1 : visited A ord bord d true cpt w s1) by (right; exists s; auto).
      assert (Hlt : (i < List.length (sm_sts A s1))%nat) by (rewrite (proj1 (proj2 (proj2 (places A ord bord BP d true cpt w PW HC s1 V1)))); eapply nth_some_lt; exact Ht).
      destruct (nth_lt_some _ _ Hlt) as [y Hy]. pose proof (visited_transfer A ord bord BP d true cpt w PW HC s1 i y V1 Hy) as Ht1. assert (ET : s_tr x = s_tr y) by congruence. rewrite ET.
      exact (due ord bord BP d cpt HC true w PW st e SU i (ND i) s s1 y R T P Hy).
  Qed.
  Definition all_behind (s' s : sim A) : Prop := forall i, (i < List.length (all_transfers wl))%nat -> behind cpt (f i) i s' s.

  Lemma more_step n s s' s1 s1' : begins wl n s -> begins wl' n s' -> step wl s = Ok s1 -> step wl' s' = Ok s1' -> all_behind s' s ->
    forall i, no_faster (f i) i s' s s1' s1.
  Proof.
    intros B B' T T' AB i P' P y' y Hy' Hy.
    pose proof (begins_reach A ord bord d true cpt wl _ _ B) as R. pose proof (begins_reach A ord bord d true cpt wl' _ _ B') as R'.
    assert (EC : sm_curr A s' = sm_curr A s).
    { destruct (begins_time A ord bord BP d true cpt wl HW HC n s B) as [-> _]. destruct (begins_time A ord bord BP d true cpt wl' HW' HC n s' B') as [-> _]. reflexivity. }
    destruct (reach_clock A ord bord BP d true cpt wl HW HC s R) as (_ & K2 & K3). pose proof HC as [HC1 HC2].
    destruct (plain_round A ord bord BP d true cpt wl HW HC sts0 E HS NE s s1 R T) as (Q & u & EQ & HR & _ & HB).
    destruct (plain_round A ord bord BP d true cpt wl' HW' HC sts0' E' HS' NE' s' s1' R' T') as (Q' & u' & EQ' & HR' & _ & HB').
    pose proof (round_order A ord bord BP d true cpt wl HW HC sts0 E HS NE s s1 Q R EQ) as SO. pose proof (round_order A ord bord BP d true cpt wl' HW' HC sts0' E' HS' NE' s' s1' Q' R' EQ') as SO'.
    assert (IN : forall j, In j (sm_live A s ++ map snd (rev Q)) <-> takes_part s s1 j) by (intros j; apply (round_part A ord bord BP d true cpt wl HW HC s s1 Q j R EQ)).
    assert (IN' : forall j, In j (sm_live A s' ++ map snd (rev Q')) <-> takes_part s' s1' j) by (intros j; apply (round_part A ord bord BP d true cpt wl' HW' HC s' s1' Q' j R' EQ')).
    set (live := sm_live A s ++ map snd (rev Q)) in *. set (live' := sm_live A s' ++ map snd (rev Q')) in *.
    assert (LT : forall j, In j live -> (j < List.length (all_transfers wl))%nat).
    { intros j Hj. apply IN in Hj. rewrite <- (proj1 (proj2 (proj2 (places A ord bord BP d true cpt wl HW HC s (or_introl R))))).
      destruct (visited_facts A ord bord BP d true cpt wl HW HC s (or_introl R)) as (a0 & e0 & h0 & f0 & _ & _ & I & _). destruct (part_ids _ _ _ _ _ _ I) as [_ IDS]. apply IDS. rewrite !in_app_iff. destruct Hj as [L|[L _]]; auto. }
    (* the transfers of the smaller run are in the larger one *)
    assert (INC : forall j, In j live -> In (f j) live').
    { intros j Hj. pose proof (LT j Hj) as Lj. destruct (AB j Lj) as (x' & x & Hx' & Hx & _ & _ & _ & _ & QE & LE & _). apply IN in Hj. apply IN'.
      destruct (own_step A ord bord BP d true cpt wl HW HC _ _ _ _ _ _ HS R T Hx) as (z & _ & Z1 & _). destruct (own_step A ord bord BP d true cpt wl' HW' HC _ _ _ _ _ _ HS' R' T' Hx') as (z' & _ & Z1' & _).
      destruct Hj as [L|[L N]]; [left; apply LE; exact L|right]. split; [apply QE; exact L|]. rewrite Z1' . intros [_ N']. apply N. rewrite Z1. split; [exact L|].
      pose proof (visited_transfer A ord bord BP d true cpt wl HW HC s j x (or_introl R) Hx) as Ht. pose proof (visited_transfer A ord bord BP d true cpt wl' HW' HC s' (f j) x' (or_introl R') Hx') as Ht'.
      destruct (twin_alike j _ _ Ht' Ht) as [OE _]. intros [O _]. apply N'. split; [rewrite EC, <- OE; exact O|]. intros k e Hk. rewrite NE' in Hk. discriminate. }
    assert (SUB : sub (map f live) live').
    { apply (sub_unmap (key A wl')); [intros a b HH; injection HH; auto|]. apply (sorted_sub qlt qpair_dec qlt_irr qlt_asym); [|exact SO'|].
      - assert (G : forall l, (forall j, In j l -> (j < List.length (all_transfers wl))%nat) -> StronglySorted qlt (map (key A wl) l) -> StronglySorted qlt (map (key A wl') (map f l))).
        { assert (KO : forall a, (a < List.length (all_transfers wl))%nat -> fst (key A wl' (f a)) = fst (key A wl a)).
          { intros a Ha. destruct (twin a Ha) as (t & t' & Ht & Ht' & _). destruct (twin_alike a t t' Ht' Ht) as [OE _]. unfold key. cbn [fst]. rewrite Ht, Ht'. auto. }
          induction l as [|a l IH]; intros HL S; [constructor|]. cbn [map] in S |- *. inversion S as [|? ? S1 S2]; subst. constructor; [apply IH; [intros j Hj; apply HL; right; exact Hj|exact S1]|].
          apply Forall_forall. intros q Hq. rewrite map_map in Hq. apply in_map_iff in Hq as (b & <- & Hb). rewrite Forall_forall in S2. specialize (S2 (key A wl b) (in_map _ _ _ Hb)).
          pose proof (KO a (HL a (or_introl eq_refl))) as Ka. pose proof (KO b (HL b (or_intror Hb))) as Kb. unfold qlt, qgt in *. rewrite Ka, Kb. cbn [key snd] in *. destruct CT as [MO _].
          destruct (Nat.lt_trichotomy a b) as [H1|[H1|H1]]; [pose proof (MO _ _ H1)|subst|pose proof (MO _ _ H1)]; lia. }
        apply G; assumption.
      - intros q Hq. rewrite map_map in Hq. apply in_map_iff in Hq as (j & <- & Hj). apply in_map. apply INC. exact Hj. }
    assert (ND' : NoDup live').
    { clear - SO'. induction live' as [|a l IH]; [constructor|]. cbn [map] in SO'. inversion SO' as [|? ? S1 S2]; subst. constructor; [|apply IH; exact S1]. intros C. rewrite Forall_forall in S2. apply (qlt_irr (key A wl' a)). apply S2. apply in_map. exact C. }
    assert (SL : sound_live (sm_curr A s) (sm_sts A s') live').
    { split; [exact ND'|]. intros j x Hj Hx. apply IN' in Hj. pose proof (visited_transfer A ord bord BP d true cpt wl' HW' HC s' j x (or_introl R') Hx) as Ht.
      destruct (started wl' sts0' E' s' s1' j x HW' HS' NE' R' T' Hj Hx) as [S1 S2]. split; [rewrite Forall_forall in HF'; apply HF'; eapply nth_error_In; exact Ht|]. rewrite <- EC.
      exact (eq_ind_r (fun q => 0 <= q <= sm_curr A s') S2 S1). }
    assert (ND : NoDup live) by (eapply NoDup_map_inv; eapply sub_nodup; [exact SUB|exact ND']).
    assert (SL0 : sound_live (sm_curr A s) (sm_sts A s) live).
    { split; [exact ND|]. intros j x Hj Hx. apply IN in Hj. pose proof (visited_transfer A ord bord BP d true cpt wl HW HC s j x (or_introl R) Hx) as Ht.
      destruct (started wl sts0 E s s1 j x HW HS NE R T Hj Hx) as [S1 S2]. split; [rewrite Forall_forall in HF; apply HF; eapply nth_error_In; exact Ht|].
      exact (eq_ind_r (fun q => 0 <= q <= sm_curr A s) S2 S1). }
    assert (FT : fits f (sm_sts A s) (sm_sts A s') live).
    { intros j Hj. destruct (AB j (LT j Hj)) as (x' & x & Hx' & Hx & _ & _ & SE & _). exists x, x'. split; [exact Hx|]. split; [exact Hx'|]. destruct (same_route s s' j x x' R R' Hx Hx') as [RP RE]. split; [exact RP|]. split; [exact RE|]. symmetry. exact SE. }
    assert (TW : timestep_window (sm_curr A s - cpt) (sm_curr A s)) by (split; lia).
    rewrite EC in HR'. destruct (HB i y Hy) as (y2 & Hy2 & ->). destruct (HB' (f i) y' Hy') as (y2' & Hy2' & ->).
    eapply (more_load d _ _ f (sm_sts A s) (sm_sts A s') live live' _ _ u u' _ _ TW SL0 SL SUB FT HR HR' i y2 y2'); [apply IN; exact P|exact Hy2|exact Hy2'].
  Qed.

  Lemma more_begins n : forall s s', begins wl n s -> begins wl' n s' -> sm_curr A s' < 2 ^ 24 -> all_behind s' s.
  Proof.
    induction n as [|n IH]; intros s s' B B' K i Hi; [inversion B|]. pose proof (twin_lt i Hi) as Hi'.
    inversion B as [? H0|n1 r r1 B0 T F M]; subst; inversion B' as [? H0'|n1' r' r1' B0' T' F' M']; subst.
    - apply (behind_init ord bord BP d cpt HC wl' HW' sts0' E' HS' (f i) wl HW sts0 E HS i); try assumption. intros t t' Ht Ht'. exact (twin_alike i t' t Ht Ht').
    - inversion B0'.
    - inversion B0.
    - destruct (begins_time A ord bord BP d true cpt wl' HW' HC _ _ B') as [K1 _]. destruct (begins_time A ord bord BP d true cpt wl' HW' HC _ _ B0') as [K0 _]. pose proof HC as [HC1 HC2].
      assert (K' : sm_curr A r' < 2 ^ 24) by (rewrite K0; rewrite K1 in K; nia). pose proof (IH r r' B0 B0' K') as AB.
      unfold behind. replace (sm_curr A (advance A cpt r1') - cpt + 1) with (sm_curr A r' + 1) by (rewrite K1, K0; nia).
      destruct (behind_step ord bord BP d cpt HC C20 true wl' HW' HF' sts0' E' HS' (f i) (NE' (f i)) true wl HW HF sts0 E HS i (NE i) (fun t t' => twin_alike i t' t) Hi' Hi n r' r r1' r1 B0' B0 T' T K' (AB i Hi)) as (x & x' & G).
      + apply (more_step n r r' r1 r1' B0 B0' T T' AB).
      + exists x, x'. exact G.
  Qed.

  Theorem more_later s s' i x x' : succeeds A ord bord d true cpt wl s -> succeeds A ord bord d true cpt wl' s' -> sm_curr A s < 2 ^ 24 -> sm_curr A s' < 2 ^ 24 ->
    nth_error (sm_sts A s) i = Some x -> nth_error (sm_sts A s') (f i) = Some x' -> s_start x' = s_start x /\ s_end x <= s_end x'.
  Proof.
    intros H H' K K' Hx Hx'. destruct (succeeds_end A ord bord d true cpt wl s H) as [(r & R & T) _].
    pose proof (visited_transfer A ord bord BP d true cpt wl HW HC s i x (or_intror (ex_intro _ r (conj R T))) Hx) as Ht. pose proof (nth_some_lt _ _ _ Ht) as Hi.
    destruct (later_end ord bord BP d cpt HC C20 true wl' HW' HF' sts0' E' HS' (f i) (NE' (f i)) true wl HW HF sts0 E HS i (NE i) (fun t t' => twin_alike i t' t) (twin_lt i Hi) Hi) with (s := s') (s' := s) (x := x') (x' := x) as [G1 G2]; try assumption; [|auto].
    intros n q' q q1' q1 B' B T' T1 KQ. apply (more_step n q q' q1 q1' B B' T1 T'). apply (more_begins n q q' B B' KQ).
  Qed.
End More.

Lemma nothing_waits ord bord : bucket_order bord -> forall d c cpt wl, proper wl -> proper_cpt cpt -> forall s, succeeds f32A ord bord d c cpt wl s -> (forall i j dl, ~ waits f32A s i j dl) ->
  exists sts0 E, setup f32A ord bord d wl sts0 E /\ forall i, dep_of E i = None.
Proof.
  intros BP d c cpt wl HW HC s H NW. destruct (succeeds_end f32A ord bord d c cpt wl s H) as [(r & R & T) F].
  destruct (visited_facts f32A ord bord BP d c cpt wl HW HC s (or_intror (ex_intro _ r (conj R T)))) as (sts0 & E & h & fin & HS & HE & I & _). exists sts0, E. split; [exact HS|]. intros i.
  destruct (dep_of E i) as [k|] eqn:Ek; [|reflexivity]. destruct (dep_edge E _ _ Ek) as (e & He & _). exfalso. apply (NW i (e_parent e) (e_delay e)). apply (depends_iff f32A _ _ _ _ _ I HE). eauto 6.
Qed.
Theorem grown_not_earlier ord bord : bucket_order bord -> (forall a b l, ord a l = ord b l) -> forall d cpt wl wl' f, proper wl -> proper wl' -> proper_cpt cpt -> cpt <= 2 ^ 20 ->
  Forall sound_transfer (all_transfers wl) -> Forall sound_transfer (all_transfers wl') -> outgrows f wl wl' ->
  forall s s', succeeds f32A ord bord d true cpt wl s -> succeeds f32A ord bord d true cpt wl' s' -> sm_curr f32A s < 2 ^ 24 -> sm_curr f32A s' < 2 ^ 24 ->
  (forall i j dl, ~ waits f32A s i j dl) -> (forall i j dl, ~ waits f32A s' i j dl) ->
  forall i x x', nth_error (sm_sts f32A s) i = Some x -> nth_error (sm_sts f32A s') (f i) = Some x' -> s_start x' = s_start x /\ s_end x <= s_end x'.
Proof.
  intros BP ORD d cpt wl wl' f HW HW' HC C20 HF HF' CT s s' H H' K K' NW NW' i x x' Hx Hx'.
  destruct (nothing_waits ord bord BP d true cpt wl HW HC s H NW) as (sts0 & E & HS & NE). destruct (nothing_waits ord bord BP d true cpt wl' HW' HC s' H' NW') as (sts0' & E' & HS' & NE').
  apply (more_later ord ORD bord BP d cpt HC C20 wl HW HF sts0 E HS NE wl' HW' HF' sts0' E' HS' NE' f CT s s' i x x'); assumption.
Qed.

Lemma estimate_up id g (sts sts' : list st32) est est' : (forall e, counted f32A id g sts e -> exists e', counted f32A id g sts' e' /\ e <= e') ->
  estimate f32A id g sts est -> estimate f32A id g sts' est' -> est <= est'.
Proof.
  intros UP E E'. destruct E as [(w & [_ W] & L & ->)|[_ ->]].
  - destruct (UP _ W) as (e & He & Le). destruct E' as [(w' & [W' _] & _ & ->)|[W' ->]]; [specialize (W' _ He); lia|]. specialize (W' _ He). lia.
  - destruct E' as [(w' & _ & L' & ->)|[_ ->]]; lia.
Qed.
Theorem grown_not_less ord bord : bucket_order bord -> (forall a b l, ord a l = ord b l) -> forall d cpt wl wl' f, proper wl -> proper wl' -> proper_cpt cpt -> cpt <= 2 ^ 20 ->
  Forall sound_transfer (all_transfers wl) -> Forall sound_transfer (all_transfers wl') -> outgrows f wl wl' ->
  (forall id, getGoldenResultCycles wl' id = getGoldenResultCycles wl id) -> (forall id g, getGoldenResultCycles wl id = Ok g -> 0 <= fst g) ->
  forall model stt stt', model <> "none"%string -> runSinglePerfSim f32A ord bord d model cpt wl = Ok (Stats stt) -> runSinglePerfSim f32A ord bord d model cpt wl' = Ok (Stats stt') ->
  (forall w s, w = wl \/ w = wl' -> succeeds f32A ord bord d true cpt w s -> sm_curr f32A s < 2 ^ 24 /\ forall i j dl, ~ waits f32A s i j dl) ->
  forall id ds ds', stats_get f32A stt id = Some ds -> stats_get f32A stt' id = Some ds' -> ds_est f32A ds <= ds_est f32A ds'.
Proof.
  intros BP ORD d cpt wl wl' f HW HW' HC C20 HF HF' CT GE HG model stt stt' HM H H' HSW id ds ds' G G'.
  destruct (estimated_cycles f32A ord bord BP d cpt wl HW HC model stt H) as (s & S & E). destruct (estimated_cycles f32A ord bord BP d cpt wl' HW' HC model stt' H') as (s' & S' & E').
  destruct (String.eqb_spec model "none"); [contradiction|]. cbn [negb] in S, S'.
  destruct (E id ds G) as (_ & g & Hg & EE). destruct (E' id ds' G') as (_ & g' & Hg' & EE'). assert (g' = g) by (pose proof (eq_trans (eq_sym (GE id)) Hg') as Q; pose proof (eq_trans (eq_sym Hg) Q) as Q'; injection Q'; auto). subst g'.
  destruct (HSW wl s (or_introl eq_refl) S) as [K NW]. destruct (HSW wl' s' (or_intror eq_refl) S') as [K' NW'].
  destruct (succeeds_end f32A ord bord d true cpt wl s S) as [(r & R & T) _]. destruct (succeeds_end f32A ord bord d true cpt wl' s' S') as [(r' & R' & T') _].
  apply (estimate_up id g (sm_sts f32A s) (sm_sts f32A s')); [|exact (EE (HG _ _ Hg))|exact (EE' (HG _ _ Hg))].
  intros e (i & x & Hx & C1 & C2 & ->).
  pose proof (visited_transfer f32A ord bord BP d true cpt wl HW HC s i x (or_intror (ex_intro _ r (conj R T))) Hx) as Ht. destruct CT as [C3 C4]. destruct (C4 i _ Ht) as (t' & Ht' & RP).
  assert (Hlt : (f i < List.length (sm_sts f32A s'))%nat).
  { rewrite (proj1 (proj2 (proj2 (places f32A ord bord BP d true cpt wl' HW' HC s' (or_intror (ex_intro _ r' (conj R' T'))))))). eapply nth_some_lt. exact Ht'. }
  destruct (nth_lt_some _ _ Hlt) as [x' Hx']. pose proof (visited_transfer f32A ord bord BP d true cpt wl' HW' HC s' (f i) x' (or_intror (ex_intro _ r' (conj R' T'))) Hx') as Ht2.
  pose proof (eq_trans (eq_sym Ht') Ht2) as ET. injection ET as ET. rewrite ET in RP. destruct RP as (_ & _ & R3 & _ & _ & R6 & _).
  exists (s_end x'). split.
  - exists (f i), x'. split; [exact Hx'|]. split; [destruct C1 as [C1|C1]; [left; exact C1|right; exact (eq_trans C1 (f_equal c_dev (eq_sym R3)))]|]. split; [exact (eq_ind_r (fun q => fst g <= q <= snd g) C2 R6)|reflexivity].
  - apply (grown_not_earlier ord bord BP ORD d cpt wl wl' f HW HW' HC C20 HF HF' (conj C3 C4) s s' S S' K K' NW NW' i x x' Hx Hx').
Qed.

(** * The same transfers *)
Lemma repeats_enlarges {Fl} (t t' : transfer Fl) : repeats t t' -> enlarges t t'.
Proof. intros (H1 & H2 & H3 & H4 & H5 & H6 & H7 & H8 & H9). split; [left; split; assumption|]. split; [rewrite H9; apply Z.le_refl|]. auto 7. Qed.
Lemma contains_outgrows {Fl} f (wl wl' : workload Fl) : contains f wl wl' -> outgrows f wl wl'.
Proof. intros [H1 H2]. split; [exact H1|]. intros i t Ht. destruct (H2 i t Ht) as (t' & Ht' & R). exists t'. split; [exact Ht'|]. apply repeats_enlarges. exact R. Qed.
Theorem more_not_earlier ord bord : bucket_order bord -> (forall a b l, ord a l = ord b l) -> forall d cpt wl wl' f, proper wl -> proper wl' -> proper_cpt cpt -> cpt <= 2 ^ 20 ->
  Forall sound_transfer (all_transfers wl) -> Forall sound_transfer (all_transfers wl') -> contains f wl wl' ->
  forall s s', succeeds f32A ord bord d true cpt wl s -> succeeds f32A ord bord d true cpt wl' s' -> sm_curr f32A s < 2 ^ 24 -> sm_curr f32A s' < 2 ^ 24 ->
  (forall i j dl, ~ waits f32A s i j dl) -> (forall i j dl, ~ waits f32A s' i j dl) ->
  forall i x x', nth_error (sm_sts f32A s) i = Some x -> nth_error (sm_sts f32A s') (f i) = Some x' -> s_start x' = s_start x /\ s_end x <= s_end x'.
Proof. intros BP ORD d cpt wl wl' f HW HW' HC C20 HF HF' CT. apply (grown_not_earlier ord bord BP ORD d cpt wl wl' f HW HW' HC C20 HF HF' (contains_outgrows f wl wl' CT)). Qed.
Theorem more_not_less ord bord : bucket_order bord -> (forall a b l, ord a l = ord b l) -> forall d cpt wl wl' f, proper wl -> proper wl' -> proper_cpt cpt -> cpt <= 2 ^ 20 ->
  Forall sound_transfer (all_transfers wl) -> Forall sound_transfer (all_transfers wl') -> contains f wl wl' ->
  (forall id, getGoldenResultCycles wl' id = getGoldenResultCycles wl id) -> (forall id g, getGoldenResultCycles wl id = Ok g -> 0 <= fst g) ->
  forall model stt stt', model <> "none"%string -> runSinglePerfSim f32A ord bord d model cpt wl = Ok (Stats stt) -> runSinglePerfSim f32A ord bord d model cpt wl' = Ok (Stats stt') ->
  (forall w s, w = wl \/ w = wl' -> succeeds f32A ord bord d true cpt w s -> sm_curr f32A s < 2 ^ 24 /\ forall i j dl, ~ waits f32A s i j dl) ->
  forall id ds ds', stats_get f32A stt id = Some ds -> stats_get f32A stt' id = Some ds' -> ds_est f32A ds <= ds_est f32A ds'.
Proof. intros BP ORD d cpt wl wl' f HW HW' HC C20 HF HF' CT. apply (grown_not_less ord bord BP ORD d cpt wl wl' f HW HW' HC C20 HF HF' (contains_outgrows f wl wl' CT)). Qed.
