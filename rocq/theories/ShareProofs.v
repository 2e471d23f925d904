(* Transfers that share nothing are not slowed down (C90). *)
From Coq Require Import ZArith Arith Reals String List Bool Lia Lra ZifyBool ZifyNat Sorting.Permutation Sorting.Sorted Floats.SpecFloat.
From Flocq Require Import Core IEEE754.BinarySingleNaN.
From Verif Require Import Base Arith Util Device SpecDevice Workload SpecWorkload DepTracker Rates Stats Engine UtilProofs DeviceProofs RouteProofs MulticastProofs FactoryProofs
  WorkloadProofs SpecTracker TrackerProofs DepGenProofs StepProofs SpecEngine SpecRates EngineProofs RunProofs DepFacts EngineFacts EngineFacts2 EngineFacts3 EngineFacts4 EngineFacts5
  FloatProofs FloatProofs2 RateFloat RateFloat2 RateFloat3 RateFloat4 RateFacts EngineRates SafeProofs SafeRun CalmProofs NiuProofs CapacityFloat CapacityFloat2 SpecAlone AloneProofs CongestProofs SpecShare.
Import ListNotations.
Local Open Scope list_scope.
Open Scope Z_scope.
Ltac Zify.zify_post_hook ::= idtac.

(** * The units of a transfer *)
Definition inside (g : cgrid) (c : coord) : Prop := c_dev c = c_dev (g_start g) /\
  c_row (g_start g) <= c_row c <= Z.max (c_row (g_start g)) (c_row (g_end g)) /\ c_col (g_start g) <= c_col c <= Z.max (c_col (g_start g)) (c_col (g_end g)).
Lemma walk_inside g fuel : forall row col l, c_row (g_start g) <= row <= Z.max (c_row (g_start g)) (c_row (g_end g)) -> c_col (g_start g) <= col <= Z.max (c_col (g_start g)) (c_col (g_end g)) ->
  0 <= c_row (g_start g) -> 0 <= c_col (g_start g) -> c_row (g_start g) < 2 ^ 15 - 1 -> c_col (g_start g) < 2 ^ 15 - 1 -> c_row (g_end g) < 2 ^ 15 - 1 -> c_col (g_end g) < 2 ^ 15 - 1 ->
  mc_walk fuel [g] (mkCoord (c_dev (g_start g)) row col, O) = Some l -> Forall (inside g) l.
Proof.
  change (2 ^ 15) with 32768. induction fuel as [|fuel IH]; intros row col l HR HC H1 H2 H3 H4 H5 H6 H; cbn [mc_walk mc_at_end snd List.length Nat.eqb] in H; [discriminate|].
  cbn [fst mc_next nth_error c_col c_row c_dev] in H.
  assert (G : forall it, option_map (cons (mkCoord (c_dev (g_start g)) row col)) (mc_walk fuel [g] it) = Some l -> (forall l', mc_walk fuel [g] it = Some l' -> Forall (inside g) l') -> Forall (inside g) l).
  { intros it E F. destruct (mc_walk fuel [g] it) as [l'|]; [|discriminate E]. cbn [option_map] in E. injection E as <-. constructor; [unfold inside; cbn; lia|]. apply F. reflexivity. }
  destruct (Z.ltb_spec col (c_col (g_end g))) as [L|L].
  - rewrite i16_small in H by lia. apply (G _ H). intros l' E. apply (IH row (col + 1) l'); try assumption; lia.
  - rewrite i16_small in H by lia. destruct (row + 1 >? c_row (g_end g)) eqn:E2.
    + apply (G _ H). intros l' E. destruct fuel; cbn in E; injection E as <-; constructor.
    + apply (G _ H). intros l' E. apply (IH (row + 1) (c_col (g_start g)) l'); try assumption; lia.
Qed.
Lemma cells_inside d g cs : wf_device d -> on_chip_grid d (g_start g) -> on_chip_grid d (g_end g) -> mcast_coords [g] = Ok cs -> Forall (inside g) cs.
Proof.
  intros (W1 & W2 & W3 & W4 & _) [A1 A2] [B1 B2] H. unfold mcast_coords, mc_begin in H. destruct (mc_walk _ _ _) as [l|] eqn:E; [|discriminate]. injection H as <-.
  assert (Z.of_nat (dv_rows d) < 2 ^ 15 /\ Z.of_nat (dv_cols d) < 2 ^ 15) as [X1 X2] by (change (2 ^ 15) with 32768 in *; nia).
  assert (E' : mc_walk (mc_fuel [g]) [g] (mkCoord (c_dev (g_start g)) (c_row (g_start g)) (c_col (g_start g)), O) = Some l) by (rewrite <- E; destruct (g_start g); reflexivity).
  eapply (walk_inside g); [| | | | | | | |exact E']; lia.
Qed.
Lemma niu_place d c t c' t' id : wf_device d -> in_grid d c -> in_grid d c' -> niu_of d c t = Ok id -> niu_of d c' t' = Ok id -> t = t' /\ same_place d c c'.
Proof.
  intros W (G0 & G1 & G2) (G0' & G1' & G2') H H'. destruct (niu_same d c t c' t' id W) as (E1 & E2 & E3); [split; assumption|split; assumption|exact H|exact H'|].
  split; [exact E1|]. split; [|auto]. intros EC. pose proof (wf_small d W) as S. pose proof W as (W1 & W2 & W3 & W4 & _).
  assert (Z.of_nat (dv_chips d) < 2 ^ 15) as X by (change (2 ^ 15) with 32768 in *; nia).
  unfold niu_of in H, H'. rewrite EC in H, H'.
  assert (K : forall a, getNIUID d a = Ok id -> getNIUAttributes d id = Ok a).
  { intros a Ha. destruct (in_grid_dec d (n_coord a)) as [G|G].
    - rewrite (getNIUID_eq d a W G) in Ha. assert (id = niu_idx d a) as -> by congruence. apply getNIUAttributes_eq; assumption.
    - rewrite (getNIUID_bad d a S G) in Ha. discriminate. }
  apply K in H. apply K in H'. pose proof (eq_trans (eq_sym H) H') as E. match type of E with Ok ?a = Ok ?b => assert (EE : a = b) by congruence end.
  pose proof (f_equal (fun a => c_dev (n_coord a)) EE) as ED. unfold Coord_make in ED. cbn [n_coord c_dev] in ED. rewrite !i16_small in ED by lia. exact ED.
Qed.
Lemma src_sink n n' : src_niu_type n <> sink_niu_type n'. Proof. destruct n, n'; discriminate. Qed.
Lemma src_type n n' : src_niu_type n = src_niu_type n' -> n = n'. Proof. destruct n, n'; try reflexivity; discriminate. Qed.
Lemma sink_type n n' : sink_niu_type n = sink_niu_type n' -> n = n'. Proof. destruct n, n'; try reflexivity; discriminate. Qed.
(* a unit of a transfer is the interface of its source or of a core it is sent to *)
Lemma unit_cases (d : device) (x : tstate (F f32A)) id : supported d -> state_fine f32A d x -> In id (nius f32A d x) ->
  (niu_of d (t_src (s_tr x)) (src_niu_type (t_noc (s_tr x))) = Ok id /\ in_grid d (t_src (s_tr x))) \/
  exists c, niu_of d c (sink_niu_type (t_noc (s_tr x))) = Ok id /\ in_grid d c /\ arrives d (s_tr x) c.
Proof.
  intros HD FX Hi. pose proof (supported_wf d HD) as W. pose proof FX as ((_ & _ & S1 & HA) & HT & _). revert Hi. unfold nius. destruct (niu_ids f32A d (s_tr x)) as [ids| | | | | |] eqn:E; intros Hi; try contradiction.
  unfold niu_ids in E. apply bind_ok in E as (a & Ha & E). apply bind_ok in E as (bs & Hb & E). injection E as <-. destruct Hi as [<-|Hi]; [left; auto|right].
  unfold sink_ids in Hb. unfold arrives. destruct (t_dst (s_tr x)) as [c|m] eqn:ED.
  - apply bind_ok in Hb as (b & Hb & E). injection E as <-. destruct Hi as [<-|[]]. exists c. split; [exact Hb|]. split; [apply HA|]. split; auto.
  - destruct HT as (g & -> & G1 & G2). apply bind_ok in Hb as (cs & Hcs & Hb). apply sinks_fold in Hb as (l & -> & HI & _). cbn [app] in Hi. apply in_map_iff in Hi as (p & <- & Hp). destruct (HI p Hp) as [P1 P2].
    pose proof (cells_inside d g cs W G1 G2 Hcs) as IN. destruct (coords_ok d g W G1 G2) as (cs' & E & F). assert (cs' = cs) by congruence. subst cs'. rewrite Forall_forall in IN, F. destruct (IN _ P1) as (I1 & I2 & I3). destruct (F _ P1) as [F1 F2].
    exists (fst p). split; [exact P2|]. split.
    + destruct HA as ((g1 & m' & E1 & E2) & _). injection E1 as <- _. destruct S1 as (S1 & _). destruct F1. split; [lia|]. split; assumption.
    + exists g. split; [left; reflexivity|]. split; [intros _; congruence|]. split; assumption.
Qed.
Lemma no_unit (d : device) (x y : tstate (F f32A)) id : supported d -> state_fine f32A d x -> state_fine f32A d y -> In id (nius f32A d x) -> In id (nius f32A d y) -> contend d x y.
Proof.
  intros HD FX FY Hx Hy. pose proof (supported_wf d HD) as W. right. destruct (unit_cases d x id HD FX Hx) as [(X1 & X2)|(c & X1 & X2 & X3)]; destruct (unit_cases d y id HD FY Hy) as [(Y1 & Y2)|(c' & Y1 & Y2 & Y3)].
  - destruct (niu_place d _ _ _ _ id W X2 Y2 X1 Y1) as [T P]. split; [apply src_type; exact T|left; exact P].
  - destruct (niu_place d _ _ _ _ id W X2 Y2 X1 Y1) as [T _]. exfalso. exact (src_sink _ _ T).
  - destruct (niu_place d _ _ _ _ id W X2 Y2 X1 Y1) as [T _]. exfalso. exact (src_sink _ _ (eq_sym T)).
  - destruct (niu_place d _ _ _ _ id W X2 Y2 X1 Y1) as [T P]. split; [apply sink_type; exact T|right]. exists c. split; [exact X3|].
    clear - Y3 P. destruct P as (P0 & P1 & P2). unfold arrives in *. destruct (t_dst (s_tr y)) as [u|m].
    + destruct Y3 as (Q0 & Q1 & Q2). split; [intros M; rewrite (Q0 M), (P0 M); reflexivity|]. split; congruence.
    + destruct Y3 as (g & H1 & H2 & H3 & H4). exists g. split; [exact H1|]. split; [intros M; rewrite (H2 M), (P0 M); reflexivity|]. rewrite P1, P2. split; assumption.
Qed.

(** * The demand of a unit or link that only one transfer uses *)
Lemma reps_sole st en (f : tstate spec_float -> list Z) (sts : list (tstate spec_float)) id : forall live i x, NoDup live -> In i live -> nth_error sts i = Some x -> NoDup (f x) -> In id (f x) ->
  (forall j y, In j live -> j <> i -> nth_error sts j = Some y -> ~ In id (f y)) -> reps st en (fun x => count_occ Z.eq_dec (f x) id) sts live = [eff st en x].
Proof.
  assert (Z0 : forall live i, ~ In i live -> (forall j y, In j live -> j <> i -> nth_error sts j = Some y -> ~ In id (f y)) -> reps st en (fun x => count_occ Z.eq_dec (f x) id) sts live = []).
  { intros live i. induction live as [|k live IH]; intros NI H; [reflexivity|]. cbn [reps flat_map]. change (flat_map _ live) with (reps st en (fun x => count_occ Z.eq_dec (f x) id) sts live).
    rewrite IH; [|intros C; apply NI; right; exact C|intros j y Hj; apply H; right; exact Hj]. rewrite app_nil_r. destruct (nth_error sts k) as [y|] eqn:Ey; [|reflexivity].
    rewrite (proj1 (count_occ_not_In Z.eq_dec (f y) id)); [reflexivity|]. apply (H k y); [left; reflexivity|intros ->; apply NI; left; reflexivity|exact Ey]. }
  induction live as [|k live IH]; intros i x ND Hi Hx NF Hid H; [destruct Hi|]. inversion ND as [|? ? NI ND']; subst. cbn [reps flat_map]. change (flat_map _ live) with (reps st en (fun x => count_occ Z.eq_dec (f x) id) sts live).
  destruct Hi as [->|Hi].
  - rewrite (Z0 live i NI); [|intros j y Hj; apply H; right; exact Hj]. rewrite Hx, app_nil_r. rewrite NoDup_count_occ' in NF. rewrite (NF id Hid). reflexivity.
  - rewrite (IH i x ND' Hi Hx NF Hid); [|intros j y Hj; apply H; right; exact Hj]. destruct (nth_error sts k) as [y|] eqn:Ey; [|reflexivity].
    rewrite (proj1 (count_occ_not_In Z.eq_dec (f y) id)); [reflexivity|]. apply (H k y); [left; reflexivity|intros ->; contradiction|exact Ey].
Qed.
Lemma zero_add e : nf32 e -> f_add f32A (f_zero f32A) e = e.
Proof. intros [[_ H] F]. destruct e as [[]|[]| |[] m x]; try contradiction; try discriminate H; try reflexivity; cbn in *; try contradiction; discriminate. Qed.
Notation st32 := (tstate (F f32A)).
Theorem sole_rate d st en (sts : list st32) live g0 sts' g i (x : st32) : supported d -> timestep_window st en -> sound_live en sts live ->
  computeCurrentTransferRate f32A d st en sts live g0 true = Ok (sts', g) ->
  (forall j (y : st32), In j live -> nth_error sts j = Some y -> state_fine f32A d y /\ NoDup (s_route y)) ->
  In i live -> nth_error sts i = Some x -> (forall j (y : st32), In j live -> j <> i -> nth_error sts j = Some y -> ~ contend d x y) ->
  (forall b, uncongested_bw f32A d (s_tr x) = Ok b -> within_capacity d (s_tr x) b) ->
  exists x', nth_error sts' i = Some x' /\ uncongested_bw f32A d (s_tr x) = Ok (s_bw x').
Proof.
  intros HD HW HL H HF Hi Hx HN HC. pose proof HL as [ND HS]. pose proof H as H0. unfold computeCurrentTransferRate in H0. apply bind_ok in H0 as (sts1 & U & H0).
  pose proof (started_live _ _ _ _ _ HL U) as L1. apply congestion_spec in H0 as (DM & _); [|exact ND]. apply demand_spec in DM as (B1 & B2 & DN). apply update_spec in U as (_ & _ & UI).
  destruct (UI i Hi) as (x0 & b & Hx0 & Hb & Hx1). assert (x0 = x) by congruence. subst x0. destruct (HC b Hb) as [C1 C2]. destruct (HF i x Hi Hx) as [FX NX]. destruct HW as [HW1 HW2].
  destruct (demand_ok st en (with_bw x b) HW1 HW2 (L1 i (with_bw x b) Hi Hx1)) as [NE LE]. destruct (L1 i (with_bw x b) Hi Hx1) as (NR & NB & LR & _). cbn [with_bw s_tr s_bw] in NR, NB, LR, LE.
  set (e := effective_demand f32A st en (with_bw x b)) in *.
  assert (BACK : forall j (y : st32), In j live -> j <> i -> nth_error sts1 j = Some y -> exists y0 c, nth_error sts j = Some y0 /\ y = with_bw y0 c /\ ~ contend d x y0 /\ state_fine f32A d y0).
  { intros j y Hj Hne Hy. destruct (UI j Hj) as (y0 & c & Y0 & _ & Y1). rewrite Hy in Y1. injection Y1 as ->. exists y0, c. split; [exact Y0|]. split; [reflexivity|]. split; [exact (HN j y0 Hj Hne Y0)|apply (HF j y0 Hj Y0)]. }
  assert (LINK : forall id, In id (s_route x) -> grid_get (g_link g) id = Ok e).
  { intros id Hid. pose proof (entry_sum (link_table d) st en s_route sts1 live (g_link g) id B2 i (with_bw x b) Hi Hx1 Hid) as G.
    rewrite (reps_sole st en s_route sts1 id live i (with_bw x b) ND Hi Hx1 NX Hid) in G; [cbn [fold_left] in G; change (eff st en (with_bw x b)) with e in G; rewrite (zero_add e NE) in G; exact G|].
    intros j y Hj Hne Hy C. destruct (BACK j y Hj Hne Hy) as (y0 & c & Y0 & -> & Y2 & _). apply Y2. left. exists id. split; [exact Hid|exact C]. }
  assert (UNIT : forall id, In id (nius f32A d x) -> grid_get (g_niu g) id = Ok e).
  { intros id Hid. pose proof (entry_sum (niu_table d) st en (nius f32A d) sts1 live (g_niu g) id B1 i (with_bw x b) Hi Hx1 Hid) as G.
    rewrite (reps_sole st en (nius f32A d) sts1 id live i (with_bw x b) ND Hi Hx1 (nius_nodup d x HD FX) Hid) in G; [cbn [fold_left] in G; change (eff st en (with_bw x b)) with e in G; rewrite (zero_add e NE) in G; exact G|].
    intros j y Hj Hne Hy C. destruct (BACK j y Hj Hne Hy) as (y0 & c & Y0 & -> & Y2 & Y3). apply Y2. exact (no_unit d x y0 id HD FX Y3 Hid C). }
  assert (EB : forall z, nf32 z -> le_float b z -> le_float e z).
  { intros z Nz Hz. apply le_vl; [exact NE|exact Nz|]. apply le_vl in Hz; [|exact NB|exact Nz]. lra. }
  assert (IDS : exists ids, niu_ids f32A d (s_tr x) = Ok ids /\ nius f32A d x = ids).
  { destruct (DN i Hi) as (z & ids & Hz & E). rewrite Hx1 in Hz. injection Hz as <-. change (niu_ids f32A d (s_tr x) = Ok ids) in E. exists ids. split; [exact E|]. unfold nius. rewrite E. reflexivity. }
  destruct IDS as (ids & EI & EN).
  unfold niu_ids, sink_ids in EI. apply bind_ok in EI as (a & Ea & EI). apply bind_ok in EI as (bs & Eb & EI). injection EI as <-.
  apply (keeps_bandwidth d st en sts live g0 sts' g (conj HW1 HW2) HL H i x Hi Hx).
  - intros id dem Hid Hd. rewrite (LINK id Hid) in Hd. injection Hd as <-. apply EB; [apply link_bandwidth_ok|exact C1].
  - intros id dem Hid Hd. assert (id = a) by (pose proof (eq_trans (eq_sym Hid) Ea) as EQ; congruence). subst id. rewrite (UNIT a) in Hd by (rewrite EN; left; reflexivity). injection Hd as <-. apply EB; [exact NR|]. apply le_vl; [exact NB|exact NR|]. exact LR.
  - intros c id dem ty Hc Hid Hd Hty. change (t_dst (s_tr x) = Unicast c) in Hc. rewrite Hc in Eb. apply bind_ok in Eb as (b1 & Eb1 & Eb2). injection Eb2 as <-. assert (id = b1) by (pose proof (eq_trans (eq_sym Hid) Eb1) as EQ; congruence). subst b1.
    rewrite (UNIT id) in Hd by (rewrite EN; right; left; reflexivity). injection Hd as <-. apply EB; [apply abs_rate_ok|]. exact (C2 c ty Hc Hty).
Qed.

(** * Runs *)
Lemma contend_static d (x y x' y' : st32) : s_tr x' = s_tr x -> s_route x' = s_route x -> s_tr y' = s_tr y -> s_route y' = s_route y -> contend d x' y' -> contend d x y.
Proof. intros H1 H2 H3 H4. unfold contend. rewrite H1, H2, H3, H4. auto. Qed.
Lemma uncongested_own d (t : transfer spec_float) b : uncongested_bw f32A d t = Ok b <-> own_bandwidth d t b.
Proof.
  unfold own_bandwidth, uncongested_bw. split.
  - intros H. apply bind_ok in H as (noc & Hn & H). injection H as <-. eauto.
  - intros (noc & Hn & ->). exact (f_equal (fun o => bind o (fun noc => Ok (f_fmin f32A (t_rate t) noc))) Hn).
Qed.
Section Run.
  Context (ord : Z -> list Z -> list Z) (ord_perm : link_order ord) (bord : list bucket -> list bucket) (BP : bucket_order bord).
  Context (d : device) (HD : supported d) (cpt : Z) (wl : workload (F f32A)) (HC : proper_cpt cpt) (HW : proper wl) (HF : Forall sound_transfer (all_transfers wl)).
  Context (HA : Forall (accepted d) (all_transfers wl)) (HO : Forall at_most_one_rectangle (all_transfers wl)).
  Lemma visited_fine congestion s i x : visited f32A ord bord d congestion cpt wl s -> nth_error (sm_sts f32A s) i = Some x -> state_fine f32A d x /\ NoDup (s_route x).
  Proof.
    intros V Hx. destruct (visited_facts f32A ord bord BP d congestion cpt wl HW HC s V) as (sts0 & E & h & fin & HSU & _ & I & _).
    destruct (static_same f32A _ _ _ _ _ I _ _ Hx) as (z0 & Hz0 & ET & ER). destruct HSU as [HI _]. destruct (init_states f32A ord d wl HW _ HI) as (M & _ & G).
    pose proof (G _ _ Hz0) as GZ. assert (Ht : nth_error (all_transfers wl) i = Some (s_tr z0)) by apply GZ. pose proof (Forall2_nth _ _ _ M _ _ _ Ht Hz0) as MS. cbn beta in MS.
    rewrite Forall_forall in HA, HO. pose proof (nth_error_In _ _ Ht) as Hin.
    destruct (make_fine f32A ord d (s_tr z0) ord_perm HD (HA _ Hin)) as [_ MF]. pose proof (MF z0 MS) as (F1 & F2 & F3). split.
    - unfold state_fine. rewrite ET, ER. auto.
    - rewrite ER. exact (made_nodup f32A ord d _ z0 ord_perm HD (HA _ Hin) (HO _ Hin) MS).
  Qed.
  Theorem sole_step s s' i (x : st32) : reach f32A ord bord d true cpt wl s -> timestep f32A d true cpt wl s = Ok s' -> takes_part s s' i -> nth_error (sm_sts f32A s') i = Some x ->
    (forall j y, takes_part s s' j -> j <> i -> nth_error (sm_sts f32A s') j = Some y -> ~ contend d x y) ->
    (forall b, own_bandwidth d (s_tr x) b -> within_capacity d (s_tr x) b) -> own_bandwidth d (s_tr x) (s_bw x).
  Proof.
    intros HRe HT Hp Hx HN HCap. assert (V' : visited f32A ord bord d true cpt wl s') by (right; exists s; split; [exact HRe|exact HT]).
    destruct (rate_round f32A ord bord BP d true cpt wl HW HC s s' HRe HT) as (sts1 & sts2 & live & ND & HM & HRT & HST & HX).
    destruct (reach_clock f32A ord bord BP d true cpt wl HW HC s HRe) as (_ & K2 & K3). pose proof HC as [HC1 HC2]. pose proof HF as HF'. rewrite Forall_forall in HF'.
    assert (TW : timestep_window (sm_curr f32A s - cpt) (sm_curr f32A s)) by (split; lia).
    assert (SL : sound_live (sm_curr f32A s) sts1 live).
    { split; [assumption|]. intros j x1 Hj Hx1. destruct (HST j x1 Hj Hx1) as [S1 S2]. split; [|exact S1]. apply HF'. eapply nth_error_In. exact S2. }
    pose proof (rate_spec f32A d _ _ sts1 live _ true sts2 _ ND HRT) as (_ & _ & RSP).
    destruct (places f32A ord bord BP d true cpt wl HW HC s' V') as (_ & _ & LEN & _).
    assert (BACK : forall j (x1 : st32), In j live -> nth_error sts1 j = Some x1 -> exists y : st32, nth_error (sm_sts f32A s') j = Some y /\ s_tr y = s_tr x1 /\ s_route y = s_route x1).
    { intros j x1 Hj Hx1. destruct (HST j x1 Hj Hx1) as [_ S2]. assert (Hlt : (j < List.length (sm_sts f32A s'))%nat) by (rewrite LEN; eapply nth_some_lt; exact S2). destruct (nth_lt_some _ _ Hlt) as (y & Hy).
      destruct (HX j y Hj Hy) as (y2 & Hy2 & T1 & _ & _ & T2). destruct (RSP j Hj) as (z & b0 & b & Z1 & _ & Z2 & _). rewrite Hx1 in Z1. injection Z1 as <-. rewrite Hy2 in Z2. injection Z2 as ->. cbn [with_bw s_tr s_route] in T1, T2.
      exists y. auto. }
    pose proof (proj2 (HM i) Hp) as Hi. destruct (HX i x Hi Hx) as (x2 & Hx2 & T1 & TB & _ & T2).
    destruct (RSP i Hi) as (x1 & b0 & b & Hx1 & _ & Z2 & _). destruct (BACK i x1 Hi Hx1) as (y & Hy & Y1 & Y2). assert (y = x) by congruence. subst y.
    destruct (sole_rate d _ _ sts1 live _ sts2 _ i x1 HD TW SL HRT) as (x' & Hx' & HB).
    - intros j y Hj Hy'. destruct (BACK j y Hj Hy') as (z & Hz & E1 & E2). destruct (visited_fine true s' j z V' Hz) as [F1 F2]. rewrite E2 in F2. split; [|exact F2].
      unfold state_fine in *. rewrite <- E1, <- E2. exact F1.
    - exact Hi.
    - exact Hx1.
    - intros j y Hj Hne Hy' C. destruct (BACK j y Hj Hy') as (z & Hz & E1 & E2). apply (HN j z (proj1 (HM j) Hj) Hne Hz). apply (contend_static d x z x1 y); [congruence|congruence|congruence|congruence|exact C].
    - intros c Hc. apply uncongested_own in Hc. rewrite <- Y1 in Hc |- *. exact (HCap c Hc).
    - assert (x' = x2) by congruence. subst x'. rewrite TB. apply uncongested_own. rewrite Y1. exact HB.
  Qed.

  (** * All transfers *)
  Context (sts0 : list st32) (E : list edge) (HS : RunProofs.setup f32A ord bord d wl sts0 E).
  Context (NC : forall i j x y, i <> j -> nth_error sts0 i = Some x -> nth_error sts0 j = Some y -> ~ contend d x y).
  Context (CAP : forall i x b, nth_error sts0 i = Some x -> own_bandwidth d (s_tr x) b -> within_capacity d (s_tr x) b).
  Notation begins1 := (begins f32A ord bord d true cpt wl).
  Notation begins2 := (begins f32A ord bord d false cpt wl).
  Notation step1 := (timestep f32A d true cpt wl).
  Notation step2 := (timestep f32A d false cpt wl).
  Notation agree := (agree f32A).
  Definition agrees (s s' : sim f32A) : Prop := List.length (sm_sts f32A s') = List.length (sm_sts f32A s) /\ forall i, (i < List.length (sm_sts f32A s))%nat -> agree s s' i i.
  Lemma decided {A} (s s1 : sim A) i : takes_part s s1 i \/ ~ takes_part s s1 i.
  Proof.
    unfold takes_part, is_live, is_queued. destruct (in_dec Nat.eq_dec i (sm_live A s)); [left; auto|]. destruct (in_dec Nat.eq_dec i (map snd (sm_queue A s))); [|right; tauto].
    destruct (in_dec Nat.eq_dec i (map snd (sm_queue A s1))); [right; tauto|left; auto].
  Qed.
  Lemma same_init s : sim_init f32A ord bord d cpt wl = Ok s -> agrees s s.
  Proof.
    intros H. split; [reflexivity|]. intros i Hi. destruct (nth_lt_some _ _ Hi) as [x Hx]. exists x, x. repeat split; auto.
  Qed.
  Lemma same_step n s s' s1 s1' : begins1 n s -> begins2 n s' -> step1 s = Ok s1 -> step2 s' = Ok s1' -> agrees s s' -> agrees s1 s1'.
  Proof.
    intros B B' T T' [IL IH]. pose proof (begins_reach f32A ord bord d true cpt wl _ _ B) as R. pose proof (begins_reach f32A ord bord d false cpt wl _ _ B') as R'.
    assert (V1 : visited f32A ord bord d true cpt wl s1) by (right; exists s; split; assumption). assert (V1' : visited f32A ord bord d false cpt wl s1') by (right; exists s'; split; assumption).
    destruct (places f32A ord bord BP d true cpt wl HW HC s1 V1) as (_ & _ & LEN1 & _). destruct (places f32A ord bord BP d false cpt wl HW HC s1' V1') as (_ & _ & LEN1' & _).
    destruct (places f32A ord bord BP d true cpt wl HW HC s (or_introl R)) as (_ & _ & LEN & _).
    split; [congruence|]. intros i Hi. rewrite LEN1 in Hi. rewrite <- LEN in Hi.
    assert (EC : sm_curr f32A s' = sm_curr f32A s).
    { destruct (begins_time f32A ord bord BP d true cpt wl HW HC n s B) as [-> _]. destruct (begins_time f32A ord bord BP d false cpt wl HW HC n s' B') as [-> _]. reflexivity. }
    destruct (IH i Hi) as (x & x' & Hx & Hx' & G1 & G2 & G3 & Q & L).
    pose proof (visited_transfer f32A ord bord BP d true cpt wl HW HC s i x (or_introl R) Hx) as V. pose proof (visited_transfer f32A ord bord BP d false cpt wl HW HC s' i x' (or_introl R') Hx') as V'.
    assert (ET : s_tr x' = s_tr x) by congruence.
    destruct (own_step f32A ord bord BP d true cpt wl HW HC _ _ _ _ _ _ HS R T Hx) as (y & Hy & Y1 & Y2 & Y3 & Y4).
    destruct (own_step f32A ord bord BP d false cpt wl HW HC _ _ _ _ _ _ HS R' T' Hx') as (y' & Hy' & Z1 & Z2 & Z3 & Z4).
    assert (EA : forall p, end_at f32A (sm_sts f32A s') p = end_at f32A (sm_sts f32A s) p).
    { intros p. unfold end_at. destruct (nth_error (sm_sts f32A s) p) as [z|] eqn:Ez.
      - destruct (IH p (nth_some_lt _ _ _ Ez)) as (u & u' & Hu & Hu' & _ & _ & Eu & _). rewrite Hu'. assert (u = z) by congruence. subst u. exact Eu.
      - replace (nth_error (sm_sts f32A s') p) with (@None st32); [reflexivity|]. symmetry. apply nth_error_None. apply nth_error_None in Ez. lia. }
    assert (PP : parent_of f32A E (sm_sts f32A s') i = parent_of f32A E (sm_sts f32A s) i) by (unfold parent_of; destruct (dep_of E i); [|reflexivity]; destruct (nth_error E n0); [|reflexivity]; rewrite EA; reflexivity).
    assert (MM : met f32A E s' i (sm_curr f32A s') <-> met f32A E s i (sm_curr f32A s)).
    { unfold met. split; intros H k e Hk He; destruct (H k e Hk He) as (H1 & u & Hu & H2); rewrite ?EC in *.
      - assert (Hlt : (e_parent e < List.length (sm_sts f32A s))%nat) by (rewrite <- IL; eapply nth_some_lt; exact Hu). pose proof (IH _ Hlt) as AG. pose proof (agree_finished f32A _ _ _ _ AG) as AF.
        destruct AG as (z & z' & Hz & Hz' & _ & _ & Ez & _). split; [apply AF; exact H1|]. exists z. split; [exact Hz|]. assert (u = z') by congruence. subst u. rewrite <- Ez. exact H2.
      - pose proof (IH _ (nth_some_lt _ _ _ Hu)) as AG. pose proof (agree_finished f32A _ _ _ _ AG) as AF.
        destruct AG as (z & z' & Hz & Hz' & _ & _ & Ez & _). split; [apply AF; exact H1|]. exists z'. split; [exact Hz'|]. assert (u = z) by congruence. subst u. rewrite Ez. exact H2. }
    assert (QQ : is_queued f32A s1' i <-> is_queued f32A s1 i) by (rewrite Y1, Z1, Q, MM, ET, EC; reflexivity).
    assert (TT : takes_part s' s1' i <-> takes_part s s1 i) by (unfold takes_part; rewrite L, Q, QQ; reflexivity).
    assert (DD : s_start y' = s_start y /\ s_done y' = s_done y /\ s_end y' = s_end y).
    { destruct (decided s s1 i) as [DEC|DEC].
      - destruct (Y2 DEC) as (N0 & N2 & N3).
        destruct (step_inv f32A ord bord BP d true cpt wl HW HC _ _ _ _ HS R T) as (fin & act & w1 & w2 & w3 & _ & _ & I).
        destruct (static_same f32A _ _ _ _ _ I _ _ Hy) as (x0 & Hx0 & T0 & R0).
        assert (OB : own_bandwidth d (s_tr y) (s_bw y)).
        { apply (sole_step s s1 i y R T DEC Hy).
          - intros j z _ Hne Hz C. destruct (static_same f32A _ _ _ _ _ I _ _ Hz) as (z0 & Hz0 & U0 & S0). apply (NC i j x0 z0 (not_eq_sym Hne) Hx0 Hz0). apply (contend_static d x0 z0 y z T0 R0 U0 S0 C).
          - intros b Hb. rewrite T0 in Hb |- *. exact (CAP i x0 b Hx0 Hb). }
        destruct OB as (noc & N1 & NB). rewrite N0 in N1, NB. rewrite NB in N3.
        apply TT in DEC. destruct (Z2 DEC) as (N0' & N2' & N3'). destruct (free_rates f32A ord bord BP d false cpt wl HW HC s' s1' eq_refl R' T' i y' DEC Hy') as (noc' & N1' & NB'). rewrite N0' in N1', NB'. rewrite NB' in N3'.
        assert (noc' = noc).
        { rewrite ET in N1'. pose proof (eq_trans (eq_sym N1) N1') as EQ. congruence. }
        subst noc'.
        assert (SS : s_start y' = s_start y) by (rewrite N2, N2', PP, ET; reflexivity). split; [exact SS|]. rewrite EC, PP, SS, ET, G2 in N3'. pose proof (eq_trans (eq_sym N3) N3') as EQ. injection EQ as E1 E2. split; [exact (eq_sym E1)|exact (eq_sym E2)].
      - destruct (Y3 DEC) as (-> & -> & ->). rewrite <- TT in DEC. destruct (Z3 DEC) as (-> & -> & ->). auto. }
    destruct DD as (D1 & D2 & D3). exists y, y'. split; [exact Hy|]. split; [exact Hy'|]. split; [exact D1|]. split; [exact D2|]. split; [exact D3|]. split; [exact QQ|].
    rewrite Y4, Z4, TT, D2, ET. reflexivity.
  Qed.
  Lemma same_begins n : forall s s', begins1 n s -> begins2 n s' -> agrees s s'.
  Proof.
    induction n as [|n IH]; intros s s' B B'; [inversion B|]. inversion B as [? H0|n1 s1 s2 B0 T F M]; subst; inversion B' as [? H0'|n1' s1' s2' B0' T' F' M']; subst.
    - assert (s' = s) by congruence. subst s'. apply same_init. assumption.
    - inversion B0'.
    - inversion B0.
    - exact (same_step n _ _ _ _ B0 B0' T T' (IH _ _ B0 B0')).
  Qed.
  Lemma agrees_finished s s' : visited f32A ord bord d true cpt wl s -> visited f32A ord bord d false cpt wl s' -> agrees s s' -> finished f32A s = finished f32A s'.
  Proof.
    intros V V' [L H].
    assert (P : forall c (q : sim f32A), visited f32A ord bord d c cpt wl q -> finished f32A q = true <-> forall i, (i < List.length (sm_sts f32A q))%nat -> ~ is_queued f32A q i /\ ~ is_live f32A q i).
    { clear - BP HW HC. intros c q V. destruct (visited_facts f32A ord bord BP d c cpt wl HW HC q V) as (a & b & h & fin & _ & _ & I & _). destruct (part_ids _ _ _ _ _ _ I) as [_ P]. split.
      - intros F i _. destruct (finished_all f32A _ F) as [X Y]. unfold is_queued, is_live. rewrite X, Y. split; intros [].
      - intros G. unfold finished. destruct (sm_live f32A q) as [|i l] eqn:EL.
        + destruct (sm_queue f32A q) as [|p l] eqn:EQ; [reflexivity|]. exfalso. destruct (G (snd p)) as [G1 _]; [apply P; left; reflexivity|]. apply G1. unfold is_queued. rewrite EQ. left. reflexivity.
        + exfalso. destruct (G i) as [_ G1]; [apply P; apply in_or_app; right; left; reflexivity|]. apply G1. unfold is_live. rewrite EL. left. reflexivity. }
    apply Bool.eq_iff_eq_true. rewrite (P true s V), (P false s' V'), L. split; intros G i Hi; specialize (G i Hi); destruct (H i Hi) as (x & x' & _ & _ & _ & _ & _ & Q & LL); rewrite Q, LL in *; exact G.
  Qed.
  Lemma same_end s s' : succeeds f32A ord bord d true cpt wl s -> succeeds f32A ord bord d false cpt wl s' -> agrees s s'.
  Proof.
    intros H H'. destruct (succeeds_end f32A ord bord d true cpt wl s H) as [(r & R & T) F]. destruct (succeeds_end f32A ord bord d false cpt wl s' H') as [(r' & R' & T') F'].
    destruct (reach_begins f32A ord bord d true cpt wl r R) as [n B]. destruct (reach_begins f32A ord bord d false cpt wl r' R') as [m B'].
    assert (N : (1 <= n)%nat) by (destruct n; [inversion B|lia]). assert (M : (1 <= m)%nat) by (destruct m; [inversion B'|lia]).
    assert (VS : forall c q q1, reach f32A ord bord d c cpt wl q -> timestep f32A d c cpt wl q = Ok q1 -> visited f32A ord bord d c cpt wl q1) by (intros c q q1 X Y; right; exists q; split; assumption).
    destruct (Nat.lt_trichotomy n m) as [L|[L|L]].
    - exfalso. destruct (begins_before f32A ord bord d false cpt wl n m r' B' ltac:(lia)) as (q & BQ & HQ). destruct (HQ L) as (q1 & TQ & FQ).
      pose proof (same_step n _ _ _ _ B BQ T TQ (same_begins n _ _ B BQ)) as AG.
      pose proof (agrees_finished s q1 (VS _ _ _ R T) (VS _ _ _ (begins_reach f32A ord bord d false cpt wl _ _ BQ) TQ) AG). congruence.
    - subst m. exact (same_step n _ _ _ _ B B' T T' (same_begins n _ _ B B')).
    - exfalso. destruct (begins_before f32A ord bord d true cpt wl m n r B ltac:(lia)) as (q & BQ & HQ). destruct (HQ L) as (q1 & TQ & FQ).
      pose proof (same_step m _ _ _ _ BQ B' TQ T' (same_begins m _ _ BQ B')) as AG.
      pose proof (agrees_finished q1 s' (VS _ _ _ (begins_reach f32A ord bord d true cpt wl _ _ BQ) TQ) (VS _ _ _ R' T') AG). congruence.
  Qed.
End Run.

Section Result.
  Context (ord : Z -> list Z -> list Z) (ord_perm : link_order ord) (bord : list bucket -> list bucket) (BP : bucket_order bord).
  Context (d : device) (HD : supported d) (cpt : Z) (HC : proper_cpt cpt) (wl : workload (F f32A)) (HW : proper wl) (HF : Forall sound_transfer (all_transfers wl)).
  Context (HA : Forall (accepted d) (all_transfers wl)) (HO : Forall at_most_one_rectangle (all_transfers wl)).
  (* no two transfers of the run contend, and each can have its bandwidth *)
  Definition apart (s : sim f32A) : Prop :=
    (forall i j x y, i <> j -> nth_error (sm_sts f32A s) i = Some x -> nth_error (sm_sts f32A s) j = Some y -> ~ contend d x y) /\
    (forall i x b, nth_error (sm_sts f32A s) i = Some x -> own_bandwidth d (s_tr x) b -> within_capacity d (s_tr x) b).
  Lemma apart_agrees s s' : succeeds f32A ord bord d true cpt wl s -> succeeds f32A ord bord d false cpt wl s' -> apart s -> agrees s s'.
  Proof.
    intros H H' [N C]. destruct (succeeds_end f32A ord bord d true cpt wl s H) as [(r & R & T) F].
    destruct (visited_facts f32A ord bord BP d true cpt wl HW HC s (or_intror (ex_intro _ r (conj R T)))) as (sts0 & E & h & fin & HS & _ & I & _).
    apply (same_end ord ord_perm bord BP d HD cpt wl HC HW HF HA HO sts0 E HS); [| |exact H|exact H'].
    - intros i j x y Hne Hx Hy Cn. destruct (static_back f32A _ _ _ _ _ I _ _ Hx) as (x' & Hx' & X1 & X2). destruct (static_back f32A _ _ _ _ _ I _ _ Hy) as (y' & Hy' & Y1 & Y2).
      apply (N i j x' y' Hne Hx' Hy'). apply (contend_static d x' y' x y); auto.
    - intros i x b Hx Hb. destruct (static_back f32A _ _ _ _ _ I _ _ Hx) as (x' & Hx' & X1 & _). rewrite <- X1 in Hb |- *. exact (C i x' b Hx' Hb).
  Qed.
  Theorem same_run s s' : succeeds f32A ord bord d true cpt wl s -> succeeds f32A ord bord d false cpt wl s' ->
    (forall i j x y, i <> j -> nth_error (sm_sts f32A s) i = Some x -> nth_error (sm_sts f32A s) j = Some y -> ~ contend d x y) ->
    (forall i x b, nth_error (sm_sts f32A s) i = Some x -> own_bandwidth d (s_tr x) b -> within_capacity d (s_tr x) b) ->
    forall i x, nth_error (sm_sts f32A s) i = Some x -> same_times f32A s s' i i.
  Proof.
    intros H H' N C i x Hx. destruct (apart_agrees s s' H H' (conj N C)) as [_ AG]. destruct (AG i (nth_some_lt _ _ _ Hx)) as (y & y' & Hy & Hy' & G1 & _ & G3 & _). exists y, y'. auto.
  Qed.
  Theorem same_estimates model stt stt' : (forall id g, getGoldenResultCycles wl id = Ok g -> 0 <= fst g) -> model <> "none"%string ->
    runSinglePerfSim f32A ord bord d model cpt wl = Ok (Stats stt) -> runSinglePerfSim f32A ord bord d "none" cpt wl = Ok (Stats stt') ->
    (forall s, succeeds f32A ord bord d true cpt wl s ->
      (forall i j x y, i <> j -> nth_error (sm_sts f32A s) i = Some x -> nth_error (sm_sts f32A s) j = Some y -> ~ contend d x y) /\
      (forall i x b, nth_error (sm_sts f32A s) i = Some x -> own_bandwidth d (s_tr x) b -> within_capacity d (s_tr x) b)) ->
    forall id ds ds', stats_get f32A stt id = Some ds -> stats_get f32A stt' id = Some ds' -> ds_est f32A ds' = ds_est f32A ds.
  Proof.
    intros HG HM H H' HA' id ds ds' G G'.
    destruct (estimated_cycles f32A ord bord BP d cpt wl HW HC model stt H) as (s & S & E). destruct (estimated_cycles f32A ord bord BP d cpt wl HW HC "none" stt' H') as (s' & S' & E').
    destruct (String.eqb_spec model "none"); [contradiction|]. cbn [negb] in S. replace (negb ("none" =? "none")%string) with false in S' by reflexivity.
    destruct (E id ds G) as (_ & g & Hg & EE). destruct (E' id ds' G') as (_ & g' & Hg' & EE'). assert (g' = g) by congruence. subst g'.
    destruct (apart_agrees s s' S S' (HA' s S)) as [L AG]. destruct (succeeds_end f32A ord bord d true cpt wl s S) as [(r & R & T) _]. destruct (succeeds_end f32A ord bord d false cpt wl s' S') as [(r' & R' & T') _].
    assert (P : forall i x x', nth_error (sm_sts f32A s) i = Some x -> nth_error (sm_sts f32A s') i = Some x' -> s_tr x' = s_tr x /\ s_end x' = s_end x).
    { intros i x x' Hx Hx'. pose proof (visited_transfer f32A ord bord BP d true cpt wl HW HC s i x (or_intror (ex_intro _ r (conj R T))) Hx). pose proof (visited_transfer f32A ord bord BP d false cpt wl HW HC s' i x' (or_intror (ex_intro _ r' (conj R' T'))) Hx').
      split; [congruence|]. destruct (AG i (nth_some_lt _ _ _ Hx)) as (y & y' & Hy & Hy' & _ & _ & G3 & _). congruence. }
    apply Z.le_antisymm.
    - apply (estimate_mono id g (sm_sts f32A s) (sm_sts f32A s')); [exact L| |exact (EE (HG _ _ Hg))|exact (EE' (HG _ _ Hg))]. intros i x x' Hx Hx'. destruct (P i x x' Hx Hx'). split; [assumption|lia].
    - apply (estimate_mono id g (sm_sts f32A s') (sm_sts f32A s)); [symmetry; exact L| |exact (EE' (HG _ _ Hg))|exact (EE (HG _ _ Hg))]. intros i x' x Hx' Hx. destruct (P i x x' Hx Hx'). split; [symmetry; assumption|lia].
  Qed.
End Result.
