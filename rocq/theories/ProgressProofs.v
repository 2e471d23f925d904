(* Workloads that make progress complete (C37). *)
From Coq Require Import ZArith Arith Reals String List Bool Lia Lra ZifyBool ZifyNat Sorting.Permutation Sorting.Sorted Floats.SpecFloat.
From Flocq Require Import Core IEEE754.BinarySingleNaN.
From Verif Require Import Base Arith Util Device SpecDevice Workload SpecWorkload DepTracker Rates Stats Engine UtilProofs
  WorkloadProofs SpecTracker TrackerProofs DepGenProofs StepProofs SpecEngine SpecRates EngineProofs RunProofs DepFacts EngineFacts EngineFacts2 EngineFacts3 EngineFacts4 EngineFacts5
  FloatProofs FloatProofs2 RateFloat RateFloat4 EngineRates EndFloat EngineFloat SpecProgress.
Import ListNotations.
Local Open Scope list_scope.
Open Scope Z_scope.
Ltac Zify.zify_post_hook ::= idtac.

(** * Sums over parts of a list *)
Section Sums.
  Context (D : nat -> Z) (D_pos : forall k, 0 <= D k).
  Definition part (p : nat -> bool) (l : list nat) : Z := sum (map D (filter p l)).
  Lemma part_pos p l : 0 <= part p l.
  Proof. unfold part, sum. induction l as [|a l IH]; cbn [filter map fold_right]; [lia|]. pose proof (D_pos a). destruct (p a); cbn [map fold_right]; lia. Qed.
  Lemma part_le p q l : (forall k, In k l -> p k = true -> q k = true) -> part p l <= part q l.
  Proof.
    unfold part, sum. induction l as [|a l IH]; intros H; cbn [filter map fold_right]; [lia|]. pose proof (D_pos a).
    assert (IHl := IH (fun k Hk => H k (or_intror Hk))). pose proof (H a (or_introl eq_refl)). destruct (p a), (q a); cbn [map fold_right]; try lia; discriminate (H1 eq_refl).
  Qed.
  Lemma part_add p q l i : (forall k, In k l -> p k = true -> q k = true) -> p i = false -> q i = true -> In i l -> part p l + D i <= part q l.
  Proof.
    intros H Hp Hq. induction l as [|a l IH]; intros HI; [destruct HI|]. assert (HL := fun k Hk => H k (or_intror Hk)). pose proof (part_le p q l HL) as L. pose proof (D_pos a). pose proof (H a (or_introl eq_refl)) as Ha.
    unfold part, sum in *. cbn [filter map fold_right]. destruct HI as [->|HI].
    - rewrite Hp, Hq. cbn [map fold_right]. lia.
    - specialize (IH HL HI). destruct (p a), (q a); cbn [map fold_right]; try lia; discriminate (Ha eq_refl).
  Qed.
  Lemma part_all p l : part p l <= sum (map D l).
  Proof. transitivity (part (fun _ => true) l); [apply part_le; auto|]. unfold part, sum. induction l as [|a l IH]; cbn [filter map fold_right] in *; lia. Qed.
End Sums.
Lemma max_ge l x : In x l -> x <= fold_right Z.max 0 l.
Proof. induction l as [|a l IH]; intros H; [destruct H|]. cbn [fold_right]. destruct H as [->|H]; [lia|]. specialize (IH H). lia. Qed.
Lemma max_pos l : 0 <= fold_right Z.max 0 l.
Proof. induction l as [|a l IH]; cbn [fold_right]; lia. Qed.
Lemma sum_nth (l : list Z) : sum (map (fun i => nth i l 0) (seq 0 (List.length l))) = sum l.
Proof.
  assert (H : map (fun i => nth i l 0) (seq 0 (List.length l)) = l); [|rewrite H; reflexivity]. apply nth_ext with (d := 0) (d' := 0); [rewrite map_length, seq_length; reflexivity|].
  intros n Hn. rewrite map_length, seq_length in Hn. erewrite nth_error_nth; [reflexivity|]. rewrite nth_error_map. replace (nth_error (seq 0 (List.length l)) n) with (Some n); [reflexivity|].
  symmetry. rewrite (nth_error_nth' _ O) by (rewrite seq_length; exact Hn). rewrite seq_nth by exact Hn. reflexivity.
Qed.

Section Run.
  Context (ord : Z -> list Z -> list Z) (bord : list bucket -> list bucket) (bord_perm : bucket_order bord).
  Context (d : device) (congestion : bool) (cpt : Z) (wl : workload (F f32A)).
  Context (HW : proper wl) (HC : proper_cpt cpt) (HF : Forall sound_transfer (all_transfers wl)).
  Context (m : Z) (Hm : 1 <= m) (wait : transfer (F f32A) -> Z).
  Context (HM : moves_on f32A ord bord d congestion cpt wl m) (HWt : waits_at_most f32A d (all_transfers wl) wait) (HP : parents_first f32A (all_transfers wl)).
  Notation reach := (reach f32A ord bord d congestion cpt wl).
  Notation visited := (visited f32A ord bord d congestion cpt wl).
  Notation begins := (begins f32A ord bord d congestion cpt wl).
  Notation step := (timestep f32A d congestion cpt wl).
  Notation ts := (all_transfers wl).
  Definition off_of (i : nat) : Z := nth i (map t_off ts) 0.
  Definition need_of (i : nat) : Z := nth i (map (cycles_for cpt m wait) ts) 0.
  Definition size_of (i : nat) : Z := nth i (map t_bytes ts) 0.
  Definition first_off (i j : nat) : bool := (off_of i <? off_of j) || ((off_of i =? off_of j) && (i <? j)%nat).
  Definition upto (i k : nat) : bool := first_off k i || (k =? i)%nat.
  Definition ids : list nat := seq 0 (List.length ts).
  Definition due (i : nat) : Z := fold_right Z.max 0 (map t_off ts) + part need_of (upto i) ids.
  Definition go (i : nat) : Z := due i - (size_of i / m + 1) * cpt.

  Lemma of_nth {X} (f : transfer (F f32A) -> X) i t d0 : nth_error ts i = Some t -> nth i (map f ts) d0 = f t.
  Proof. intros H. erewrite nth_error_nth; [reflexivity|]. rewrite nth_error_map, H. reflexivity. Qed.
  Lemma range_of t : In t ts -> transfer_ranges t /\ 0 <= wait t.
  Proof. intros H. destruct HW as [_ R]. rewrite Forall_forall in R. split; [apply R; exact H|apply HWt; exact H]. Qed.
  Lemma need_pos i : 0 <= need_of i.
  Proof.
    unfold need_of. destruct (nth_error ts i) as [t|] eqn:E.
    - rewrite (of_nth _ _ _ _ E). destruct (range_of t (nth_error_In _ _ E)) as [(_ & R & _) W]. unfold cycles_for. destruct HC. pose proof (Z.div_pos (t_bytes t) m ltac:(lia) ltac:(lia)). nia.
    - rewrite nth_overflow; [lia|]. rewrite map_length. apply nth_error_None. exact E.
  Qed.
  Lemma due_pos i : 0 <= due i.
  Proof. unfold due. pose proof (max_pos (map t_off ts)). pose proof (part_pos need_of need_pos (upto i) ids). lia. Qed.
  Lemma due_all i : due i <= cycles_for_all cpt m wait ts.
  Proof.
    unfold due, cycles_for_all. pose proof (part_all need_of need_pos (upto i) ids) as H. unfold ids in H.
    replace (sum (map need_of (seq 0 (List.length ts)))) with (sum (map (cycles_for cpt m wait) ts)) in H; [unfold ids; lia|].
    rewrite <- (sum_nth (map (cycles_for cpt m wait) ts)). rewrite map_length. reflexivity.
  Qed.
  Lemma go_off i t : nth_error ts i = Some t -> t_off t + 2 * cpt <= go i.
  Proof.
    intros E. unfold go, due. assert (Hi : In i ids) by (apply in_seq; split; [lia|]; apply nth_error_Some; congruence).
    assert (HI : 0 + need_of i <= part need_of (upto i) ids).
    { replace 0 with (part need_of (fun _ => false) ids); [apply (part_add need_of need_pos (fun _ => false) (upto i) ids i); auto; [discriminate|unfold upto; rewrite Nat.eqb_refl; apply orb_true_r]|].
      unfold part. generalize ids. intros l. induction l; cbn; auto. }
    assert (HO : t_off t <= fold_right Z.max 0 (map t_off ts)) by (apply max_ge, in_map, nth_error_In with i; exact E).
    destruct (range_of t (nth_error_In _ _ E)) as [_ W]. assert (N : need_of i = cycles_for cpt m wait t) by (unfold need_of; apply of_nth; exact E). rewrite N in HI. unfold size_of. rewrite (of_nth _ _ _ _ E). unfold cycles_for in HI. destruct HC. lia.
  Qed.
  Lemma go_after i j t : nth_error ts i = Some t -> first_off j i = true -> due j + 2 * cpt + 8192 + wait t <= go i.
  Proof.
    intros E HJ. unfold go, due. assert (Hi : In i ids) by (apply in_seq; split; [lia|]; apply nth_error_Some; congruence).
    assert (HI : part need_of (upto j) ids + need_of i <= part need_of (upto i) ids).
    { apply (part_add need_of need_pos).
      - intros k _. unfold upto. destruct (Nat.eqb_spec k j) as [->|NE]; [intros _; rewrite HJ; reflexivity|]. unfold first_off in *. revert HJ. generalize (off_of i) (off_of j) (off_of k). intros a b c. lia.
      - unfold upto. destruct (Nat.eqb_spec i j) as [->|NE]; unfold first_off in *; lia.
      - unfold upto. rewrite Nat.eqb_refl. apply orb_true_r.
      - exact Hi. }
    assert (N : need_of i = cycles_for cpt m wait t) by (unfold need_of; apply of_nth; exact E). rewrite N in HI. unfold size_of. rewrite (of_nth _ _ _ _ E). unfold cycles_for in HI. destruct HC. lia.
  Qed.

  Lemma begins_visited n s : begins n s -> reach s.
  Proof. apply (begins_reach f32A ord bord d congestion cpt wl). Qed.
  Lemma begins_prev n s : begins (S n) s -> (n = O /\ sim_init f32A ord bord d cpt wl = Ok s) \/ exists s0 s', begins n s0 /\ step s0 = Ok s' /\ s = advance f32A cpt s'.
  Proof. intros H. inversion H; subst; [left; auto|right; eauto]. Qed.
  Lemma begins_zero s : ~ begins 0 s.
  Proof. intros H. inversion H. Qed.
  Lemma clock n s : begins n s -> sm_curr f32A s = Z.of_nat n * cpt.
  Proof. intros H. apply (proj1 (begins_time f32A ord bord bord_perm d congestion cpt wl HW HC n s H)). Qed.
  Lemma end_visited n s s' : begins n s -> step s = Ok s' -> visited s'.
  Proof. intros H H'. right. exists s. split; [eapply begins_visited; eassumption|exact H']. Qed.

  (* transfer [i] is finished at cycle [due i], and its end cycle is near *)
  Definition done_by (i : nat) : Prop := forall n s s', begins n s -> step s = Ok s' -> due i <= Z.of_nat n * cpt ->
    is_finished f32A s' i /\ forall x, nth_error (sm_sts f32A s') i = Some x -> s_end x <= due i + 2 * cpt + 8192.

  Section One.
    Context (i : nat) (t : transfer (F f32A)) (Ht : nth_error ts i = Some t) (IH : forall j, (j < List.length ts)%nat -> first_off j i = true -> done_by j).

    Lemma delay_bound s j dl : visited s -> depends f32A (sm_sts f32A s) (sm_trk f32A s) i j dl -> dl <= wait t.
    Proof.
      intros V HD. destruct (visited_state f32A ord bord bord_perm d congestion cpt wl HW HC s i t V Ht) as (x & Hx & ET). destruct (HWt t (nth_error_In _ _ Ht)) as [W0 W].
      destruct (depends_rule f32A ord bord bord_perm d congestion cpt wl HW HC s V i x Hx j dl HD) as [(HG & _)|(_ & _ & ->)]; [|exact W0].
      destruct (group_rule f32A ord bord bord_perm d congestion cpt wl HW HC s V i x Hx HG) as (_ & j' & dl' & p & HD' & Hp & HH & _).
      destruct (depends_unique f32A ord bord bord_perm d congestion cpt wl HW HC s V _ _ _ _ _ HD HD') as [-> ->].
      pose proof (visited_transfer f32A ord bord bord_perm d congestion cpt wl HW HC s j p V Hp) as HP'. rewrite ET in *. apply (W (s_tr p)); auto. eapply nth_error_In; exact HP'.
    Qed.
    Lemma dep_first s j dl : visited s -> depends f32A (sm_sts f32A s) (sm_trk f32A s) i j dl -> (j < List.length ts)%nat /\ first_off j i = true.
    Proof.
      intros V HD. destruct HD as (x & y & k & c & Hx & Hy & HD). assert (HD' : depends f32A (sm_sts f32A s) (sm_trk f32A s) i j dl) by (exists x, y, k, c; auto).
      pose proof (visited_transfer f32A ord bord bord_perm d congestion cpt wl HW HC s _ _ V Hx) as Tx. pose proof (visited_transfer f32A ord bord bord_perm d congestion cpt wl HW HC s _ _ V Hy) as Ty.
      pose proof (depends_before f32A ord bord bord_perm d congestion cpt wl HW HC s V HP i j dl x y Hx Hy HD') as B. split; [apply nth_error_Some; congruence|].
      destruct HW as [(_ & DI & _) _]. assert (ID : forall q z, nth_error ts q = Some z -> t_id z = Z.of_nat q).
      { intros q z Hz. assert (H : nth_error (map t_id ts) q = Some (t_id z)) by (rewrite nth_error_map, Hz; reflexivity). rewrite DI, nth_error_map, DeviceProofs.nth_error_seq0 in H by (apply nth_error_Some; congruence). cbn [option_map] in H. congruence. }
      unfold first_off, off_of. rewrite (of_nth _ _ _ _ Tx), (of_nth _ _ _ _ Ty). pose proof (ID _ _ Tx). pose proof (ID _ _ Ty). unfold before in B. lia.
    Qed.
    Lemma not_queued n s s' : begins n s -> step s = Ok s' -> go i <= Z.of_nat n * cpt -> ~ is_queued f32A s' i.
    Proof.
      intros HB HT HG HQ'. pose proof (begins_visited _ _ HB) as HR. assert (V : visited s) by (left; exact HR).
      destruct (places_move f32A ord bord bord_perm d congestion cpt wl HW HC s s' HR HT i) as (_ & _ & MQ). pose proof (MQ HQ') as HQ.
      destruct (activation_exact f32A ord bord bord_perm d congestion cpt wl HW HC s s' HR HT i) as [_ ACT]. apply ACT; [|exact HQ']. split; [exact HQ|].
      destruct (visited_state f32A ord bord bord_perm d congestion cpt wl HW HC s i t V Ht) as (x & Hx & ET). exists x. split; [exact Hx|]. rewrite (clock _ _ HB).
      split; [rewrite ET; pose proof (go_off i t Ht); destruct HC; lia|]. intros j dl HD.
      destruct (dep_first s j dl V HD) as [Hj FO]. pose proof (delay_bound s j dl V HD) as HDL. pose proof (go_after i j t Ht FO) as GA. pose proof (due_pos j) as DP. destruct HWt with (t := t) as [W0 _]; [eapply nth_error_In; exact Ht|].
      destruct n as [|n]; [destruct (begins_zero _ HB)|]. pose proof HC as [C1 C2].
      destruct (begins_prev _ _ HB) as [[-> _]|(s0 & s1 & HB0 & HT0 & ->)]; [lia|].
      destruct (IH j Hj FO n s0 s1 HB0 HT0 ltac:(lia)) as [FJ EJ]. split; [exact FJ|].
      assert (Hy : exists y, nth_error (sm_sts f32A s1) j = Some y) by (destruct HD as (_ & y & _ & _ & _ & Hy & _); exists y; exact Hy). destruct Hy as [y Hy]. exists y. split; [exact Hy|]. specialize (EJ y Hy).
      assert (S0 : 0 <= s_end y). { destruct (end_range ord bord bord_perm d congestion cpt wl HW HC HF s1 j y (end_visited _ _ _ HB0 HT0) FJ Hy) as (_ & e & _ & -> & _). unfold u32. apply Z.mod_pos_bound. reflexivity. }
      assert (U : u32 (s_end y + dl) <= Z.max 0 (s_end y + dl)).
      { unfold u32. destruct (Z_le_gt_dec 0 (s_end y + dl)); [rewrite Z.max_r by lia; apply Z.mod_le; lia|].
        exfalso. pose proof HD as HDD.
        destruct (depends_rule f32A ord bord bord_perm d congestion cpt wl HW HC _ V i x Hx j _ HDD) as [(HGP & _)|(_ & _ & E0)]; [|lia].
        destruct (group_rule f32A ord bord bord_perm d congestion cpt wl HW HC _ V i x Hx HGP) as (_ & j' & dl' & p & HD' & Hp & HH & _).
        destruct (depends_unique f32A ord bord bord_perm d congestion cpt wl HW HC _ V _ _ _ _ _ HDD HD') as [-> ->].
        destruct HH as (c1 & lat & _ & _ & K1 & K2). destruct (Z.eq_dec (c_dev (t_src (s_tr x))) (c_dev (t_src (s_tr p)))) as [ED|ED].
        - rewrite (K1 ED) in *. unfold u32 in *. pose proof (Z.mod_pos_bound lat (2 ^ 32) eq_refl). lia.
        - specialize (K2 ED). unfold f_to_uint in K2. destruct (f_trunc f32A _) as [z|]; [|discriminate]. destruct ((0 <=? z) && (z <? 2 ^ 32)) eqn:EZ; [|discriminate]. assert (z = dl) by congruence. lia. }
      lia.
    Qed.
    Lemma pace : forall n s s', begins n s -> step s = Ok s' -> go i <= Z.of_nat n * cpt -> is_finished f32A s' i \/
      exists x k, nth_error (sm_sts f32A s') i = Some x /\ is_live f32A s' i /\ 0 <= k /\ Z.of_nat n * cpt < go i + (k + 1) * cpt /\ k * m <= s_done x.
    Proof.
      pose proof HC as [C1 C2]. induction n as [|n IHn]; intros s s' HB HT HG; [destruct (begins_zero _ HB)|].
      pose proof (begins_visited _ _ HB) as HR. pose proof (end_visited _ _ _ HB HT) as V'.
      destruct (places_move f32A ord bord bord_perm d congestion cpt wl HW HC s s' HR HT i) as (ML & MF & _).
      assert (OLD : forall s0 s1, begins n s0 -> step s0 = Ok s1 -> s = advance f32A cpt s1 -> go i <= Z.of_nat n * cpt ->
        is_finished f32A s' i \/ exists x k, nth_error (sm_sts f32A s') i = Some x /\ is_live f32A s' i /\ 0 <= k /\ Z.of_nat (S n) * cpt < go i + (k + 1) * cpt /\ k * m <= s_done x).
      { intros s0 s1 HB0 HT0 -> HG0. destruct (IHn s0 s1 HB0 HT0 HG0) as [FI|(x & k & Hx & HL & K0 & K1 & K2)]; [left; apply MF; exact FI|].
        destruct (ML HL) as [HL'|FI]; [|left; exact FI]. right. destruct (visited_state f32A ord bord bord_perm d congestion cpt wl HW HC s' i t V' Ht) as (x' & Hx' & ET).
        exists x', (k + 1). split; [exact Hx'|]. split; [exact HL'|]. split; [lia|]. split; [lia|].
        pose proof (HM _ _ i x x' HR HT HL Hx Hx') as MV. destruct (bytes_bounds f32A ord bord bord_perm d congestion cpt wl HW HC s' V' i x' Hx') as (_ & _ & BL & _). specialize (BL HL').
        assert (ETx : s_tr x = s_tr x'). { pose proof (visited_transfer f32A ord bord bord_perm d congestion cpt wl HW HC _ i x (or_introl HR) Hx) as T1. rewrite Ht in T1. rewrite ET. congruence. }
        rewrite ETx in MV. lia. }
      destruct (begins_prev _ _ HB) as [[-> _]|(s0 & s1 & HB0 & HT0 & ES)].
      - pose proof (not_queued _ _ _ HB HT HG) as NQ. destruct (places f32A ord bord bord_perm d congestion cpt wl HW HC s' V') as (_ & _ & _ & P).
        assert (Hi : (i < List.length ts)%nat) by (apply nth_error_Some; congruence). apply P in Hi. destruct (visited_state f32A ord bord bord_perm d congestion cpt wl HW HC s' i t V' Ht) as (x & Hx & _).
        destruct Hi as [(Q & _)|[(_ & L & _)|(_ & _ & FI)]]; [contradiction| |left; exact FI]. right. exists x, 0. split; [exact Hx|]. split; [exact L|]. split; [lia|].
        destruct (bytes_bounds f32A ord bord bord_perm d congestion cpt wl HW HC s' V' i x Hx) as (B0 & _). split; [|lia].
        pose proof (go_off i t Ht). destruct (range_of t (nth_error_In _ _ Ht)) as [(R & _) _].
        lia.
      - destruct (Z_le_gt_dec (go i) (Z.of_nat n * cpt)) as [G|G]; [apply (OLD s0 s1 HB0 HT0 ES G)|].
        pose proof (not_queued _ _ _ HB HT HG) as NQ. destruct (places f32A ord bord bord_perm d congestion cpt wl HW HC s' V') as (_ & _ & _ & P).
        assert (Hi : (i < List.length ts)%nat) by (apply nth_error_Some; congruence). apply P in Hi. destruct (visited_state f32A ord bord bord_perm d congestion cpt wl HW HC s' i t V' Ht) as (x & Hx & _).
        destruct Hi as [(Q & _)|[(_ & L & _)|(_ & _ & FI)]]; [contradiction| |left; exact FI]. right. exists x, 0. split; [exact Hx|]. split; [exact L|]. split; [lia|].
        destruct (bytes_bounds f32A ord bord bord_perm d congestion cpt wl HW HC s' V' i x Hx) as (B0 & _). split; lia.
    Qed.
    Lemma one_done : done_by i.
    Proof.
      pose proof HC as [C1 C2]. assert (FIN : forall n s s', begins n s -> step s = Ok s' -> due i <= Z.of_nat n * cpt -> is_finished f32A s' i).
      { intros n s s' HB HT HD. pose proof (end_visited _ _ _ HB HT) as V'. destruct (range_of t (nth_error_In _ _ Ht)) as [(_ & R & _) _].
        assert (SZ : size_of i = t_bytes t) by (unfold size_of; apply of_nth; exact Ht). pose proof (Z.div_pos (t_bytes t) m ltac:(lia) ltac:(lia)).
        assert (HG : go i <= Z.of_nat n * cpt) by (unfold go; rewrite SZ; nia).
        destruct (pace n s s' HB HT HG) as [FI|(x & k & Hx & HL & K0 & K1 & K2)]; [exact FI|]. exfalso.
        destruct (bytes_bounds f32A ord bord bord_perm d congestion cpt wl HW HC s' V' i x Hx) as (_ & _ & BL & _). specialize (BL HL).
        pose proof (visited_transfer f32A ord bord bord_perm d congestion cpt wl HW HC s' i x V' Hx) as T1. rewrite Ht in T1. assert (s_tr x = t) by congruence.
        assert (k <= t_bytes t / m) by (apply Z.div_le_lower_bound; [lia|]; rewrite H0 in BL; lia). unfold go in K1. rewrite SZ in K1. nia. }
      intros n. induction n as [|n IHn]; intros s s' HB HT HD; [destruct (begins_zero _ HB)|]. pose proof (FIN _ _ _ HB HT HD) as FI. split; [exact FI|].
      assert (NEW : Z.of_nat n * cpt < due i -> forall x, nth_error (sm_sts f32A s') i = Some x -> s_end x <= due i + 2 * cpt + 8192).
      { intros G x Hx. destruct (end_range ord bord bord_perm d congestion cpt wl HW HC HF s' i x (end_visited _ _ _ HB HT) FI Hx) as (first & e & E1 & E2 & E3 & E4 & E5).
        rewrite (step_curr f32A d congestion cpt wl _ _ HT), (clock _ _ HB) in E1, E5.
        assert (E0 : 0 <= e). { apply le_IZR. apply Rle_trans with (2 := E3). rewrite <- (rnd_0 prec32 emax32). apply (rnd_le prec32 emax32 _). apply IZR_le. lia. }
        rewrite E2. unfold u32. pose proof (Z.mod_le e (2 ^ 32) E0 eq_refl). lia. }
      destruct (begins_prev _ _ HB) as [[-> _]|(s0 & s1 & HB0 & HT0 & ->)].
      - intros x Hx. destruct (end_range ord bord bord_perm d congestion cpt wl HW HC HF s' i x (end_visited _ _ _ HB HT) FI Hx) as (first & e & E1 & E2 & E3 & E4 & E5).
        rewrite (step_curr f32A d congestion cpt wl _ _ HT), (clock _ _ HB) in E1, E5.
        assert (E0 : 0 <= e). { apply le_IZR. apply Rle_trans with (2 := E3). rewrite <- (rnd_0 prec32 emax32). apply (rnd_le prec32 emax32 _). apply IZR_le. lia. }
        rewrite E2. unfold u32. pose proof (Z.mod_le e (2 ^ 32) E0 eq_refl). pose proof (due_pos i). lia.
      - destruct (Z_le_gt_dec (due i) (Z.of_nat n * cpt)) as [G|G]; [|apply NEW; lia]. destruct (IHn s0 s1 HB0 HT0 G) as [FI0 EB]. intros x Hx.
        pose proof (visited_state f32A ord bord bord_perm d congestion cpt wl HW HC s1 i t (end_visited _ _ _ HB0 HT0) Ht) as (y & Hy & _).
        pose proof (finished_same f32A ord bord bord_perm d congestion cpt wl HW HC _ _ i y (begins_visited _ _ HB) HT FI0 Hy) as Hy'. assert (x = y) by congruence. subst y. apply EB. exact Hy.
    Qed.
  End One.

  Lemma all_done : forall i, (i < List.length ts)%nat -> done_by i.
  Proof.
    assert (KEY : forall k, 0 <= k -> forall i, (i < List.length ts)%nat -> off_of i * Z.of_nat (List.length ts) + Z.of_nat i < k -> done_by i).
    { apply (natlike_ind (fun k => forall i, (i < List.length ts)%nat -> off_of i * Z.of_nat (List.length ts) + Z.of_nat i < k -> done_by i)).
      - intros i Hi HK. exfalso. assert (0 <= off_of i); [|nia]. destruct (nth_error ts i) as [t|] eqn:E; [|apply nth_error_None in E; lia]. unfold off_of. rewrite (of_nth _ _ _ _ E). apply (range_of t (nth_error_In _ _ E)).
      - intros k Hk IHk i Hi HK. destruct (nth_error ts i) as [t|] eqn:E; [|apply nth_error_None in E; lia]. apply (one_done i t E). intros j Hj FO. apply IHk; [exact Hj|]. unfold first_off in FO. nia. }
    intros i Hi. apply (KEY (off_of i * Z.of_nat (List.length ts) + Z.of_nat i + 1)); [|exact Hi|lia].
    assert (0 <= off_of i); [|nia]. destruct (nth_error ts i) as [t|] eqn:E; [|apply nth_error_None in E; lia]. unfold off_of. rewrite (of_nth _ _ _ _ E). apply (range_of t (nth_error_In _ _ E)).
  Qed.
  Lemma loop_limit fuel : forall n s, begins n s -> forall e, sim_loop f32A fuel d congestion cpt wl s = Ok (inr e) ->
    exists n s s', begins n s /\ step s = Ok s' /\ finished f32A s' = false /\ MAX_CYCLE_LIMIT < Z.of_nat n * cpt.
  Proof.
    induction fuel as [|fuel IH]; intros n s HB e H; [discriminate|]. cbn [sim_loop] in H. apply bind_ok in H as (s' & HT & H). destruct (finished f32A s') eqn:EF; [discriminate|].
    destruct (Z.ltb_spec MAX_CYCLE_LIMIT (sm_curr f32A s')) as [L|L].
    - exists n, s, s'. rewrite (step_curr f32A d congestion cpt wl _ _ HT), (clock _ _ HB) in L. auto.
    - apply (IH (S n) (advance f32A cpt s')) with (2 := H). eapply begins_next; eassumption.
  Qed.
  Theorem never_too_long : cycles_for_all cpt m wait ts <= MAX_CYCLE_LIMIT -> forall n s s', begins n s -> step s = Ok s' -> (sm_live f32A s' <> [] \/ sm_queue f32A s' <> []) -> ~ MAX_CYCLE_LIMIT < Z.of_nat n * cpt.
  Proof.
    intros HL n s s' HB HT HFin HX.
    assert (ALL : forall i, (i < List.length ts)%nat -> is_finished f32A s' i).
    { intros i Hi. apply (all_done i Hi n s s' HB HT). pose proof (due_all i). lia. }
    destruct (places f32A ord bord bord_perm d congestion cpt wl HW HC s' (end_visited _ _ _ HB HT)) as (_ & _ & _ & P).
    destruct (sm_live f32A s') as [|i l] eqn:EL.
    - destruct (sm_queue f32A s') as [|q l] eqn:EQ; [destruct HFin as [C|C]; exact (C eq_refl)|]. assert (Q : is_queued f32A s' (snd q)) by (unfold is_queued; rewrite EQ; left; reflexivity).
      assert (Hi : (snd q < List.length ts)%nat). { apply P. left. split; [exact Q|]. split; [unfold is_live; rewrite EL; intros []|]. intros (_ & N & _). exact (N Q). }
      destruct (ALL _ Hi) as (_ & N & _). exact (N Q).
    - assert (L : is_live f32A s' i) by (unfold is_live; rewrite EL; left; reflexivity).
      assert (Hi : (i < List.length ts)%nat).
      { destruct (visited_facts f32A ord bord bord_perm d congestion cpt wl HW HC s' (end_visited _ _ _ HB HT)) as (sts0 & E & h & fin & HSU & _ & I & _). destruct (part_ids _ _ _ _ _ _ I) as [_ IDS].
        destruct (places f32A ord bord bord_perm d congestion cpt wl HW HC s' (end_visited _ _ _ HB HT)) as (_ & _ & EN & _). rewrite <- EN. apply IDS. rewrite !in_app_iff. right. left. exact L. }
      destruct (ALL _ Hi) as (_ & _ & N). exact (N L).
  Qed.
  Theorem completes : cycles_for_all cpt m wait ts <= MAX_CYCLE_LIMIT -> forall e, simulate f32A ord bord d congestion cpt wl <> Ok (inr e).
  Proof.
    intros HL e H. unfold simulate in H. apply bind_ok in H as (s0 & H0 & H). destruct (loop_limit _ 1%nat s0 (begins_first _ _ _ _ _ _ _ _ H0) e H) as (n & s & s' & HB & HT & HFin & HX).
    refine (never_too_long HL n s s' HB HT _ HX). unfold finished in HFin. destruct (sm_live f32A s'); [|left; discriminate]. destruct (sm_queue f32A s'); [discriminate|right; discriminate].
  Qed.
End Run.
