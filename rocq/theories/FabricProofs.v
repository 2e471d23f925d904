(* C70: neighbours in the fabric. *)
From Coq Require Import ZArith Arith Lia Bool String List Permutation Sorting.Sorted ZifyBool ZifyNat.
From Verif Require Import Util Fabric SpecFabric.
Import ListNotations.
Local Open Scope string_scope.
Local Open Scope list_scope.
Open Scope Z_scope.
Ltac Zify.zify_post_hook ::= idtac.

(** * Python *)
Lemma pbind_val {X Y} (m : py X) (f : X -> py Y) y : pbind m f = Val y <-> exists x, m = Val x /\ f x = Val y.
Proof. destruct m; cbn; split; intros H; try discriminate; eauto; destruct H as (z & E & H); try discriminate. injection E as <-. exact H. Qed.
Section Dict.
  Context {K V : Type} (eqb : K -> K -> bool) (eqb_spec : forall a b, eqb a b = true <-> a = b).
  Lemma dict_get_in (m : list (K * V)) k v : dict_get eqb m k = Some v -> In (k, v) m.
  Proof. induction m as [|[a w] m IH]; cbn; [discriminate|]. destruct (eqb a k) eqn:E; [|auto]. intros H. injection H as ->. apply eqb_spec in E. subst. auto. Qed.
  Lemma dict_get_none (m : list (K * V)) k : dict_get eqb m k = None <-> ~ In k (map fst m).
  Proof.
    induction m as [|[a w] m IH]; cbn; [tauto|]. destruct (eqb a k) eqn:E.
    - apply eqb_spec in E. split; [discriminate|tauto].
    - rewrite IH. assert (a <> k) by (intros C; apply eqb_spec in C; congruence). tauto.
  Qed.
  Lemma dict_get_iff (m : list (K * V)) k v : NoDup (map fst m) -> (dict_get eqb m k = Some v <-> In (k, v) m).
  Proof.
    intros HN. split; [apply dict_get_in|]. induction m as [|[a w] m IH]; cbn; [tauto|]. cbn in HN. apply NoDup_cons_iff in HN as [H1 H2]. intros [H|H].
    - injection H as -> ->. assert (eqb k k = true) as -> by (apply eqb_spec; reflexivity). reflexivity.
    - destruct (eqb a k) eqn:E; [|exact (IH H2 H)]. apply eqb_spec in E. subst a. contradiction H1. apply (in_map fst) in H. exact H.
  Qed.
  Lemma dict_item_iff (m : list (K * V)) k v : NoDup (map fst m) -> (dict_item eqb m k = Val v <-> In (k, v) m).
  Proof.
    intros HN. rewrite <- dict_get_iff by exact HN. unfold dict_item. destruct (dict_get eqb m k); split; intros H; try discriminate; injection H as ->; reflexivity.
  Qed.
  Lemma dict_set_keys (m : list (K * V)) k v : NoDup (map fst m) -> NoDup (map fst (dict_set eqb m k v)) /\ (forall a, In a (map fst (dict_set eqb m k v)) <-> a = k \/ In a (map fst m)).
  Proof.
    induction m as [|[a w] m IH]; intros HN; cbn [dict_set map fst].
    - split; [repeat constructor; intros []|]. intros a. cbn. intuition congruence.
    - cbn [map fst] in HN. apply NoDup_cons_iff in HN as [H1 H2]. destruct (eqb a k) eqn:E.
      + apply eqb_spec in E. subst a. cbn [map fst]. split; [constructor; assumption|]. intros b. cbn. intuition congruence.
      + assert (NK : a <> k) by (intros C; apply eqb_spec in C; congruence). destruct (IH H2) as [I1 I2]. cbn [map fst]. split.
        * constructor; [|exact I1]. rewrite I2. intuition congruence.
        * intros b. cbn [In]. rewrite I2. tauto.
  Qed.
  Lemma dict_set_in (m : list (K * V)) k v : NoDup (map fst m) -> forall a w, In (a, w) (dict_set eqb m k v) <-> (a = k /\ w = v) \/ (a <> k /\ In (a, w) m).
  Proof.
    induction m as [|[b u] m IH]; intros HN a w; cbn [dict_set].
    - cbn. split; [intros [H|[]]; injection H as <- <-; auto|intros [[-> ->]|[_ []]]; auto].
    - cbn [map fst] in HN. apply NoDup_cons_iff in HN as [H1 H2]. destruct (eqb b k) eqn:E.
      + apply eqb_spec in E. subst b. cbn [In]. split.
        * intros [H|H]; [injection H as <- <-; auto|]. destruct (eqb a k) eqn:EA; [apply eqb_spec in EA; subst a; contradiction H1; apply (in_map fst) in H; exact H|]. right. split; [intros C; apply eqb_spec in C; congruence|auto].
        * intros [[-> ->]|[NK [H|H]]]; [auto|injection H as <- <-; congruence|auto].
      + assert (NK : b <> k) by (intros C; apply eqb_spec in C; congruence). cbn [In]. rewrite (IH H2). split.
        * intros [H|[H|[H H']]]; [injection H as <- <-; right; auto|auto|auto].
        * intros [H|[H [H'|H']]]; auto.
  Qed.
End Dict.
Lemma node_eqb_spec a b : node_eqb a b = true <-> a = b.
Proof. unfold node_eqb. destruct a, b; cbn. split; [intros; f_equal; lia|intros H; injection H as -> ->; lia]. Qed.
Lemma dir_eqb_spec a b : dir_eqb a b = true <-> a = b.
Proof. destruct a, b; cbn; split; congruence. Qed.
Lemma plane_eqb_spec a b : plane_eqb a b = true <-> a = b.
Proof.
  unfold plane_eqb. destruct a as [[a1 a2] a3], b as [[b1 b2] b3]; cbn. rewrite !andb_true_iff, !Z.eqb_eq, dir_eqb_spec. split; [intros [[-> ->] ->]; reflexivity|intros H; injection H as -> -> ->; auto].
Qed.
Lemma inverse_opposite g b : opposite g b <-> b = get_inverse_direction g.
Proof. unfold opposite. destruct g, b; cbn; split; intros H; try reflexivity; try discriminate; try lia. Qed.

(** * Neighbours *)
Section Topology.
  Context (t : topology) (WF : well_formed t) (BR : broad t).
  Lemma turning_iff : line_1d t && String.eqb (tp_cluster t) "T3K" = true <-> turning t.
  Proof. unfold line_1d, turning. rewrite andb_true_iff, orb_true_iff, !String.eqb_eq. tauto. Qed.
  Lemma closed_iff : wraps t = true <-> closed_up t.
  Proof. unfold wraps, closed_up. rewrite orb_true_iff, !String.eqb_eq. tauto. Qed.
  Lemma correct_spec ns ew x y g : 2 <= ns -> 2 <= ew -> inside ns ew x y -> forall g',
    g' = correct_direction ns ew x y g <-> ((corner ns ew x y /\ ~ inside ns ew (x + dx g) (y + dy g)) /\ perpendicular g g' /\ inside ns ew (x + dx g') (y + dy g')) \/ (~ (corner ns ew x y /\ ~ inside ns ew (x + dx g) (y + dy g)) /\ g' = g).
  Proof.
    intros H1 H2 HI g'. unfold correct_direction, turn, corner, inside, perpendicular in *.
    destruct (Z.eqb_spec x 0), (Z.eqb_spec y 0), (Z.eqb_spec x (ew - 1)), (Z.eqb_spec y (ns - 1)); try lia; cbn [andb]; destruct g, g'; cbn [dir_eqb dx dy]; split; intros HH; try discriminate HH; try reflexivity; try lia;
      try (left; lia); try (right; split; [lia|reflexivity]); exfalso; destruct HH as [HH|[HH E]]; try discriminate E; lia.
  Qed.
  Lemma leaves_code m ns ew x y g g' : In (m, (ns, ew)) (tp_shapes t) -> inside ns ew x y ->
    (leaves t ns ew x y g g' <-> g' = if line_1d t && String.eqb (tp_cluster t) "T3K" then correct_direction ns ew x y g else g).
  Proof.
    intros HS HI. unfold leaves, turns_here. destruct (line_1d t && _) eqn:E.
    - apply turning_iff in E. destruct (BR E _ _ _ HS). rewrite correct_spec by assumption. tauto.
    - assert (~ turning t) by (rewrite <- turning_iff; congruence). tauto.
  Qed.
  Theorem next_spec d g d' g' : get_next_device_in_dir t d g = Val (d', g') <-> neighbour t d g d' g'.
  Proof.
    destruct WF as (W1 & W2 & W3 & W4 & W5 & W6 & W7). unfold get_next_device_in_dir. rewrite pbind_val. split.
    - intros ([m i] & HN & H). apply (dict_item_iff Z.eqb Z.eqb_eq _ _ _ W4) in HN. apply pbind_val in H as ([ns ew] & HS & H). cbn [fst snd] in *. apply (dict_item_iff Z.eqb Z.eqb_eq _ _ _ W1) in HS.
      destruct (W7 _ _ _ HS) as [P1 P2]. destruct (Z.eqb_spec ew 0); [lia|]. destruct ((i <? 0) || (ns * ew <=? i)) eqn:EI; [discriminate H|].
      rewrite Z.quot_div_nonneg in H by lia. pose proof (Z.div_mod i ew n) as DM. pose proof (Z.mod_pos_bound i ew P2) as MB. set (x := i mod ew) in *. set (y := i / ew) in *.
      assert (IN : inside ns ew x y). { unfold inside. split; [lia|]. assert (0 <= y) by (apply Z.div_pos; lia). nia. }
      set (h := if line_1d t && String.eqb (tp_cluster t) "T3K" then correct_direction ns ew x y g else g) in *.
      assert (EX : match h with dE => x + 1 | dW => x - 1 | _ => x end = x + dx h) by (destruct h; cbn [dx]; lia).
      assert (EY : match h with dN => y - 1 | dS => y + 1 | _ => y end = y + dy h) by (destruct h; cbn [dy]; lia). rewrite EX, EY in H.
      set (xy := if wraps t then ((x + dx h) mod ew, (y + dy h) mod ns) else (x + dx h, y + dy h)) in *. destruct xy as [x' y'] eqn:EXY. unfold xy in EXY.
      destruct ((x' <? 0) || (ew <=? x') || (y' <? 0) || (ns <=? y')) eqn:EO; [discriminate H|]. apply pbind_val in H as (d1 & HD & H). injection H as <- EH.
      apply (dict_item_iff node_eqb node_eqb_spec _ _ _ W5) in HD. apply W6 in HD.
      exists m, ns, ew, x, y, x', y'. split; [|split; [|split]].
      + split; [exact HS|]. split; [|exact IN]. replace (y * ew + x) with i by lia. exact HN.
      + apply (leaves_code m); [exact HS|exact IN|]. symmetry. exact EH.
      + split; [exact HS|]. split; [exact HD|]. unfold inside. lia.
      + rewrite <- EH. destruct (wraps t) eqn:EW; injection EXY as <- <-; [right|left; auto]. split; [apply closed_iff; exact EW|]. split.
        * exists (- ((x + dx h) / ew)). pose proof (Z.div_mod (x + dx h) ew n). lia.
        * exists (- ((y + dy h) / ns)). pose proof (Z.div_mod (y + dy h) ns ltac:(lia)). lia.
    - intros (m & ns & ew & x & y & x' & y' & (HS & HN & IN) & HL & (_ & HN' & IN') & HP). exists (m, y * ew + x). split; [apply (dict_item_iff Z.eqb Z.eqb_eq _ _ _ W4); exact HN|].
      apply pbind_val. exists (ns, ew). cbn [fst snd]. split; [apply (dict_item_iff Z.eqb Z.eqb_eq _ _ _ W1); exact HS|].
      destruct (W7 _ _ _ HS) as [P1 P2]. destruct (Z.eqb_spec ew 0); [lia|]. unfold inside in IN, IN'.
      assert (NN : 0 <= y * ew + x < ns * ew) by nia. destruct ((y * ew + x <? 0) || (ns * ew <=? y * ew + x)) eqn:EI; [lia|].
      rewrite Z.quot_div_nonneg by lia. assert (EX : (y * ew + x) mod ew = x) by (rewrite Z.add_comm, Z.mod_add by lia; apply Z.mod_small; lia).
      assert (EY : (y * ew + x) / ew = y) by (rewrite Z.div_add_l by lia; rewrite Z.div_small by lia; lia). rewrite EX, EY. apply (leaves_code m) in HL; [|exact HS|exact IN]. rewrite <- HL.
      assert (EX' : match g' with dE => x + 1 | dW => x - 1 | _ => x end = x + dx g') by (destruct g'; cbn [dx]; lia).
      assert (EY' : match g' with dN => y - 1 | dS => y + 1 | _ => y end = y + dy g') by (destruct g'; cbn [dy]; lia). rewrite EX', EY'.
      assert (EE : (if wraps t then ((x + dx g') mod ew, (y + dy g') mod ns) else (x + dx g', y + dy g')) = (x', y')).
      { destruct HP as [[Q1 Q2]|(HC & (a & Q1) & b & Q2)].
        - destruct (wraps t); f_equal; try lia; rewrite Z.mod_small; lia.
        - apply closed_iff in HC. rewrite HC. f_equal; [replace (x + dx g') with (x' + (- a) * ew) by lia|replace (y + dy g') with (y' + (- b) * ns) by lia]; rewrite Z.mod_add by lia; apply Z.mod_small; lia. }
      rewrite EE. destruct ((x' <? 0) || (ew <=? x') || (y' <? 0) || (ns <=? y')) eqn:EO; [lia|]. apply pbind_val. exists d'. split; [|reflexivity].
      apply (dict_item_iff node_eqb node_eqb_spec _ _ _ W5). apply W6. exact HN'.
  Qed.
  Lemma located_fun d m ns ew x y m' ns' ew' x' y' : located t d m ns ew x y -> located t d m' ns' ew' x' y' -> m = m' /\ ns = ns' /\ ew = ew' /\ x = x' /\ y = y'.
  Proof.
    destruct WF as (W1 & W2 & W3 & W4 & W5 & W6 & W7). intros (S1 & N1 & I1) (S2 & N2 & I2).
    apply (dict_get_iff Z.eqb Z.eqb_eq _ _ _ W4) in N1, N2. rewrite N1 in N2. injection N2 as <- EI. apply (dict_get_iff Z.eqb Z.eqb_eq _ _ _ W1) in S1, S2. rewrite S1 in S2. injection S2 as <- <-.
    unfold inside in *. assert (y = y') by nia. subst y'. repeat split; lia.
  Qed.
  Lemma located_inj d d' m ns ew x y ns' ew' : located t d m ns ew x y -> located t d' m ns' ew' x y -> d = d'.
  Proof.
    destruct WF as (W1 & W2 & W3 & W4 & W5 & W6 & W7). intros (S1 & N1 & I1) (S2 & N2 & I2). apply (dict_get_iff Z.eqb Z.eqb_eq _ _ _ W1) in S1, S2. rewrite S1 in S2. injection S2 as <- <-.
    apply W6 in N1, N2. apply (dict_get_iff node_eqb node_eqb_spec _ _ _ W5) in N1, N2. congruence.
  Qed.
  Theorem next_back d g d' g' b : neighbour t d g d' g' -> opposite g' b -> neighbour t d' b d b.
  Proof.
    intros (m & ns & ew & x & y & x' & y' & L & HL & L' & HP) [O1 O2]. exists m, ns, ew, x', y', x, y. split; [exact L'|]. assert (HS := proj1 L). assert (IN := proj2 (proj2 L)). assert (IN' := proj2 (proj2 L')).
    split; [|split; [exact L|]].
    - right. split; [|reflexivity]. intros (T & C & NI). destruct (BR T _ _ _ HS) as [B1 B2].
      destruct HP as [[Q1 Q2]|(_ & (a & Q1) & b' & Q2)]; [apply NI; unfold inside in *; lia|].
      destruct HL as [((_ & CC & _) & _ & IG)|(NT & EG)]; [|subst g'].
      + apply NI. unfold inside in *. assert (a = 0) by nia. assert (b' = 0) by nia. subst. lia.
      + assert (HC : ~ (corner ns ew x y /\ ~ inside ns ew (x + dx g) (y + dy g))) by (intros K; apply NT; split; [exact T|exact K]).
        unfold corner, inside in *. assert (DX : -1 <= dx g <= 1) by (destruct g; cbn; lia). assert (DY : -1 <= dy g <= 1) by (destruct g; cbn; lia).
        assert (DD : dx g = 0 \/ dy g = 0) by (destruct g; cbn; lia).
        assert (A1 : -1 <= a <= 1) by nia. assert (B3 : -1 <= b' <= 1) by nia. assert (CA : a = -1 \/ a = 0 \/ a = 1) by lia. assert (CB : b' = -1 \/ b' = 0 \/ b' = 1) by lia.
        destruct CA as [-> | [-> | ->]], CB as [-> | [-> | ->]]; lia.
    - destruct HP as [[Q1 Q2]|(HC & (a & Q1) & b' & Q2)]; [left; lia|right]. split; [exact HC|]. split; [exists (- a); lia|exists (- b'); lia].
  Qed.
  (* on a mesh of two rows the turning fabric is a ring *)
  Theorem ring_step d g d' g' m ew x y : turning t -> located t d m 2 ew x y -> clockwise ew x y g -> neighbour t d g d' g' ->
    exists x' y', located t d' m 2 ew x' y' /\ clockwise ew x' y' g' /\ ring_index ew x' y' = (ring_index ew x y + 1) mod (2 * ew).
  Proof.
    intros T L C (m' & ns & ew' & x0 & y0 & x' & y' & L0 & HL & L' & HP). destruct (located_fun _ _ _ _ _ _ _ _ _ _ _ L L0) as (<- & <- & <- & <- & <-).
    exists x', y'. split; [exact L'|]. assert (IN := proj2 (proj2 L)). assert (IN' := proj2 (proj2 L')). destruct (BR T _ _ _ (proj1 L)) as [_ B2].
    apply (leaves_code m) in HL; [|exact (proj1 L)|exact IN]. assert (TT := T). apply turning_iff in TT. rewrite TT in HL. subst g'. unfold inside in *.
    assert (INS : inside 2 ew (x + dx (correct_direction 2 ew x y g)) (y + dy (correct_direction 2 ew x y g)) /\ clockwise ew (x + dx (correct_direction 2 ew x y g)) (y + dy (correct_direction 2 ew x y g)) (correct_direction 2 ew x y g) /\
      ring_index ew (x + dx (correct_direction 2 ew x y g)) (y + dy (correct_direction 2 ew x y g)) = (ring_index ew x y + 1) mod (2 * ew)).
    { unfold clockwise in C. unfold correct_direction, turn, inside, clockwise, ring_index. 
      assert (M0 : forall z, 0 <= z < 2 * ew -> z mod (2 * ew) = z) by (intros; apply Z.mod_small; lia). assert (M1 : (2 * ew) mod (2 * ew) = 0) by (apply Z.mod_same; lia).
      destruct C as [[-> C]|[-> C]]; [change (0 =? 0) with true|change (1 =? 0) with false]; change (2 - 1) with 1; [change (0 =? 1) with false|change (1 =? 1) with true]; rewrite ?andb_true_r, ?andb_false_r;
        destruct (Z.eqb_spec x 0), (Z.eqb_spec x (ew - 1)); try lia; destruct C as [->|[EX ->]]; try lia; cbn [dir_eqb dx dy]; try (subst x; lia);
        (split; [lia|]); (split; [first [solve [left; split; [lia|auto]]|solve [right; split; [lia|auto]]|solve [left; split; [lia|right; split; [lia|reflexivity]]]|solve [right; split; [lia|right; split; [lia|reflexivity]]]]|]);
        repeat (match goal with |- context [?a =? 0] => destruct (Z.eqb_spec a 0); try lia end);
        try (rewrite M0 by lia; lia); subst x; replace (2 * ew - 1 - 0 + 1) with (2 * ew) by lia; rewrite M1; lia. }
    destruct INS as (I1 & I2 & I3). set (h := correct_direction 2 ew x y g) in *. unfold inside in I1.
    assert (E : x' = x + dx h /\ y' = y + dy h). { destruct HP as [Q|(_ & (a & Q1) & b & Q2)]; [exact Q|]. assert (a = 0) by nia. assert (b = 0) by lia. subst. lia. }
    destruct E as [-> ->]. auto.
  Qed.
  Theorem ring n : forall d g d' g' m ew x y, turning t -> located t d m 2 ew x y -> clockwise ew x y g -> moves t n d g d' g' ->
    exists x' y', located t d' m 2 ew x' y' /\ clockwise ew x' y' g' /\ ring_index ew x' y' = (ring_index ew x y + Z.of_nat n) mod (2 * ew).
  Proof.
    induction n as [|n IH]; intros d g d' g' m ew x y T L C H.
    - inversion H; subst. exists x, y. split; [exact L|]. split; [exact C|]. assert (IN := proj2 (proj2 L)). unfold inside in IN. rewrite Z.mod_small; unfold ring_index; destruct (y =? 0) eqn:E; lia.
    - inversion H as [|? ? ? d1 g1 ? ? HN HM]; subst. destruct (ring_step _ _ _ _ _ _ _ _ T L C HN) as (x1 & y1 & L1 & C1 & E1). destruct (IH _ _ _ _ _ _ _ _ T L1 C1 HM) as (x2 & y2 & L2 & C2 & E2).
      exists x2, y2. split; [exact L2|]. split; [exact C2|]. rewrite E2, E1. rewrite Zplus_mod_idemp_l. f_equal. lia.
  Qed.
  (* the ring goes on as long as its chips are there *)
  Theorem ring_goes_on d g m ew x y : turning t -> located t d m 2 ew x y -> clockwise ew x y g -> (forall x y, inside 2 ew x y -> exists d, located t d m 2 ew x y) -> exists d' g', neighbour t d g d' g'.
  Proof.
    intros T L C A. assert (IN := proj2 (proj2 L)). destruct (BR T _ _ _ (proj1 L)) as [_ B2]. set (h := correct_direction 2 ew x y g).
    assert (I1 : inside 2 ew (x + dx h) (y + dy h)).
    { unfold h, clockwise, correct_direction, turn, inside in *. destruct C as [[-> C]|[-> C]]; [change (0 =? 0) with true|change (1 =? 0) with false]; change (2 - 1) with 1; [change (0 =? 1) with false|change (1 =? 1) with true]; rewrite ?andb_true_r, ?andb_false_r;
        destruct (Z.eqb_spec x 0), (Z.eqb_spec x (ew - 1)); try lia; destruct C as [->|[EX ->]]; try lia; cbn [dir_eqb dx dy]; lia. }
    destruct (A _ _ I1) as (d' & L'). exists d', h, m, 2, ew, x, y, (x + dx h), (y + dy h). split; [exact L|]. split; [|split; [exact L'|left; auto]].
    apply (leaves_code m); [exact (proj1 L)|exact IN|]. assert (TT := T). apply turning_iff in TT. rewrite TT. reflexivity.
  Qed.
End Topology.
