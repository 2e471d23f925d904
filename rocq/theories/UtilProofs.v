(* Proofs about Util.v *)
From Coq Require Import ZArith String List Bool Lia Sorting.Sorted Permutation ZifyBool ZifyNat.
From Verif Require Import Base Util SpecUtil.
Import ListNotations.
Open Scope Z_scope.
Ltac Zify.zify_post_hook ::= Z.div_mod_to_equations.

(** * Wrapping conversions *)
Lemma i16_id z : - 2 ^ 15 <= z < 2 ^ 15 -> i16 z = z.
Proof. unfold i16. intros. rewrite Z.mod_small; lia. Qed.
Lemma i16_range z : - 2 ^ 15 <= i16 z < 2 ^ 15.
Proof. unfold i16. pose proof (Z.mod_pos_bound (z + 2 ^ 15) (2 ^ 16)). lia. Qed.
Lemma i32_id z : - 2 ^ 31 <= z < 2 ^ 31 -> i32 z = z.
Proof. unfold i32. intros. rewrite Z.mod_small; lia. Qed.
Lemma u32_id z : 0 <= z < 2 ^ 32 -> u32 z = z.
Proof. unfold u32. intros. apply Z.mod_small; lia. Qed.
Lemma u64_id z : 0 <= z < 2 ^ 64 -> u64 z = z.
Proof. unfold u64. intros. apply Z.mod_small; lia. Qed.
Lemma u32_range z : 0 <= u32 z < 2 ^ 32.
Proof. unfold u32. apply Z.mod_pos_bound. lia. Qed.
Lemma u64_range z : 0 <= u64 z < 2 ^ 64.
Proof. unfold u64. apply Z.mod_pos_bound. lia. Qed.

(** * C12 *)
Lemma rem_plus_mod n r : 0 < r -> Z.rem (Z.rem n r + r) r = n mod r.
Proof.
  intros Hr.
  assert (H : 0 <= Z.rem n r + r).
  { pose proof (Z.rem_bound_abs n r). lia. }
  rewrite Z.rem_mod_nonneg by lia.
  rewrite <- Z.add_mod_idemp_r, Z.mod_same, Z.add_0_r by lia.
  rewrite (Z.quot_rem' n r) at 2.
  rewrite Z.add_comm, Z.mul_comm, Z.mod_add by lia. reflexivity.
Qed.

Lemma mod_is_remainder n r : 0 < r -> is_remainder n r (n mod r).
Proof.
  intros. split. apply Z.mod_pos_bound; lia.
  exists (n / r). rewrite Z.mul_comm. apply Z.div_mod. lia.
Qed.

Lemma is_remainder_unique n r v w : is_remainder n r v -> is_remainder n r w -> v = w.
Proof.
  intros [Hv [k Hk]] [Hw [j Hj]].
  assert (v = n mod r) by (apply (Z.mod_unique_pos n r k); lia).
  assert (w = n mod r) by (apply (Z.mod_unique_pos n r j); lia). congruence.
Qed.

Lemma wrapToRange_eq n r : 0 < r < 2 ^ 62 -> wrapToRange n r = Ok (n mod r).
Proof.
  intros Hr. unfold wrapToRange.
  replace (r =? 0) with false by lia.
  assert (Hb : Z.abs (Z.rem n r) < Z.abs r) by (apply Z.rem_bound_abs; lia).
  unfold in_i64. replace (_ && _) with true by lia.
  rewrite rem_plus_mod by lia. reflexivity.
Qed.

Lemma wrapToRange_spec n r :
  0 < r <= 2 ^ 62 -> exists v, wrapToRange n r = Ok v /\ is_remainder n r v.
Proof.
  intros Hr. exists (n mod r). split; [|apply mod_is_remainder; lia].
  unfold wrapToRange. replace (r =? 0) with false by lia.
  assert (Hb : Z.abs (Z.rem n r) < Z.abs r) by (apply Z.rem_bound_abs; lia).
  unfold in_i64. replace (_ && _) with true by lia.
  rewrite rem_plus_mod by lia. reflexivity.
Qed.

Lemma modulo_eq n m : 0 < m -> modulo n m = Ok (n mod m).
Proof.
  intros Hm. unfold modulo. replace (m =? 0) with false by lia. f_equal.
  destruct (Z_le_gt_dec 0 n).
  - rewrite Z.rem_mod_nonneg by lia.
    pose proof (Z.mod_pos_bound n m). replace (n mod m <? 0) with false by lia. reflexivity.
  - replace n with (- (- n)) by lia. rewrite Z.rem_opp_l, (Z.rem_mod_nonneg (- n)) by lia.
    pose proof (Z.mod_pos_bound (- n) m).
    destruct (Z.eq_dec ((- n) mod m) 0) as [E|E].
    + rewrite E. rewrite Z.mod_opp_l_z by lia. reflexivity.
    + rewrite (Z.mod_opp_l_nz (- n) m) by lia.
      replace (- (- n mod m) <? 0) with true by lia. lia.
Qed.

Lemma modulo_spec n m : 0 < m -> exists v, modulo n m = Ok v /\ is_remainder n m v.
Proof. intros. exists (n mod m). split. apply modulo_eq; lia. apply mod_is_remainder; lia. Qed.

(** * C13 *)
Section UniqueProofs.
  Context {A : Type} (lt : A -> A -> bool) (eqb : A -> A -> bool).
  Context (eqb_spec : forall a b, eqb a b = true <-> a = b).
  Context (lt_trans : forall a b c, lt a b = true -> lt b c = true -> lt a c = true).
  Context (lt_irrefl : forall a, lt a a = false).
  Context (lt_total : forall a b, lt a b = true \/ a = b \/ lt b a = true).

  Definition le (a b : A) : Prop := lt b a = false.

  Lemma le_cases a b : le a b -> a = b \/ lt a b = true.
  Proof. unfold le. intros H. destruct (lt_total a b) as [|[|]]; auto; congruence. Qed.

  Lemma unique_from_in x p l : In x (unique_from eqb p l) -> In x l.
  Proof.
    revert p. induction l as [|a l IH]; simpl; intros p H; [auto|].
    destruct (eqb p a); simpl in *; intuition eauto.
  Qed.

  Lemma unique_from_sorted p l :
    StronglySorted le l -> Forall (le p) l ->
    StronglySorted (fun a b => lt a b = true) (p :: unique_from eqb p l) /\
    (forall x, In x l -> x = p \/ In x (unique_from eqb p l)).
  Proof.
    revert p. induction l as [|a l IH]; simpl; intros p Hs Hp.
    - split; [|tauto]. constructor; constructor.
    - inversion Hs as [|? ? Hs' Ha]; inversion Hp as [|? ? Hpa Hpl]; subst.
      destruct (eqb p a) eqn:E.
      + apply eqb_spec in E; subst a. destruct (IH p Hs' Hpl) as [H1 H2].
        split; [exact H1|]. intros x [->|Hx]; auto.
      + assert (Hlt : lt p a = true).
        { destruct (le_cases p a Hpa) as [->|]; auto.
          exfalso. assert (eqb a a = true) by (apply eqb_spec; auto). congruence. }
        destruct (IH a Hs' Ha) as [H1 H2].
        inversion H1 as [|? ? H1a H1b]; subst. split.
        * constructor; [exact H1|]. constructor; [exact Hlt|].
          eapply Forall_impl; [|exact H1b]. simpl. eauto.
        * intros x [->|Hx]; simpl; auto. destruct (H2 x Hx); subst; auto.
  Qed.

  Lemma unique_spec l :
    StronglySorted le l ->
    StronglySorted (fun a b => lt a b = true) (unique eqb l) /\
    (forall x, In x (unique eqb l) <-> In x l).
  Proof.
    destruct l as [|a l]; simpl; intros H.
    - split; [constructor|tauto].
    - inversion H as [|? ? Hl Ha]; subst. destruct (unique_from_sorted a l Hl Ha) as [H1 H2].
      split; [exact H1|]. intros x. split.
      + intros [->|Hx]; auto. right. eapply unique_from_in; eauto.
      + intros [->|Hx]; auto. destruct (H2 x Hx); subst; auto.
  Qed.

  Lemma sort_insert_perm x l : Permutation (x :: l) (sort_insert lt x l).
  Proof.
    induction l as [|y l IH]; simpl; auto. destruct (lt y x); auto.
    rewrite perm_swap. constructor. exact IH.
  Qed.
  Lemma sort_perm l : Permutation l (sort lt l).
  Proof. induction l; simpl; auto. rewrite IHl at 1. apply sort_insert_perm. Qed.
  Lemma le_trans a b c : le a b -> le b c -> le a c.
  Proof.
    intros H1 H2. destruct (le_cases _ _ H1) as [->|H3]; auto.
    destruct (le_cases _ _ H2) as [<-|H4]; auto.
    unfold le. destruct (lt c a) eqn:E; auto.
    pose proof (lt_trans _ _ _ (lt_trans _ _ _ H3 H4) E) as HH. rewrite lt_irrefl in HH. discriminate.
  Qed.
  Lemma sort_insert_sorted x l : StronglySorted le l -> StronglySorted le (sort_insert lt x l).
  Proof.
    induction l as [|y l IH]; simpl; intros H.
    - constructor; constructor.
    - inversion H as [|? ? Hl Hy]; subst. destruct (lt y x) eqn:E.
      + constructor; auto. eapply Permutation_Forall; [apply sort_insert_perm|].
        constructor; auto. unfold le. destruct (lt x y) eqn:E2; auto.
        pose proof (lt_trans _ _ _ E E2) as HH. rewrite lt_irrefl in HH. discriminate.
      + constructor; auto. constructor; auto.
        eapply Forall_impl; [|exact Hy]. intros c Hc. eapply le_trans; eauto.
  Qed.
  Lemma sort_sorted l : StronglySorted le (sort lt l).
  Proof. induction l; simpl. constructor. apply sort_insert_sorted; auto. Qed.

  Lemma uniquify_spec l :
    StronglySorted (fun a b => lt a b = true) (uniquify lt eqb l) /\
    (forall x, In x (uniquify lt eqb l) <-> In x l).
  Proof.
    unfold uniquify. destruct (unique_spec (sort lt l) (sort_sorted l)) as [H1 H2].
    split; auto. intros x. rewrite H2. split; intros H.
    - eapply Permutation_in; [symmetry; apply sort_perm|auto].
    - eapply Permutation_in; [apply sort_perm|auto].
  Qed.
End UniqueProofs.

Lemma uniquify_Z_spec l :
  StronglySorted Z.lt (uniquify Z.ltb Z.eqb l) /\ (forall x, In x (uniquify Z.ltb Z.eqb l) <-> In x l).
Proof.
  destruct (uniquify_spec Z.ltb Z.eqb) with (l := l) as [H1 H2];
    try (intros; lia).
  split; auto. clear H2. induction H1; constructor; auto.
  eapply Forall_impl; [|eassumption]. simpl. intros; lia.
Qed.

(* any sorting algorithm *)
Lemma unique_any_sort (l s : list Z) :
  Permutation l s -> StronglySorted Z.le s ->
  StronglySorted Z.lt (unique Z.eqb s) /\ (forall x, In x (unique Z.eqb s) <-> In x l).
Proof.
  intros Hp Hs. destruct (unique_spec Z.ltb Z.eqb) with (l := s) as [H1 H2]; try (intros; lia).
  - clear Hp. induction Hs; constructor; auto. eapply Forall_impl; [|eassumption].
    unfold le. simpl. intros; lia.
  - split.
    + clear H2 Hs Hp. induction H1; constructor; auto.
      eapply Forall_impl; [|eassumption]. simpl. intros; lia.
    + intros x. rewrite H2. split; apply Permutation_in; auto. symmetry; auto.
Qed.

(** * C09: the multicast iterator *)
Lemma zseq_length z n : List.length (zseq z n) = n.
Proof. revert z. induction n; simpl; auto. Qed.
Lemma zseq_in z n x : In x (zseq z n) <-> z <= x < z + Z.of_nat n.
Proof.
  revert z. induction n as [|n IH]; intros z; cbn [zseq].
  - simpl. lia.
  - simpl. rewrite IH. lia.
Qed.
Lemma zrange_in lo hi x : In x (zrange lo hi) <-> lo <= x <= hi.
Proof. unfold zrange. rewrite zseq_in. lia. Qed.
Lemma zseq_sorted z n : StronglySorted Z.lt (zseq z n).
Proof.
  revert z. induction n as [|n IH]; intros z; cbn [zseq]; constructor; auto.
  apply Forall_forall. intros x Hx. apply zseq_in in Hx. lia.
Qed.

(* cells of row r from column c on, then of the following nr rows *)
Definition row_cells (dev r c0 c1 : Z) : list coord := map (mkCoord dev r) (zrange c0 c1).
Fixpoint rows_cells (dev : Z) (nr : nat) (r c0 c1 : Z) : list coord :=
  match nr with
  | O => []
  | S n => row_cells dev r c0 c1 ++ rows_cells dev n (r + 1) c0 c1
  end.
Definition rect_cells (g : cgrid) : list coord :=
  rows_cells (c_dev (g_start g)) (Z.to_nat (c_row (g_end g) - c_row (g_start g) + 1))
    (c_row (g_start g)) (c_col (g_start g)) (c_col (g_end g)).

Lemma row_cells_in dev r c0 c1 c :
  In c (row_cells dev r c0 c1) <-> c_dev c = dev /\ c_row c = r /\ c0 <= c_col c <= c1.
Proof.
  unfold row_cells. rewrite in_map_iff. split.
  - intros [x [<- Hx]]. apply zrange_in in Hx. simpl. auto.
  - intros [H1 [H2 H3]]. exists (c_col c). split. destruct c; simpl in *; congruence.
    apply zrange_in. auto.
Qed.
Lemma rows_cells_in dev nr r c0 c1 c :
  In c (rows_cells dev nr r c0 c1) <->
  c_dev c = dev /\ r <= c_row c < r + Z.of_nat nr /\ c0 <= c_col c <= c1.
Proof.
  revert r. induction nr as [|n IH]; intros r; cbn [rows_cells].
  - simpl. lia.
  - rewrite in_app_iff, row_cells_in, IH. lia.
Qed.
Lemma StronglySorted_app {A} (R : A -> A -> Prop) l1 l2 :
  StronglySorted R l1 -> StronglySorted R l2 -> (forall a b, In a l1 -> In b l2 -> R a b) ->
  StronglySorted R (l1 ++ l2).
Proof.
  induction l1 as [|a l1 IH]; simpl; intros H1 H2 H; auto.
  inversion H1; subst. constructor. apply IH; auto.
  apply Forall_app. split; auto. apply Forall_forall. auto.
Qed.
Lemma row_cells_sorted dev r c0 c1 : StronglySorted row_major (row_cells dev r c0 c1).
Proof.
  unfold row_cells, zrange. generalize (zseq_sorted c0 (Z.to_nat (c1 - c0 + 1))).
  generalize (zseq c0 (Z.to_nat (c1 - c0 + 1))). induction 1; simpl; constructor; auto.
  apply Forall_map. eapply Forall_impl; [|eassumption]. intros b Hb. right. simpl. auto.
Qed.
Lemma rows_cells_sorted dev nr r c0 c1 : StronglySorted row_major (rows_cells dev nr r c0 c1).
Proof.
  revert r. induction nr as [|n IH]; intros r; cbn [rows_cells]; [constructor|].
  apply StronglySorted_app; auto. apply row_cells_sorted.
  intros a b Ha Hb. apply row_cells_in in Ha. apply rows_cells_in in Hb. left. lia.
Qed.
Lemma rect_cells_enumerates g : wf_rect g -> enumerates g (rect_cells g).
Proof.
  intros (_ & _ & Hr & Hc). split; [|apply rows_cells_sorted].
  intros c. unfold rect_cells, in_rect. rewrite rows_cells_in. lia.
Qed.
Lemma rows_cells_length dev nr r c0 c1 :
  c0 <= c1 -> Z.of_nat (List.length (rows_cells dev nr r c0 c1)) = Z.of_nat nr * (c1 - c0 + 1).
Proof.
  intros H. revert r. induction nr as [|n IH]; intros r; cbn [rows_cells]; [reflexivity|].
  rewrite app_length. unfold row_cells, zrange at 1. rewrite map_length, zseq_length.
  specialize (IH (r + 1)). rewrite Nat2Z.inj_add, IH, Z2Nat.id, Nat2Z.inj_succ by lia. ring.
Qed.

(* continuing a walk *)
Definition after (m : mcast) (idx : nat) (pos : coord) : mc_iter :=
  match nth_error m (S idx) with Some g' => (g_start g', S idx) | None => (pos, S idx) end.

Lemma walk_row m idx g fuel rest : nth_error m idx = Some g -> wf_rect g ->
  forall n c r, c_row (g_start g) <= r <= c_row (g_end g) ->
  c_col (g_start g) <= c -> Z.of_nat n = c_col (g_end g) - c ->
  (let pos' := mkCoord (c_dev (g_start g)) (r + 1) (c_col (g_start g)) in
   mc_walk fuel m (if r =? c_row (g_end g) then after m idx pos' else (pos', idx))) = Some rest ->
  mc_walk (S n + fuel) m (mkCoord (c_dev (g_start g)) r c, idx) =
    Some (row_cells (c_dev (g_start g)) r c (c_col (g_end g)) ++ rest).
Proof.
  intros Hg (Hs & He & Hr & Hc). destruct Hs as (Hs1 & Hs2 & Hs3). destruct He as (He1 & He2 & He3).
  assert (Hend : forall p, mc_at_end m (p, idx) = false).
  { intros p. unfold mc_at_end. simpl. apply Nat.eqb_neq.
    assert (idx < List.length m)%nat by (apply nth_error_Some; congruence). lia. }
  induction n as [|n IH]; intros c r Hrr Hcc Hn H; cbv zeta in H.
  - assert (c = c_col (g_end g)) by lia. subst c.
    cbn [Nat.add mc_walk]. rewrite Hend.
    unfold mc_next at 1. rewrite Hg. cbn [c_col c_row c_dev].
    replace (c_col (g_end g) <? c_col (g_end g)) with false by lia.
    rewrite (i16_id (r + 1)) by lia.
    unfold row_cells, zrange. replace (Z.to_nat _) with 1%nat by lia. cbn [zseq map app option_map].
    destruct (r =? c_row (g_end g)) eqn:E.
    + replace (r + 1 >? c_row (g_end g)) with true by lia. cbn [fst].
      unfold after in H. rewrite H. reflexivity.
    + replace (r + 1 >? c_row (g_end g)) with false by lia. cbn [fst]. rewrite H. reflexivity.
  - change (S (S n) + fuel)%nat with (S (S n + fuel)). cbn [mc_walk]. rewrite Hend.
    unfold mc_next at 1. rewrite Hg. cbn [c_col c_row c_dev].
    replace (c <? c_col (g_end g)) with true by lia. rewrite (i16_id (c + 1)) by lia.
    cbn [Nat.add] in IH |- *. rewrite (IH (c + 1) r) by (try lia; exact H).
    unfold row_cells, zrange. replace (Z.to_nat (c_col (g_end g) - c + 1)) with (S (S n)) by lia.
    replace (Z.to_nat (c_col (g_end g) - (c + 1) + 1)) with (S n) by lia. reflexivity.
Qed.

Lemma walk_rect m idx g fuel rest : nth_error m idx = Some g -> wf_rect g ->
  (let pos' := mkCoord (c_dev (g_start g)) (c_row (g_end g) + 1) (c_col (g_start g)) in
   mc_walk fuel m (after m idx pos')) = Some rest ->
  forall nr r, c_row (g_start g) <= r -> Z.of_nat nr = c_row (g_end g) - r + 1 -> (0 < nr)%nat ->
  mc_walk (nr * Z.to_nat (c_col (g_end g) - c_col (g_start g) + 1) + fuel) m
    (mkCoord (c_dev (g_start g)) r (c_col (g_start g)), idx) =
  Some (rows_cells (c_dev (g_start g)) nr r (c_col (g_start g)) (c_col (g_end g)) ++ rest).
Proof.
  intros Hg Hwf H. pose proof Hwf as (_ & _ & Hr & Hc).
  induction nr as [|nr IH]; intros r H1 H2 H3; [lia|].
  set (w := Z.to_nat (c_col (g_end g) - c_col (g_start g) + 1)) in *.
  replace (S nr * w + fuel)%nat with (S (Z.to_nat (c_col (g_end g) - c_col (g_start g))) + (nr * w + fuel))%nat
    by (unfold w; lia).
  cbn [rows_cells]. rewrite <- app_assoc.
  apply walk_row; auto; try lia.
  destruct (r =? c_row (g_end g)) eqn:E.
  - assert (nr = O) by lia. subst nr. assert (r = c_row (g_end g)) by lia. subst r.
    cbn [rows_cells app Nat.mul Nat.add]. exact H.
  - apply IH; lia.
Qed.

Lemma walk_all m suffix : Forall wf_rect suffix ->
  forall prefix pos, m = prefix ++ suffix ->
  mc_walk (list_sum (map grid_cells suffix)) m
    (match suffix with g :: _ => (g_start g, List.length prefix) | [] => (pos, List.length prefix) end) =
  Some (concat (map rect_cells suffix)).
Proof.
  induction suffix as [|g suffix IH]; intros Hwf prefix pos ->.
  - unfold mc_walk, mc_at_end. simpl. rewrite app_nil_r, Nat.eqb_refl. reflexivity.
  - inversion Hwf as [|? ? Hg Hs]; subst. pose proof Hg as (Hc1 & Hc2 & Hr & Hc).
    cbn [map list_sum concat fold_right].
    replace (g_start g) with (mkCoord (c_dev (g_start g)) (c_row (g_start g)) (c_col (g_start g)))
      by (destruct (g_start g); reflexivity).
    unfold rect_cells at 1.
    unfold grid_cells at 1.
    rewrite !Z.max_r by lia.
    apply walk_rect with (g := g); auto; try lia.
    { rewrite nth_error_app2, Nat.sub_diag by lia. reflexivity. }
    set (pos' := mkCoord _ _ _). cbv zeta. unfold after.
    specialize (IH Hs (prefix ++ [g]) pos').
    rewrite <- app_assoc in IH. specialize (IH eq_refl).
    rewrite app_length in IH. simpl List.length in IH.
    rewrite nth_error_app2 by lia. replace (S (List.length prefix) - List.length prefix)%nat with 1%nat by lia.
    replace (List.length prefix + 1)%nat with (S (List.length prefix)) in IH by lia.
    destruct suffix as [|g' suffix]; cbn [nth_error] in *; exact IH.
Qed.

Lemma mc_walk_mono m fuel k it l : mc_walk fuel m it = Some l -> mc_walk (fuel + k) m it = Some l.
Proof.
  revert it l. induction fuel as [|f IH]; intros it l H.
  - cbn [mc_walk] in H. destruct (mc_at_end m it) eqn:E; [|discriminate].
    destruct k; cbn [Nat.add mc_walk]; rewrite E; auto.
  - cbn [Nat.add mc_walk] in *. destruct (mc_at_end m it); auto.
    destruct (mc_walk f m (mc_next m it)) eqn:E; [|discriminate].
    rewrite (IH _ _ E). auto.
Qed.

Lemma mcast_coords_cells m : Forall wf_rect m -> mcast_coords m = Ok (concat (map rect_cells m)).
Proof.
  intros H. pose proof (walk_all m m H [] Coord_default eq_refl) as W. simpl in W.
  unfold mcast_coords, mc_fuel. rewrite <- Nat.add_1_r.
  erewrite mc_walk_mono; [reflexivity|]. rewrite <- W. unfold mc_begin. destruct m; reflexivity.
Qed.

Lemma cells_enumerate m : Forall wf_rect m -> enumerates_all m (concat (map rect_cells m)).
Proof.
  induction 1 as [|g m Hg Hm IH]; simpl; constructor; auto. apply rect_cells_enumerates; auto.
Qed.

Lemma grid_size_cells m : Forall wf_rect m -> Forall (fun g =>
    (c_row (g_end g) - c_row (g_start g) + 1) * (c_col (g_end g) - c_col (g_start g) + 1) < 2 ^ 31) m ->
  Z.of_nat (List.length (concat (map rect_cells m))) < 2 ^ 64 ->
  grid_size m = Ok (Z.of_nat (List.length (concat (map rect_cells m)))).
Proof.
  intros Hwf Hs. unfold grid_size.
  enough (G : forall z, 0 <= z -> z + Z.of_nat (List.length (concat (map rect_cells m))) < 2 ^ 64 ->
    foldM (fun total g =>
      let n := (c_row (g_end g) - c_row (g_start g) + 1) * (c_col (g_end g) - c_col (g_start g) + 1) in
      if in_i32 n then Ok (u64 (total + n)) else UB "signed overflow") m z =
    Ok (z + Z.of_nat (List.length (concat (map rect_cells m))))).
  { intros H. rewrite G; [reflexivity|lia|lia]. }
  induction m as [|g m IH]; intros z Hz Hl.
  - cbn [map concat foldM List.length]. f_equal. lia.
  - inversion Hwf as [|? ? Hg Hm]; inversion Hs as [|? ? Hsg Hsm]; subst.
    destruct Hg as (_ & _ & Hr & Hc).
    cbn [map concat foldM] in *. rewrite app_length, Nat2Z.inj_add in *.
    assert (Hlen : Z.of_nat (List.length (rect_cells g)) =
      (c_row (g_end g) - c_row (g_start g) + 1) * (c_col (g_end g) - c_col (g_start g) + 1)).
    { unfold rect_cells. rewrite rows_cells_length by lia. rewrite Z2Nat.id by lia. reflexivity. }
    rewrite <- Hlen in Hsg |- *. clear Hlen.
    unfold in_i32. replace (_ && _) with true by lia.
    rewrite u64_id by lia. cbn [bind].
    rewrite IH by (auto; lia). f_equal. lia.
Qed.

Lemma mcast_iteration_spec m :
  Forall wf_rect m -> exists l, mcast_coords m = Ok l /\ enumerates_all m l.
Proof.
  intros H. exists (concat (map rect_cells m)). split. apply mcast_coords_cells; auto.
  apply cells_enumerate; auto.
Qed.

Lemma enumerates_unique g l1 l2 : enumerates g l1 -> enumerates g l2 -> l1 = l2.
Proof.
  intros [I1 S1] [I2 S2].
  assert (HI : forall c, In c l1 <-> In c l2) by (intros; rewrite I1, I2; tauto).
  clear I1 I2. revert l2 S2 HI. induction S1 as [|a l1 S1 IH Ha]; intros l2 S2 HI.
  - destruct l2 as [|b l2]; auto. exfalso. apply (HI b). simpl; auto.
  - destruct S2 as [|b l2 S2 Hb]. exfalso. apply (HI a). simpl; auto.
    assert (E : a = b).
    { assert (Ia : In a (b :: l2)) by (apply HI; simpl; auto).
      assert (Ib : In b (a :: l1)) by (apply HI; simpl; auto).
      destruct Ia as [|Ia]; auto. destruct Ib as [|Ib]; auto.
      rewrite Forall_forall in Ha, Hb. specialize (Ha _ Ib). specialize (Hb _ Ia).
      unfold row_major in *. lia. }
    subst b. f_equal. apply IH; auto. intros c. split; intros Hc.
    + assert (X : In c (a :: l2)) by (apply HI; simpl; auto). destruct X as [<-|]; auto.
      rewrite Forall_forall in Ha. specialize (Ha _ Hc). unfold row_major in Ha. lia.
    + assert (X : In c (a :: l1)) by (apply HI; simpl; auto). destruct X as [<-|]; auto.
      rewrite Forall_forall in Hb. specialize (Hb _ Hc). unfold row_major in Hb. lia.
Qed.

Lemma enumerates_all_length m l : Forall wf_rect m -> enumerates_all m l -> l = concat (map rect_cells m).
Proof.
  intros Hwf H. induction H as [|g m l ls Hl Hls IH]; auto. inversion Hwf; subst.
  simpl. rewrite IH by auto. f_equal. eapply enumerates_unique; eauto. apply rect_cells_enumerates; auto.
Qed.

Lemma grid_size_spec m l :
  Forall wf_rect m -> Forall (fun g =>
    (c_row (g_end g) - c_row (g_start g) + 1) * (c_col (g_end g) - c_col (g_start g) + 1) < 2 ^ 31) m ->
  enumerates_all m l -> Z.of_nat (List.length l) < 2 ^ 64 ->
  grid_size m = Ok (Z.of_nat (List.length l)).
Proof.
  intros H1 H2 H3 H4. pose proof (enumerates_all_length m l H1 H3). subst l. apply grid_size_cells; auto.
Qed.

(* the last row is INT16_MAX: the row counter wraps and the loop never ends *)
Definition top_rect : mcast := [mkGrid (mkCoord 0 32767 5) (mkCoord 0 32767 5)].
Lemma top_rect_inv fuel : forall it, snd it = O -> c_col (fst it) = 5 ->
  - 2 ^ 15 <= c_row (fst it) < 2 ^ 15 -> mc_walk fuel top_rect it = None.
Proof.
  induction fuel as [|f IH]; intros [pos idx] H1 H2 H3; simpl in H1; subst idx; cbn [mc_walk].
  - reflexivity.
  - change (mc_at_end top_rect (pos, O)) with false. cbv iota.
    rewrite IH; auto; unfold mc_next, top_rect; cbn [nth_error g_end g_start c_row c_col fst snd] in *;
      rewrite H2; change (5 <? 5) with false; cbv iota; pose proof (i16_range (c_row pos + 1));
      replace (i16 (c_row pos + 1) >? 32767) with false by lia; cbn [fst snd c_row c_col]; auto; lia.
Qed.
Lemma top_rect_diverges fuel : mc_walk fuel top_rect (mc_begin top_rect) = None.
Proof. apply top_rect_inv; simpl; auto. lia. Qed.

(** * C10 *)
Lemma coord_eqb_eq a b : coord_eqb a b = true <-> a = b.
Proof.
  unfold coord_eqb. destruct a as [a1 a2 a3], b as [b1 b2 b3]; simpl.
  rewrite !andb_true_iff, !Z.eqb_eq. split; [intros [[-> ->] ->]|intros [= -> -> ->]]; auto.
Qed.
Lemma coord_hash a b : coord_eqb a b = true -> hash_coord a = hash_coord b.
Proof. intros H. apply coord_eqb_eq in H. subst. reflexivity. Qed.
Lemma mcast_hash_same_device a b :
  mcast_eqb a b = true ->
  map (fun g => (c_dev (g_start g), c_dev (g_end g))) a = map (fun g => (c_dev (g_start g), c_dev (g_end g))) b ->
  hash_mcast a = hash_mcast b.
Proof.
  unfold hash_mcast. generalize 0 as seed. revert b.
  induction a as [|x a IH]; intros [|y b] seed; simpl; try discriminate; auto.
  intros H E. apply andb_true_iff in H. destruct H as [Hxy Hab]. injection E as E1 E2 E3.
  assert (x = y).
  { unfold cgrid_eqb in Hxy. rewrite !andb_true_iff, !Z.eqb_eq in Hxy.
    destruct x as [[? ? ?] [? ? ?]], y as [[? ? ?] [? ? ?]]; simpl in *.
    intuition congruence. }
  subst y. apply IH; auto.
Qed.

(** * C11 *)
Lemma shiftr_word n b k : 0 <= n < 2 ^ b -> 0 <= k -> 0 <= b -> Z.shiftr n k < 2 ^ b /\ 0 <= Z.shiftr n k.
Proof.
  intros. rewrite Z.shiftr_div_pow2 by lia.
  assert (0 < 2 ^ k) by (apply Z.pow_pos_nonneg; lia).
  split. 2: apply Z.div_pos; lia.
  apply Z.le_lt_trans with n; [|lia]. apply Z.div_le_upper_bound; nia.
Qed.
Lemma testbit_high n b i : 0 <= n < 2 ^ b -> 0 <= b <= i -> Z.testbit n i = false.
Proof.
  intros H Hi. destruct (Z.eq_dec n 0) as [->|]. apply Z.testbit_0_l.
  apply Z.bits_above_log2; [lia|]. apply Z.log2_lt_pow2 ; [lia|].
  apply Z.lt_le_trans with (2 ^ b); [lia|]. apply Z.pow_le_mono_r; lia.
Qed.
Lemma bound_of_bits n b : 0 <= n -> 0 <= b -> (forall i, b <= i -> Z.testbit n i = false) -> n < 2 ^ b.
Proof.
  intros Hn Hb H. destruct (Z_lt_le_dec n (2 ^ b)) as [|Hge]; auto. exfalso.
  assert (0 < n) by (apply Z.lt_le_trans with (2 ^ b); [apply Z.pow_pos_nonneg; lia|auto]).
  assert (Hl : b <= Z.log2 n) by (apply Z.log2_le_pow2; lia).
  specialize (H _ Hl). rewrite Z.bit_log2 in H by lia. discriminate.
Qed.
Lemma xorshift_word n b k : word b n -> 0 <= k -> 0 <= b -> word b (xorshift n k).
Proof.
  unfold word, xorshift. intros Hn Hk Hb. destruct (shiftr_word n b k Hn Hk Hb) as [H1 H2].
  assert (0 <= Z.lxor n (Z.shiftr n k)) by (apply Z.lxor_nonneg; lia).
  split; auto. apply bound_of_bits; auto. intros i Hi.
  rewrite Z.lxor_spec, (testbit_high n b), (testbit_high (Z.shiftr n k) b) by lia. reflexivity.
Qed.
Lemma xorshift_invol n b k : word b n -> b <= 2 * k -> 0 <= b -> xorshift (xorshift n k) k = n.
Proof.
  unfold word, xorshift. intros Hn Hk Hb. apply Z.bits_inj'. intros i Hi.
  rewrite Z.lxor_spec, Z.shiftr_spec, !Z.lxor_spec, !Z.shiftr_spec by lia.
  rewrite (testbit_high n b (i + k + k)) by lia.
  destruct (Z.testbit n i), (Z.testbit n (i + k)); reflexivity.
Qed.
Lemma odd_mul_inv b p q x : 0 <= b -> (p * q) mod 2 ^ b = 1 -> word b x ->
  (q * ((p * x) mod 2 ^ b)) mod 2 ^ b = x.
Proof.
  intros Hb Hpq Hx. unfold word in Hx.
  assert (0 < 2 ^ b) by (apply Z.pow_pos_nonneg; lia).
  rewrite Z.mul_mod_idemp_r by lia. replace (q * (p * x)) with ((p * q) * x) by ring.
  rewrite <- Z.mul_mod_idemp_l, Hpq, Z.mul_1_l by lia. apply Z.mod_small; lia.
Qed.
Definition mix (b k p q x : Z) : Z := (q * xorshift ((p * xorshift x k) mod 2 ^ b) k) mod 2 ^ b.
Definition unmix (b k p' q' y : Z) : Z := xorshift ((p' * xorshift ((q' * y) mod 2 ^ b) k) mod 2 ^ b) k.
Lemma mod_word b x : 0 <= b -> word b (x mod 2 ^ b).
Proof. intros. unfold word. apply Z.mod_pos_bound. apply Z.pow_pos_nonneg; lia. Qed.
Lemma unmix_mix b k p q p' q' x : 0 <= k -> b <= 2 * k -> 0 <= b ->
  (p * p') mod 2 ^ b = 1 -> (q * q') mod 2 ^ b = 1 -> word b x ->
  unmix b k p' q' (mix b k p q x) = x.
Proof.
  intros Hk Hb Hb0 Hp Hq Hx. unfold unmix, mix.
  rewrite (odd_mul_inv b q q') by (auto; apply xorshift_word; auto; apply mod_word; auto).
  rewrite (xorshift_invol _ b) by (auto; apply mod_word; auto).
  rewrite (odd_mul_inv b p p') by (auto; apply xorshift_word; auto).
  apply (xorshift_invol _ b); auto.
Qed.
Lemma mix_unmix b k p q p' q' x : 0 <= k -> b <= 2 * k -> 0 <= b ->
  (p * p') mod 2 ^ b = 1 -> (q * q') mod 2 ^ b = 1 -> word b x ->
  mix b k p q (unmix b k p' q' x) = x.
Proof.
  intros Hk Hb Hb0 Hp Hq Hx. rewrite Z.mul_comm in Hp, Hq. unfold unmix, mix.
  rewrite (xorshift_invol _ b) by (auto; apply mod_word; auto).
  rewrite (odd_mul_inv b p' p) by (auto; apply xorshift_word; auto; apply mod_word; auto).
  rewrite (xorshift_invol _ b) by (auto; apply mod_word; auto).
  apply (odd_mul_inv b q' q); auto.
Qed.
Lemma mix_bijective b k p q p' q' : 0 <= k -> b <= 2 * k -> 0 <= b ->
  (p * p') mod 2 ^ b = 1 -> (q * q') mod 2 ^ b = 1 -> bijective_on (word b) (mix b k p q).
Proof.
  intros Hk Hb Hb0 Hp Hq. split; [|split].
  - intros. unfold mix. apply mod_word; auto.
  - intros x y Hx Hy E.
    rewrite <- (unmix_mix b k p q p' q' x), <- (unmix_mix b k p q p' q' y) by auto. congruence.
  - intros y Hy. exists (unmix b k p' q' y). split. 2: apply mix_unmix; auto.
    unfold unmix. apply xorshift_word; auto. apply mod_word; auto.
Qed.

Lemma distribute32_bijective : bijective_on (word 32) distribute32.
Proof.
  exact (mix_bijective 32 16 1431655765 3423571495 4294967293 582156695
           ltac:(lia) ltac:(lia) ltac:(lia) eq_refl eq_refl).
Qed.
Lemma distribute64_bijective : bijective_on (word 64) distribute64.
Proof.
  exact (mix_bijective 64 32 6148914691236517205 17316035218449499591 18446744073709551613
           5147537568999943159 ltac:(lia) ltac:(lia) ltac:(lia) eq_refl eq_refl).
Qed.
Lemma hash_combine_inj seed h1 h2 :
  word 64 h1 -> word 64 h2 -> hash_combine seed h1 = hash_combine seed h2 -> h1 = h2.
Proof.
  intros H1 H2 E. unfold hash_combine in E.
  assert (distribute64 h1 = distribute64 h2).
  { apply (f_equal (Z.lxor (rotl64 seed 21))) in E.
    rewrite <- !Z.lxor_assoc, Z.lxor_nilpotent, !Z.lxor_0_l in E. exact E. }
  destruct distribute64_bijective as [_ [Hi _]]. auto.
Qed.
(* rotation: bit i of the result is bit (i - 21) mod 64 of the word *)
Lemma rotl64_testbit x i : word 64 x -> 0 <= i < 64 ->
  Z.testbit (rotl64 x 21) i = Z.testbit x (if i <? 21 then i + 43 else i - 21).
Proof.
  intros Hx Hi. unfold rotl64, u64.
  rewrite Z.lor_spec, Z.mod_pow2_bits_low, Z.shiftl_spec, Z.shiftr_spec by lia.
  change (64 - 21) with 43. destruct (i <? 21) eqn:E.
  - rewrite Z.testbit_neg_r by lia. reflexivity.
  - rewrite (testbit_high x 64 (i + 43)) by (unfold word in Hx; lia). apply orb_false_r.
Qed.
Lemma rotl64_inj x y : word 64 x -> word 64 y -> rotl64 x 21 = rotl64 y 21 -> x = y.
Proof.
  intros Hx Hy E. apply Z.bits_inj'. intros i Hi.
  destruct (Z_lt_le_dec i 64).
  2:{ rewrite (testbit_high x 64), (testbit_high y 64) by (unfold word in *; lia). reflexivity. }
  destruct (Z_lt_le_dec i 43).
  - pose proof (rotl64_testbit x (i + 21) Hx ltac:(lia)) as A.
    pose proof (rotl64_testbit y (i + 21) Hy ltac:(lia)) as B.
    replace (i + 21 <? 21) with false in * by lia. replace (i + 21 - 21) with i in * by lia. congruence.
  - pose proof (rotl64_testbit x (i - 43) Hx ltac:(lia)) as A.
    pose proof (rotl64_testbit y (i - 43) Hy ltac:(lia)) as B.
    replace (i - 43 <? 21) with true in * by lia. replace (i - 43 + 43) with i in * by lia. congruence.
Qed.
Lemma hash_combine_seed_inj s1 s2 h :
  word 64 s1 -> word 64 s2 -> hash_combine s1 h = hash_combine s2 h -> s1 = s2.
Proof.
  intros H1 H2 E. unfold hash_combine in E. apply rotl64_inj; auto.
  apply (f_equal (fun z => Z.lxor z (distribute64 h))) in E.
  rewrite !Z.lxor_assoc, Z.lxor_nilpotent, !Z.lxor_0_r in E. exact E.
Qed.

(** * C14: zones *)
Lemma count_inc_get cs k k' : count_get (count_inc cs k) k' = count_get cs k' + (if String.eqb k k' then 1 else 0).
Proof.
  induction cs as [|[k0 v] cs IH]; simpl.
  - destruct (String.eqb k k'); reflexivity.
  - destruct (String.eqb k0 k) eqn:E; simpl.
    + apply String.eqb_eq in E; subst k0. destruct (String.eqb k k'); lia.
    + destruct (String.eqb k0 k') eqn:E2; auto.
      apply String.eqb_eq in E2; subst k0. rewrite String.eqb_sym, E. lia.
Qed.
Lemma last_enclosing_snoc l i (e : list (zone * Z)) x c :
  last_enclosing (mkZI l i (e ++ [x]) c) = Some x.
Proof. unfold last_enclosing. simpl. rewrite rev_app_distr. reflexivity. Qed.
Lemma begins_app n a b : begins n (a ++ b) = (begins n a + begins n b)%nat.
Proof. unfold begins. rewrite filter_app, app_length. reflexivity. Qed.

Lemma open_at_bound evs st : open_at evs st -> Forall (fun i => (i < List.length evs)%nat) st.
Proof.
  induction 1 as [|evs st z H IH Hz|evs st i b z H IH Hz Hb Hn].
  - constructor.
  - apply Forall_app. rewrite app_length. simpl. split.
    + eapply Forall_impl; [|exact IH]. simpl. lia.
    + repeat constructor. lia.
  - apply Forall_app in IH. destruct IH as [IH _]. rewrite app_length. simpl.
    eapply Forall_impl; [|exact IH]. simpl. lia.
Qed.
Lemma open_at_functional evs st1 st2 : open_at evs st1 -> open_at evs st2 -> st1 = st2.
Proof.
  intros H. revert st2. induction H as [|evs st z H IH Hz|evs st i b z H IH Hz Hb Hn]; intros st2 H2.
  - inversion H2 as [|evs' ? ? ? ? E|evs' ? ? ? ? ? ? ? ? E]; auto; destruct evs'; discriminate.
  - inversion H2 as [E|evs' ? ? Ho Hp E|evs' ? ? ? ? Ho Hp ? ? E].
    + destruct evs; discriminate.
    + apply app_inj_tail in E. destruct E as [-> ->]. f_equal. auto.
    + apply app_inj_tail in E. destruct E as [-> ->]. congruence.
  - inversion H2 as [E|evs' ? ? Ho Hp E|evs' ? ? ? ? Ho Hp ? ? E].
    + destruct evs; discriminate.
    + apply app_inj_tail in E. destruct E as [-> ->]. congruence.
    + apply app_inj_tail in E. destruct E as [-> ->]. apply IH in Ho.
      apply app_inj_tail in Ho. tauto.
Qed.
Lemma zone_entry_app evs more i e : (i < List.length evs)%nat -> zone_entry evs i e -> zone_entry (evs ++ more) i e.
Proof.
  intros Hi (z & Hz & ->). exists z. rewrite nth_error_app1 by auto. split; auto.
  rewrite firstn_app. replace (i - List.length evs)%nat with O by lia. rewrite firstn_O, app_nil_r. reflexivity.
Qed.

(* state reached after k successful steps *)
Definition zi_inv (l : list zone) (k : nat) (it : zone_iter) : Prop :=
  zi_list it = l /\ zi_index it = k /\
  (forall n, count_get (zi_counts it) n = Z.of_nat (begins n (firstn k l))) /\
  exists st, open_at (firstn k l) st /\ Forall2 (zone_entry l) st (zi_enclosing it).

Lemma firstn_snoc {A} (l : list A) k z : nth_error l k = Some z -> firstn (S k) l = firstn k l ++ [z].
Proof.
  revert k. induction l as [|a l IH]; intros [|k] H; simpl in *; try discriminate.
  - injection H as ->. reflexivity.
  - f_equal. auto.
Qed.
Lemma nth_error_firstn_lt {A} (l : list A) k i : (i < k)%nat -> nth_error (firstn k l) i = nth_error l i.
Proof.
  revert l i. induction k as [|k IH]; intros l i H; [lia|].
  destruct l as [|a l]; simpl; auto. destruct i; simpl; auto. apply IH. lia.
Qed.

Lemma Forall2_snoc_inv_l {A B} (R : A -> B -> Prop) l x m :
  Forall2 R (l ++ [x]) m -> exists m' y, m = m' ++ [y] /\ Forall2 R l m' /\ R x y.
Proof.
  intros H. apply Forall2_app_inv_l in H. destruct H as (m1 & m2 & H1 & H2 & ->).
  inversion H2 as [|? y ? ? Hy H3]; subst. inversion H3; subst. eauto 6.
Qed.

Lemma zi_step l k it z : zi_inv l k it -> nth_error l k = Some z ->
  match zi_next it with
  | Ok it' => zi_inv l (S k) it'
  | Throw UNDEF_ERR => forall st, ~ open_at (firstn (S k) l) st
  | _ => False
  end.
Proof.
  intros (Hl & Hi & Hc & st & Ho & Hf) Hz. unfold zi_next. rewrite Hl, Hi, Hz.
  assert (Hk : (k < List.length l)%nat) by (apply nth_error_Some; congruence).
  assert (Hlen : List.length (firstn k l) = k) by (rewrite firstn_length; lia).
  destruct (z_phase z) eqn:Ep.
  - unfold zi_inv. cbn [zi_list zi_index zi_counts zi_enclosing].
    split; auto. split; auto. split.
    + intros n. rewrite count_inc_get, Hc, (firstn_snoc _ _ _ Hz), begins_app.
      unfold begins at 3. simpl. rewrite Ep. destruct (String.eqb (z_name z) n); simpl; lia.
    + exists (st ++ [k]). split.
      * rewrite (firstn_snoc _ _ _ Hz). rewrite <- Hlen at 2. constructor; auto.
      * apply Forall2_app; auto. constructor; [|constructor]. exists z. split; auto. rewrite Hc. reflexivity.
  - destruct st as [|i st _] using rev_ind.
    + assert (E : zi_enclosing it = []) by (inversion Hf; auto). unfold last_enclosing. rewrite E. cbn [rev].
      intros st Ho'. rewrite (firstn_snoc _ _ _ Hz) in Ho'.
      inversion Ho' as [E'|evs' ? ? Ho1 Hp E'|evs' ? ? ? ? Ho1 Hp ? ? E'].
      * destruct (firstn k l); discriminate.
      * apply app_inj_tail in E'. destruct E' as [-> ->]. congruence.
      * apply app_inj_tail in E'. destruct E' as [-> ->].
        pose proof (open_at_functional _ _ _ Ho Ho1) as X. destruct st; discriminate.
    + destruct (Forall2_snoc_inv_l _ _ _ _ Hf) as (encl & y & Ee & Hf' & (b & Hb & ->)).
      rewrite <- Hl. destruct it as [itl iti ite itc]; cbn [zi_enclosing zi_list zi_index zi_counts] in *.
      subst ite itl iti. rewrite last_enclosing_snoc.
      assert (Hik : (i < k)%nat).
      { pose proof (open_at_bound _ _ Ho) as Hb'. apply Forall_app in Hb'. destruct Hb' as [_ Hb'].
        inversion Hb'; subst. lia. }
      destruct (String.eqb (z_name z) (z_name b)) eqn:En.
      * apply String.eqb_eq in En. unfold zi_inv. cbn [zi_list zi_index zi_counts zi_enclosing].
        split; auto. split; auto. split.
        -- intros n. rewrite Hc, (firstn_snoc _ _ _ Hz), begins_app.
           unfold begins at 3. simpl. rewrite Ep. simpl. lia.
        -- exists st. rewrite removelast_last. split; auto. rewrite (firstn_snoc _ _ _ Hz).
           apply open_end with (i := i) (b := b); auto. rewrite nth_error_firstn_lt; auto.
      * intros st' Ho'. rewrite (firstn_snoc _ _ _ Hz) in Ho'.
        inversion Ho' as [E'|evs' ? ? Ho1 Hp E'|evs' ? i' b' ? Ho1 Hp Hb1 Hn1 E'].
        -- destruct (firstn k l); discriminate.
        -- apply app_inj_tail in E'. destruct E' as [-> ->]. congruence.
        -- apply app_inj_tail in E'. destruct E' as [-> ->].
           pose proof (open_at_functional _ _ _ Ho Ho1) as X. apply app_inj_tail in X.
           destruct X as [-> ->]. rewrite nth_error_firstn_lt, Hb in Hb1 by auto.
           injection Hb1 as ->. apply String.eqb_neq in En. congruence.
Qed.

Lemma open_at_prefix evs more st : open_at (evs ++ more) st -> exists st', open_at evs st'.
Proof.
  revert st. induction more as [|m more IH] using rev_ind; intros st H.
  - rewrite app_nil_r in H. eauto.
  - rewrite app_assoc in H. inversion H as [E|evs' ? ? Ho Hp E|evs' ? ? ? ? Ho Hp ? ? E].
    + destruct evs; destruct more; discriminate.
    + apply app_inj_tail in E. destruct E as [-> ->]. eauto.
    + apply app_inj_tail in E. destruct E as [-> ->]. eauto.
Qed.

Lemma iterate_spec l k : (k <= List.length l)%nat ->
  match iterate k (zi_make l) with
  | Ok it => zi_inv l k it
  | Throw UNDEF_ERR => forall st, ~ open_at (firstn k l) st
  | _ => False
  end.
Proof.
  induction k as [|k IH]; intros Hk.
  - simpl. unfold zi_inv. simpl. repeat split; auto. exists []. split; constructor.
  - cbn [iterate]. specialize (IH ltac:(lia)).
    destruct (nth_error l k) as [z|] eqn:Hz.
    2:{ apply nth_error_None in Hz. lia. }
    destruct (iterate k (zi_make l)) as [it|[]| | | | |]; try contradiction; cbn [bind].
    + apply zi_step with (z := z); auto.
    + intros st Ho. rewrite (firstn_snoc _ _ _ Hz) in Ho. apply open_at_prefix in Ho.
      destruct Ho as [st' Ho]. apply (IH st'); auto.
Qed.

Lemma iterate_ok l k st : (k <= List.length l)%nat -> open_at (firstn k l) st ->
  exists it, iterate k (zi_make l) = Ok it /\ zi_index it = k /\ Forall2 (zone_entry l) st (zi_enclosing it).
Proof.
  intros Hk Ho. pose proof (iterate_spec l k Hk) as H.
  destruct (iterate k (zi_make l)) as [it|[]| | | | |]; try contradiction.
  - destruct H as (_ & Hi & _ & st' & Ho' & Hf). exists it.
    rewrite (open_at_functional _ _ _ Ho Ho'). auto.
  - destruct (H st Ho).
Qed.
Lemma iterate_err l k : (k <= List.length l)%nat -> (forall st, ~ open_at (firstn k l) st) ->
  iterate k (zi_make l) = Throw UNDEF_ERR.
Proof.
  intros Hk Ho. pose proof (iterate_spec l k Hk) as H.
  destruct (iterate k (zi_make l)) as [it|[]| | | | |]; try contradiction; auto.
  destruct H as (_ & _ & _ & st' & Ho' & _). destruct (Ho st' Ho').
Qed.
Lemma iterate_end l it j : iterate (List.length l) (zi_make l) = Ok it ->
  iterate (List.length l + j) (zi_make l) = Ok it /\ zi_is_end it = true.
Proof.
  intros H. pose proof (iterate_spec l (List.length l) (Nat.le_refl _)) as S. rewrite H in S.
  destruct S as (Hl & Hi & _). split.
  - induction j as [|j IH]. rewrite Nat.add_0_r; auto.
    rewrite Nat.add_succ_r. cbn [iterate]. rewrite IH. cbn [bind]. unfold zi_next.
    rewrite Hl, Hi. replace (nth_error l (List.length l)) with (@None zone); auto.
    symmetry. apply nth_error_None. auto.
  - unfold zi_is_end. rewrite Hl, Hi. apply Nat.eqb_refl.
Qed.

Lemma well_nested_open l : well_nested l -> forall evs st, open_at evs st -> open_at (evs ++ l) st.
Proof.
  induction 1 as [|b inner e rest Hb He Hn Hi IHi Hr IHr]; intros evs st Ho.
  - rewrite app_nil_r. auto.
  - replace (evs ++ b :: inner ++ e :: rest) with ((((evs ++ [b]) ++ inner) ++ [e]) ++ rest)
      by (rewrite <- !app_assoc; reflexivity).
    apply IHr. apply open_end with (i := List.length evs) (b := b); auto.
    + apply IHi. constructor; auto.
    + rewrite <- app_assoc, nth_error_app2, Nat.sub_diag by lia. reflexivity.
Qed.
Lemma well_nested_walk l : well_nested l ->
  exists it, iterate (List.length l) (zi_make l) = Ok it /\ zi_enclosing it = [] /\ zi_is_end it = true.
Proof.
  intros H. pose proof (well_nested_open l H [] [] open_nil) as Ho. simpl in Ho.
  destruct (iterate_ok l (List.length l) []) as (it & Hit & _ & Hf); auto.
  { rewrite firstn_all. auto. }
  exists it. split; auto. split. inversion Hf; auto.
  apply (iterate_end l it 0 Hit).
Qed.

(* witnesses and combined forms used by PropertiesUtil.v *)
Lemma mcast_make_inv s e m : mcast_make s e = Ok m ->
  m = [mkGrid s e] /\ c_dev s = c_dev e /\ (c_row s <= c_row e \/ c_col s <= c_col e).
Proof.
  unfold mcast_make, tt_assert. destruct (c_dev s =? c_dev e) eqn:E1; cbn [bind]; [|discriminate].
  destruct ((c_row s <=? c_row e) || (c_col s <=? c_col e)) eqn:E2; cbn [bind]; [|discriminate].
  intros [= <-]. split; [reflexivity|lia].
Qed.
Lemma inverted_rect_witness :
  let s := mkCoord 0 0 5 in let e := mkCoord 0 3 2 in
  mcast_make s e = Ok [mkGrid s e] /\
  mcast_coords [mkGrid s e] = Ok [mkCoord 0 0 5; mkCoord 0 1 5; mkCoord 0 2 5; mkCoord 0 3 5] /\
  (forall c, ~ in_rect (mkGrid s e) c) /\
  grid_size [mkGrid s e] = Ok 18446744073709551608.
Proof.
  cbv zeta. repeat split; try reflexivity.
  intros [d r c] (_ & _ & H). simpl in H. lia.
Qed.
Lemma mcast_hash_witness :
  let a := [mkGrid (mkCoord 0 1 1) (mkCoord 0 2 2)] in
  let b := [mkGrid (mkCoord 1 1 1) (mkCoord 1 2 2)] in
  mcast_eqb a b = true /\ hash_mcast a <> hash_mcast b.
Proof. split; [reflexivity|]. vm_compute. discriminate. Qed.

Lemma wrap_no_overflow_routing x (range : Z) :
  - 2 ^ 31 <= x < 2 ^ 31 -> 0 < range < 2 ^ 31 ->
  exists v, wrapToRange x range = Ok v /\ is_remainder x range v /\ i32 v = v.
Proof.
  intros Hx Hr. destruct (wrapToRange_spec x range) as (v & Hv & Hrem); [lia|].
  exists v. split; [auto|split; [auto|]]. apply i32_id. destruct Hrem. lia.
Qed.
Lemma wrapToRange_overflow_witness :
  wrapToRange (2 ^ 62) (2 ^ 62 + 1) = UB "signed overflow".
Proof. reflexivity. Qed.

Lemma inverted_rect_refuted : exists s e m,
  mcast_make s e = Ok m /\
  (exists l, mcast_coords m = Ok l /\ List.length l = 4%nat) /\
  (forall g c, In g m -> ~ in_rect g c) /\ grid_size m = Ok (2 ^ 64 - 8).
Proof.
  destruct inverted_rect_witness as (a & b & c & d). do 3 eexists. split; [exact a|].
  split; [eexists; split; [exact b|reflexivity]|]. split; [|exact d].
  intros g x [<-|[]]. apply c.
Qed.
Lemma last_row_refuted : exists s e m,
  mcast_make s e = Ok m /\ forall fuel, mc_walk fuel m (mc_begin m) = None.
Proof. exists (mkCoord 0 32767 5), (mkCoord 0 32767 5), top_rect. split. reflexivity. apply top_rect_diverges. Qed.
Lemma mcast_hash_refuted : exists a b, mcast_eqb a b = true /\ hash_mcast a <> hash_mcast b.
Proof. do 2 eexists. exact mcast_hash_witness. Qed.
Lemma wrap_huge_refuted : exists n r, 0 < r < 2 ^ 63 /\ 0 <= n < 2 ^ 63 /\ wrapToRange n r = UB "signed overflow".
Proof. exists (2 ^ 62), (2 ^ 62 + 1). split; [lia|split; [lia|reflexivity]]. Qed.
