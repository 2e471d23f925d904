(* Proofs about Device.v: identifier tables, routes, latencies, core types *)
From Coq Require Import ZArith Arith ArithRing String List Bool Lia ZifyBool ZifyNat.
From Verif Require Import Base Arith Util Device SpecUtil SpecDevice UtilProofs.
Import ListNotations.
Open Scope Z_scope.
Ltac Zify.zify_post_hook ::= Z.div_mod_to_equations.

(** * Tables *)
Lemma nth_error_flat_map {A B} (f : A -> list B) k l i j a :
  (forall x, List.length (f x) = k) -> (j < k)%nat -> nth_error l i = Some a ->
  nth_error (flat_map f l) (i * k + j) = nth_error (f a) j.
Proof.
  intros Hf Hj. revert i. induction l as [|x l IH]; intros [|i] H; simpl in H; try discriminate.
  - injection H as ->. simpl. rewrite nth_error_app1 by (rewrite Hf; lia). reflexivity.
  - cbn [flat_map]. rewrite nth_error_app2 by (rewrite Hf; nia). rewrite Hf.
    replace (S i * k + j - k)%nat with (i * k + j)%nat by nia. auto.
Qed.
Lemma flat_map_length_const {A B} (f : A -> list B) k l :
  (forall x, List.length (f x) = k) -> List.length (flat_map f l) = (List.length l * k)%nat.
Proof. intros Hf. induction l; simpl; auto. rewrite app_length, Hf, IHl. reflexivity. Qed.
Lemma nth_error_seq0 n i : (i < n)%nat -> nth_error (seq 0 n) i = Some i.
Proof.
  intros H. rewrite (nth_error_nth' _ O) by (rewrite seq_length; auto). f_equal. rewrite seq_nth; auto.
Qed.

Definition pos_idx (d : device) (c : coord) : Z :=
  (c_dev c * Z.of_nat (dv_rows d) + c_row c) * Z.of_nat (dv_cols d) + c_col c.
Definition small (d : device) : Prop :=
  Z.of_nat (dv_chips d) <= 2 ^ 15 /\ Z.of_nat (dv_rows d) <= 2 ^ 15 /\ Z.of_nat (dv_cols d) <= 2 ^ 15.

Lemma wf_small d : wf_device d -> small d.
Proof. intros (H1 & H2 & H3 & H4 & _). unfold small. nia. Qed.

Lemma positions_length d : List.length (positions d) = (dv_chips d * (dv_rows d * dv_cols d))%nat.
Proof.
  unfold positions. rewrite (flat_map_length_const _ (dv_rows d * dv_cols d)), seq_length; auto.
  intros x. rewrite (flat_map_length_const _ (dv_cols d)), seq_length; auto.
  intros y. rewrite map_length, seq_length. auto.
Qed.

Lemma positions_nth d dev r c : (dev < dv_chips d)%nat -> (r < dv_rows d)%nat -> (c < dv_cols d)%nat ->
  nth_error (positions d) (dev * (dv_rows d * dv_cols d) + (r * dv_cols d + c)) =
  Some (Coord_make (Z.of_nat dev) (Z.of_nat r) (Z.of_nat c)).
Proof.
  intros Hd Hr Hc. unfold positions.
  erewrite nth_error_flat_map with (a := dev).
  - erewrite nth_error_flat_map with (a := r).
    + rewrite nth_error_map, nth_error_seq0 by auto. reflexivity.
    + intros. rewrite map_length, seq_length. reflexivity.
    + auto.
    + apply nth_error_seq0; auto.
  - intros x. rewrite (flat_map_length_const _ (dv_cols d)), seq_length; auto.
    intros. rewrite map_length, seq_length. auto.
  - nia.
  - apply nth_error_seq0; auto.
Qed.

Lemma lex_bound a n b m : 0 <= a < n -> 0 <= b < m -> 0 <= a * m + b < n * m.
Proof. nia. Qed.
Lemma positions_nth_idx d c : small d -> in_grid d c ->
  nth_error (positions d) (Z.to_nat (pos_idx d c)) = Some c /\ 0 <= pos_idx d c < Z.of_nat (List.length (positions d)).
Proof.
  intros (S1 & S2 & S3) (H1 & H2 & H3). destruct c as [dev r col]; unfold pos_idx; cbn [c_dev c_row c_col] in *.
  split.
  - replace (Z.to_nat _) with (Z.to_nat dev * (dv_rows d * dv_cols d) + (Z.to_nat r * dv_cols d + Z.to_nat col))%nat.
    + rewrite positions_nth by lia. rewrite !Z2Nat.id by lia. unfold Coord_make.
      rewrite !i16_id by lia. reflexivity.
    + apply Nat2Z.inj. rewrite Z2Nat.id by (pose proof (lex_bound dev _ r _ H1 H2) as L; pose proof (lex_bound _ _ col _ L H3); lia). rewrite !Nat2Z.inj_add, !Nat2Z.inj_mul, !Z2Nat.id by lia. ring.
  - rewrite positions_length, !Nat2Z.inj_mul, Z.mul_assoc.
    apply lex_bound; [apply lex_bound|]; lia.
Qed.

Lemma positions_nth_inv d n c : small d -> nth_error (positions d) n = Some c ->
  in_grid d c /\ Z.of_nat n = pos_idx d c.
Proof.
  intros Hs H. pose proof Hs as (S1 & S2 & S3).
  assert (Hn : (n < List.length (positions d))%nat) by (apply nth_error_Some; congruence).
  rewrite positions_length in Hn.
  assert (Hc0 : dv_cols d <> O) by nia. assert (Hr0 : dv_rows d <> O) by nia.
  set (c' := mkCoord (Z.of_nat (n / (dv_rows d * dv_cols d))) (Z.of_nat ((n mod (dv_rows d * dv_cols d)) / dv_cols d))
               (Z.of_nat (n mod dv_cols d))).
  pose proof (Nat.div_mod n (dv_rows d * dv_cols d) ltac:(nia)) as D1.
  pose proof (Nat.mod_upper_bound n (dv_rows d * dv_cols d) ltac:(nia)) as D2.
  set (q := (n / (dv_rows d * dv_cols d))%nat) in *.
  set (m := (n mod (dv_rows d * dv_cols d))%nat) in *.
  pose proof (Nat.div_mod m (dv_cols d) Hc0) as D3.
  pose proof (Nat.mod_upper_bound m (dv_cols d) Hc0) as D4.
  assert (E : (n mod dv_cols d = m mod dv_cols d)%nat).
  { rewrite D1. replace (dv_rows d * dv_cols d * q + m)%nat with (m + (dv_rows d * q) * dv_cols d)%nat by ring.
    apply Nat.mod_add; auto. }
  assert (Hg : in_grid d c').
  { unfold in_grid, c'; cbn [c_dev c_row c_col]. rewrite E.
    assert (q < dv_chips d)%nat by (apply Nat.div_lt_upper_bound; [nia|rewrite Nat.mul_comm; auto]).
    assert (m / dv_cols d < dv_rows d)%nat by (apply Nat.div_lt_upper_bound; [auto|rewrite Nat.mul_comm; auto]).
    rewrite <- !Nat2Z.inj_lt in *. repeat split; try apply Nat2Z.is_nonneg; auto. }
  assert (Ei : Z.of_nat n = pos_idx d c').
  { unfold pos_idx, c'; cbn [c_dev c_row c_col]. rewrite E.
    set (x := (m / dv_cols d)%nat) in *. set (y := (m mod dv_cols d)%nat) in *.
    rewrite D1, D3. rewrite !Nat2Z.inj_add, !Nat2Z.inj_mul. ring. }
  destruct (positions_nth_idx d c' Hs Hg) as [Hn' _]. rewrite <- Ei, Nat2Z.id, H in Hn'.
  injection Hn' as ->. auto.
Qed.

Lemma index_of_unique {A} (p : A -> bool) l n a :
  nth_error l n = Some a -> p a = true -> (forall m b, nth_error l m = Some b -> p b = true -> m = n) ->
  index_of p l = Some n.
Proof.
  revert n. induction l as [|x l IH]; intros [|n] H Hp Hu; simpl in *; try discriminate.
  - injection H as ->. rewrite Hp. reflexivity.
  - destruct (p x) eqn:E.
    + specialize (Hu O x eq_refl E). discriminate.
    + rewrite (IH n); auto. intros m b Hm Hb. specialize (Hu (S m) b Hm Hb). lia.
Qed.
Lemma index_of_none {A} (p : A -> bool) l : (forall b, In b l -> p b = false) -> index_of p l = None.
Proof.
  induction l as [|x l IH]; simpl; intros H; auto. rewrite (H x) by auto. rewrite IH; auto.
Qed.
Lemma index_of_some {A} (p : A -> bool) l n : index_of p l = Some n -> exists a, nth_error l n = Some a /\ p a = true.
Proof.
  revert n. induction l as [|x l IH]; simpl; intros n H; [discriminate|].
  destruct (p x) eqn:E.
  - injection H as <-. exists x. auto.
  - destruct (index_of p l) as [m|]; [|discriminate]. injection H as <-. simpl. auto.
Qed.

(* position of a type in the type list *)
Definition lt_pos (t : link_type) : Z :=
  match t with NOC0_EAST => 0 | NOC0_SOUTH => 1 | NOC1_NORTH => 2 | NOC1_WEST => 3 end.
Definition link_idx (d : device) (a : link_attr) : Z := pos_idx d (l_coord a) * 4 + lt_pos (l_type a).
Definition niu_idx (d : device) (a : niu_attr) : Z := pos_idx d (n_coord a) * 4 + niu_type_code (n_type a).

Lemma link_type_eqb_eq a b : link_type_eqb a b = true <-> a = b.
Proof. destruct a, b; split; (reflexivity || discriminate). Qed.
Lemma niu_type_eqb_eq a b : niu_type_eqb a b = true <-> a = b.
Proof. destruct a, b; split; (reflexivity || discriminate). Qed.
Lemma link_attr_eqb_eq a b : link_attr_eqb a b = true <-> a = b.
Proof.
  unfold link_attr_eqb. rewrite andb_true_iff, coord_eqb_eq, link_type_eqb_eq.
  destruct a, b; simpl. split; [intros [-> ->]|intros [= -> ->]]; auto.
Qed.
Lemma niu_attr_eqb_eq a b : niu_attr_eqb a b = true <-> a = b.
Proof.
  unfold niu_attr_eqb. rewrite andb_true_iff, coord_eqb_eq, niu_type_eqb_eq.
  destruct a, b; simpl. split; [intros [-> ->]|intros [= -> ->]]; auto.
Qed.

Lemma link_table_length d : List.length (link_table d) = (dv_chips d * (dv_rows d * dv_cols d) * 4)%nat.
Proof. unfold link_table. rewrite (flat_map_length_const _ 4), positions_length; auto. Qed.
Lemma niu_table_length d : List.length (niu_table d) = (dv_chips d * (dv_rows d * dv_cols d) * 4)%nat.
Proof. unfold niu_table. rewrite (flat_map_length_const _ 4), positions_length; auto. Qed.

Lemma link_table_nth d a : small d -> in_grid d (l_coord a) ->
  nth_error (link_table d) (Z.to_nat (link_idx d a)) = Some a /\
  0 <= link_idx d a < Z.of_nat (List.length (link_table d)).
Proof.
  intros Hs Hg. destruct (positions_nth_idx d _ Hs Hg) as [Hn Hb].
  unfold link_idx. split.
  - replace (Z.to_nat _) with (Z.to_nat (pos_idx d (l_coord a)) * 4 + Z.to_nat (lt_pos (l_type a)))%nat
      by (destruct a as [c []]; simpl lt_pos; lia).
    unfold link_table. erewrite nth_error_flat_map; [|reflexivity| |exact Hn].
    + destruct a as [c []]; reflexivity.
    + destruct a as [c []]; simpl; lia.
  - rewrite link_table_length. rewrite positions_length in Hb. destruct a as [c []]; simpl lt_pos; simpl l_coord in *; lia.
Qed.
Lemma niu_table_nth d a : small d -> in_grid d (n_coord a) ->
  nth_error (niu_table d) (Z.to_nat (niu_idx d a)) = Some a /\
  0 <= niu_idx d a < Z.of_nat (List.length (niu_table d)).
Proof.
  intros Hs Hg. destruct (positions_nth_idx d _ Hs Hg) as [Hn Hb].
  unfold niu_idx. split.
  - replace (Z.to_nat _) with (Z.to_nat (pos_idx d (n_coord a)) * 4 + Z.to_nat (niu_type_code (n_type a)))%nat
      by (destruct a as [c []]; simpl niu_type_code; lia).
    unfold niu_table. erewrite nth_error_flat_map; [|reflexivity| |exact Hn].
    + destruct a as [c []]; reflexivity.
    + destruct a as [c []]; simpl; lia.
  - rewrite niu_table_length. rewrite positions_length in Hb. destruct a as [c []]; simpl niu_type_code; simpl n_coord in *; lia.
Qed.

Lemma link_table_nth_inv d n a : small d -> nth_error (link_table d) n = Some a ->
  in_grid d (l_coord a) /\ Z.of_nat n = link_idx d a.
Proof.
  intros Hs H.
  assert (Hn : (n < List.length (link_table d))%nat) by (apply nth_error_Some; congruence).
  unfold link_table in Hn. rewrite (flat_map_length_const _ 4) in Hn by auto.
  pose proof (Nat.div_mod n 4 ltac:(lia)) as D. pose proof (Nat.mod_upper_bound n 4 ltac:(lia)) as D2.
  set (q := (n / 4)%nat) in *. set (m := (n mod 4)%nat) in *.
  destruct (nth_error (positions d) q) as [p|] eqn:E.
  2:{ apply nth_error_None in E. lia. }
  destruct (positions_nth_inv d q p Hs E) as [Hg Hi].
  rewrite D, Nat.mul_comm in H. unfold link_table in H.
  erewrite nth_error_flat_map in H; [|reflexivity|exact D2|exact E].
  unfold link_idx.
  do 4 (destruct m as [|m]; [simpl in H; injection H as <-; simpl; split; [auto|lia]|]). lia.
Qed.
Lemma niu_table_nth_inv d n a : small d -> nth_error (niu_table d) n = Some a ->
  in_grid d (n_coord a) /\ Z.of_nat n = niu_idx d a.
Proof.
  intros Hs H.
  assert (Hn : (n < List.length (niu_table d))%nat) by (apply nth_error_Some; congruence).
  unfold niu_table in Hn. rewrite (flat_map_length_const _ 4) in Hn by auto.
  pose proof (Nat.div_mod n 4 ltac:(lia)) as D. pose proof (Nat.mod_upper_bound n 4 ltac:(lia)) as D2.
  set (q := (n / 4)%nat) in *. set (m := (n mod 4)%nat) in *.
  destruct (nth_error (positions d) q) as [p|] eqn:E.
  2:{ apply nth_error_None in E. lia. }
  destruct (positions_nth_inv d q p Hs E) as [Hg Hi].
  rewrite D, Nat.mul_comm in H. unfold niu_table in H.
  erewrite nth_error_flat_map in H; [|reflexivity|exact D2|exact E].
  unfold niu_idx.
  do 4 (destruct m as [|m]; [simpl in H; injection H as <-; simpl; split; [auto|lia]|]). lia.
Qed.

Lemma getLinkID_eq d a : wf_device d -> in_grid d (l_coord a) -> getLinkID d a = Ok (link_idx d a).
Proof.
  intros Hwf Hg. pose proof (wf_small d Hwf) as Hs.
  destruct (link_table_nth d a Hs Hg) as [Hn Hb].
  unfold getLinkID. rewrite (index_of_unique _ _ _ _ Hn).
  - rewrite Z2Nat.id by lia. rewrite i16_id; auto.
    rewrite link_table_length in Hb. destruct Hwf as (H1 & H2 & H3 & H4 & _). nia.
  - apply link_attr_eqb_eq. reflexivity.
  - intros m b Hm E. apply link_attr_eqb_eq in E. subst b.
    apply (link_table_nth_inv d m a Hs) in Hm. lia.
Qed.
Lemma getLinkID_bad d a : small d -> ~ in_grid d (l_coord a) -> getLinkID d a = Throw UNDEF_ERR.
Proof.
  intros Hs Hg. unfold getLinkID. rewrite index_of_none; auto.
  intros b Hb. destruct (link_attr_eqb a b) eqn:E; auto. apply link_attr_eqb_eq in E. subst b.
  apply In_nth_error in Hb. destruct Hb as [n Hn]. apply link_table_nth_inv in Hn; tauto.
Qed.
Lemma getNIUID_eq d a : wf_device d -> in_grid d (n_coord a) -> getNIUID d a = Ok (niu_idx d a).
Proof.
  intros Hwf Hg. pose proof (wf_small d Hwf) as Hs.
  destruct (niu_table_nth d a Hs Hg) as [Hn Hb].
  unfold getNIUID. rewrite (index_of_unique _ _ _ _ Hn).
  - rewrite Z2Nat.id by lia. rewrite i16_id; auto.
    rewrite niu_table_length in Hb. destruct Hwf as (H1 & H2 & H3 & H4 & _). nia.
  - apply niu_attr_eqb_eq. reflexivity.
  - intros m b Hm E. apply niu_attr_eqb_eq in E. subst b.
    apply (niu_table_nth_inv d m a Hs) in Hm. lia.
Qed.
Lemma getNIUID_bad d a : small d -> ~ in_grid d (n_coord a) -> getNIUID d a = Throw UNDEF_ERR.
Proof.
  intros Hs Hg. unfold getNIUID. rewrite index_of_none; auto.
  intros b Hb. destruct (niu_attr_eqb a b) eqn:E; auto. apply niu_attr_eqb_eq in E. subst b.
  apply In_nth_error in Hb. destruct Hb as [n Hn]. apply niu_table_nth_inv in Hn; tauto.
Qed.
Lemma getLinkAttributes_eq d a : small d -> in_grid d (l_coord a) -> getLinkAttributes d (link_idx d a) = Ok a.
Proof.
  intros Hs Hg. destruct (link_table_nth d a Hs Hg) as [Hn Hb]. unfold getLinkAttributes.
  replace (link_idx d a <? 0) with false by lia. rewrite Hn. reflexivity.
Qed.
Lemma getNIUAttributes_eq d a : small d -> in_grid d (n_coord a) -> getNIUAttributes d (niu_idx d a) = Ok a.
Proof.
  intros Hs Hg. destruct (niu_table_nth d a Hs Hg) as [Hn Hb]. unfold getNIUAttributes.
  replace (niu_idx d a <? 0) with false by lia. rewrite Hn. reflexivity.
Qed.
Lemma getLinkAttributes_inv d id a : small d -> getLinkAttributes d id = Ok a ->
  in_grid d (l_coord a) /\ id = link_idx d a.
Proof.
  unfold getLinkAttributes. intros Hs. destruct (id <? 0) eqn:E; [discriminate|].
  destruct (nth_error (link_table d) (Z.to_nat id)) eqn:En; [|discriminate].
  intros [= <-]. apply link_table_nth_inv in En; auto. destruct En as [H1 H2].
  rewrite Z2Nat.id in H2 by lia. auto.
Qed.
Lemma getNIUAttributes_inv d id a : small d -> getNIUAttributes d id = Ok a ->
  in_grid d (n_coord a) /\ id = niu_idx d a.
Proof.
  unfold getNIUAttributes. intros Hs. destruct (id <? 0) eqn:E; [discriminate|].
  destruct (nth_error (niu_table d) (Z.to_nat id)) eqn:En; [|discriminate].
  intros [= <-]. apply niu_table_nth_inv in En; auto. destruct En as [H1 H2].
  rewrite Z2Nat.id in H2 by lia. auto.
Qed.
Lemma getLinkAttributes_dom d id : small d ->
  (exists a, getLinkAttributes d id = Ok a) <-> 0 <= id < 4 * Z.of_nat (dv_chips d * (dv_rows d * dv_cols d)).
Proof.
  intros Hs. unfold getLinkAttributes. pose proof (link_table_length d) as L.
  destruct (id <? 0) eqn:E.
  - split; [intros [a H]; discriminate|lia].
  - destruct (nth_error (link_table d) (Z.to_nat id)) eqn:En.
    + split; [intros _|eauto]. assert (Z.to_nat id < List.length (link_table d))%nat by (apply nth_error_Some; congruence). lia.
    + split; [intros [a H]; discriminate|]. apply nth_error_None in En. lia.
Qed.
Lemma getNIUAttributes_dom d id : small d ->
  (exists a, getNIUAttributes d id = Ok a) <-> 0 <= id < 4 * Z.of_nat (dv_chips d * (dv_rows d * dv_cols d)).
Proof.
  intros Hs. unfold getNIUAttributes. pose proof (niu_table_length d) as L.
  destruct (id <? 0) eqn:E.
  - split; [intros [a H]; discriminate|lia].
  - destruct (nth_error (niu_table d) (Z.to_nat id)) eqn:En.
    + split; [intros _|eauto]. assert (Z.to_nat id < List.length (niu_table d))%nat by (apply nth_error_Some; congruence). lia.
    + split; [intros [a H]; discriminate|]. apply nth_error_None in En. lia.
Qed.
Lemma link_idx_inj d a b : small d -> in_grid d (l_coord a) -> in_grid d (l_coord b) ->
  link_idx d a = link_idx d b -> a = b.
Proof.
  intros Hs Ha Hb E. pose proof (getLinkAttributes_eq d a Hs Ha) as H1.
  pose proof (getLinkAttributes_eq d b Hs Hb) as H2. congruence.
Qed.
