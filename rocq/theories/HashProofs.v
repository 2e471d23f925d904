(* Keys that differ in one place have different hashes (C100). *)
From Coq Require Import ZArith Lia List Bool.
From Verif Require Import Base Util SpecUtil UtilProofs Device SpecHash.
Import ListNotations.
Open Scope Z_scope.
Ltac Zify.zify_post_hook ::= idtac.

(** * Hashes are words *)
Lemma word_bits x : 0 <= x -> (forall i, 64 <= i -> Z.testbit x i = false) -> word 64 x.
Proof.
  intros H K. split; [exact H|]. destruct (Z.eq_dec x 0) as [->|N]; [reflexivity|]. apply Z.log2_lt_pow2; [lia|].
  destruct (Z_lt_le_dec (Z.log2 x) 64) as [L|L]; [exact L|]. specialize (K _ L). rewrite Z.bit_log2 in K by lia. discriminate K.
Qed.
Lemma u64_word z : word 64 (u64 z). Proof. apply Z.mod_pos_bound. reflexivity. Qed.
Lemma rotl_word x : word 64 x -> word 64 (rotl64 x 21).
Proof.
  intros Hx. unfold rotl64. pose proof (u64_word (Z.shiftl x 21)) as Hu. assert (H0 : 0 <= x) by apply Hx.
  apply word_bits.
  - apply Z.lor_nonneg. split; [apply Hu|]. apply Z.shiftr_nonneg. exact H0.
  - intros i Hi. rewrite Z.lor_spec, (testbit_high _ 64 i) by (first [exact Hu|exact Hi|lia]). rewrite Z.shiftr_spec by lia.
    apply (testbit_high _ 64); [exact Hx|lia].
Qed.
Lemma combine_word s h : word 64 s -> word 64 (hash_combine s h).
Proof.
  intros Hs. unfold hash_combine. pose proof (rotl_word _ Hs) as R. assert (D : word 64 (distribute64 h)) by apply u64_word. apply word_bits.
  - apply Z.lxor_nonneg. split; intros _; [apply D|apply R].
  - intros i Hi. rewrite Z.lxor_spec, !(testbit_high _ 64 i) by (first [exact R|exact D|exact Hi|lia]). reflexivity.
Qed.
Lemma int_inj x y : int16 x -> int16 y -> hash_int x = hash_int y -> x = y.
Proof.
  unfold int16, hash_int, u64. change (2 ^ 15) with 32768. change (2 ^ 64) with 18446744073709551616. intros Hx Hy E.
  assert (G : forall z, - 32768 <= z < 32768 -> z mod 18446744073709551616 = if z <? 0 then z + 18446744073709551616 else z).
  { intros z Hz. destruct (Z.ltb_spec z 0); [symmetry; apply Z.mod_unique_pos with (-1); lia|apply Z.mod_small; lia]. }
  rewrite !G in E by assumption. destruct (Z.ltb_spec x 0), (Z.ltb_spec y 0); lia.
Qed.
Lemma int_word z : word 64 (hash_int z). Proof. apply u64_word. Qed.
Lemma distribute64_word h : word 64 (distribute64 h). Proof. apply u64_word. Qed.
Lemma combine_eq s h : hash_combine s h = Z.lxor (rotl64 s 21) (distribute64 h). Proof. reflexivity. Qed.
Lemma rotl_zero : rotl64 0 21 = 0. Proof. reflexivity. Qed.
Local Opaque hash_combine distribute64 hash_int rotl64.
Lemma zero_word : word 64 0. Proof. split; [lia|reflexivity]. Qed.
Lemma coord_word c : word 64 (hash_coord c). Proof. unfold hash_coord. repeat apply combine_word. exact zero_word. Qed.
Lemma grid_word g : word 64 (hash_grid g). Proof. unfold hash_grid. repeat apply combine_word. exact zero_word. Qed.
Lemma fold_word m : forall s, word 64 s -> word 64 (fold_left (fun seed g => hash_combine seed (hash_grid g)) m s).
Proof. induction m as [|g m IH]; intros s H; [exact H|]. apply IH. apply combine_word. exact H. Qed.

(** * One place *)
Theorem coord_hash_apart a b : coord16 a -> coord16 b -> coord_apart a b -> hash_coord a <> hash_coord b.
Proof.
  intros A B H E. destruct H as [d d' r c N|d r r' c N|d r c c' N]; unfold hash_coord in E; cbn [c_dev c_row c_col] in E; destruct A as (A1 & A2 & A3), B as (B1 & B2 & B3); cbn in A1, A2, A3, B1, B2, B3.
  - apply hash_combine_seed_inj in E; [|repeat apply combine_word; exact zero_word|repeat apply combine_word; exact zero_word].
    apply hash_combine_seed_inj in E; [|apply combine_word; exact zero_word|apply combine_word; exact zero_word].
    apply hash_combine_inj in E; [|apply int_word|apply int_word]. apply N. apply int_inj; assumption.
  - apply hash_combine_seed_inj in E; [|repeat apply combine_word; exact zero_word|repeat apply combine_word; exact zero_word].
    apply hash_combine_inj in E; [|apply int_word|apply int_word]. apply N. apply int_inj; assumption.
  - apply hash_combine_inj in E; [|apply int_word|apply int_word]. apply N. apply int_inj; assumption.
Qed.
Lemma pair_first h h' x : word 64 h -> word 64 h' -> hash_combine (hash_combine 0 h) x = hash_combine (hash_combine 0 h') x -> h = h'.
Proof.
  intros H H' E. apply hash_combine_seed_inj in E; [|apply combine_word; exact zero_word|apply combine_word; exact zero_word]. exact (hash_combine_inj _ _ _ H H' E).
Qed.
Lemma link_code_inj t u : hash_int (link_type_code t) = hash_int (link_type_code u) -> t = u.
Proof.
  intros E. apply int_inj in E; [|unfold int16; destruct t; cbn; lia|unfold int16; destruct u; cbn; lia]. destruct t, u; try reflexivity; discriminate E.
Qed.
Lemma niu_code_inj t u : hash_int (niu_type_code t) = hash_int (niu_type_code u) -> t = u.
Proof.
  intros E. apply int_inj in E; [|unfold int16; destruct t; cbn; lia|unfold int16; destruct u; cbn; lia]. destruct t, u; try reflexivity; discriminate E.
Qed.
Theorem link_hash_apart a b : link_apart a b -> hash_link_attr a <> hash_link_attr b.
Proof.
  intros [c d t C D H|c t u N] E; unfold hash_link_attr in E; cbn [l_coord l_type] in E.
  - apply pair_first in E; [|apply coord_word|apply coord_word]. exact (coord_hash_apart _ _ C D H E).
  - apply N. apply link_code_inj. exact (hash_combine_inj _ _ _ (int_word _) (int_word _) E).
Qed.
Theorem niu_hash_apart a b : niu_apart a b -> hash_niu_attr a <> hash_niu_attr b.
Proof.
  intros [c d t C D H|c t u N] E; unfold hash_niu_attr in E; cbn [n_coord n_type] in E.
  - apply pair_first in E; [|apply coord_word|apply coord_word]. exact (coord_hash_apart _ _ C D H E).
  - apply N. apply niu_code_inj. exact (hash_combine_inj _ _ _ (int_word _) (int_word _) E).
Qed.
Lemma fold_inj m : forall s s', word 64 s -> word 64 s' ->
  fold_left (fun seed g => hash_combine seed (hash_grid g)) m s = fold_left (fun seed g => hash_combine seed (hash_grid g)) m s' -> s = s'.
Proof.
  induction m as [|g m IH]; intros s s' H H' E; [exact E|]. cbn [fold_left] in E. apply IH in E; [|apply combine_word; exact H|apply combine_word; exact H'].
  exact (hash_combine_seed_inj _ _ _ H H' E).
Qed.
Lemma set_grid l g g' r : hash_mcast (l ++ g :: r) = hash_mcast (l ++ g' :: r) -> hash_grid g = hash_grid g'.
Proof.
  unfold hash_mcast. rewrite !fold_left_app. cbn [fold_left]. pose proof (fold_word l 0 zero_word) as W. intros E. apply fold_inj in E; [|apply combine_word; exact W|apply combine_word; exact W].
  exact (hash_combine_inj _ _ _ (grid_word _) (grid_word _) E).
Qed.
Theorem mcast_hash_apart a b : mcast_apart a b -> hash_mcast a <> hash_mcast b.
Proof.
  intros [l c d e r C D H|l s c d r C D H] E; apply set_grid in E; unfold hash_grid in E; cbn [g_start g_end] in E.
  - apply pair_first in E; [|apply coord_word|apply coord_word]. exact (coord_hash_apart _ _ C D H E).
  - apply hash_combine_inj in E; [|apply coord_word|apply coord_word]. exact (coord_hash_apart _ _ C D H E).
Qed.

(** * Two places *)
(* 64 rotations by 21 bits are none: the first and the last of 65 rectangles count alike *)
Fixpoint rotations (n : nat) (x : Z) : Z := match n with O => x | S n => rotl64 (rotations n x) 21 end.
Lemma xor_word x y : word 64 x -> word 64 y -> word 64 (Z.lxor x y).
Proof.
  intros R D. apply word_bits.
  - apply Z.lxor_nonneg. split; intros _; [apply D|apply R].
  - intros i Hi. rewrite Z.lxor_spec, !(testbit_high _ 64 i) by (first [exact R|exact D|exact Hi|lia]). reflexivity.
Qed.
Lemma same_bits x y : word 64 x -> word 64 y -> (forall i, 0 <= i < 64 -> Z.testbit x i = Z.testbit y i) -> x = y.
Proof.
  intros X Y H. apply Z.bits_inj'. intros i Hi. destruct (Z_lt_le_dec i 64) as [K|K]; [apply H; lia|].
  rewrite !(testbit_high _ 64 i) by (first [exact X|exact Y|exact K|lia]). reflexivity.
Qed.
Lemma rotl_xor x y : word 64 x -> word 64 y -> rotl64 (Z.lxor x y) 21 = Z.lxor (rotl64 x 21) (rotl64 y 21).
Proof.
  intros X Y. apply same_bits; [apply rotl_word, xor_word; assumption|apply xor_word; apply rotl_word; assumption|]. intros i Hi.
  rewrite Z.lxor_spec, !rotl64_testbit, Z.lxor_spec by (first [exact X|exact Y|exact Hi|apply xor_word; assumption]). reflexivity.
Qed.
Lemma rotations_next n x : rotl64 (rotations n x) 21 = rotations (S n) x. Proof. reflexivity. Qed.
Lemma rotations_word n x : word 64 x -> word 64 (rotations n x). Proof. intros H. induction n as [|n IH]; [exact H|apply rotl_word; exact IH]. Qed.
Lemma rotations_bit n x : word 64 x -> forall i, 0 <= i < 64 -> Z.testbit (rotations n x) i = Z.testbit x ((i - 21 * Z.of_nat n) mod 64).
Proof.
  intros H. induction n as [|n IH]; intros i Hi.
  - cbn [rotations]. f_equal. rewrite Z.mul_0_r, Z.sub_0_r. symmetry. apply Z.mod_small. exact Hi.
  - cbn [rotations]. rewrite rotl64_testbit by (first [apply rotations_word; exact H|exact Hi]). rewrite Nat2Z.inj_succ. destruct (Z.ltb_spec i 21) as [K|K].
    + rewrite IH by lia. f_equal. replace (i + 43 - 21 * Z.of_nat n) with (i - 21 * Z.succ (Z.of_nat n) + 1 * 64) by lia. apply Z_mod_plus_full.
    + rewrite IH by lia. f_equal. f_equal. lia.
Qed.
Lemma rotations_none x : word 64 x -> rotations 64 x = x.
Proof.
  intros H. apply same_bits; [apply rotations_word; exact H|exact H|]. intros i Hi. rewrite rotations_bit by assumption. f_equal.
  replace (i - 21 * Z.of_nat 64) with (i + (-21) * 64) by lia. rewrite Z_mod_plus_full. apply Z.mod_small. exact Hi.
Qed.
Lemma xor_swap a b c : Z.lxor (Z.lxor a b) c = Z.lxor (Z.lxor a c) b. Proof. rewrite !Z.lxor_assoc, (Z.lxor_comm b). reflexivity. Qed.
Lemma combine_xor s d h : word 64 s -> word 64 d -> hash_combine (Z.lxor s d) h = Z.lxor (hash_combine s h) (rotl64 d 21).
Proof. intros S D. rewrite !combine_eq, rotl_xor by assumption. apply xor_swap. Qed.
Lemma combine_zero h : hash_combine 0 h = distribute64 h. Proof. rewrite combine_eq, rotl_zero. apply Z.lxor_0_l. Qed.
Lemma fold_xor m : forall s d, word 64 s -> word 64 d ->
  fold_left (fun seed g => hash_combine seed (hash_grid g)) m (Z.lxor s d) = Z.lxor (fold_left (fun seed g => hash_combine seed (hash_grid g)) m s) (rotations (List.length m) d).
Proof.
  induction m as [|g m IH]; intros s d S D; [reflexivity|]. cbn [fold_left List.length]. rewrite combine_xor by assumption. rewrite IH by (first [apply combine_word; exact S|apply rotl_word; exact D]).
  f_equal. clear. generalize (List.length m) as n. intros n. induction n as [|n IH]; [reflexivity|]. cbn [rotations] in *. rewrite IH. reflexivity.
Qed.
Lemma fold_ends {X Y} (f : X -> Y -> X) a m b s : fold_left f (a :: m ++ [b]) s = f (fold_left f m (f s a)) b.
Proof. rewrite app_comm_cons, fold_left_app. reflexivity. Qed.
Lemma ends_eq a m b : hash_mcast (a :: m ++ [b]) = hash_combine (fold_left (fun seed g => hash_combine seed (hash_grid g)) m (hash_combine 0 (hash_grid a))) (hash_grid b).
Proof. exact (fold_ends (fun seed g => hash_combine seed (hash_grid g)) a m b 0). Qed.
Lemma ends_xor x y m : List.length m = 63%nat -> word 64 x ->
  hash_combine (fold_left (fun seed g => hash_combine seed (hash_grid g)) m x) y =
  Z.lxor (Z.lxor (rotl64 (fold_left (fun seed g => hash_combine seed (hash_grid g)) m 0) 21) (distribute64 y)) x.
Proof.
  intros L X. rewrite <- (Z.lxor_0_l x) at 1. rewrite (fold_xor m 0 x zero_word X), L. pose proof (fold_word m 0 zero_word) as W. rewrite (combine_xor _ _ _ W (rotations_word 63 x X)).
  rewrite rotations_next, (rotations_none x X), combine_eq. reflexivity.
Qed.
Theorem mcast_hash_swap g g' m : List.length m = 63%nat -> hash_mcast (g :: m ++ [g']) = hash_mcast (g' :: m ++ [g]).
Proof.
  intros L. rewrite !ends_eq, !combine_zero. rewrite (ends_xor _ _ _ L (distribute64_word (hash_grid g))), (ends_xor _ _ _ L (distribute64_word (hash_grid g'))). apply xor_swap.
Qed.
Theorem mcast_hash_swapped : exists a b, a <> b /\ List.length a = List.length b /\ hash_mcast a = hash_mcast b.
Proof.
  set (g := mkGrid (mkCoord 0 1 1) (mkCoord 0 2 2)). set (g' := mkGrid (mkCoord 0 3 3) (mkCoord 0 4 5)). set (m := repeat g 63).
  exists (g :: m ++ [g']), (g' :: m ++ [g]). split; [discriminate|]. split; [reflexivity|]. apply mcast_hash_swap. reflexivity.
Qed.
