(* C97: grids hold what is stored in them. *)
From Coq Require Import ZArith String List Bool Lia Sorting.Permutation.
From Verif Require Import Base Util Device Grid SpecGrid GridProofs.
Import ListNotations.
Local Open Scope list_scope.
Open Scope Z_scope.

(* after any assignments inside the grid every position holds the value last assigned to it, and a position outside ends the process. For grids whose number of positions fits in 64 bits *)
Theorem C97_two_partial : forall (T : Type) rows cols (v0 : T) ops, 0 <= rows -> 0 <= cols -> rows * cols < 2 ^ 64 -> (forall p v, In (Put p v) ops -> inside2 rows cols p) ->
  exists g, foldM apply2 ops (g2_new rows cols v0) = Ok g /\ g2_size g = rows * cols /\
    (forall r c, inside2 rows cols (r, c) -> g2_get g r c = Ok (value same2 ops v0 (r, c))) /\
    (forall r c v, 0 <= r -> 0 <= c -> ~ inside2 rows cols (r, c) -> g2_get g r c = Abort /\ g2_set g r c v = Abort).
Proof. exact @grid2_stores. Qed.
Print Assumptions C97_two_partial.
(* 3 rows of 4 columns *)
Example C97_two_case : exists g, foldM apply2 [Put (1, 2) 7; Put (2, 1) 8; Clear 5; Put (0, 3) 6; Put (1, 0) 4; Put (0, 3) 9] (g2_new 3 4 0) = Ok g /\
  g2_get g 0 3 = Ok 9 /\ g2_get g 1 0 = Ok 4 /\ g2_get g 1 2 = Ok 5 /\ g2_get g 2 4 = Abort /\ g2_get g 3 0 = Abort.
Proof.
  destruct (C97_two_partial Z 3 4 0 [Put (1, 2) 7; Put (2, 1) 8; Clear 5; Put (0, 3) 6; Put (1, 0) 4; Put (0, 3) 9]) as (g & HR & _ & HI & HO); try lia.
  { intros p v Hp. cbn in Hp. unfold inside2. repeat destruct Hp as [Hp|Hp]; try discriminate; try (injection Hp as <- <-; cbn; lia). destruct Hp. }
  exists g. split; [exact HR|]. rewrite !HI by (unfold inside2; cbn; lia). split; [reflexivity|]. split; [reflexivity|]. split; [reflexivity|].
  split; apply (HO _ _ 0); try lia; unfold inside2; cbn; lia.
Qed.

Theorem C97_three_partial : forall (T : Type) rows cols items (v0 : T) ops, 0 <= rows -> 0 <= cols -> 0 <= items -> rows * cols * items < 2 ^ 64 -> cols * items < 2 ^ 64 ->
  (forall p v, In (Put p v) ops -> inside3 rows cols items p) ->
  exists g, foldM apply3 ops (g3_new rows cols items v0) = Ok g /\ g3_size g = rows * cols * items /\
    (forall r c i, inside3 rows cols items (r, c, i) -> g3_get g r c i = Ok (value same3 ops v0 (r, c, i))) /\
    (forall r c i v, 0 <= r -> 0 <= c -> 0 <= i -> ~ inside3 rows cols items (r, c, i) -> g3_get g r c i = Abort /\ g3_set g r c i v = Abort).
Proof. exact @grid3_stores. Qed.
Print Assumptions C97_three_partial.
Example C97_three_case : exists g, foldM apply3 [Put (1, 2, 0) 7; Put (0, 2, 4) 8; Put (1, 2, 0) 6] (g3_new 2 3 5 1) = Ok g /\
  g3_get g 1 2 0 = Ok 6 /\ g3_get g 0 2 4 = Ok 8 /\ g3_get g 1 0 2 = Ok 1 /\ g3_get g 1 2 5 = Abort.
Proof.
  destruct (C97_three_partial Z 2 3 5 1 [Put (1, 2, 0) 7; Put (0, 2, 4) 8; Put (1, 2, 0) 6]) as (g & HR & _ & HI & HO); try lia.
  { intros p v Hp. cbn in Hp. unfold inside3. repeat destruct Hp as [Hp|Hp]; try discriminate; try (injection Hp as <- <-; cbn; lia). destruct Hp. }
  exists g. split; [exact HR|]. rewrite !HI by (unfold inside3; cbn; lia). split; [reflexivity|]. split; [reflexivity|]. split; [reflexivity|].
  apply (HO _ _ _ 0); try lia; unfold inside3; cbn; lia.
Qed.

(* the grid that a device model fills from its hash map, in any order, is the table of core types *)
Theorem C97_core_types : forall d entries, Permutation entries (core_map d) -> exists g, core_grid d entries = Ok g /\
  forall c, - 2 ^ 15 <= c_row c < 2 ^ 15 -> - 2 ^ 15 <= c_col c < 2 ^ 15 -> grid_core_type g c = getCoreType d c.
Proof. exact core_grid_table. Qed.
Print Assumptions C97_core_types.
(* the entries in reverse; an Ethernet core, the last core and a core outside the grid *)
Example C97_core_types_case : exists g, core_grid wormhole_b0 (rev (core_map wormhole_b0)) = Ok g /\ List.length (core_map wormhole_b0) = 120%nat /\
  grid_core_type g (mkCoord 0 6 1) = Ok ETH /\ grid_core_type g (mkCoord 0 11 9) = Ok WORKER /\ grid_core_type g (mkCoord 0 (-1) 3) = Abort.
Proof.
  destruct (C97_core_types wormhole_b0 (rev (core_map wormhole_b0)) (Permutation_sym (Permutation_rev _))) as (g & HR & HT). exists g. split; [exact HR|].
  split; [reflexivity|]. rewrite !HT by (cbn [c_row c_col]; lia). repeat split; reflexivity.
Qed.

(* beyond 64 bits the claim is false: a grid of 2^32 rows and columns has no elements, though position (0, 0) is inside *)
Theorem C97_size_refuted : exists rows cols, 0 <= rows < 2 ^ 64 /\ 0 <= cols < 2 ^ 64 /\ inside2 rows cols (0, 0) /\ g2_size (g2_new rows cols 0) = 0 /\ exists m, g2_get (g2_new rows cols 0) 0 0 = UB m.
Proof. exact huge_grid. Qed.
Print Assumptions C97_size_refuted.
