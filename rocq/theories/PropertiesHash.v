(* C100: keys that differ in one place have different hashes. *)
From Coq Require Import ZArith List Bool.
From Verif Require Import Base Util Device SpecHash HashProofs.
Import ListNotations.
Open Scope Z_scope.

(* coordinates that differ in the chip, the row or the column alone *)
Theorem C100_coord : forall a b, coord16 a -> coord16 b -> coord_apart a b -> hash_coord a <> hash_coord b.
Proof. exact coord_hash_apart. Qed.
Print Assumptions C100_coord.
Example C100_coord_case : hash_coord (mkCoord 3 (-1) 5) <> hash_coord (mkCoord 3 32767 5).
Proof. apply C100_coord; [repeat split; discriminate|repeat split; discriminate|constructor; discriminate]. Qed.

Theorem C100_link : forall a b, link_apart a b -> hash_link_attr a <> hash_link_attr b.
Proof. exact link_hash_apart. Qed.
Print Assumptions C100_link.
Example C100_link_case : hash_link_attr (mkLink (mkCoord 0 1 2) NOC0_EAST) <> hash_link_attr (mkLink (mkCoord 0 1 2) NOC0_SOUTH).
Proof. apply C100_link. constructor. discriminate. Qed.
Theorem C100_niu : forall a b, niu_apart a b -> hash_niu_attr a <> hash_niu_attr b.
Proof. exact niu_hash_apart. Qed.
Print Assumptions C100_niu.
Example C100_niu_case : hash_niu_attr (mkNiu (mkCoord 0 1 2) NOC0_SRC) <> hash_niu_attr (mkNiu (mkCoord 1 1 2) NOC0_SRC).
Proof. apply C100_niu. constructor; [repeat split; discriminate|repeat split; discriminate|constructor; discriminate]. Qed.

(* multicast sets of any length that differ in one number of one corner *)
Theorem C100_mcast : forall a b, mcast_apart a b -> hash_mcast a <> hash_mcast b.
Proof. exact mcast_hash_apart. Qed.
Print Assumptions C100_mcast.
Example C100_mcast_case : hash_mcast [mkGrid (mkCoord 0 1 2) (mkCoord 0 3 4); mkGrid (mkCoord 0 5 6) (mkCoord 0 7 8); mkGrid (mkCoord 0 1 2) (mkCoord 0 3 4)] <>
  hash_mcast [mkGrid (mkCoord 0 1 2) (mkCoord 0 3 4); mkGrid (mkCoord 0 5 6) (mkCoord 0 7 9); mkGrid (mkCoord 0 1 2) (mkCoord 0 3 4)].
Proof.
  apply C100_mcast. apply (set_end [mkGrid (mkCoord 0 1 2) (mkCoord 0 3 4)] (mkCoord 0 5 6) (mkCoord 0 7 8) (mkCoord 0 7 9)); [repeat split; discriminate|repeat split; discriminate|constructor; discriminate].
Qed.
(* not so of two rectangles: the first and the last of 65 can always change places *)
Theorem C100_swap : forall g g' m, List.length m = 63%nat -> hash_mcast (g :: m ++ [g']) = hash_mcast (g' :: m ++ [g]).
Proof. exact mcast_hash_swap. Qed.
Print Assumptions C100_swap.
Example C100_swap_case : hash_mcast (mkGrid (mkCoord 0 1 2) (mkCoord 0 3 4) :: repeat (mkGrid (mkCoord 0 1 2) (mkCoord 0 1 2)) 63 ++ [mkGrid (mkCoord 0 5 6) (mkCoord 0 7 8)]) =
  hash_mcast (mkGrid (mkCoord 0 5 6) (mkCoord 0 7 8) :: repeat (mkGrid (mkCoord 0 1 2) (mkCoord 0 1 2)) 63 ++ [mkGrid (mkCoord 0 1 2) (mkCoord 0 3 4)]).
Proof. apply C100_swap. reflexivity. Qed.
Theorem C100_two_places_refuted : exists a b, a <> b /\ List.length a = List.length b /\ hash_mcast a = hash_mcast b.
Proof. exact mcast_hash_swapped. Qed.
Print Assumptions C100_two_places_refuted.
