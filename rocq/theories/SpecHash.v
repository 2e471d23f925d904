(* Specification of keys that differ in one place (C100). *)
From Coq Require Import ZArith List.
From Verif Require Import Util Device.
Import ListNotations.
Open Scope Z_scope.

Definition int16 (z : Z) : Prop := - 2 ^ 15 <= z < 2 ^ 15.
Definition coord16 (c : coord) : Prop := int16 (c_dev c) /\ int16 (c_row c) /\ int16 (c_col c).
(* coordinates that differ in the chip, in the row or in the column alone *)
Inductive coord_apart : coord -> coord -> Prop :=
| apart_dev d d' r c : d <> d' -> coord_apart (mkCoord d r c) (mkCoord d' r c)
| apart_row d r r' c : r <> r' -> coord_apart (mkCoord d r c) (mkCoord d r' c)
| apart_col d r c c' : c <> c' -> coord_apart (mkCoord d r c) (mkCoord d r c').
(* links and network interfaces: in one number of the coordinate, or in the type *)
Inductive link_apart : link_attr -> link_attr -> Prop :=
| link_coord a b t : coord16 a -> coord16 b -> coord_apart a b -> link_apart (mkLink a t) (mkLink b t)
| link_type a t u : t <> u -> link_apart (mkLink a t) (mkLink a u).
Inductive niu_apart : niu_attr -> niu_attr -> Prop :=
| niu_coord a b t : coord16 a -> coord16 b -> coord_apart a b -> niu_apart (mkNiu a t) (mkNiu b t)
| niu_type' a t u : t <> u -> niu_apart (mkNiu a t) (mkNiu a u).
(* multicast sets: in one number of one corner of one rectangle *)
Inductive mcast_apart : mcast -> mcast -> Prop :=
| set_start l a b e r : coord16 a -> coord16 b -> coord_apart a b -> mcast_apart (l ++ mkGrid a e :: r) (l ++ mkGrid b e :: r)
| set_end l s a b r : coord16 a -> coord16 b -> coord_apart a b -> mcast_apart (l ++ mkGrid s a :: r) (l ++ mkGrid s b :: r).
