(* C98: the text of a destination identifies it. *)
From Coq Require Import ZArith String List Bool.
From Verif Require Import Base Util SpecFiles SpecReport TextDest SpecDest DestProofs.
Import ListNotations.
Local Open Scope string_scope.
Local Open Scope list_scope.
Open Scope Z_scope.

(* the text has the form described: chip, row and column of a core; the corners of every rectangle of a set *)
Theorem C98_written : forall d, dest_words d (dest_str d).
Proof. exact dest_written. Qed.
Print Assumptions C98_written.
Example C98_written_case : dest_str (Multicast [mkGrid (mkCoord 0 1 2) (mkCoord 0 3 14); mkGrid (mkCoord 12 (-5) 6) (mkCoord 12 7 10)]) = "Dev0(1,2)-(3,14), Dev12(-5,6)-(7,10)".
Proof. reflexivity. Qed.

(* no text of this form is that of two destinations whose rectangles each lie on one chip *)
Theorem C98_unique : forall d d' s, one_chip d -> one_chip d' -> dest_words d s -> dest_words d' s -> d = d'.
Proof. exact dest_unique. Qed.
Print Assumptions C98_unique.
(* in particular those that the code writes *)
Theorem C98_identified_partial : forall d d', one_chip d -> one_chip d' -> dest_str d = dest_str d' -> d = d'.
Proof. exact dest_identified. Qed.
Print Assumptions C98_identified_partial.
(* a core and the rectangle that consists of it *)
Example C98_identified_case : dest_str (Unicast (mkCoord 0 1 2)) <> dest_str (Multicast [mkGrid (mkCoord 0 1 2) (mkCoord 0 1 2)]).
Proof.
  intros H. apply C98_identified_partial in H; [discriminate H|exact I|]. intros g [<-|[]]. reflexivity.
Qed.
(* which holds of the sets made from two corners *)
Theorem C98_made : forall a b m, mcast_make a b = Ok m -> one_chip (Multicast m).
Proof. exact made_one_chip. Qed.
Print Assumptions C98_made.
Example C98_made_case : mcast_make (mkCoord 3 1 2) (mkCoord 3 4 5) = Ok [mkGrid (mkCoord 3 1 2) (mkCoord 3 4 5)] /\ one_chip (Multicast [mkGrid (mkCoord 3 1 2) (mkCoord 3 4 5)]).
Proof. split; [reflexivity|]. apply (C98_made (mkCoord 3 1 2) (mkCoord 3 4 5)). reflexivity. Qed.

(* sets of one text are equal for the operator of the code, whatever their chips *)
Theorem C98_same : forall m m', mcast_str m = mcast_str m' -> mcast_eqb m m' = true.
Proof. exact mcast_same. Qed.
Print Assumptions C98_same.
Example C98_same_case : mcast_eqb [mkGrid (mkCoord 0 1 1) (mkCoord 0 2 2)] [mkGrid (mkCoord 0 1 1) (mkCoord 1 2 2)] = true.
Proof. apply C98_same. reflexivity. Qed.

(* false of all sets: the chip of the last corner is not written *)
Theorem C98_identified_refuted : exists m m', mcast_str m = mcast_str m' /\ m <> m'.
Proof. exact chip_lost. Qed.
Print Assumptions C98_identified_refuted.
(* and sets that are equal for the operator can have two texts, as it does not compare chips *)
Theorem C98_same_converse_refuted : exists m m', mcast_eqb m m' = true /\ mcast_str m <> mcast_str m'.
Proof. exact equal_texts_differ. Qed.
Print Assumptions C98_same_converse_refuted.
