(* Specification of the texts of destinations (C98). *)
From Coq Require Import ZArith String List.
From Verif Require Import Util SpecFiles SpecReport.
Import ListNotations.
Local Open Scope string_scope.
Open Scope Z_scope.

(* chip, row and column *)
Definition place_words (c : coord) (s : string) : Prop :=
  exists a b e, int_text (c_dev c) a /\ int_text (c_row c) b /\ int_text (c_col c) e /\ s = "Dev" ++ a ++ "(" ++ b ++ "," ++ e ++ ")".
(* a rectangle: its first corner, and the row and column of its last one *)
Definition rect_words (g : cgrid) (s : string) : Prop :=
  exists p b e, place_words (g_start g) p /\ int_text (c_row (g_end g)) b /\ int_text (c_col (g_end g)) e /\ s = p ++ "-(" ++ b ++ "," ++ e ++ ")".
(* one rectangle or more *)
Inductive rects_words : mcast -> string -> Prop :=
| rects_one g s : rect_words g s -> rects_words [g] s
| rects_more g m s t : rect_words g s -> rects_words m t -> rects_words (g :: m) (s ++ ", " ++ t).
Inductive dest_words : noc_dest -> string -> Prop :=
| words_core c s : place_words c s -> dest_words (Unicast c) s
| words_none : dest_words (Multicast []) "(empty)"
| words_rects m s : rects_words m s -> dest_words (Multicast m) s.

(* every rectangle lies on one chip *)
Definition one_chip (d : noc_dest) : Prop := match d with Unicast _ => True | Multicast m => forall g, In g m -> c_dev (g_start g) = c_dev (g_end g) end.
