(* Specification of what a tracker answers after calls and resets (C99). *)
From Coq Require Import ZArith List Bool.
From Verif Require Import Base DepTracker SpecTracker.
Import ListNotations.
Open Scope Z_scope.

Inductive event : Type := Told (o : tracker_op) | Reset.
(* a history of calls and resets on an empty tracker *)
Definition event_step (tk : tracker) (e : event) : outcome tracker := match e with Told o => tracker_step tk o | Reset => Ok (reset tk) end.
Definition played (h : list event) : outcome tracker := foldM event_step h [].

(* the calls *)
Fixpoint calls (h : list event) : list tracker_op := match h with [] => [] | Told o :: h => o :: calls h | Reset :: h => calls h end.
(* those after the last reset *)
Definition recent (h : list event) : list tracker_op := fold_left (fun l e => match e with Told o => l ++ [o] | Reset => [] end) h [].
(* the updates of checkpoint n since the last reset, as a counter of 32 bits counts them *)
Definition count (n : nat) (h : list event) : Z := Z.of_nat (List.length (updates n (recent h))) mod 2 ^ 32.
(* every update is of a checkpoint that has been created, or of none *)
Definition known (h : list event) : Prop := forall h1 n e h2, h = h1 ++ Told (Update (Some n) e) :: h2 -> (n < List.length (creations (calls h1)))%nat.
(* the creations alone *)
Definition only_creations (h : list event) : list event := map (fun p => Told (Create (fst p) (snd p))) (creations (calls h)).
