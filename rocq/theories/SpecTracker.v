(* Specification of the dependency tracker (C51): histories of calls. *)
From Coq Require Import ZArith List Bool.
From Verif Require Import Base DepTracker.
Import ListNotations.
Open Scope Z_scope.

Inductive tracker_op : Type :=
| Create (total delay : Z)              (* createCheckpoint *)
| Update (id : option nat) (cycle : Z). (* updateCheckpoint *)

(* replay of a history on an empty tracker *)
Definition tracker_step (tk : tracker) (o : tracker_op) : outcome tracker :=
  match o with
  | Create n dl => Ok (fst (createCheckpoint tk n dl))
  | Update id e => updateCheckpoint tk id e
  end.
Definition replay (h : list tracker_op) : outcome tracker := foldM tracker_step h [].

Definition u32_op (o : tracker_op) : Prop :=
  match o with
  | Create n dl => 0 <= n < 2 ^ 32 /\ 0 <= dl < 2 ^ 32
  | Update _ e => 0 <= e < 2 ^ 32
  end.

(* the checkpoints created, in order, as (total, delay) *)
Fixpoint creations (h : list tracker_op) : list (Z * Z) :=
  match h with
  | [] => []
  | Create n dl :: h' => (n, dl) :: creations h'
  | Update _ _ :: h' => creations h'
  end.
(* the cycles of the updates of checkpoint [n] *)
Fixpoint updates (n : nat) (h : list tracker_op) : list Z :=
  match h with
  | [] => []
  | Update (Some m) e :: h' => if Nat.eqb m n then e :: updates n h' else updates n h'
  | _ :: h' => updates n h'
  end.
(* the largest update cycle, 0 if there is none *)
Definition latest (es : list Z) : Z := fold_right Z.max 0 es.
