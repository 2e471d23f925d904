(* Grids as functions from positions to values (C97). *)
From Coq Require Import ZArith List Bool.
From Verif Require Import Base Util Grid.
Import ListNotations.
Local Open Scope list_scope.
Open Scope Z_scope.

(* assignments to a position, and to all *)
Inductive gop (P T : Type) : Type := Put (p : P) (v : T) | Clear (v : T).
Arguments Put {P T}. Arguments Clear {P T}.
(* the last value assigned to a position *)
Fixpoint value {P T} (same : P -> P -> bool) (ops : list (gop P T)) (v : T) (p : P) : T :=
  match ops with
  | [] => v
  | Put q w :: ops' => value same ops' (if same p q then w else v) p
  | Clear w :: ops' => value same ops' w p
  end.

Definition pos2 : Type := (Z * Z)%type.
Definition same2 (p q : pos2) : bool := (fst p =? fst q) && (snd p =? snd q).
Definition inside2 (rows cols : Z) (p : pos2) : Prop := 0 <= fst p < rows /\ 0 <= snd p < cols.
Definition apply2 {T} (g : grid2 T) (o : gop pos2 T) : outcome (grid2 T) :=
  match o with Put p v => g2_set g (fst p) (snd p) v | Clear v => Ok (g2_reset g v) end.

Definition pos3 : Type := (Z * Z * Z)%type.
Definition same3 (p q : pos3) : bool := (fst (fst p) =? fst (fst q)) && (snd (fst p) =? snd (fst q)) && (snd p =? snd q).
Definition inside3 (rows cols items : Z) (p : pos3) : Prop := 0 <= fst (fst p) < rows /\ 0 <= snd (fst p) < cols /\ 0 <= snd p < items.
Definition apply3 {T} (g : grid3 T) (o : gop pos3 T) : outcome (grid3 T) :=
  match o with Put p v => g3_set g (fst (fst p)) (snd (fst p)) (snd p) v | Clear v => Ok (g3_reset g v) end.
