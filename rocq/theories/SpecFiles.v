(* Specifications for the names of the timeline files (C65). *)
From Coq Require Import ZArith String Ascii List Bool.
From Verif Require Import Base Arith Timeline.
Import ListNotations.
Local Open Scope string_scope.

Definition occurs (p s : string) : Prop := exists a b, s = a ++ p ++ b.
(* decimal notation *)
Definition digit (d : Z) : string := nth (Z.to_nat d) ["0"; "1"; "2"; "3"; "4"; "5"; "6"; "7"; "8"; "9"] "".
Inductive numeral : Z -> string -> Prop :=
| num_digit d : (0 <= d < 10)%Z -> numeral d (digit d)
| num_more n d s : (0 < n)%Z -> (0 <= d < 10)%Z -> numeral n s -> numeral (10 * n + d) (s ++ digit d).
(* the name of a file of the timeline [stem].npeviz *)
Inductive named {A} (stem : string) : content A -> string -> Prop :=
| nm_full tl : named stem (FullV1 A tl) (stem ++ ".npeviz")
| nm_legacy tl : named stem (FullV0 A tl) (stem ++ ".npeviz")
| nm_split k rg tl s : numeral k s -> named stem (Split A k rg tl) (stem ++ "_split_" ++ s ++ ".npeviz").

(* the directory of a path, with its final slash; empty for a name *)
Fixpoint directory (p : string) : string :=
  match p with
  | EmptyString => ""
  | String c p' => match directory p' with "" => if Ascii.eqb c "/" then "/" else "" | d => String c d end
  end.
