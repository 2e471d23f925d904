(* Specification of the reports on a result (C69). *)
From Coq Require Import ZArith QArith Reals String List Bool Floats.SpecFloat.
From Flocq Require Import Core IEEE754.BinarySingleNaN.
From Verif Require Import Base Arith Util SpecFiles.
Import ListNotations.
Open Scope Z_scope.

(* the share of [cycles] that would be saved if only [free] were needed, in percent *)
Definition saving (cycles free : Z) : R := (100 * (IZR cycles - IZR free) / IZR cycles)%R.
(* a finite double, within three units of the last place of r *)
Definition approximates (x : spec_float) (r : R) : Prop :=
  valid_binary 53 1024 x = true /\ is_finite_SF x = true /\ (Rabs (SF2R radix2 x - r) <= Rabs r * 3 * bpow radix2 (-53))%R.
(* cores in the order of chip, row and column *)
Definition core_before (a b : coord) : Prop :=
  c_dev a < c_dev b \/ (c_dev a = c_dev b /\ (c_row a < c_row b \/ (c_row a = c_row b /\ c_col a < c_col b))).
(* a number in decimal notation, with its sign *)
Definition int_text (n : Z) (s : string) : Prop := (0 <= n /\ numeral n s) \/ (n < 0 /\ exists s', numeral (- n) s' /\ s = String.append "-" s').
(* the words for a core *)
Definition core_words (c : coord) (value s : string) : Prop :=
  exists a b e, int_text (c_dev c) a /\ int_text (c_row c) b /\ int_text (c_col c) e /\
    s = ("(" ++ a ++ "," ++ b ++ "," ++ e ++ "):" ++ value ++ "%")%string.
