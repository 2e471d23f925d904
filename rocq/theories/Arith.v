(* Arithmetic used for bandwidths. The device models compute with C++ float and double. The model is
   parameterised by an [arith] record of operations only (no laws), and is instantiated with
   - [f32A]: IEEE binary32/binary64 of the standard library's SpecFloat (round to nearest even);
   - [ratA]: exact rational numbers, with an extra infinity for division by zero.
   No proofs in this file. *)
From Coq Require Import ZArith QArith Bool List String Floats.SpecFloat.
From Verif Require Import Base.
Import ListNotations.
Local Open Scope string_scope.
Open Scope Z_scope.

Record arith : Type := {
  F : Type;                         (* float *)
  D : Type;                         (* double *)
  f_zero : F;                       (* 0.0f *)
  f_one : F;                        (* 1.0f *)
  f_add : F -> F -> F;
  f_sub : F -> F -> F;
  f_mul : F -> F -> F;
  f_div : F -> F -> F;
  f_lt : F -> F -> bool;            (* operator<, false when an operand is NaN *)
  f_nan : F -> bool;                (* std::isnan *)
  f_ofZ : Z -> F;                   (* conversion of an integer to float *)
  f_lit : Z -> positive -> F;       (* float literal n/d *)
  f_trunc : F -> option Z;          (* truncation towards zero; None for NaN and infinities *)
  f_ceil : F -> F;                  (* std::ceil(float) *)
  d_add : D -> D -> D;
  d_sub : D -> D -> D;
  d_mul : D -> D -> D;
  d_div : D -> D -> D;
  d_lt : D -> D -> bool;
  d_nan : D -> bool;
  d_ofZ : Z -> D;
  d_lit : Z -> positive -> D;       (* double literal n/d *)
  d_of_f : F -> D;
  f_of_d : D -> F
}.

(* std::min(a,b): (b < a) ? b : a *)
Definition f_min (A : arith) (a b : F A) : F A := if f_lt A b a then b else a.
(* std::fmin / std::fmax: a NaN operand is ignored *)
Definition f_fmin (A : arith) (a b : F A) : F A :=
  if f_nan A a then b else if f_nan A b then a else if f_lt A b a then b else a.
Definition f_fmax (A : arith) (a b : F A) : F A :=
  if f_nan A a then b else if f_nan A b then a else if f_lt A a b then b else a.
Definition d_fmin (A : arith) (a b : D A) : D A :=
  if d_nan A a then b else if d_nan A b then a else if d_lt A b a then b else a.
Definition d_fmax (A : arith) (a b : D A) : D A :=
  if d_nan A a then b else if d_nan A b then a else if d_lt A a b then b else a.

(* Conversion of a floating value to an unsigned integer type of [bits] bits: the truncated value
   must be representable, otherwise the behaviour is undefined ([conv.fpint]). *)
Definition f_to_uint (A : arith) (bits : Z) (x : F A) : outcome Z :=
  match f_trunc A x with
  | Some z => if (0 <=? z) && (z <? 2 ^ bits) then Ok z else UB "float to integer"
  | None => UB "float to integer"
  end.

(** * IEEE instance *)
Definition prec32 := 24. Definition emax32 := 128.
Definition prec64 := 53. Definition emax64 := 1024.

Definition sf_ofZ (prec emax z : Z) : spec_float := binary_normalize prec emax z 0 false.
Definition sf_conv (prec emax : Z) (x : spec_float) : spec_float :=
  match x with
  | S754_finite s m e => binary_normalize prec emax (cond_Zopp s (Zpos m)) e s
  | _ => x
  end.
Definition sf_lit (prec emax n : Z) (d : positive) : spec_float :=
  SFdiv prec emax (sf_ofZ prec emax n) (sf_ofZ prec emax (Zpos d)).
Definition sf_trunc (x : spec_float) : option Z :=
  match x with
  | S754_zero _ => Some 0
  | S754_finite s m e =>
      let a := if 0 <=? e then Zpos m * 2 ^ e else Zpos m / 2 ^ (- e) in
      Some (if s then - a else a)
  | _ => None
  end.
Definition sf_ceilZ (s : bool) (m : positive) (e : Z) : Z :=
  if 0 <=? e then cond_Zopp s (Zpos m) * 2 ^ e
  else if s then - (Zpos m / 2 ^ (- e))
  else (Zpos m + 2 ^ (- e) - 1) / 2 ^ (- e).
Definition sf_ceil (prec emax : Z) (x : spec_float) : spec_float :=
  match x with
  | S754_finite s m e => binary_normalize prec emax (sf_ceilZ s m e) 0 s
  | _ => x
  end.
Definition sf_isnan (x : spec_float) : bool := match x with S754_nan => true | _ => false end.

Definition f32A : arith := {|
  F := spec_float; D := spec_float;
  f_zero := S754_zero false;
  f_one := sf_ofZ prec32 emax32 1;
  f_add := SFadd prec32 emax32;
  f_sub := SFsub prec32 emax32;
  f_mul := SFmul prec32 emax32;
  f_div := SFdiv prec32 emax32;
  f_lt := SFltb;
  f_nan := sf_isnan;
  f_ofZ := sf_ofZ prec32 emax32;
  f_lit := sf_lit prec32 emax32;
  f_trunc := sf_trunc;
  f_ceil := sf_ceil prec32 emax32;
  d_add := SFadd prec64 emax64;
  d_sub := SFsub prec64 emax64;
  d_mul := SFmul prec64 emax64;
  d_div := SFdiv prec64 emax64;
  d_lt := SFltb;
  d_nan := sf_isnan;
  d_ofZ := sf_ofZ prec64 emax64;
  d_lit := sf_lit prec64 emax64;
  d_of_f := sf_conv prec64 emax64;
  f_of_d := sf_conv prec32 emax32
|}.

(** * Exact rational instance: Q plus one unsigned infinity (result of x/0) *)
Definition qx : Type := option Q.
Definition qx_bin (f : Q -> Q -> Q) (a b : qx) : qx :=
  match a, b with Some x, Some y => Some (Qred (f x y)) | _, _ => None end.
Definition qx_div (a b : qx) : qx :=
  match a, b with
  | Some x, Some y => if Qeq_bool y 0 then None else Some (Qred (x / y)%Q)
  | Some _, None => Some 0%Q
  | None, _ => None
  end.
Definition qx_lt (a b : qx) : bool :=
  match a, b with
  | Some x, Some y => negb (Qle_bool y x)
  | Some _, None => true
  | None, _ => false
  end.
Definition qx_trunc (a : qx) : option Z :=
  match a with
  | Some x => Some (Z.quot (Qnum x) (Zpos (Qden x)))
  | None => None
  end.
Definition qx_ceil (a : qx) : qx :=
  match a with
  | Some x => Some (inject_Z (- ((- Qnum x) / Zpos (Qden x))))
  | None => None
  end.

Definition ratA : arith := {|
  F := qx; D := qx;
  f_zero := Some 0%Q; f_one := Some 1%Q;
  f_add := qx_bin Qplus; f_sub := qx_bin Qminus; f_mul := qx_bin Qmult; f_div := qx_div;
  f_lt := qx_lt; f_nan := fun _ => false;
  f_ofZ := fun z => Some (inject_Z z); f_lit := fun n d => Some (Qmake n d);
  f_trunc := qx_trunc; f_ceil := qx_ceil;
  d_add := qx_bin Qplus; d_sub := qx_bin Qminus; d_mul := qx_bin Qmult; d_div := qx_div;
  d_lt := qx_lt; d_nan := fun _ => false;
  d_ofZ := fun z => Some (inject_Z z); d_lit := fun n d => Some (Qmake n d);
  d_of_f := fun x => x; f_of_d := fun x => x
|}.
