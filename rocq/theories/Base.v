(* Base definitions shared by all model files: outcomes of C++ code, fixed width integer
   conversions, and list helpers. No proofs in this file. *)
From Coq Require Import ZArith String List Bool Ascii.
Import ListNotations.
Open Scope Z_scope.

(* npeCommon.hpp:20-29 *)
Inductive npe_error : Type :=
| UNDEF_ERR | WORKLOAD_VALIDATION_FAILED | EXCEEDED_SIM_CYCLE_LIMIT | INVALID_CONFIG
| DEVICE_MODEL_INIT_FAILED | SIM_ENGINE_INIT_FAILED | TRACE_INGEST_FAILED | DEPENDENCY_GEN_FAILED.

(* Result of running a piece of C++ code.
   - [Throw]: an npeException propagates (a failed TT_ASSERT throws npeException(UNDEF),
     npeAssert.hpp);
   - [StdThrow]: a C++ exception which is not an npeException propagates;
   - [UB]: the C++ standard gives the execution no meaning;
   - [Abort]: the process is ended by a failed assert() of <cassert> (grid.hpp:28,34; the CMake
     release flags do not define NDEBUG);
   - [Exit]: the process is ended by exit(1);
   - [Diverge]: the fuel of a loop is used up, i.e. the loop has not ended so far. *)
Inductive outcome (A : Type) : Type :=
| Ok : A -> outcome A
| Throw : npe_error -> outcome A
| StdThrow : string -> outcome A
| UB : string -> outcome A
| Abort : outcome A
| Exit : outcome A
| Diverge : outcome A.
Arguments Ok {A} _.
Arguments Throw {A} _.
Arguments StdThrow {A} _.
Arguments UB {A} _.
Arguments Abort {A}.
Arguments Exit {A}.
Arguments Diverge {A}.

Definition bind {A B} (m : outcome A) (f : A -> outcome B) : outcome B :=
  match m with
  | Ok a => f a
  | Throw e => Throw e
  | StdThrow s => StdThrow s
  | UB s => UB s
  | Abort => Abort
  | Exit => Exit
  | Diverge => Diverge
  end.

Declare Scope outcome_scope.
Notation "'let!' x ':=' m 'in' f" := (bind m (fun x => f))
  (at level 200, x pattern, m at level 100, f at level 200, right associativity) : outcome_scope.
Open Scope outcome_scope.

(* TT_ASSERT(cond): npeAssert.hpp, throws npeException(UNDEF) when the condition is false. *)
Definition tt_assert (b : bool) : outcome unit := if b then Ok tt else Throw UNDEF_ERR.

(* left-to-right loop over a container with a body that may fail *)
Fixpoint foldM {A S : Type} (f : S -> A -> outcome S) (l : list A) (s : S) : outcome S :=
  match l with
  | [] => Ok s
  | a :: l' => let! s' := f s a in foldM f l' s'
  end.

Fixpoint mapM {A B : Type} (f : A -> outcome B) (l : list A) : outcome (list B) :=
  match l with
  | [] => Ok []
  | a :: l' => let! b := f a in let! bs := mapM f l' in Ok (b :: bs)
  end.

(* Fixed width conversions (two's complement, modulo 2^n; C++20 [conv.integral]). *)
Definition u32 (z : Z) : Z := z mod 2 ^ 32.
Definition u64 (z : Z) : Z := z mod 2 ^ 64.
Definition i16 (z : Z) : Z := (z + 2 ^ 15) mod 2 ^ 16 - 2 ^ 15.
Definition i32 (z : Z) : Z := (z + 2 ^ 31) mod 2 ^ 32 - 2 ^ 31.

(* vector element replacement; out of range indices leave the list unchanged (callers check) *)
Fixpoint upd {A} (l : list A) (n : nat) (a : A) : list A :=
  match l, n with
  | [], _ => []
  | _ :: l', O => a :: l'
  | x :: l', S n' => x :: upd l' n' a
  end.

(* v[i] on a std::vector with an unchecked index *)
Definition vec_get {A} (l : list A) (n : nat) : outcome A :=
  match nth_error l n with
  | Some a => Ok a
  | None => UB "vector index"
  end.

(* v[i] = f(v[i]) *)
Definition vec_mod {A} (l : list A) (n : nat) (f : A -> A) : outcome (list A) :=
  match nth_error l n with
  | Some a => Ok (upd l n (f a))
  | None => UB "vector index"
  end.

(* [z0; z0+1; ...] with n elements *)
Fixpoint zseq (z0 : Z) (n : nat) : list Z :=
  match n with
  | O => []
  | S n' => z0 :: zseq (z0 + 1) n'
  end.

(* for (int x = lo; x <= hi; x++) *)
Definition zrange (lo hi : Z) : list Z := zseq lo (Z.to_nat (hi - lo + 1)).

Fixpoint index_of {A} (p : A -> bool) (l : list A) : option nat :=
  match l with
  | [] => None
  | a :: l' => if p a then Some O else option_map S (index_of p l')
  end.
