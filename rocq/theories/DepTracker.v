(* Model of tt_npe/cpp/include/npeDependencyTracker.hpp. Checkpoint identifiers are int32_t in the code,
   with -1 for "undefined"; here they are [option nat] (None = undefined), i.e. fewer than 2^31
   checkpoints are assumed. Cycle counts and counters are uint32_t. No proofs in this file. *)
From Coq Require Import ZArith List Bool.
From Verif Require Import Base.
Import ListNotations.
Open Scope Z_scope.

(* 84-101 *)
Record checkpoint : Type := mkCp {
  cp_completed : Z;     (* dep_completed *)
  cp_total : Z;         (* dep_total *)
  cp_end : Z;           (* end_cycle *)
  cp_delay : Z }.       (* delay *)
Definition tracker : Type := list checkpoint.

(* 17-20 *)
Definition createCheckpoint (tk : tracker) (total delay : Z) : tracker * nat :=
  (tk ++ [mkCp 0 total 0 delay], List.length tk).

(* TT_ASSERT(id < checkpoints.size()) and checkpoints[id] *)
Definition cp_at (tk : tracker) (n : nat) : outcome checkpoint :=
  match nth_error tk n with
  | Some c => Ok c
  | None => Throw UNDEF_ERR
  end.

(* 26-33 *)
Definition updateCheckpoint (tk : tracker) (id : option nat) (e : Z) : outcome tracker :=
  match id with
  | None => Ok tk
  | Some n =>
      let! c := cp_at tk n in
      Ok (upd tk n (mkCp (u32 (cp_completed c + 1)) (cp_total c) (Z.max (cp_end c) e) (cp_delay c)))
  end.

(* 35-40 *)
Definition end_cycle (tk : tracker) (id : option nat) : outcome Z :=
  match id with
  | None => Ok 0
  | Some n => let! c := cp_at tk n in Ok (cp_end c)
  end.
(* 42-47: uint32_t sum *)
Definition end_cycle_plus_delay (tk : tracker) (id : option nat) : outcome Z :=
  match id with
  | None => Ok 0
  | Some n => let! c := cp_at tk n in Ok (u32 (cp_end c + cp_delay c))
  end.

(* 88-94 *)
Definition cp_done (c : checkpoint) (cycle : Z) : bool :=
  (cp_completed c =? cp_total c) && (u32 (cp_end c + cp_delay c) <=? cycle).
(* 49-54 *)
Definition done (tk : tracker) (id : option nat) (cycle : Z) : outcome bool :=
  match id with
  | None => Ok true
  | Some n => let! c := cp_at tk n in Ok (cp_done c cycle)
  end.

(* 57-64, 67-74, 77-81 *)
Definition sanityCheck (tk : tracker) : bool := forallb (fun c => negb (cp_total c <? cp_completed c)) tk.
Definition allComplete (tk : tracker) : bool := forallb (fun c => cp_completed c =? cp_total c) tk.
Definition reset (tk : tracker) : tracker := map (fun c => mkCp 0 (cp_total c) (cp_end c) (cp_delay c)) tk.
