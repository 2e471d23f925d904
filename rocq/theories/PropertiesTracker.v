(* Property theorems C51 (dependency tracker). Specification: SpecTracker.v. *)
From Coq Require Import ZArith List Bool.
From Verif Require Import Base DepTracker SpecTracker TrackerProofs.
Import ListNotations.
Open Scope Z_scope.

(** ** C51 Checkpoint semantics *)
Theorem C51_done_iff : forall h tk n total delay cycle, Forall u32_op h -> replay h = Ok tk ->
  nth_error (creations h) n = Some (total, delay) ->
  Z.of_nat (List.length (updates n h)) < 2 ^ 32 -> latest (updates n h) + delay < 2 ^ 32 ->
  exists b, done tk (Some n) cycle = Ok b /\
    (b = true <-> Z.of_nat (List.length (updates n h)) = total /\
                  delay <= cycle /\ (forall e, In e (updates n h) -> e + delay <= cycle)).
Proof. exact checkpoint_done. Qed.
Print Assumptions C51_done_iff.
(* without the bounds: counter and sum are taken modulo 2^32 *)
Theorem C51_done_wrapping : forall h tk n total delay cycle, Forall u32_op h -> replay h = Ok tk ->
  nth_error (creations h) n = Some (total, delay) ->
  exists b, done tk (Some n) cycle = Ok b /\
    (b = true <-> Z.of_nat (List.length (updates n h)) mod 2 ^ 32 = total /\ (latest (updates n h) + delay) mod 2 ^ 32 <= cycle).
Proof. exact checkpoint_done_wrapping. Qed.
Print Assumptions C51_done_wrapping.
Theorem C51_stays_done : forall tk id c c', done tk id c = Ok true -> c <= c' -> done tk id c' = Ok true.
Proof. exact checkpoint_stays_done. Qed.
Print Assumptions C51_stays_done.
Theorem C51_undefined_done : forall tk c, done tk None c = Ok true.
Proof. exact checkpoint_undefined_done. Qed.
Print Assumptions C51_undefined_done.
(* a checkpoint updated at cycle 4294967290 with delay 10 is done at cycle 4 *)
Theorem C51_delay_wraps_refuted : exists h tk, Forall u32_op h /\ replay h = Ok tk /\
  nth_error (creations h) 0 = Some (1, 10) /\ updates 0 h = [4294967290] /\
  done tk (Some O) 4 = Ok true.
Proof. exact delay_wrap_witness. Qed.
Print Assumptions C51_delay_wraps_refuted.
Example C51_example :
  let h := [Create 2 7; Create 1 0; Update (Some O) 30; Update (Some 1%nat) 5; Update None 9; Update (Some O) 20] in
  exists tk, Forall u32_op h /\ replay h = Ok tk /\ nth_error (creations h) 0 = Some (2, 7) /\ updates 0 h = [30; 20] /\
    done tk (Some O) 36 = Ok false /\ done tk (Some O) 37 = Ok true.
Proof. eexists. split; [repeat constructor; cbn; discriminate|]. repeat split; vm_compute; reflexivity. Qed.
