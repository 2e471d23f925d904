(* Witnesses and examples for C61-C63. *)
From Coq Require Import ZArith Lia String List Bool Sorting.Permutation Floats.SpecFloat.
From Verif Require Import Base Arith Util Device SpecDevice Workload SpecWorkload Stats Engine Api SpecApi Bindings SpecBindings BindingsProofs.
Import ListNotations.
Local Open Scope list_scope.
Open Scope Z_scope.

Definition num (z : positive) : spec_float := S754_finite false z 0.
Definition two_cores : dstats f32A :=
  mkDs f32A true 353 353 1000 (num 1) (num 2) (num 3) (num 6) (num 7) (num 4) (num 5) (num 8) (num 9) (num 10) (num 11) (num 12) (num 13) (num 14) (num 15) (num 16)
    [(mkCoord 0 6 1, num 17); (mkCoord 1 6 2, num 18)] [] 0.
Lemma two_cores_case : uint64 17 /\ typed_stats two_cores /\ Permutation (rev (ds_eth f32A two_cores)) (ds_eth f32A two_cores) /\
  match unpickle_device f32A (pickle_device f32A 17 two_cores (rev (ds_eth f32A two_cores))) with
  | Ok (us, ds) => us = 17 /\ ds_est f32A ds = 353 /\ ds_max_nd f32A ds = S754_finite false 5 0 /\ ds_max_lu f32A ds = S754_finite false 7 0 /\ List.length (ds_eth f32A ds) = 2%nat
  | _ => False
  end.
Proof.
  split; [unfold uint64; lia|]. split.
  { unfold typed_stats, uint64, int16_coord, int16. cbn. split; [lia|]. split; [lia|]. split; [lia|]. split.
    - repeat constructor; cbn; lia.
    - constructor; [intros [H|[]]; discriminate|]. constructor; [intros []|constructor]. }
  split; [symmetry; apply Permutation_rev|]. split; [reflexivity|]. split; [reflexivity|]. split; [reflexivity|]. split; reflexivity.
Qed.
Lemma wrapped_coord : exists dev row col c, py_Coord f32A (PyInt f32A dev) (PyInt f32A row) (PyInt f32A col) = Ok c /\ c_row c <> row /\ is_valid_coord wormhole_b0 c = true.
Proof. exists 0, 65541, 3, (mkCoord 0 5 3). split; [reflexivity|]. split; [discriminate|reflexivity]. Qed.
Lemma negative_offset : exists off t, py_Transfer f32A (PyInt f32A 32) (PyInt f32A 1) (mkCoord 0 1 1) (Unicast (mkCoord 0 2 2)) (PyFloat f32A (d_ofZ f32A 1)) (PyInt f32A off) NOC0 = Ok t /\
  off < 0 /\ t_off t = 2 ^ 32 - 1 /\ transfer_validate wormhole_b0 t = Ok true.
Proof. exists (-1). eexists. split; [reflexivity|]. split; [reflexivity|]. split; reflexivity. Qed.
