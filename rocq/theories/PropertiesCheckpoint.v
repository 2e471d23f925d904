(* C99: the tracker of dependencies answers what it was told. *)
From Coq Require Import ZArith List Bool.
From Verif Require Import Base DepTracker SpecTracker SpecCheckpoint CheckpointProofs.
Import ListNotations.
Open Scope Z_scope.

(* after any calls and resets: the largest cycle of all updates of a checkpoint, the sum with its delay, and whether it is done; the updates are counted since the last reset *)
Theorem C99_answers : forall h tk n total delay, Forall u32_op (calls h) -> played h = Ok tk -> nth_error (creations (calls h)) n = Some (total, delay) ->
  end_cycle tk (Some n) = Ok (latest (updates n (calls h))) /\
  end_cycle_plus_delay tk (Some n) = Ok ((latest (updates n (calls h)) + delay) mod 2 ^ 32) /\
  forall cycle, exists b, done tk (Some n) cycle = Ok b /\ (b = true <-> count n h = total /\ (latest (updates n (calls h)) + delay) mod 2 ^ 32 <= cycle).
Proof. exact checkpoint_answers. Qed.
Print Assumptions C99_answers.
Example C99_answers_case :
  let h := [Told (Create 1 7); Told (Create 2 5); Told (Update (Some 1%nat) 30); Told (Update (Some 1%nat) 20); Told (Update (Some O) 4); Reset; Told (Update (Some 1%nat) 25); Told (Update None 90); Told (Update (Some 1%nat) 10)] in
  exists tk, played h = Ok tk /\ end_cycle tk (Some 1%nat) = Ok 30 /\ end_cycle_plus_delay tk (Some 1%nat) = Ok 35 /\ count 1 h = 2 /\ count 0 h = 0.
Proof.
  intros h. eexists. split; [reflexivity|]. edestruct (C99_answers h) with (n := 1%nat) as (H1 & H2 & _); [repeat constructor; cbn; discriminate|reflexivity|reflexivity|].
  split; [exact H1|]. split; [exact H2|]. split; reflexivity.
Qed.

(* the identifier returned is that of the checkpoint created, which was unknown and never updated before *)
Theorem C99_identifier : forall h tk total delay, Forall u32_op (calls h) -> played h = Ok tk ->
  let '(tk', n) := createCheckpoint tk total delay in
  played (h ++ [Told (Create total delay)]) = Ok tk' /\ nth_error (creations (calls h)) n = None /\
  nth_error (creations (calls (h ++ [Told (Create total delay)]))) n = Some (total, delay) /\ updates n (calls h) = [].
Proof. exact checkpoint_identifier. Qed.
Print Assumptions C99_identifier.
Example C99_identifier_case : snd (createCheckpoint [mkCp 0 1 0 7; mkCp 2 2 30 5] 4 9) = 2%nat.
Proof. reflexivity. Qed.

(* what no creation returned is an error *)
Theorem C99_unknown : forall h tk n e cycle, Forall u32_op (calls h) -> played h = Ok tk -> nth_error (creations (calls h)) n = None ->
  updateCheckpoint tk (Some n) e = Throw UNDEF_ERR /\ end_cycle tk (Some n) = Throw UNDEF_ERR /\ end_cycle_plus_delay tk (Some n) = Throw UNDEF_ERR /\ done tk (Some n) cycle = Throw UNDEF_ERR.
Proof. exact checkpoint_unknown. Qed.
Print Assumptions C99_unknown.
(* and nothing else is *)
Theorem C99_succeeds : forall h, Forall u32_op (calls h) -> (exists tk, played h = Ok tk) <-> known h.
Proof. exact played_known. Qed.
Print Assumptions C99_succeeds.
Example C99_unknown_case : ~ exists tk, played [Told (Create 1 0); Reset; Told (Update (Some 1%nat) 3); Told (Create 1 0)] = Ok tk.
Proof. intros [tk H]. discriminate H. Qed.

(* the two checks: no checkpoint has more updates than it was created with, and each has as many *)
Theorem C99_checks : forall h tk, Forall u32_op (calls h) -> played h = Ok tk ->
  (sanityCheck tk = true <-> forall n total delay, nth_error (creations (calls h)) n = Some (total, delay) -> count n h <= total) /\
  (allComplete tk = true <-> forall n total delay, nth_error (creations (calls h)) n = Some (total, delay) -> count n h = total).
Proof. exact checkpoint_checks. Qed.
Print Assumptions C99_checks.
(* the second checkpoint has one update too many, and after a reset none *)
Example C99_checks_case : exists a b, played [Told (Create 1 0); Told (Create 1 0); Told (Update (Some O) 3); Told (Update (Some 1%nat) 3); Told (Update (Some 1%nat) 3)] = Ok a /\
  sanityCheck a = false /\ played [Told (Create 1 0); Told (Create 1 0); Told (Update (Some O) 3); Told (Update (Some 1%nat) 3); Reset] = Ok b /\ sanityCheck b = true /\ allComplete b = false.
Proof. eexists. eexists. repeat split; reflexivity. Qed.

(* a reset restores the state after the creations alone if the updates were all at cycle 0, as they are where the engine checks the dependencies (npeEngine.cpp:155-167) *)
Theorem C99_reset_partial : forall h, Forall u32_op (calls h) -> known h -> (forall n e, In (Update (Some n) e) (calls h) -> e = 0) -> played (h ++ [Reset]) = played (only_creations h).
Proof. exact reset_creations. Qed.
Print Assumptions C99_reset_partial.
Example C99_reset_case : played [Told (Create 1 7); Told (Update (Some O) 0); Told (Create 2 5); Told (Update (Some 1%nat) 0); Reset] = played [Told (Create 1 7); Told (Create 2 5)].
Proof. reflexivity. Qed.
(* it does not in general, though the comment says so: the cycle of the updates stays, and delays whatever waits for the checkpoint *)
Theorem C99_reset_refuted : exists h u a b, Forall u32_op (calls (h ++ [Reset] ++ u)) /\ played (h ++ [Reset] ++ u) = Ok a /\ played (only_creations h ++ u) = Ok b /\
  done a (Some O) 60 = Ok false /\ done b (Some O) 60 = Ok true.
Proof. exact reset_remembers. Qed.
Print Assumptions C99_reset_refuted.
