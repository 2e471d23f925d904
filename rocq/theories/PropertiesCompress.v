(* C83: the bytes of the compressed timeline files. *)
From Coq Require Import ZArith String List Bool.
From Verif Require Import Base Files Compress SpecCompress CompressProofs.
Import ListNotations.
Local Open Scope string_scope.

(** * C83: What is written compressed can be read back *)
Theorem C83_succeeds : forall z dk s p, lossless z -> bounded z -> s <> "" -> (forall cap, z_bound z (String.length s) = Some cap -> accepts dk p cap) ->
  exists dk', compressToFile z dk s p = Ok (true, dk') /\ readable z dk' p s /\ others_same dk dk' p.
Proof. exact compress_succeeds. Qed.
Print Assumptions C83_succeeds.
(* an empty text is an error; for any other there is an answer *)
Theorem C83_total : forall z dk s p, s <> "" -> exists b dk', compressToFile z dk s p = Ok (b, dk').
Proof. exact compress_total. Qed.
Print Assumptions C83_total.
Theorem C83_empty : forall z dk p, compressToFile z dk "" p = Throw UNDEF_ERR.
Proof. exact compress_empty. Qed.
Print Assumptions C83_empty.
(* the answer true; full statement: the text can be read back. Missing: a text that stayed in the buffer of the stream *)
Theorem C83_true_partial : forall z dk s p dk', lossless z -> compressToFile z dk s p = Ok (true, dk') ->
  others_same dk dk' p /\ (readable z dk' p s \/ exists t, dk_files dk' p = Some t /\ (String.length t < dk_buffer dk)%nat /\ cut_short z dk' p s).
Proof. exact compress_true. Qed.
Print Assumptions C83_true_partial.
Theorem C83_true_refuted : exists z dk s p dk', lossless z /\ bounded z /\ s <> "" /\ compressToFile z dk s p = Ok (true, dk') /\ cut_short z dk' p s /\ ~ readable z dk' p s.
Proof. exact buffered_lost. Qed.
Print Assumptions C83_true_refuted.
(* the answer false *)
Theorem C83_false : forall z dk s p dk', compressToFile z dk s p = Ok (false, dk') -> dk' = dk \/ others_same dk dk' p /\ cut_short z dk' p s.
Proof. exact compress_false. Qed.
Print Assumptions C83_false.
(* a timeline file *)
Theorem C83_timeline : forall z dk compact indented p, lossless z -> bounded z -> compact <> "" ->
  (forall cap, z_bound z (String.length compact) = Some cap -> accepts dk (p ++ ".zst") cap) -> accepts dk p (String.length indented) ->
  (exists dk', writeTimelineText z dk compact indented p true = Ok dk' /\ readable z dk' (p ++ ".zst") compact /\ others_same dk dk' (p ++ ".zst")) /\
  (exists dk', writeTimelineText z dk compact indented p false = Ok dk' /\ dk_files dk' p = Some indented /\ others_same dk dk' p).
Proof. exact timeline_text. Qed.
Print Assumptions C83_timeline.
Theorem C83_timeline_total : forall z dk compact indented p c, compact <> "" ->
  exists dk', writeTimelineText z dk compact indented p c = Ok dk' /\ others_same dk dk' (output_filepath c p).
Proof. exact timeline_no_throw. Qed.
Print Assumptions C83_timeline_total.
(* a failed write destroys the file that was there, and the caller is not told *)
Theorem C83_overwrite_refuted : exists z dk compact indented p old, lossless z /\ bounded z /\ compact <> "" /\ readable z dk (p ++ ".zst") old /\
  exists dk', compressToFile z dk compact (p ++ ".zst") = Ok (false, dk') /\ writeTimelineText z dk compact indented p true = Ok dk' /\
    forall s, ~ readable z dk' (p ++ ".zst") s.
Proof. exact overwrite_lost. Qed.
Print Assumptions C83_overwrite_refuted.

(* the tests of test_npe_compression.cpp, with a code that only stores *)
Example C83_example : lossless stored /\ bounded stored /\
  map (fun r => match r with Ok (b, dk) => Some (b, dk_files dk "new.zst", dk_files dk "old.zst") | _ => None end)
    [compressToFile stored (small_disk 100) "Hello, world!" "new.zst"; compressToFile stored (small_disk 100) "Second content" "old.zst";
     compressToFile stored (small_disk 100) "Test content" "nowhere/x.zst"; compressToFile stored (small_disk 4) "Test content" "new.zst"] =
    [Some (true, Some "#Hello, world!", Some "#old"); Some (true, None, Some "#Second content"); Some (false, None, Some "#old"); Some (false, Some "#Tes", Some "#old")].
Proof. split; [apply stored_ok|]. split; [apply stored_ok|]. vm_compute. reflexivity. Qed.
