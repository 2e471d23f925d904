(* Model of the names of the timeline files and of writing them: tt_npe/cpp/src/npeStats.cpp:776-876 (writeTimelineToFile,
   emitSimTimelineToFile), npeCompressionUtil.cpp. A file system maps paths to contents; which paths can be opened is an argument; a file
   that cannot be opened is skipped with a message. A write that was started succeeds; compression is taken to be lossless. No proofs
   in this file. *)
From Coq Require Import ZArith String List Bool Ascii.
From Verif Require Import Base Arith Util Device Workload Rates Stats Engine Timeline.
Import ListNotations.
Local Open Scope string_scope.

(* std::string::find_last_of('.'), then substr(0, pos); npos: the whole string *)
Fixpoint before_last_dot (s : string) : option string :=
  match s with
  | EmptyString => None
  | String c s' =>
      match before_last_dot s' with
      | Some t => Some (String c t)
      | None => if Ascii.eqb c "." then Some "" else None
      end
  end.
Definition without_suffix (s : string) : string := match before_last_dot s with Some t => t | None => s end.
(* 807-816 *)
Definition base_filepath (timeline_filepath workload_json : string) : string :=
  if String.eqb timeline_filepath "" then
    if String.eqb workload_json "" then "npe_timeline.npeviz" else "npe_timeline_" ++ without_suffix workload_json ++ ".npeviz"
  else timeline_filepath.
(* 838-842: find(".npeviz") finds the first occurrence *)
Definition base_without_ext (base : string) : string :=
  match String.index 0 ".npeviz" base with Some p => String.substring 0 p base | None => base end.
(* fmt "{}" of a size_t: digits from the last to the first *)
Definition digit_char (d : Z) : string := String (ascii_of_nat (48 + Z.to_nat d)) "".
Fixpoint digits (fuel : nat) (n : Z) : string :=
  match fuel with
  | O => digit_char n
  | S fuel => if (n <? 10)%Z then digit_char n else digits fuel (n / 10) ++ digit_char (n mod 10)
  end.
Definition decimal (n : Z) : string := digits (Z.to_nat (Z.log2 n + 1)) n.
(* 872 *)
Definition split_filepath (base : string) (i : Z) : string := base_without_ext base ++ "_split_" ++ decimal i ++ ".npeviz".
(* 782-785 *)
Definition output_filepath (compress : bool) (p : string) : string := if compress then p ++ ".zst" else p.

Section Files.
  Context (A : arith).
  Definition path_of (timeline_filepath workload_json : string) (compress : bool) (c : content A) : string :=
    let base := base_filepath timeline_filepath workload_json in
    output_filepath compress (match c with FullV0 _ _ | FullV1 _ _ => base | Split _ k _ _ => split_filepath base k end).
  Definition file_system : Type := string -> option (content A).
  (* 776-797 *)
  Definition write (opens : string -> bool) (fs : file_system) (p : string) (c : content A) : file_system :=
    if opens p then fun q => if String.eqb p q then Some c else fs q else fs.
  Definition write_all (opens : string -> bool) (timeline_filepath workload_json : string) (compress : bool) (files : list (content A))
      (fs : file_system) : file_system :=
    fold_left (fun fs c => write opens fs (path_of timeline_filepath workload_json compress c) c) files fs.
End Files.
