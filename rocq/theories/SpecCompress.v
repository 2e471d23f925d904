(* Specification of the writing of compressed files. *)
From Coq Require Import ZArith String List Bool Ascii.
From Verif Require Import Base Compress.
Local Open Scope string_scope.

(* what zstd.h promises: decompression undoes compression, and compression into a buffer of the size of the bound succeeds *)
Definition lossless (z : zstd) : Prop := forall cap s c, z_compress z cap s = Some c -> z_decompress z c = Some s.
Definition bounded (z : zstd) : Prop := forall s, exists cap c, z_bound z (String.length s) = Some cap /\ z_compress z cap s = Some c /\ (String.length c <= cap)%nat.

(* the compressed text, complete, can be read back from path p *)
Definition readable (z : zstd) (dk : disk) (p s : string) : Prop := exists c, dk_files dk p = Some c /\ z_decompress z c = Some s.
(* the file at p has a beginning of the compressed text *)
Definition cut_short (z : zstd) (dk : disk) (p s : string) : Prop := exists b cap t r, dk_files dk p = Some b /\ z_compress z cap s = Some t /\ t = b ++ r /\ r <> "".
(* files other than the one at p *)
Definition others_same (dk dk' : disk) (p : string) : Prop := forall q, q <> p -> dk_files dk' q = dk_files dk q.
(* the path can be written with so many bytes *)
Definition accepts (dk : disk) (p : string) (n : nat) : Prop := dk_opens dk p = true /\ (n <= dk_room dk p)%nat.

(* a code which only stores *)
Definition stored : zstd := mkZstd (fun n => Some (S n)) (fun cap s => if (String.length s <? cap)%nat then Some ("#" ++ s) else None)
  (fun c => match c with String a s => if Ascii.eqb a "#" then Some s else None | _ => None end).
(* a disk with one file and a buffer of 8 bytes *)
Definition small_disk (room : nat) : disk := mkDisk (fun q => if String.eqb q "old.zst" then Some "#old" else None) (fun q => negb (String.eqb q "nowhere/x.zst")) (fun _ => room) 8.
