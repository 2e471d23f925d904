(* Model of tt_npe/cpp/src/npeCompressionUtil.cpp (compressToFile) and of writeTimelineToFile (npeStats.cpp:776-797) down to the bytes
   of the files. The functions of zstd, the capacity of the disk and the size of the buffer of a file stream are arguments. Simplified:
   a write shorter than the buffer stays in the buffer until the stream is closed, any other write goes to the disk at once; a disk
   that is full keeps the bytes that fit. No proofs in this file. *)
From Coq Require Import ZArith String List Bool.
From Verif Require Import Base Files.
Local Open Scope string_scope.

(* ZSTD_compressBound, ZSTD_compress at the default level into a buffer of a given capacity, ZSTD_decompress; None: ZSTD_isError *)
Record zstd : Type := mkZstd {
  z_bound : nat -> option nat;
  z_compress : nat -> string -> option string;
  z_decompress : string -> option string }.

Record disk : Type := mkDisk {
  dk_files : string -> option string;   (* contents *)
  dk_opens : string -> bool;            (* paths that can be opened for writing *)
  dk_room : string -> nat;              (* number of bytes the file at a path can have *)
  dk_buffer : nat }.                    (* size of the buffer of a std::ofstream *)
Definition put (dk : disk) (p s : string) : disk :=
  mkDisk (fun q => if String.eqb p q then Some s else dk_files dk q) (dk_opens dk) (dk_room dk) (dk_buffer dk).

(* a std::ofstream: path, bytes in the buffer, whether good() *)
Record stream : Type := mkStream { st_path : string; st_pending : string; st_good : bool }.
(* std::ofstream(p, binary | trunc); the default mode of an ofstream truncates as well *)
Definition open_trunc (dk : disk) (p : string) : option (disk * stream) :=
  if dk_opens dk p then Some (put dk p "", mkStream p "" true) else None.
(* the bytes of s that fit at path p *)
Definition to_disk (dk : disk) (p s : string) : disk := put dk p (String.substring 0 (dk_room dk p) s).
(* write and operator<< of a whole text into a stream that has just been opened *)
Definition stream_write (dk : disk) (o : stream) (s : string) : disk * stream :=
  if (String.length s <? dk_buffer dk)%nat then (dk, mkStream (st_path o) s (st_good o))
  else (to_disk dk (st_path o) s, mkStream (st_path o) "" (st_good o && (String.length s <=? dk_room dk (st_path o))%nat)).
(* close(), or the destructor: the state of the stream afterwards is not looked at *)
Definition stream_close (dk : disk) (o : stream) : disk :=
  if String.eqb (st_pending o) "" then dk else to_disk dk (st_path o) (st_pending o).

(* npeCompressionUtil.cpp:13-58 *)
Definition compressToFile (z : zstd) (dk : disk) (contents p : string) : outcome (bool * disk) :=
  let! _ := tt_assert (0 <? String.length contents)%nat in
  match z_bound z (String.length contents) with
  | None => Ok (false, dk)
  | Some cap =>
      match z_compress z cap contents with
      | None => Ok (false, dk)
      | Some c =>
          match open_trunc dk p with
          | None => Ok (false, dk)
          | Some (dk, o) =>
              let '(dk, o) := stream_write dk o c in
              Ok (st_good o, stream_close dk o)
          end
      end
  end.

(* npeStats.cpp:776-797; [compact] and [indented]: the document printed by dump(-1) and by dump(2) *)
Definition writeTimelineText (z : zstd) (dk : disk) (compact indented p : string) (compress : bool) : outcome disk :=
  if compress then let! r := compressToFile z dk compact (output_filepath true p) in Ok (snd r)
  else match open_trunc dk (output_filepath false p) with
       | None => Ok dk
       | Some (dk, o) => let '(dk, o) := stream_write dk o indented in Ok (stream_close dk o)
       end.
