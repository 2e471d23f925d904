(* Specification of the analysis of a directory of traces (C74-C77). *)
From Coq Require Import ZArith QArith Qabs String Ascii List Bool Permutation.
From Verif Require Import Util Files SpecFiles Fabric Analyze.
Import ListNotations.
Local Open Scope string_scope.
Open Scope Z_scope.

(** * C74: names *)
(* s is a number in decimal notation, perhaps with leading zeros *)
Inductive reads : Z -> string -> Prop :=
| reads_digit d : 0 <= d < 10 -> reads d (digit d)
| reads_more n d s : 0 <= d < 10 -> reads n s -> reads (10 * n + d) (s ++ digit d).
Definition word_chars : string := "abcdefghijklmnopqrstuvwxyzABCDEFGHIJKLMNOPQRSTUVWXYZ0123456789_".
Definition word (w : string) : Prop := forall a c b, w = a ++ String c b -> exists x y, word_chars = x ++ String c y.
Inductive trace_part : option Z -> string -> Prop :=
| tp_none : trace_part None ""
| tp_some t s : reads t s -> trace_part (Some t) ("_traceID" ++ s).
Inductive op_part : string -> string -> Prop :=
| op_none : op_part "UnknownOP" ""
| op_some w : word w -> op_part w (w ++ "_").
(* s is the name of a file with the trace of device dev *)
Definition trace_name (dev : Z) (op : string) (id : Z) (t : option Z) (s : string) : Prop :=
  exists a b c o, reads dev a /\ op_part op o /\ reads id b /\ trace_part t c /\
    s = "noc_trace_dev" ++ a ++ "_" ++ o ++ "ID" ++ b ++ c ++ ".json".
(* the name of a file is what follows its directory *)
Definition file_in (dir name path : string) : Prop := (path = dir ++ "/" ++ name \/ path = name) /\ ~ occurs "/" name.
(* an identifier that occurs: numbers are not negative, and a trace is not number 0 *)
Definition usual (u : op_uid) : Prop := 0 <= uid_op u /\ match uid_trace u with Some t => 0 < t | None => True end.

(** * C75: groups *)
(* file belongs to operation u *)
Definition belongs (u : op_uid) (op file : string) : Prop :=
  exists dir name dev id, file_in dir name file /\ trace_name dev op id (uid_trace u) name /\ uid_op u = id / 1024.
Inductive select {X} (P : X -> Prop) : list X -> list X -> Prop :=
| sel_nil : select P [] []
| sel_in x l r : P x -> select P l r -> select P (x :: l) (x :: r)
| sel_out x l r : ~ P x -> select P l r -> select P (x :: l) r.

(** * C76: statistics *)
Definition in_points (m : list datapoint) (u : op_uid) (dev : Z) (op : string) (s : device_stats) : Prop := In ((u, dev), (op, s)) m.
Fixpoint count {X} (f : X -> bool) (l : list X) : nat := match l with [] => O | x :: l' => ((if f x then 1 else 0) + count f l')%nat end.
(* v is an element; at most k elements are smaller, and more than k are at most v *)
Definition quantile (l : list Q) (k : nat) (v : Q) : Prop :=
  (exists x, In x l /\ (x == v)%Q) /\ (count (fun x => negb (Qle_bool v x)) l <= k < count (fun x => Qle_bool x v) l)%nat.
Definition errors (m : list datapoint) : list Q := map (fun d => Qabs (ds_error (snd (snd d)))) m.

(** * C77: the analysis *)
Definition plain_dir (dir : string) : Prop := exists d c, dir = d ++ String c "" /\ c <> "/"%char.
Definition in_dir (dir name : string) : string := dir ++ "/" ++ name.
(* the trace files of a directory with these names *)
Definition listing (dir : string) (names files : list string) : Prop :=
  exists traces, select (fun n => exists x, n = "noc_trace" ++ x ++ ".json") names traces /\
    select (fun p => ~ occurs "merged.json" p) (map (in_dir dir) traces) files.
(* the files of operation u, whose name is that of the first *)
Definition operation (files : list string) (u : op_uid) (op : string) (own : list string) : Prop :=
  select (fun f => exists o, belongs u o f) files own /\ exists f r, own = f :: r /\ belongs u op f.
Inductive loads {W} (fs : string -> option (list (event W))) : list string -> list (list (event W)) -> Prop :=
| ld_nil : loads fs [] []
| ld_cons f l fl ll : fs f = Some l -> loads fs fl ll -> loads fs (f :: fl) (l :: ll).
Definition merged_in (dir : string) (u : op_uid) : string := in_dir dir ("noc_trace_" ++ uid_str u ++ "_merged.json").
(* no trace has number 0 *)
Definition numbered (files : list string) : Prop := forall f u op, In f files -> belongs u op f -> uid_trace u <> Some 0.
(* the statistics of the devices of a trace *)
Definition device_result {W} (npe : list (event W) -> option (list (Z * device_stats))) (es : list (event W)) (d : Z) (s : device_stats) : Prop :=
  d <> -1 /\ exists r, npe es = Some r /\ In (d, s) r.
Definition timeline_file (compress : bool) (op : string) (u : op_uid) : string := op ++ "_" ++ uid_str u ++ ".npeviz" ++ (if compress then ".zst" else "").
