(* Model of the analysis of a directory of traces: tt_npe/py/util/npe_analyze_noc_trace_dir.py:42-138 (statistics, names of operations), 140-150
   and 205-230 (one run, whose simulation is an argument), 232-262 (summary table: its order, percentages and averages), 264-362 (names of
   trace files, grouping), 364-448 (the analysis). Simplified: file names are ASCII; the statistics are exact rationals, not floats; the
   order in which glob lists the directory and the order in which the pool returns results are arguments, as are the output directory, the
   parsed topology and the simulation of a merged trace; the temporary files (366-371), the check of sync_device_info.csv (377-381) and all
   messages are not modelled. A trace file holds a list of events as in Fabric.v. No proofs in this file. *)
From Coq Require Import ZArith QArith Qabs String Ascii List Bool.
From Verif Require Import Util Files Fabric.
Import ListNotations.
Local Open Scope string_scope.
Local Open Scope list_scope.
Open Scope Z_scope.

(** * Identifiers: 126-138, 321-331 *)
Record op_uid : Type := mkUid { uid_op : Z; uid_trace : option Z }.
Definition trace_eqb (a b : option Z) : bool :=
  match a, b with None, None => true | Some x, Some y => x =? y | _, _ => false end.
(* 135-138 *)
Definition uid_eqb (a b : op_uid) : bool := (uid_op a =? uid_op b) && trace_eqb (uid_trace a) (uid_trace b).
(* 131-132: an integer is true when it is not 0 *)
Definition py_str (n : Z) : string := if n <? 0 then String.append "-" (decimal (- n)) else decimal n.
Definition uid_str (u : op_uid) : string :=
  String.append "ID" (String.append (py_str (uid_op u))
    (match uid_trace u with Some t => if t =? 0 then "" else String.append "_traceID" (py_str t) | None => "" end)).
(* 321-331 *)
Definition get_device_id (p : Z) : Z := Z.land p 1023.
Definition get_ttnn_op_id (p : Z) : Z := Z.shiftr p 10.
Definition get_program_runtime_id (op dev : Z) : Z := Z.lor (Z.shiftl op 10) dev.

(** * Names of trace files: 264-274 *)
(* os.path.basename *)
Fixpoint after_last_slash (s : string) : option string :=
  match s with
  | EmptyString => None
  | String c s' => match after_last_slash s' with Some t => Some t | None => if Ascii.eqb c "/" then Some s' else None end
  end.
Definition basename (s : string) : string := match after_last_slash s with Some t => t | None => s end.
Definition is_digit (c : ascii) : bool := (48 <=? Z.of_nat (nat_of_ascii c)) && (Z.of_nat (nat_of_ascii c) <=? 57).
(* \w *)
Definition is_word (c : ascii) : bool :=
  let n := Z.of_nat (nat_of_ascii c) in
  is_digit c || ((65 <=? n) && (n <=? 90)) || ((97 <=? n) && (n <=? 122)) || (n =? 95).
Fixpoint strip (p s : string) : option string :=
  match p, s with
  | EmptyString, _ => Some s
  | String a p', String b s' => if Ascii.eqb a b then strip p' s' else None
  | _, EmptyString => None
  end.
(* \d+ takes every digit: what follows it in the pattern is not a digit *)
Fixpoint span_digits (s : string) : string * string :=
  match s with
  | EmptyString => ("", "")
  | String c s' => if is_digit c then let r := span_digits s' in (String c (fst r), snd r) else ("", s)
  end.
(* int of a string of digits *)
Fixpoint int_of (acc : Z) (s : string) : Z :=
  match s with EmptyString => acc | String c s' => int_of (10 * acc + (Z.of_nat (nat_of_ascii c) - 48)) s' end.
Definition number (s : string) : option (Z * string) :=
  let r := span_digits s in
  match fst r with EmptyString => None | d => Some (int_of 0 d, snd r) end.
(* ID(\d+)(_traceID(\d+))?\.json$; the names end with .json (389), so $ is the end *)
Definition match_end (s : string) : option (Z * option Z) :=
  match strip "ID" s with
  | None => None
  | Some s =>
      match number s with
      | None => None
      | Some (id, s) =>
          match strip "_traceID" s with
          | Some s' => match number s' with Some (t, s'') => if String.eqb s'' ".json" then Some (id, Some t) else None | None => None end
          | None => if String.eqb s ".json" then Some (id, None) else None
          end
      end
  end.
(* (\w* )_ before the rest: the longest first *)
Fixpoint match_op (s : string) : option (string * (Z * option Z)) :=
  match s with
  | EmptyString => None
  | String c s' =>
      match (if is_word c then match_op s' else None) with
      | Some (w, r) => Some (String c w, r)
      | None => if Ascii.eqb c "_" then match match_end s' with Some r => Some ("", r) | None => None end else None
      end
  end.
(* 264-274: the device, the operation, the identifier of the program run, the trace; None: no match *)
Definition extractDataFromFilename (file : string) : option (Z * string * Z * option Z) :=
  match strip "noc_trace_dev" (basename file) with
  | None => None
  | Some s =>
      match number s with
      | None => None
      | Some (dev, s) =>
          match strip "_" s with
          | None => None
          | Some s =>
              match match_op s with
              | Some (op, (id, t)) => Some (dev, op, id, t)
              | None => match match_end s with Some (id, t) => Some (dev, "UnknownOP", id, t) | None => None end
              end
          end
      end
  end.

(** * Grouping: 276-362 *)
Definition group : Type := (op_uid * (string * list string))%type.
(* 338-360; devices_per_op is only used for a message *)
Definition group_step (m : list group) (file : string) : list group :=
  match extractDataFromFilename file with
  | None => m
  | Some (dev, op, id, t) =>
      let u := mkUid (get_ttnn_op_id id) t in
      let g := match dict_get uid_eqb m u with Some g => g | None => (op, []) end in
      dict_set uid_eqb m u (fst g, snd g ++ [file])
  end.
Definition group_traces_ttnn (files : list string) : list group := fold_left group_step files [].
(* what a grouping returns: a dictionary, or a list *)
Inductive grouped : Type := AsDict (l : list group) | AsList (l : list group).
(* 277-319. The loop of 303-317 assigns to noc_trace_files_per_op[op_uid], which is a list: the first assignment raises a TypeError, and the
   lines before it raise nothing. It runs once for every operation, so not at all when there is no file with a valid name. *)
Definition group_traces_metal (files : list string) : py grouped :=
  let? per_device := pfold (fun m file =>
      match extractDataFromFilename file with
      | None => Val m
      | Some (dev, op, id, t) =>
          if negb (String.eqb op "UnknownOP") then Raised "AssertionError" else
          match t with
          | Some _ => Raised "AssertionError"
          | None => Val (dict_set Z.eqb m dev ((match dict_get Z.eqb m dev with Some l => l | None => [] end) ++ [(id, file)]))
          end
      end) files [] in
  let num_ops := fold_left (fun n e => Nat.max n (List.length (snd e))) per_device O in
  match num_ops with O => Val (AsList []) | _ => Raised "TypeError" end.

(** * Statistics: 42-124 *)
Record device_stats : Type := mkDeviceStats {
  ds_golden : Z;      (* golden_cycles *)
  ds_link : Q;        (* overall_avg_link_util *)
  ds_dram : Q;        (* dram_bw_util *)
  ds_eth : Q;         (* getAggregateEthBwUtil() *)
  ds_error : Q }.     (* cycle_prediction_error *)
Definition point_key : Type := (op_uid * Z)%type.
Definition point_eqb (a b : point_key) : bool := uid_eqb (fst a) (fst b) && (snd a =? snd b).
Definition datapoint : Type := (point_key * (string * device_stats))%type.
(* 57-58 *)
Definition addDatapoint (m : list datapoint) (op : string) (u : op_uid) (dev : Z) (s : device_stats) : list datapoint :=
  dict_set point_eqb m (u, dev) (op, s).
(* 60-63; << binds tighter than |, which binds tighter than if *)
Definition getDatapointByID (m : list datapoint) (p : Z) (trace : option Z) (session : Z) : option (string * device_stats) :=
  let combined := match trace with Some t => Some (Z.lor (Z.shiftl t 32) session) | None => None end in
  dict_get point_eqb m (mkUid (get_ttnn_op_id p) combined, get_device_id p).
Definition point_stats (d : datapoint) : device_stats := snd (snd d).
Definition golden (d : datapoint) : Z := ds_golden (point_stats d).
(* 65-66: sorted is stable; the keys are computed first. The key 1.0 / golden_cycles is an exact rational here; in the code cycles up to
   2^52 have different keys *)
Definition cycle_key (d : datapoint) : Q := Qdiv 1 (inject_Z (golden d)).
Definition Qlt_bool (a b : Q) : bool := negb (Qle_bool b a).
Definition getSortedEvents (m : list datapoint) : py (list datapoint) :=
  if existsb (fun d => golden d =? 0) m then Raised "ZeroDivisionError" else Val (sort (fun a b => Qlt_bool (cycle_key a) (cycle_key b)) m).
(* 68-69 *)
Definition getCycles (m : list datapoint) : Z := fold_left (fun n d => n + golden d) m 0.
Definition py_div (a : Q) (n : Z) : py Q := if n =? 0 then Raised "ZeroDivisionError" else Val (Qdiv a (inject_Z n)).
Definition qsum (l : list Q) : Q := fold_left Qplus l 0%Q.
(* 71-74 *)
Definition getAvgLinkUtil (m : list datapoint) : py Q := py_div (qsum (map (fun d => ds_link (point_stats d)) m)) (Z.of_nat (List.length m)).
(* 76-110 *)
Definition weighted (f : device_stats -> Q) (m : list datapoint) : py Q :=
  py_div (qsum (map (fun d => Qmult (f (point_stats d)) (inject_Z (golden d))) m)) (getCycles m).
Definition getWeightedAvgLinkUtil : list datapoint -> py Q := weighted ds_link.
Definition getWeightedAvgDramBWUtil : list datapoint -> py Q := weighted ds_dram.
Definition getWeightedAvgEthBWUtil : list datapoint -> py Q := weighted ds_eth.
(* 112-115 *)
Definition abs_error (d : datapoint) : Q := Qabs (ds_error (point_stats d)).
Definition getAvgError (m : list datapoint) : py Q := py_div (qsum (map abs_error m)) (Z.of_nat (List.length m)).
(* l[i], for i >= 0 *)
Definition list_item {X} (l : list X) (i : nat) : py X := match nth_error l i with Some x => Val x | None => Raised "IndexError" end.
(* 116-124: len * 0.25 and len * 0.75 are exact below 2^51 *)
Definition getErrorPercentiles (m : list datapoint) : py (Q * Q * Q * Q) :=
  let errors := sort Qlt_bool (map abs_error m) in
  let n := List.length errors in
  let? a := list_item errors (n / 4) in
  let? b := list_item errors (n / 2) in
  let? c := list_item errors (3 * n / 4) in
  match rev errors with [] => Raised "IndexError" | d :: _ => Val (a, b, c, d) end.
(* 232-262: the rows with their share of the cycles, and the averages *)
Record summary : Type := mkSummary {
  sm_rows : list (string * op_uid * Z * Q); sm_omitted : nat;
  sm_error : option (Q * (Q * Q * Q * Q)); sm_link : Q; sm_wlink : Q; sm_wdram : Q; sm_weth : Q }.
Fixpoint rows_of (total : Z) (l : list datapoint) : py (list (string * op_uid * Z * Q)) :=
  match l with
  | [] => Val []
  | d :: l' => let? p := py_div (inject_Z (golden d)) total in
               let? r := rows_of total l' in
               Val ((fst (snd d), fst (fst d), snd (fst d), Qmult 100 p) :: r)
  end.
Definition print_stats_summary_table (m : list datapoint) (show_accuracy : bool) (max_display : nat) : py summary :=
  let? sorted := getSortedEvents m in
  let? rows := rows_of (getCycles m) (firstn max_display sorted) in
  let? acc := if show_accuracy then let? e := getAvgError m in let? p := getErrorPercentiles m in Val (Some (e, p)) else Val None in
  let? a := getAvgLinkUtil m in
  let? b := getWeightedAvgLinkUtil m in
  let? c := getWeightedAvgDramBWUtil m in
  let? d := getWeightedAvgEthBWUtil m in
  Val (mkSummary rows (List.length sorted - max_display) acc a b c d).

(** * The analysis: 364-448 *)
Section Analysis.
  Context (W : Type).
  Definition trace : Type := list (event W).
  Definition trace_files : Type := string -> option trace.
  (* os.path.join of a directory and a name *)
  Definition join (dir name : string) : string :=
    match String.get (String.length dir - 1) dir with
    | None => name
    | Some c => if Ascii.eqb c "/" then String.append dir name else String.append dir (String.append "/" name)
    end.
  (* "merged.json" in s *)
  Definition mentions (p s : string) : bool := match String.index 0 p s with Some _ => true | None => false end.
  (* 389: glob noc_trace*.json *)
  Definition is_trace (name : string) : bool :=
    String.prefix "noc_trace" name && Nat.leb 14 (String.length name) &&
    String.eqb (String.substring (String.length name - 5) 5 name) ".json".
  (* 389-391 *)
  Definition list_traces (dir : string) (names : list string) : list string :=
    filter (fun p => negb (mentions "merged.json" p)) (map (join dir) (filter is_trace names)).
  Definition merged_path (dir : string) (u : op_uid) : string :=
    join dir (String.append "noc_trace_" (String.append (uid_str u) "_merged.json")).
  Definition info : Type := (string * string * op_uid)%type.      (* merged file, operation, identifier *)
  Definition put {X} (fs : string -> option X) (p : string) (x : X) : string -> option X := fun q => if String.eqb p q then Some x else fs q.
  (* fabric_post_process.py:517-526 *)
  Fixpoint read_all (fs : trace_files) (files : list string) : py (list trace) :=
    match files with
    | [] => Val []
    | f :: files => match fs f with Some l => let? r := read_all fs files in Val (l :: r) | None => Raised "FileNotFoundError" end
    end.
  (* 408-414; a ProcessingError is reported by process_traces itself *)
  Definition merge_step (t : topology) (dir : string) (s : trace_files * list info) (g : group) : py (trace_files * list info) :=
    let '(u, (op, files)) := g in
    let p := merged_path dir u in
    let? ls := read_all (fst s) files in
    let? fs := match process_traces t W ls true with
               | Val es => Val (put (fst s) p es)
               | Processing => Val (fst s)
               | Raised e => Raised e
               end in
    Val (fs, snd s ++ [(p, op, u)]).
  (* the simulation of a merged trace: the statistics of each device, -1 for the mesh; None: an error *)
  Context (npe : trace -> option (list (Z * device_stats))).
  (* 140-150, 205-230: every exception is caught *)
  Definition process_trace (fs : trace_files) (i : info) : option (string * op_uid * list (Z * device_stats)) :=
    let '(p, op, u) := i in
    match fs p with
    | None => None
    | Some es => match npe es with Some r => Some (op, u, r) | None => None end
    end.
  Definition timeline_name (op : string) (u : op_uid) : string := String.append op (String.append "_" (String.append (uid_str u) ".npeviz")).
  Record analysis : Type := mkAnalysis {
    an_points : list datapoint;
    an_manifest : list (Z * string);                              (* global_call_count, file *)
    an_files : trace_files;
    an_timelines : string -> option trace }.                      (* of which trace a timeline file shows the simulation *)
  (* 424-434; the timeline is written by runNPE (C65) under [timeline_name], with .zst when compressed *)
  Definition collect (emit compress : bool) (out : string) (fs : trace_files) (s : list datapoint * list (Z * string) * (string -> option trace)) (i : info) :
      list datapoint * list (Z * string) * (string -> option trace) :=
    match process_trace fs i with
    | None => s
    | Some (op, u, r) =>
        let '(points, manifest, tls) := s in
        (fold_left (fun m e => if fst e =? -1 then m else addDatapoint m op u (fst e) (snd e)) r points,
         manifest ++ [(get_program_runtime_id (uid_op u) 0, output_filepath compress (timeline_name op u))],
         if emit then match fs (fst (fst i)) with Some es => put tls (output_filepath compress (join out (timeline_name op u))) es | None => tls end else tls)
    end.
  Definition analyze (metal emit compress quiet show_accuracy : bool) (max_rows : nat) (dir out : string) (names : list string) (tf : topology_file)
      (order : list info -> list info) (fs : trace_files) (tls : string -> option trace) : py analysis :=
    match list_traces dir names with
    | [] => Raised "SystemExit"
    | files =>
        let? grouped := if metal then group_traces_metal files else Val (AsDict (group_traces_ttnn files)) in
        let? t := TopologyGraph tf in
        let? groups := match grouped with AsDict l => Val l | AsList _ => Raised "AttributeError" end in
        let? merged := pfold (merge_step t dir) groups (fs, []) in
        let '(fs, infos) := merged in
        let '(points, manifest, tls) := fold_left (collect emit compress out fs) (order infos) ([], [], tls) in
        let? _ := if quiet then Val tt else let? _ := print_stats_summary_table points show_accuracy max_rows in Val tt in
        Val (mkAnalysis points manifest fs tls)
    end.
End Analysis.
