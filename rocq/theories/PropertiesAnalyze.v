(* C74-C77: the analysis of a directory of traces. *)
From Coq Require Import ZArith QArith Qabs Lia Bool String Ascii List Permutation.
From Verif Require Import Util Files SpecFiles Fabric SpecFabric Analyze SpecAnalyze AnalyzeNames AnalyzeGroups AnalyzeStats AnalyzeProofs AnalyzeMain AnalyzeWitness.
Import ListNotations.
Local Open Scope string_scope.
Local Open Scope list_scope.
Open Scope Z_scope.

(** * C74 *)
(* operation and device are recovered from the identifier of a program run, and every identifier is that of its operation and device *)
Theorem C74_runtime_id : (forall op dev, 0 <= dev < 1024 -> get_device_id (get_program_runtime_id op dev) = dev /\ get_ttnn_op_id (get_program_runtime_id op dev) = op) /\
  (forall p, get_program_runtime_id (get_ttnn_op_id p) (get_device_id p) = p /\ 0 <= get_device_id p < 1024).
Proof. exact runtime_id. Qed.
Print Assumptions C74_runtime_id.
Example C74_runtime_id_ex : get_program_runtime_id 5 3 = 5123 /\ get_ttnn_op_id 5123 = 5 /\ get_device_id 5123 = 3. Proof. vm_compute. auto. Qed.
(* a file name is accepted exactly when it has the form of a trace name, with the values it names *)
Theorem C74_name : forall dir path name dev op id t, file_in dir name path ->
  (extractDataFromFilename path = Some (dev, op, id, t) <-> trace_name dev op id t name).
Proof. intros dir path name dev op id t. exact (extract_name dir path name dev op id t). Qed.
Print Assumptions C74_name.
Example C74_name_ex : extractDataFromFilename "/tmp/traces/noc_trace_dev3_Matmul_ID_2_ID005123_traceID7.json" = Some (3, "Matmul_ID_2", 5123, Some 7) /\
  extractDataFromFilename "noc_trace_dev0_ID5120.json" = Some (0, "UnknownOP", 5120, None) /\ extractDataFromFilename "noc_trace_devX_ID5120.json" = None.
Proof. exact name_case. Qed.
(* different operations have different strings, unless a trace has number 0 *)
Theorem C74_distinct_partial : forall u v, usual u -> usual v -> uid_str u = uid_str v -> u = v.
Proof. exact uid_str_inj. Qed.
Print Assumptions C74_distinct_partial.
Example C74_distinct_ex : usual (mkUid 5 None) /\ usual (mkUid 5 (Some 12)) /\ uid_str (mkUid 5 (Some 12)) = "ID5_traceID12". Proof. unfold usual. cbn. repeat split; lia. Qed.
Theorem C74_distinct_refuted : exists u v f g op, u <> v /\ belongs u op f /\ belongs v op g /\ uid_str u = uid_str v.
Proof. exact zero_trace. Qed.
Print Assumptions C74_distinct_refuted.

(** * C75 *)
Theorem C75_groups : forall files, NoDup (map fst (group_traces_ttnn files)) /\
  (forall u op fs, In (u, (op, fs)) (group_traces_ttnn files) -> select (fun f => exists o, belongs u o f) files fs /\ exists f r, fs = f :: r /\ belongs u op f) /\
  (forall u op f, In f files -> belongs u op f -> exists op' fs, In (u, (op', fs)) (group_traces_ttnn files) /\ In f fs).
Proof. exact groups_spec. Qed.
Print Assumptions C75_groups.
Example C75_groups_ex : group_traces_ttnn the_files = [(mkUid 5 None, ("Matmul", ["traces/noc_trace_dev0_Matmul_ID5120.json"; "traces/noc_trace_dev1_Matmul_ID5121.json"])); (mkUid 6 None, ("Add", ["traces/noc_trace_dev0_Add_ID6144.json"]))].
Proof. exact the_groups. Qed.
(* the grouping for programs without operations fails on well-named files, so the analysis never succeeds with it *)
Theorem C75_metal_refuted : exists files, (forall f, In f files -> exists u, belongs u "UnknownOP" f /\ uid_trace u = None) /\ files <> [] /\ group_traces_metal files = Raised "TypeError".
Proof. exact metal_type_error. Qed.
Print Assumptions C75_metal_refuted.
(* exactly when and how it fails: only without any valid name is there a result, an empty list *)
Theorem C75_metal_outcome : forall files,
  ((forall f u op, In f files -> ~ belongs u op f) -> group_traces_metal files = Val (AsList [])) /\
  ((exists f u op, In f files /\ belongs u op f /\ (op <> "UnknownOP" \/ uid_trace u <> None)) -> group_traces_metal files = Raised "AssertionError") /\
  ((exists f u op, In f files /\ belongs u op f) -> (forall f u op, In f files -> belongs u op f -> op = "UnknownOP" /\ uid_trace u = None) -> group_traces_metal files = Raised "TypeError").
Proof. exact metal_outcome. Qed.
Print Assumptions C75_metal_outcome.
Example C75_metal_outcome_ex : group_traces_metal ["traces/topology.json"] = Val (AsList []) /\ group_traces_metal ["noc_trace_dev0_ID1.json"; "noc_trace_dev0_Matmul_ID1.json"] = Raised "AssertionError" /\
  group_traces_metal ["noc_trace_dev0_ID1_traceID3.json"] = Raised "AssertionError" /\ group_traces_metal ["noc_trace_dev0_ID1.json"; "other.json"] = Raised "TypeError".
Proof. repeat split; vm_compute; reflexivity. Qed.
Theorem C75_metal_never : forall W npe emit compress quiet show k dir out names tf fs tls order a,
  analyze W npe true emit compress quiet show k dir out names tf order fs tls <> Val a.
Proof. intros W npe emit compress quiet show k dir out names tf fs tls order a. exact (metal_fails W npe emit compress quiet show k dir out names tf fs tls order a). Qed.
Print Assumptions C75_metal_never.
Example C75_metal_ex : analyze unit run true false false true false 10 "traces" "npe_viz" ["noc_trace_dev0_ID1.json"] board1 (fun l => l) (fun _ => Some []) (fun _ => None) = Raised "TypeError".
Proof. vm_compute. reflexivity. Qed.

(** * C76 *)
Theorem C76_lookup : forall m p trace session op s, NoDup (map fst m) -> 0 <= session < 2 ^ 32 ->
  (getDatapointByID m p trace session = Some (op, s) <->
   in_points m (mkUid (p / 1024) (match trace with Some t => Some (t * 2 ^ 32 + session) | None => None end)) (p mod 1024) op s).
Proof. exact lookup. Qed.
Print Assumptions C76_lookup.
Example C76_lookup_ex : NoDup (map fst sample) /\ getDatapointByID sample 2048 (Some 1) 2 = Some ("B", mkDeviceStats 100 50 3 0 1). Proof. split; [exact sample_nodup|vm_compute; reflexivity]. Qed.
(* the weighted averages *)
Theorem C76_weighted : forall f m v, weighted f m = Val v -> (forall d, In d m -> 0 <= golden d) ->
  (forall lo hi, (forall d, In d m -> (lo <= f (point_stats d) <= hi)%Q) -> (lo <= v <= hi)%Q) /\
  (v * inject_Z (getCycles m) == qsum (map (fun d => f (point_stats d) * inject_Z (golden d)) m))%Q /\
  (forall m', Permutation m m' -> exists v', weighted f m' = Val v' /\ (v' == v)%Q).
Proof. exact weighted_spec. Qed.
Print Assumptions C76_weighted.
Example C76_weighted_ex : exists v, weighted ds_link sample = Val v /\ (v == 50)%Q. Proof. eexists. split; [vm_compute; reflexivity|]. vm_compute. reflexivity. Qed.
Theorem C76_percentiles : forall m, m <> [] -> exists a b c d, getErrorPercentiles m = Val (a, b, c, d) /\
  let n := List.length m in
  quantile (errors m) (n / 4) a /\ quantile (errors m) (n / 2) b /\ quantile (errors m) (3 * n / 4) c /\ (forall e, In e (errors m) -> (e <= d)%Q) /\ (exists e, In e (errors m) /\ (e == d)%Q) /\
  (a <= b <= c)%Q /\ (c <= d)%Q.
Proof. exact percentiles. Qed.
Print Assumptions C76_percentiles.
Example C76_percentiles_ex : sample <> [] /\ exists a b c d, getErrorPercentiles sample = Val (a, b, c, d) /\ (a == 2 /\ b == 4 /\ c == 8 /\ d == 8)%Q.
Proof. split; [discriminate|]. do 4 eexists. split; [vm_compute; reflexivity|]. vm_compute. auto. Qed.
(* the table: operations by falling cycles, in the order of the data points if equal; the shares of the cycles *)
Theorem C76_table_partial : forall m show k s, print_stats_summary_table m show k = Val s -> (forall d, In d m -> 0 <= golden d) ->
  m <> [] /\ (exists r, stably_sorted (fun a b => golden b < golden a) m r /\
    Forall2 (fun d (row : string * op_uid * Z * Q) => fst row = (fst (snd d), fst (fst d), snd (fst d)) /\ (snd row * inject_Z (getCycles m) == 100 * inject_Z (golden d))%Q) (firstn k r) (sm_rows s)) /\
  (List.length (sm_rows s) + sm_omitted s = List.length m)%nat /\ ((List.length m <= k)%nat -> (qsum (map snd (sm_rows s)) == 100)%Q).
Proof. exact table. Qed.
Print Assumptions C76_table_partial.
Example C76_table_ex : (forall d, In d sample -> 0 <= golden d) /\ exists s, print_stats_summary_table sample true 3 = Val s /\ map (fun r => (fst (fst (fst r)), snd (fst r))) (sm_rows s) = [("C", 0); ("A", 1); ("A", 0)] /\ sm_omitted s = 1%nat.
Proof. split; [exact sample_golden|]. eexists. split; [vm_compute; reflexivity|]. vm_compute. auto. Qed.
(* it fails without results, and when a device has no cycles *)
Theorem C76_empty : forall show k, print_stats_summary_table [] show k = Raised "ZeroDivisionError".
Proof. exact table_empty. Qed.
Print Assumptions C76_empty.
Theorem C76_zero : forall m show k d, In d m -> golden d = 0 -> print_stats_summary_table m show k = Raised "ZeroDivisionError".
Proof. exact table_zero. Qed.
Print Assumptions C76_zero.
Theorem C76_table_refuted : exists W (npe : list (event W) -> option (list (Z * device_stats))) names fs tf files,
  plain_dir "traces" /\ listing "traces" names files /\ numbered files /\ (forall es r, npe es = Some r -> NoDup (map fst r)) /\
  analyze W npe false false false false false 10 "traces" "npe_viz" names tf (fun l => l) fs (fun _ => None) = Raised "ZeroDivisionError".
Proof. exact no_result_error. Qed.
Print Assumptions C76_table_refuted.

(** * C77 *)
(* every operation whose traces can be merged has exactly the data points of the simulation of its merged trace; where they cannot be merged,
   the merged file is what it was before *)
Theorem C77_points_partial : forall W (npe : list (event W) -> option (list (Z * device_stats))) emit compress quiet show k dir out names tf fs tls files order a,
  (forall es r, npe es = Some r -> NoDup (map fst r)) -> plain_dir dir -> listing dir names files -> (forall l, Permutation l (order l)) ->
  analyze W npe false emit compress quiet show k dir out names tf order fs tls = Val a -> numbered files ->
  exists t, TopologyGraph tf = Val t /\
    (forall u d o s, in_points (an_points W a) u d o s -> exists own, operation files u o own) /\
    (forall u op own, operation files u op own -> exists ls, loads fs own ls /\
      ((exists es, process_traces t W ls true = Val es /\ an_files W a (merged_in dir u) = Some es /\
         forall d s, in_points (an_points W a) u d op s <-> device_result npe es d s) \/
       (process_traces t W ls true = Processing /\ an_files W a (merged_in dir u) = fs (merged_in dir u)))).
Proof. intros W npe emit compress quiet show k dir out names tf fs tls files order a U D L P R. exact (run_spec W npe U emit compress quiet show k dir out names tf fs tls files D L order P a R). Qed.
Print Assumptions C77_points_partial.
Example C77_points_ex : plain_dir "traces" /\ listing "traces" the_names the_files /\ numbered the_files /\ (forall es r, run es = Some r -> NoDup (map fst r)) /\
  view (analysis_of the_names disk run false) =
  Val ([(mkUid 6 None, 0, 100); (mkUid 6 None, 1, 100); (mkUid 5 None, 0, 200); (mkUid 5 None, 1, 200)], [(6144, "Add_ID6.npeviz.zst"); (5120, "Matmul_ID5.npeviz.zst")], Some [10; 20; 15]).
Proof. split; [exact dir_plain|]. split; [exact the_listing|]. split; [exact the_numbered|]. split; [exact run_unique|exact the_run]. Qed.
(* the manifest lists one file for each successful operation, which shows the simulation of its merged trace *)
Theorem C77_manifest : forall W (npe : list (event W) -> option (list (Z * device_stats))) emit compress quiet show k dir out names tf fs tls files order a,
  (forall es r, npe es = Some r -> NoDup (map fst r)) -> plain_dir dir -> listing dir names files -> (forall l, Permutation l (order l)) ->
  analyze W npe false emit compress quiet show k dir out names tf order fs tls = Val a -> numbered files -> plain_dir out ->
  NoDup (map snd (an_manifest W a)) /\
  (forall n f, In (n, f) (an_manifest W a) <-> exists u op own es r, operation files u op own /\ an_files W a (merged_in dir u) = Some es /\ npe es = Some r /\
     n = uid_op u * 1024 /\ f = timeline_file compress op u) /\
  (emit = true -> forall u op own es r, operation files u op own -> an_files W a (merged_in dir u) = Some es -> npe es = Some r ->
     an_timelines W a (in_dir out (timeline_file compress op u)) = Some es).
Proof. intros W npe emit compress quiet show k dir out names tf fs tls files order a U D L P R. exact (run_manifest W npe U emit compress quiet show k dir out names tf fs tls files D L order P a R). Qed.
Print Assumptions C77_manifest.
Example C77_manifest_ex : plain_dir "npe_viz" /\ timeline_file true "Add" (mkUid 6 None) = "Add_ID6.npeviz.zst". Proof. split; [exact out_plain|reflexivity]. Qed.
(* the order in which the workers return their results does not matter *)
Theorem C77_order : forall W (npe : list (event W) -> option (list (Z * device_stats))) emit compress quiet show k dir out names tf fs tls files o1 o2 a1 a2,
  (forall es r, npe es = Some r -> NoDup (map fst r)) -> plain_dir dir -> listing dir names files ->
  (forall l, Permutation l (o1 l)) -> (forall l, Permutation l (o2 l)) ->
  analyze W npe false emit compress quiet show k dir out names tf o1 fs tls = Val a1 -> analyze W npe false emit compress quiet show k dir out names tf o2 fs tls = Val a2 ->
  Permutation (an_points W a1) (an_points W a2) /\ Permutation (an_manifest W a1) (an_manifest W a2) /\ an_files W a1 = an_files W a2.
Proof. intros W npe emit compress quiet show k dir out names tf fs tls files o1 o2 a1 a2 U D L. exact (run_order W npe U emit compress quiet show k dir out names tf fs tls files D L o1 o2 a1 a2). Qed.
Print Assumptions C77_order.
Example C77_order_ex : view (analyze unit run false true true false true 10 "traces" "npe_viz" the_names board1 (fun l => l) disk (fun _ => None)) =
  Val ([(mkUid 5 None, 0, 200); (mkUid 5 None, 1, 200); (mkUid 6 None, 0, 100); (mkUid 6 None, 1, 100)], [(5120, "Matmul_ID5.npeviz.zst"); (6144, "Add_ID6.npeviz.zst")], Some [10; 20; 15]).
Proof. vm_compute. reflexivity. Qed.
(* the data points of an operation whose traces cannot be merged are those of an older merged file *)
Theorem C77_stale_refuted : exists W (npe : list (event W) -> option (list (Z * device_stats))) names fs tf t files u op own ls a d s,
  plain_dir "traces" /\ listing "traces" names files /\ numbered files /\ (forall es r, npe es = Some r -> NoDup (map fst r)) /\ TopologyGraph tf = Val t /\
  operation files u op own /\ loads fs own ls /\ process_traces t W ls true = Processing /\
  analyze W npe false false false false false 10 "traces" "npe_viz" names tf (fun l => l) fs (fun _ => None) = Val a /\ in_points (an_points W a) u d op s.
Proof. exact stale. Qed.
Print Assumptions C77_stale_refuted.
(* with a trace of number 0 the data points of one operation are those of another *)
Theorem C77_points_refuted : exists W (npe : list (event W) -> option (list (Z * device_stats))) names fs tf t files u op own ls es a d s,
  plain_dir "traces" /\ listing "traces" names files /\ (forall es r, npe es = Some r -> NoDup (map fst r)) /\ TopologyGraph tf = Val t /\
  operation files u op own /\ loads fs own ls /\ process_traces t W ls true = Val es /\
  analyze W npe false false false false false 10 "traces" "npe_viz" names tf (fun l => l) fs (fun _ => None) = Val a /\ in_points (an_points W a) u d op s /\ ~ device_result npe es d s.
Proof. exact zero_collision. Qed.
Print Assumptions C77_points_refuted.
