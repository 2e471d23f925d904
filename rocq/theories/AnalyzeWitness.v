(* Cases for C74-C77. *)
From Coq Require Import ZArith QArith Qabs Lia Bool String Ascii List Permutation.
From Verif Require Import Util Files SpecFiles Fabric SpecFabric Analyze SpecAnalyze FilesProofs FabricProofs FabricTopology AnalyzeNames AnalyzeGroups AnalyzeStats AnalyzeProofs AnalyzeMain.
Import ListNotations.
Local Open Scope string_scope.
Local Open Scope list_scope.
Open Scope Z_scope.

Lemma select_filter_iff {X} (f : X -> bool) (P : X -> Prop) l : (forall x, f x = true <-> P x) -> select P l (filter f l).
Proof.
  intros E. induction l as [|x l IH]; [constructor|]. cbn [filter]. destruct (f x) eqn:F; [apply sel_in; [apply E; exact F|exact IH]|]. apply sel_out; [|exact IH]. rewrite <- E. congruence.
Qed.
Lemma listing_made dir names : plain_dir dir -> listing dir names (list_traces dir names).
Proof.
  intros D. exists (filter is_trace names). split; [apply select_filter_iff, is_trace_spec|]. unfold list_traces. rewrite (map_ext _ _ (fun n => join_plain dir n D)).
  apply select_filter_iff. intros p. rewrite negb_true_iff, <- not_true_iff_false, mentions_spec by discriminate. reflexivity.
Qed.
(** * Names *)
Lemma name_case : extractDataFromFilename "/tmp/traces/noc_trace_dev3_Matmul_ID_2_ID005123_traceID7.json" = Some (3, "Matmul_ID_2", 5123, Some 7) /\
  extractDataFromFilename "noc_trace_dev0_ID5120.json" = Some (0, "UnknownOP", 5120, None) /\ extractDataFromFilename "noc_trace_devX_ID5120.json" = None.
Proof. vm_compute. auto. Qed.
Lemma zero_trace : exists u v f g op, u <> v /\ belongs u op f /\ belongs v op g /\ uid_str u = uid_str v.
Proof.
  exists (mkUid 5 None), (mkUid 5 (Some 0)), "traces/noc_trace_dev0_Matmul_ID5120.json", "traces/noc_trace_dev0_Matmul_ID5120_traceID0.json", "Matmul".
  split; [discriminate|]. split; [apply belongs_spec; vm_compute; reflexivity|]. split; [apply belongs_spec; vm_compute; reflexivity|reflexivity].
Qed.
(** * A directory with two devices *)
Definition event_at (time dev : Z) : event unit := mkEvent unit time dev 1 1 "BRISC" "NOC_0" tt None None.
Definition send_at (time dev : Z) : event unit := mkEvent unit time dev 1 1 "BRISC" "NOC_0" tt (Some (mkSend unit 0 None None None None)) None.
Definition board1 : topology_file := mkTopologyFile [(0, Some (1, 2))] "DISABLED" (Some "N300") [] [(0, Some (0, 0)); (1, Some (0, 1))] [].
Definition the_names : list string :=
  ["noc_trace_dev0_Matmul_ID5120.json"; "topology.json"; "noc_trace_dev1_Matmul_ID5121.json"; "noc_trace_dev0_Add_ID6144.json"; "noc_trace_ID5_merged.json"].
Definition the_files : list string := ["traces/noc_trace_dev0_Matmul_ID5120.json"; "traces/noc_trace_dev1_Matmul_ID5121.json"; "traces/noc_trace_dev0_Add_ID6144.json"].
Definition disk (f : string) : option (list (event unit)) :=
  dict_get String.eqb [("traces/noc_trace_dev0_Matmul_ID5120.json", [event_at 10 0; event_at 20 0]); ("traces/noc_trace_dev1_Matmul_ID5121.json", [event_at 15 1]);
    ("traces/noc_trace_dev0_Add_ID6144.json", [event_at 40 0])] f.
(* the cycles of a device are 100 for each of its events *)
Definition stats_for (n : Z) : device_stats := mkDeviceStats n 10 20 30 (-5).
Definition events_of (d : Z) (es : list (event unit)) : list (event unit) := filter (fun e => ev_dev unit e =? d) es.
Definition run (es : list (event unit)) : option (list (Z * device_stats)) :=
  Some [(0, stats_for (100 * Z.of_nat (List.length (events_of 0 es)))); (1, stats_for (100 + 100 * Z.of_nat (List.length (events_of 1 es)))); (-1, stats_for 500)].
Notation analysis_of names fs npe quiet := (analyze unit npe false true true quiet true 10 "traces" "npe_viz" names board1 (@rev info) fs (fun _ => None)).
Definition view (r : py (analysis unit)) : py (list (op_uid * Z * Z) * list (Z * string) * option (list Z)) :=
  match r with
  | Val a => Val (map (fun d => (fst (fst d), snd (fst d), golden d)) (an_points unit a), an_manifest unit a, match an_timelines unit a "npe_viz/Matmul_ID5.npeviz.zst" with Some l => Some (map (ev_time unit) l) | None => None end)
  | Processing => Processing
  | Raised e => Raised e
  end.
Lemma dir_plain : plain_dir "traces". Proof. exists "trace", "s"%char. split; [reflexivity|discriminate]. Qed.
Lemma out_plain : plain_dir "npe_viz". Proof. exists "npe_vi", "z"%char. split; [reflexivity|discriminate]. Qed.
Lemma the_listing : listing "traces" the_names the_files.
Proof. assert (E : list_traces "traces" the_names = the_files) by (vm_compute; reflexivity). rewrite <- E. apply listing_made. exact dir_plain. Qed.
Lemma rev_order : forall l : list info, Permutation l (rev l). Proof. intros l. apply Permutation_rev. Qed.
Lemma run_unique es r : run es = Some r -> NoDup (map fst r).
Proof. intros H. injection H as <-. cbn. repeat constructor; cbn; intuition lia. Qed.
Lemma numbered_list files : forallb (fun f => match op_of f with Some (u, _) => match uid_trace u with Some t => negb (t =? 0) | None => true end | None => true end) files = true -> numbered files.
Proof.
  intros H f u op I B. rewrite forallb_forall in H. specialize (H f I). apply belongs_spec in B. rewrite B in H. destruct (uid_trace u) as [t|]; [|discriminate]. intros E. injection E as ->. discriminate.
Qed.
Lemma the_numbered : numbered the_files. Proof. apply numbered_list. vm_compute. reflexivity. Qed.
Lemma the_groups : group_traces_ttnn the_files = [(mkUid 5 None, ("Matmul", ["traces/noc_trace_dev0_Matmul_ID5120.json"; "traces/noc_trace_dev1_Matmul_ID5121.json"])); (mkUid 6 None, ("Add", ["traces/noc_trace_dev0_Add_ID6144.json"]))].
Proof. vm_compute. reflexivity. Qed.
Lemma the_run : view (analysis_of the_names disk run false) =
  Val ([(mkUid 6 None, 0, 100); (mkUid 6 None, 1, 100); (mkUid 5 None, 0, 200); (mkUid 5 None, 1, 200)], [(6144, "Add_ID6.npeviz.zst"); (5120, "Matmul_ID5.npeviz.zst")], Some [10; 20; 15]).
Proof. vm_compute. reflexivity. Qed.
Lemma run_val (r : py (analysis unit)) v : view r = Val v -> exists a, r = Val a.
Proof. destruct r; [eauto|discriminate|discriminate]. Qed.
Lemma ls_of {W} (fs : string -> option (list (event W))) files ls ls' : loads fs files ls -> read_all W fs files = Val ls' -> ls = ls'.
Proof. intros L R. apply read_all_spec in R. exact (loads_fun W fs files ls ls' L R). Qed.
(** * A merged file of an earlier analysis *)
Definition stale_disk (f : string) : option (list (event unit)) :=
  dict_get String.eqb [("traces/noc_trace_dev0_Matmul_ID5120.json", [send_at 10 0]); ("traces/noc_trace_ID5_merged.json", [event_at 1 0; event_at 2 0; event_at 3 0])] f.
Definition stale_names : list string := ["noc_trace_dev0_Matmul_ID5120.json"; "noc_trace_ID5_merged.json"].
Lemma stale : exists W (npe : list (event W) -> option (list (Z * device_stats))) names fs tf t files u op own ls a d s,
  plain_dir "traces" /\ listing "traces" names files /\ numbered files /\ (forall es r, npe es = Some r -> NoDup (map fst r)) /\ TopologyGraph tf = Val t /\
  operation files u op own /\ loads fs own ls /\ process_traces t W ls true = Processing /\
  analyze W npe false false false false false 10 "traces" "npe_viz" names tf (fun l => l) fs (fun _ => None) = Val a /\ in_points (an_points W a) u d op s.
Proof.
  assert (E : list_traces "traces" stale_names = ["traces/noc_trace_dev0_Matmul_ID5120.json"]) by (vm_compute; reflexivity).
  exists unit, run, stale_names, stale_disk, board1. destruct (TopologyGraph board1) as [t| |] eqn:T; [|vm_compute in T; discriminate T|vm_compute in T; discriminate T]. exists t, ["traces/noc_trace_dev0_Matmul_ID5120.json"], (mkUid 5 None), "Matmul", ["traces/noc_trace_dev0_Matmul_ID5120.json"], [[send_at 10 0]].
  destruct (analyze unit run false false false false false 10 "traces" "npe_viz" stale_names board1 (fun l => l) stale_disk (fun _ => None)) as [a| |] eqn:R; [|vm_compute in R; discriminate R|vm_compute in R; discriminate R].
  exists a, 0, (stats_for 300). split; [exact dir_plain|]. split; [rewrite <- E; apply listing_made; exact dir_plain|]. split; [apply numbered_list; vm_compute; reflexivity|]. split; [exact run_unique|]. split; [reflexivity|].
  split; [apply operation_group; vm_compute; left; reflexivity|]. split; [constructor; [reflexivity|constructor]|]. split; [vm_compute in T; injection T as <-; vm_compute; reflexivity|]. split; [reflexivity|].
  vm_compute in R. injection R as <-. cbn [an_points]. left. vm_compute. reflexivity.
Qed.
(** * Two operations with one merged file *)
Definition zero_names : list string := ["noc_trace_dev0_Matmul_ID5120.json"; "noc_trace_dev0_Matmul_ID5120_traceID0.json"].
Definition zero_disk (f : string) : option (list (event unit)) :=
  dict_get String.eqb [("traces/noc_trace_dev0_Matmul_ID5120.json", [event_at 10 0]); ("traces/noc_trace_dev0_Matmul_ID5120_traceID0.json", [event_at 10 0; event_at 20 0])] f.
Lemma zero_collision : exists W (npe : list (event W) -> option (list (Z * device_stats))) names fs tf t files u op own ls es a d s,
  plain_dir "traces" /\ listing "traces" names files /\ (forall es r, npe es = Some r -> NoDup (map fst r)) /\ TopologyGraph tf = Val t /\
  operation files u op own /\ loads fs own ls /\ process_traces t W ls true = Val es /\
  analyze W npe false false false false false 10 "traces" "npe_viz" names tf (fun l => l) fs (fun _ => None) = Val a /\ in_points (an_points W a) u d op s /\ ~ device_result npe es d s.
Proof.
  assert (E : list_traces "traces" zero_names = ["traces/noc_trace_dev0_Matmul_ID5120.json"; "traces/noc_trace_dev0_Matmul_ID5120_traceID0.json"]) by (vm_compute; reflexivity).
  exists unit, run, zero_names, zero_disk, board1. destruct (TopologyGraph board1) as [t| |] eqn:T; [|vm_compute in T; discriminate T|vm_compute in T; discriminate T].
  exists t, ["traces/noc_trace_dev0_Matmul_ID5120.json"; "traces/noc_trace_dev0_Matmul_ID5120_traceID0.json"], (mkUid 5 None), "Matmul", ["traces/noc_trace_dev0_Matmul_ID5120.json"], [[event_at 10 0]], [event_at 10 0].
  destruct (analyze unit run false false false false false 10 "traces" "npe_viz" zero_names board1 (fun l => l) zero_disk (fun _ => None)) as [a| |] eqn:R; [|vm_compute in R; discriminate R|vm_compute in R; discriminate R].
  exists a, 0, (stats_for 200). split; [exact dir_plain|]. split; [rewrite <- E; apply listing_made; exact dir_plain|]. split; [exact run_unique|]. split; [reflexivity|].
  split; [apply operation_group; vm_compute; left; reflexivity|]. split; [constructor; [reflexivity|constructor]|]. split; [vm_compute; reflexivity|]. split; [reflexivity|]. split.
  - vm_compute in R. injection R as <-. cbn [an_points]. left. vm_compute. reflexivity.
  - intros (_ & r & H & I). injection H as <-. destruct I as [I|[I|[I|[]]]]; vm_compute in I; discriminate I.
Qed.
(** * Failures *)
Lemma metal_type_error : exists files, (forall f, In f files -> exists u, belongs u "UnknownOP" f /\ uid_trace u = None) /\ files <> [] /\ group_traces_metal files = Raised "TypeError".
Proof.
  exists ["traces/noc_trace_dev0_ID1.json"; "traces/noc_trace_dev1_ID1.json"]. split; [|split; [discriminate|vm_compute; reflexivity]].
  intros f [<-|[<-|[]]]; exists (mkUid 0 None); (split; [apply belongs_spec; vm_compute|]; reflexivity).
Qed.
(* a simulation that fails for every trace *)
Lemma no_result_error : exists W (npe : list (event W) -> option (list (Z * device_stats))) names fs tf files,
  plain_dir "traces" /\ listing "traces" names files /\ numbered files /\ (forall es r, npe es = Some r -> NoDup (map fst r)) /\
  analyze W npe false false false false false 10 "traces" "npe_viz" names tf (fun l => l) fs (fun _ => None) = Raised "ZeroDivisionError".
Proof.
  exists unit, (fun _ => None), the_names, disk, board1, the_files. split; [exact dir_plain|]. split; [exact the_listing|]. split; [exact the_numbered|]. split; [discriminate|]. vm_compute. reflexivity.
Qed.
(** * Statistics *)
Definition sample : list datapoint :=
  [((mkUid 1 None, 0), ("A", mkDeviceStats 100 10 1 0 (-8))); ((mkUid 1 None, 1), ("A", mkDeviceStats 300 30 2 0 4)); ((mkUid 2 (Some 4294967298), 0), ("B", mkDeviceStats 100 50 3 0 1)); ((mkUid 3 None, 0), ("C", mkDeviceStats 500 70 4 0 (-2)))].
Lemma sample_nodup : NoDup (map fst sample). Proof. cbn. repeat constructor; cbn; intuition congruence. Qed.
Lemma sample_golden : forall d, In d sample -> 0 <= golden d. Proof. intros d [<-|[<-|[<-|[<-|[]]]]]; vm_compute; discriminate. Qed.
