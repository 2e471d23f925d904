(* Cases for C79 and C80. *)
From Coq Require Import ZArith Arith Lia String List Bool Floats.SpecFloat ZifyBool ZifyNat.
From Verif Require Import Base Arith Util Json Device SpecDevice DeviceProofs FactoryProofs Workload SpecWorkload Rates Stats Engine SpecEngine SpecRates SpecStats Cases EngineWitness Api SpecApi Bindings Ingest SpecIngest IngestProofs IngestTrace IngestWitness
  Timeline TimelineWitness SpecTimeline SpecEmit EmitWitness Cli SpecCli.
Import ListNotations.
Local Open Scope string_scope.
Local Open Scope list_scope.
Open Scope Z_scope.
Ltac Zify.zify_post_hook ::= idtac.

Notation run_main := (main same_links same_buckets same_groups same_zones).
(* (ending, simulation succeeded, number of timeline files) *)
Definition cli_view (r : outcome (ending * option (npe_result f32A) * list (content f32A))) : option (ending * option bool * nat) :=
  match r with
  | Ok (st, x, fs) => Some (st, match x with Some (Stats _) => Some true | Some (Failure _) => Some false | None => None end, List.length fs)
  | _ => None
  end.
Definition validation_failed (r : outcome (ending * option (npe_result f32A) * list (content f32A))) : bool :=
  match r with Ok (Exits 0, Some (Failure WORKLOAD_VALIDATION_FAILED), []) => true | _ => false end.

(** * A trace *)
Definition o_trace : options := mkOpt 32 "wormhole_b0" "fast" "t.json" false true true false (S754_zero false) "npe_timeline.json" false 0 "".
Definition one_file (j : json) (path : string) : file := Parsed j.
Definition no_topology (path : string) : topology := TopoUnset.
Lemma trace_runs : cli_view (run_main (one_file (JArray tr_plain)) no_topology true o_trace) = Some (Uncaught "AttributeError", Some true, 1%nat).
Proof. vm_compute. reflexivity. Qed.
(* the offsets of the trace stay in range when they are multiplied by 1.5 *)
Definition o_scaled : options := mkOpt 32 "wormhole_b0" "fast" "t.json" false true true false (S754_finite false 3 (-1)) "npe_timeline.json" false 0 "".
Lemma scaled_runs : cli_view (run_main (one_file (JArray tr_plain)) no_topology true o_scaled) = Some (Uncaught "AttributeError", Some true, 1%nat).
Proof. vm_compute. reflexivity. Qed.
Lemma sources_simple d evs : wf_device d -> (forall ev ty, In ev evs -> text ev "type" ty -> In ty (plain_types ++ set_types Read ++ set_types Write) ->
    core_on d (int_at ev "sx" (-1)) (int_at ev "sy" (-1)) /\ core_on d (int_at ev "dx" (-1)) (int_at ev "dy" (-1))) ->
  (forall ev segs, In ev evs -> ~ path_of ev segs) -> sources_on d evs.
Proof.
  intros (W1 & W2 & W3 & W4 & _) HC HP before ev rest -> HM. split; [|intros segs r s K; exfalso; apply (HP ev segs); [apply in_or_app; right; left; reflexivity|exact K]].
  intros _ ty q x y HT (ty' & own & T1 & T2 & HR) HS. assert (In ev (before ++ ev :: rest)) as HI by (apply in_or_app; right; left; reflexivity).
  assert (G : core_on d (rq_sx q) (rq_sy q) /\ core_on d (rq_dx q) (rq_dy q)).
  { destruct HR as [[HT' ->]|(k & Hk & [(s & st & (l & r & E & S1 & _) & S2 & (F1 & F2 & F3 & F4 & _))|[_ (F1 & F2 & F3 & F4 & _)]])].
    - apply own_fields_iff in T2. subst own. apply (HC ev ty' HI T1). apply in_or_app. left. exact HT'.
    - apply own_fields_iff in S2. subst st. rewrite F1, F2, F3, F4. destruct S1 as (ts & K1 & K2 & _). apply (HC s ts); [rewrite E, <- app_assoc; apply in_or_app; right; left; reflexivity|exact K1|].
      apply in_or_app. right. apply in_or_app. destruct k; [left|right]; exact K2.
    - rewrite F1, F2, F3, F4. cbn. unfold core_on. lia. }
  unfold data_source in HS. destruct (existsb _ _); destruct HS as [-> ->]; apply G.
Qed.
Lemma plain_no_paths ev segs : In ev tr_plain -> ~ path_of ev segs.
Proof. intros Hin (f & F & _). unfold fabric in F. apply holds_iff in F. repeat (destruct Hin as [<-|Hin]; [vm_compute in F; discriminate|]). destruct Hin. Qed.
Lemma plain_sources : sources_on wormhole_b0 tr_plain.
Proof.
  apply sources_simple; [apply supported_wf; exists "wormhole_b0"; apply createDeviceModel_iff; reflexivity| |exact plain_no_paths].
  intros ev ty HI HT HTy. apply text_iff in HT. subst ty. repeat (destruct HI as [<-|HI]; [vm_compute in HTy; first [solve [repeat (destruct HTy as [HTy|HTy]; [discriminate HTy|]); destruct HTy]|vm_compute; split; split; split; (discriminate || reflexivity)]|]). destruct HI.
Qed.

(** * A workload file *)
Definition golden_file (es : list json) : json := JObject [("golden_result", JObject [N "cycles" 500]); ("phases", JArray [JObject [("transfers", JArray es)]])].
Definition good_entries : list json := [entry 2048 3 1 1 4 5 "NOC_0"; mcast_entry 64 2 2 2 3 3 5 5; JObject [N "packet_size" 3]].
Definition o_file (device : string) : options := mkOpt 32 device "fast" "w.json" false false false false (S754_zero false) "npe_timeline.json" false 0 "".
Lemma file_runs : cli_view (run_main (one_file (golden_file good_entries)) no_topology true (o_file "N150")) = Some (Uncaught "AttributeError", Some true, 0%nat).
Proof. vm_compute. reflexivity. Qed.
Lemma chips_throw : failure (run_main (one_file (golden_file good_entries)) no_topology true (o_file "T3K")) = Some ("StdThrow", "out_of_range").
Proof. vm_compute. reflexivity. Qed.
Lemma good_entries_on : Forall (entry_on wormhole_b0 true) good_entries.
Proof.
  assert (NR : forall e, at_key as_int e "mcast_start_x" = None -> ~ reversed e).
  { intros e E (dev & ax & ay & bx & b_y & a & b & _ & (_ & _ & M & _) & _). apply int_field_iff in M. congruence. }
  constructor; [|constructor; [|constructor; [|constructor]]].
  - split; [apply NR; reflexivity|]. intros _. split.
    + intros p n Hp Hn _ _. apply int_field_iff in Hp, Hn. injection Hp as <-. injection Hn as <-. vm_compute. discriminate.
    + intros x y Hx Hy. apply int_field_iff in Hx, Hy. injection Hx as <-. injection Hy as <-. vm_compute. intuition discriminate.
  - split.
    + intros (dev & ax & ay & bx & b_y & a & b & _ & (_ & _ & M1 & M2 & M3 & M4) & C1 & C2 & H). apply int_field_iff in M1, M2, M3, M4. vm_compute in M1, M2, M3, M4. injection M1 as M1. injection M2 as M2. injection M3 as M3. injection M4 as M4. subst ax ay bx b_y.
      apply coord_is_unique in C1, C2. subst a b. vm_compute in H. destruct H. discriminate.
    + intros _. split.
      * intros p n Hp Hn _ _. apply int_field_iff in Hp, Hn. injection Hp as <-. injection Hn as <-. vm_compute. discriminate.
      * intros x y Hx Hy. apply int_field_iff in Hx, Hy. injection Hx as <-. injection Hy as <-. vm_compute. intuition discriminate.
  - split; [apply NR; reflexivity|]. intros (_ & (n & H) & _). apply int_field_iff in H. discriminate.
Qed.
Lemma good_file : workload_file (golden_file good_entries) [JObject [("transfers", JArray good_entries)]] /\ golden_cycles (golden_file good_entries).
Proof.
  split; [split; [eexists; reflexivity|apply holds_iff; reflexivity]|]. exists (JObject [N "cycles" 500]), 500. split; [apply holds_iff; reflexivity|]. split; [apply holds_iff; reflexivity|lia].
Qed.

(** * Refuted claims *)
(* a transfer to a core that does not exist *)
Lemma failed_status : exists file o, chosen o /\ run_main file no_topology true o = Ok (Exits 0, Some (Failure WORKLOAD_VALIDATION_FAILED), []).
Proof.
  exists (one_file (golden_file [entry 64 1 1 1 40 5 "NOC_0"])), (o_file "N150"). split; [split; [cbn; auto|right; reflexivity]|].
  assert (V : validation_failed (run_main (one_file (golden_file [entry 64 1 1 1 40 5 "NOC_0"])) no_topology true (o_file "N150")) = true) by (vm_compute; reflexivity).
  revert V. generalize (run_main (one_file (golden_file [entry 64 1 1 1 40 5 "NOC_0"])) no_topology true (o_file "N150")) as r. intros [[[st x] fs]| | | | | |]; try discriminate. destruct st as [n|]; try discriminate. destruct n; try discriminate. destruct x as [[|e]|]; try discriminate. destruct e; try discriminate. destruct fs; try discriminate. reflexivity.
Qed.
(* the program ends in an exception although the simulation succeeded *)
Lemma success_uncaught : exists file o stt fs, chosen o /\ run_main file no_topology true o = Ok (Uncaught "AttributeError", Some (Stats stt), fs).
Proof.
  exists (one_file (JArray tr_plain)), o_trace. pose proof trace_runs as V. revert V. generalize (run_main (one_file (JArray tr_plain)) no_topology true o_trace) as r. intros [[[st x] fs]| | | | | |]; try discriminate. destruct x as [[stt|e]|]; cbn [cli_view]; intros V; try discriminate.
  exists stt, fs. split; [split; [cbn; auto|right; reflexivity]|]. injection V as -> _. reflexivity.
Qed.
Lemma device_refused : exists d, In ("TG", d) documented_devices /\ forall ord bord gord zord file_at topology_at accept o, op_device o = "TG" -> main ord bord gord zord file_at topology_at accept o = Ok (Exits 2, None, []).
Proof. eexists. split; [do 4 right; left; reflexivity|]. intros ord bord gord zord file_at topology_at accept o E. unfold main. rewrite E. reflexivity. Qed.

(** * The example program *)
Definition some_draws : list draw := map (fun i => mkDraw (Z.of_nat i mod 9) (Z.of_nat (i * 7) mod 9) (1 + Z.of_nat i mod 2) (6 - Z.of_nat i mod 2) (if Nat.even i then NOC0 else NOC1) (Z.of_nat (i * 17)) (nth (i mod 4) [1024; 2048; 4096; 8192] 0)) (seq 0 30).
Lemma some_drawn : List.length some_draws = 30%nat /\ Forall drawn some_draws.
Proof. split; [reflexivity|]. vm_compute. repeat (constructor; [repeat split; try discriminate; tauto|]). constructor. Qed.
Lemma example_fails : failure (example_main same_links same_buckets some_draws) = Some ("StdThrow", "out_of_range").
Proof. vm_compute. reflexivity. Qed.
(* the same transfers with golden cycles *)
Lemma example_with_golden : sim_ok (let! wl := genWorkload some_draws in runNPE f32A same_links same_buckets wormhole_b0 default_config (setGoldenResultCycles wl [(0, (0, 32))])) = true.
Proof. vm_compute. reflexivity. Qed.
