(* Cases for C78. *)
From Coq Require Import ZArith Arith Lia String List Bool Permutation Floats.SpecFloat ZifyBool ZifyNat.
From Verif Require Import Base Arith Util Json Device SpecDevice Workload SpecWorkload Rates Stats Engine SpecEngine SpecRates SpecStats Cases EngineWitness Timeline SpecTimeline TimelineWitness SpecZones ZoneWitness SpecGroups SpecDemands DemandWitness SpecEmit EmitExact.
Import ListNotations.
Local Open Scope list_scope.
Open Scope Z_scope.

Definition wl_emit : workload (F f32A) := setZones wl_chips [(core, flat_map zevents nested)].
Definition two_chips : json := mesh_json [(1, 2)] [("0", (0, 1)); ("1", (0, 0))]%string.
Notation mesh2 := (wormhole_multichip 2).
Lemma emit_proper : proper wl_emit /\ proper_cpt 100 /\ supported mesh2.
Proof. exact chips_proper. Qed.
Lemma emit_accepted : Forall (accepted mesh2) (all_transfers wl_emit).
Proof. unfold wl_emit. constructor; [|constructor; [|constructor]]; unfold accepted, in_grid; cbn; lia. Qed.
Lemma emit_window : window_from wl_emit.
Proof. intros g H. vm_compute in H. injection H as <-. cbn. lia. Qed.
Lemma emit_registered : registered wl_emit /\ wl_groups wl_emit + Z.of_nat (List.length (all_transfers wl_emit)) < 2 ^ 31.
Proof. split; [|vm_compute; reflexivity]. intros t [<-|[<-|[]]] [H _]; exfalso; apply H; reflexivity. Qed.
Lemma emit_nested : nested_zones wl_emit.
Proof. intros k zs [H|[]]. injection H as _ <-. exists nested. split; [reflexivity|]. exact nested_ok. Qed.
Lemma emit_mesh : mesh_known mesh2 (TopoJson two_chips).
Proof.
  right. exists two_chips, 1, 2, [("0", (0, 1)); ("1", (0, 0))]%string. split; [reflexivity|]. split.
  - exists (JObject [("shape"%string, JArray [JInt 1; JInt 2])]). split; [eexists; split; reflexivity|]. split; eexists; split; reflexivity.
  - split; [lia|]. split; [lia|]. split; [reflexivity|]. repeat constructor; cbn; lia.
Qed.
(* (number of timesteps, kinds of the files) *)
Definition emit_view {A} (r : outcome (npe_result A * list (content A))) : option (list (Z * nat * nat)) :=
  match r with
  | Ok (Stats _, files) => Some (map (fun c => match c with
      | FullV1 _ (Some tl) => (-1, List.length (tl_steps A tl), List.length (tl_groups A tl))
      | Split _ k _ (Some tl) => (k, List.length (tl_steps A tl), List.length (tl_groups A tl))
      | _ => (-2, O, O) end) files)
  | _ => None
  end.
Definition sim_ok {A} (r : outcome (npe_result A)) : bool := match r with Ok (Stats _) => true | _ => false end.
Lemma sim_ok_stats {A} r : @sim_ok A r = true -> exists stt, r = Ok (Stats stt).
Proof. destruct r as [[stt|]| | | | | |]; try discriminate. eauto. Qed.
Definition failure {A} (r : outcome A) : option (string * string) :=
  match r with UB s => Some ("UB", s) | StdThrow s => Some ("StdThrow", s) | _ => None end%string.
Lemma failure_ub {A} (r : outcome A) s : failure r = Some ("UB"%string, s) -> r = UB s.
Proof. destruct r; intros H; try discriminate H. injection H as ->. reflexivity. Qed.
Lemma failure_std {A} (r : outcome A) s : failure r = Some ("StdThrow"%string, s) -> r = StdThrow s.
Proof. destruct r; intros H; try discriminate H. injection H as ->. reflexivity. Qed.
(* a mesh of width 0, and a mesh with a name instead of a width *)
Definition flat_mesh : json := mesh_json [(1, 0)] [("0", (0, 1)); ("1", (0, 0))]%string.
Definition named_mesh : json :=
  JObject [("device_id_to_fabric_node_id", JObject [("0", JArray [JInt 0; JInt 0]); ("1", JArray [JInt 0; JInt 1])]);
           ("mesh_shapes", JArray [JObject [("shape", JArray [JString "1"; JString "2"])]])]%string.
Lemma bad_topology : exists d cpt wl stt j j' s, supported d /\ proper wl /\ proper_cpt cpt /\ Forall (accepted d) (all_transfers wl) /\ window_from wl /\ registered wl /\
  wl_groups wl + Z.of_nat (List.length (all_transfers wl)) < 2 ^ 31 /\ nested_zones wl /\ runSinglePerfSim f32A same_links same_buckets d "fast" cpt wl = Ok (Stats stt) /\
  runWithTimeline f32A same_links same_buckets same_groups same_zones (TopoJson j) false 10 d "fast" cpt wl = UB "division by zero" /\
  runWithTimeline f32A same_links same_buckets same_groups same_zones (TopoJson j') false 10 d "fast" cpt wl = StdThrow s.
Proof.
  assert (V : sim_ok (runSinglePerfSim f32A same_links same_buckets mesh2 "fast" 100 wl_emit) = true) by (vm_compute; reflexivity). apply sim_ok_stats in V as (stt & E).
  assert (V1 : failure (mesh_run (TopoJson flat_mesh) wl_emit) = Some ("UB", "division by zero")%string) by (vm_compute; reflexivity). apply failure_ub in V1.
  assert (V2 : exists s, failure (mesh_run (TopoJson named_mesh) wl_emit) = Some ("StdThrow"%string, s)) by (eexists; vm_compute; reflexivity). destruct V2 as (s & V2). apply failure_std in V2.
  destruct emit_proper as (P1 & P2 & P3). destruct emit_registered as (R1 & R2).
  exists mesh2, 100, wl_emit, stt, flat_mesh, named_mesh, s. split; [exact P3|]. split; [exact P1|]. split; [exact P2|]. split; [exact emit_accepted|]. split; [exact emit_window|]. split; [exact R1|]. split; [exact R2|].
  split; [exact emit_nested|]. split; [exact E|]. split; [exact V1|exact V2].
Qed.

(* a topology whose second entry is a name: no chip can be shown *)
Definition odd_mesh : json :=
  JObject [("device_id_to_fabric_node_id", JObject [("0", JArray [JInt 0; JInt 0]); ("1", JString "one")]);
           ("mesh_shapes", JArray [JObject [("shape", JArray [JInt 1; JInt 2])]])]%string.
Lemma emit_apart : apart_zones wl_emit.
Proof. apply distinct_apart. intros k zs [H|[]]. injection H as _ <-. cbn. repeat constructor; cbn; intuition discriminate. Qed.
Lemma odd_read : topology_read mesh2 (TopoJson odd_mesh) /\ ~ chips_known mesh2 (TopoJson odd_mesh).
Proof.
  split.
  - right. intros j chips a b E (m & (fs & -> & M1) & (fs2 & E2 & M2) & (fs3 & -> & M3)). injection E as <-. injection E2 as <-. injection M1 as <-. injection M2 as <-. injection M3 as <- <-.
    exists 1, 2. split; [constructor; split; [lia|exists 0; reflexivity]|]. split; [constructor; split; [lia|exists 0; reflexivity]|]. intros pre e post n _ _ _. split; [lia|]. intros [_ C]. discriminate C.
  - intros [C|(j & E & H)]; [cbn in C; lia|]. injection E as <-.
    assert (M : one_mesh odd_mesh [("0", JArray [JInt 0; JInt 0]); ("1", JString "one")]%string (JInt 1) (JInt 2)).
    { exists (JObject [("shape"%string, JArray [JInt 1; JInt 2])]). split; [eexists; split; reflexivity|]. split; eexists; split; reflexivity. }
    specialize (H _ _ _ M). apply Forall_inv_tail, Forall_inv in H. destruct H as (n & a & z & E & _). discriminate E.
Qed.
