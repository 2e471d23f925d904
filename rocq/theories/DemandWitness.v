(* A timeline with demands (C67). *)
From Coq Require Import ZArith Lia Bool String List Floats.SpecFloat.
From Verif Require Import Base Arith Util Json Device SpecDevice Workload SpecWorkload Rates Stats Engine SpecEngine Timeline SpecTimeline SpecRates SpecZones Cases EngineWitness TimelineWitness SpecDemands.
Import ListNotations.
Local Open Scope list_scope.
Open Scope Z_scope.

(* interval, active groups and demands of the timesteps of the full file *)
Definition step_view {A} (r : outcome (npe_result A * list (content A))) : option (list (Z * Z * list Z * list (coord * hop_name * F A))) :=
  match r with
  | Ok (Stats _, FullV1 _ (Some tl) :: _) => Some (map (fun p => (tp_start A p, tp_end A p, tp_active A p, tp_demand A p)) (tl_steps A tl))
  | _ => None
  end.

(** * C68 *)
Notation mesh_run topo wl := (runWithTimeline f32A same_links same_buckets same_groups same_zones topo false 10 (wormhole_multichip 2) "fast" 100 wl).
(* the chips of every file; None: an empty document *)
Definition chip_view {A} (r : outcome (npe_result A * list (content A))) : option (list (option chip_map)) :=
  match r with
  | Ok (Stats _, files) => Some (flat_map (fun c => match c with FullV1 _ o | Split _ _ _ o => [option_map (tl_chips A) o] | _ => [] end) files)
  | _ => None
  end.
Definition mesh_json (shapes : list (Z * Z)) (nodes : list (string * (Z * Z))) : json :=
  JObject [("device_id_to_fabric_node_id", JObject (map (fun e => (fst e, JArray [JInt (fst (snd e)); JInt (snd (snd e))])) nodes));
           ("mesh_shapes", JArray (map (fun s => JObject [("shape", JArray [JInt (fst s); JInt (snd s)])]) shapes))]%string.
Definition wl_chips : workload (F f32A) := build f32A [xfer f32A 120 (0,1,1) (0,1,3) 50; xfer f32A 10 (1,1,1) (1,1,3) 0].
Lemma chips_proper : proper wl_chips /\ proper_cpt 100 /\ supported (wormhole_multichip 2).
Proof.
  split; [apply proper_case; vm_compute; reflexivity|]. split; [unfold proper_cpt; lia|]. exists "N300"%string. do 2 right. left. reflexivity.
Qed.
Lemma chip_view_ok {A} r vs : @chip_view A r = Some vs -> exists stt files, r = Ok (Stats stt, files) /\
  (forall o, In o vs -> exists c, In c files) /\ (forall rg tl, document A files rg tl -> In (Some (tl_chips A tl)) vs) /\ (forall cs, In (Some cs) vs -> exists rg tl, document A files rg tl /\ tl_chips A tl = cs).
Proof.
  unfold chip_view. destruct r as [[[stt|] files]| | | | | |]; try discriminate. intros H. injection H as <-. exists stt, files. split; [reflexivity|]. split; [|split].
  - intros o Ho. apply in_flat_map in Ho as (c & Hc & _). eauto.
  - intros rg tl [(H & _)|(k & rg' & H & _)]; apply in_flat_map; eexists; (split; [exact H|left; reflexivity]).
  - intros cs Ho. apply in_flat_map in Ho as (c & Hc & Ho). destruct c as [|o|k rg o]; [destruct Ho| |]; destruct Ho as [E|[]]; destruct o as [tl|]; try discriminate E; injection E as <-.
    + exists None, tl. split; [left; auto|reflexivity].
    + exists (Some rg), tl. split; [right; exists k, rg; auto|reflexivity].
Qed.
(* without a topology the files of a successful run say nothing *)
Lemma no_topology : exists d cpt wl stt files, supported d /\ proper wl /\ proper_cpt cpt /\
  runWithTimeline f32A same_links same_buckets same_groups same_zones TopoUnset false 10 d "fast" cpt wl = Ok (Stats stt, files) /\ files <> [] /\ forall r tl, ~ document f32A files r tl.
Proof.
  assert (V : chip_view (mesh_run TopoUnset wl_chips) = Some [None]) by (vm_compute; reflexivity). destruct (chip_view_ok _ _ V) as (stt & files & R & H1 & H2 & _). destruct chips_proper as (P1 & P2 & P3).
  exists (wormhole_multichip 2), 100, wl_chips, stt, files. split; [exact P3|]. split; [exact P1|]. split; [exact P2|]. split; [exact R|]. split.
  - destruct (H1 None (or_introl eq_refl)) as (c & Hc). intros ->. destruct Hc.
  - intros r tl HD. apply H2 in HD as [HD|[]]. discriminate HD.
Qed.
(* two meshes: no device has a position *)
Lemma two_meshes : exists d cpt wl s1 s2 nodes stt files r tl, supported d /\ proper wl /\ proper_cpt cpt /\ List.length nodes = dv_chips d /\ NoDup (map fst nodes) /\ NoDup (map snd nodes) /\
  runWithTimeline f32A same_links same_buckets same_groups same_zones (TopoJson (mesh_json [s1; s2] nodes)) false 10 d "fast" cpt wl = Ok (Stats stt, files) /\ document f32A files r tl /\ tl_chips f32A tl = [].
Proof.
  assert (V : chip_view (mesh_run (TopoJson (mesh_json [(1,1);(1,1)] [("0",(0,0));("1",(1,0))]%string)) wl_chips) = Some [Some []]) by (vm_compute; reflexivity).
  destruct (chip_view_ok _ _ V) as (stt & files & R & _ & _ & H3). destruct (H3 [] (or_introl eq_refl)) as (r & tl & HD & E). destruct chips_proper as (P1 & P2 & P3).
  exists (wormhole_multichip 2), 100, wl_chips, (1,1), (1,1), [("0",(0,0));("1",(1,0))]%string, stt, files, r, tl. split; [exact P3|]. split; [exact P1|]. split; [exact P2|]. split; [reflexivity|].
  split; [constructor; [intros [C|[]]; discriminate C|constructor; [intros []|constructor]]|]. split; [constructor; [intros [C|[]]; discriminate C|constructor; [intros []|constructor]]|]. split; [exact R|]. split; [exact HD|exact E].
Qed.
