(* Witnesses for C65. *)
From Coq Require Import ZArith Arith Lia String List Bool Permutation.
From Verif Require Import Base Arith Util Device Workload SpecWorkload Rates Stats Engine SpecEngine SpecStats Cases EngineWitness Timeline SpecTimeline TimelineWitness Files SpecFiles.
Import ListNotations.
Local Open Scope string_scope.

(* number of files, and whether each is a split file *)
Definition kinds {A} (r : outcome (npe_result A * list (content A))) : option (list (option Z)) :=
  match r with
  | Ok (Stats _, files) => Some (map (fun c => match c with Split _ k _ _ => Some k | _ => None end) files)
  | _ => None
  end.
Lemma kinds_ok {A} r v : @kinds A r = Some v -> exists stt files, r = Ok (Stats stt, files) /\ map (fun c => match c with Split _ k _ _ => Some k | _ => None end) files = v.
Proof. unfold kinds. destruct r as [[[stt|] files]| | | | | |]; try discriminate. intros H. injection H as <-. eauto. Qed.
Lemma long_kinds : kinds (tl_run 2 100 wl_long) = Some [None; Some 0%Z; Some 1%Z; Some 2%Z]. Proof. vm_compute. reflexivity. Qed.
Lemma share_kinds : kinds (tl_run 2 100 (wl_share f32A)) = Some [None; Some 0%Z; Some 1%Z]. Proof. vm_compute. reflexivity. Qed.

Lemma paths_of {A} tp wj z (files : list (content A)) : map (path_of A tp wj z) files =
  map (fun k => output_filepath z (match k with None => base_filepath tp wj | Some i => split_filepath (base_filepath tp wj) i end))
    (map (fun c => match c with Split _ k _ _ => Some k | _ => None end) files).
Proof. rewrite map_map. apply map_ext. intros [| |]; reflexivity. Qed.

Definition overwritten (wl1 wl2 : workload (F f32A)) (tp1 wj1 tp2 wj2 : string) : Prop :=
  exists thr cpt stt1 files1 stt2 files2, proper wl1 /\ proper wl2 /\ proper_cpt cpt /\ (0 < thr)%Z /\
  tl_run thr cpt wl1 = Ok (Stats stt1, files1) /\ tl_run thr cpt wl2 = Ok (Stats stt2, files2) /\
  exists p, In p (map (path_of f32A tp1 wj1 false) files1) /\ In p (map (path_of f32A tp2 wj2 false) files2).
Lemma collide tp1 wj1 tp2 wj2 k1 k2 : In k1 [None; Some 0%Z; Some 1%Z] -> In k2 [None; Some 0%Z; Some 1%Z] ->
  match k1 with None => base_filepath tp1 wj1 | Some i => split_filepath (base_filepath tp1 wj1) i end =
  match k2 with None => base_filepath tp2 wj2 | Some i => split_filepath (base_filepath tp2 wj2) i end ->
  overwritten wl_long (wl_share f32A) tp1 wj1 tp2 wj2.
Proof.
  intros H1 H2 E. destruct (kinds_ok _ _ long_kinds) as (stt1 & files1 & R1 & V1). destruct (kinds_ok _ _ share_kinds) as (stt2 & files2 & R2 & V2).
  exists 2%Z, 100%Z, stt1, files1, stt2, files2. split; [exact long_proper|]. split; [exact share_proper|]. split; [unfold proper_cpt; lia|]. split; [lia|]. split; [exact R1|]. split; [exact R2|].
  eexists. rewrite !paths_of, V1, V2. split.
  - apply in_map_iff. exists k1. split; [reflexivity|]. cbn [In] in *. tauto.
  - apply in_map_iff. exists k2. split; [symmetry; exact E|exact H2].
Qed.
(* two workload files in a directory with a dot *)
Lemma default_collides : exists wl1 wl2 wj1 wj2, wj1 <> wj2 /\ overwritten wl1 wl2 "" wj1 "" wj2.
Proof.
  exists wl_long, (wl_share f32A), "runs.d/first", "runs.d/second". split; [discriminate|]. apply (collide _ _ _ _ None None); [left; reflexivity|left; reflexivity|]. reflexivity.
Qed.
(* the second timeline has the name of a split file of the first, or an extension in its directory *)
Lemma split_collides : exists wl1 wl2 tp1 tp2, tp1 <> tp2 /\ overwritten wl1 wl2 tp1 "" tp2 "".
Proof.
  exists wl_long, (wl_share f32A), "old.npeviz.d/first.npeviz", "old.npeviz.d/second.npeviz". split; [discriminate|]. apply (collide _ _ _ _ (Some 1%Z) (Some 1%Z)); [right; right; left; reflexivity|right; right; left; reflexivity|]. vm_compute. reflexivity.
Qed.
(* nothing is written though the working directory and the directory of the workload are writable *)
Lemma default_lost : exists wl thr cpt wj opens fs stt files, proper wl /\ proper_cpt cpt /\ (0 < thr)%Z /\ tl_run thr cpt wl = Ok (Stats stt, files) /\
  (forall p, directory p = "" \/ directory p = directory wj -> opens p = true) /\ files <> [] /\ forall p, write_all f32A opens "" wj false files fs p = fs p.
Proof.
  destruct (kinds_ok _ _ long_kinds) as (stt & files & R & V).
  exists wl_long, 2%Z, 100%Z, "/data/run.json", (fun p => String.eqb (directory p) "" || String.eqb (directory p) "/data/"), (fun _ => None), stt, files.
  split; [exact long_proper|]. split; [unfold proper_cpt; lia|]. split; [lia|]. split; [exact R|]. split.
  { intros p [->| ->]; reflexivity. }
  split; [intros ->; discriminate V|].
  set (opens := fun p => String.eqb (directory p) "" || String.eqb (directory p) "/data/").
  assert (G : Forall (fun p => opens p = false) (map (path_of f32A "" "/data/run.json" false) files)) by (rewrite paths_of, V; repeat (constructor; [vm_compute; reflexivity|]); constructor).
  clear V R. assert (W : forall fs p, write_all f32A opens "" "/data/run.json" false files fs p = fs p); [|intros p; apply W].
  induction files as [|c files IH]; intros fs p; [reflexivity|]. cbn [map] in G.
  unfold write_all in *. cbn [fold_left]. rewrite (IH (Forall_inv_tail G)). unfold write. rewrite (Forall_inv G). reflexivity.
Qed.
