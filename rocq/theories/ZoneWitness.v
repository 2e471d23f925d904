(* Witnesses for C64. *)
From Coq Require Import ZArith Arith Lia String List Bool Permutation ZifyBool ZifyNat.
From Verif Require Import Base Arith Util Device SpecDevice Workload SpecWorkload Rates Stats Engine Api SpecEngine SpecStats Cases EngineWitness Timeline SpecTimeline TimelineWitness SpecZones.
Import ListNotations.
Local Open Scope list_scope.
Open Scope Z_scope.

Lemma same_zones_order : map_order same_zones. Proof. intros l. apply Permutation_refl. Qed.
Definition core : coord * risc_type := (mkCoord 0 1 1, BRISC).
Definition with_zones (zs : list zone) : workload (F f32A) := setZones wl_long [(core, zs)].
Lemma zones_proper zs : proper (with_zones zs). Proof. exact long_proper. Qed.
(* per file: region, zones *)
Definition zone_view {A} (r : outcome (npe_result A * list (content A))) : option (list (option (Z * Z) * list ((coord * risc_type) * list zjson))) :=
  match r with
  | Ok (Stats _, files) => Some (flat_map (fun c => match c with
      | FullV1 _ (Some tl) => [(None, tl_zones A tl)]
      | Split _ _ rg (Some tl) => [(Some (rg_start rg, rg_end rg), tl_zones A tl)]
      | _ => [] end) files)
  | _ => None
  end.
Lemma zone_view_ok {A} r v : @zone_view A r = Some v -> exists stt files, r = Ok (Stats stt, files) /\
  forall o js, In (o, js) v -> exists rg tl, document A files rg tl /\ option_map (fun rg => (rg_start rg, rg_end rg)) rg = o /\ tl_zones A tl = js.
Proof.
  unfold zone_view. destruct r as [[[stt|] files]| | | | | |]; try discriminate. intros H. injection H as <-. exists stt, files. split; [reflexivity|].
  intros o js Hin. apply in_flat_map in Hin as (c & Hc & Hin). destruct c as [|[tl|]|k rg [tl|]]; try (destruct Hin; fail); destruct Hin as [E|[]]; injection E as <- <-.
  - exists None, tl. split; [left; auto|auto].
  - exists (Some rg), tl. split; [right; eauto|auto].
Qed.

Definition nested : list ztree := [ZT "A" 50 (Some 350) [ZT "B" 210 (Some 300) []; ZT "B" 310 (Some 340) []]; ZT "A" 360 None []].
Definition shadow : list ztree := [ZT "A" 10 (Some 30) [ZT "A" 10 (Some 20) []]].
Lemma nested_ok : tail_open nested /\ Forall (unshadowed []) nested.
Proof.
  split; [apply (to_open [ZT "A" 50 (Some 350) [ZT "B" 210 (Some 300) []; ZT "B" 310 (Some 340) []]] "A" 360 []); [reflexivity|constructor; reflexivity]|].
  repeat constructor; cbn; intuition congruence.
Qed.
Lemma inner_dropped : exists thr cpt wl stt files rg tl k f n a b, proper wl /\ proper_cpt cpt /\ 0 < thr /\ tl_run thr cpt wl = Ok (Stats stt, files) /\
  document f32A files (Some rg) tl /\ forallb closed f = true /\ Forall (unshadowed []) f /\ wl_zones wl = [(k, flat_map zevents f)] /\
  In (mkZone a n ZONE_START) (flat_map zevents f) /\ In (mkZone b n ZONE_END) (flat_map zevents f) /\ inside (Some rg) a b = true /\ tl_zones f32A tl = [(k, [])].
Proof.
  set (f := [ZT "A" 50 (Some 350) [ZT "B" 210 (Some 300) []]]).
  assert (V : zone_view (tl_run 2 100 (with_zones (flat_map zevents f))) = Some [(None, [(core, [ZJ 50 (Some ("A"%string, 0)) (Some 350) [ZJ 210 (Some ("B"%string, 0)) (Some 300) []]])]);
    (Some (0, 200), [(core, [])]); (Some (200, 400), [(core, [])]); (Some (0, 0), [(core, [])])]) by (vm_compute; reflexivity).
  apply zone_view_ok in V as (stt & files & E & V). destruct (V (Some (200, 400)) [(core, [])]) as (rg & tl & HD & HR & HZ); [right; right; left; reflexivity|].
  destruct rg as [rg|]; [|discriminate]. cbn in HR. injection HR as R1 R2.
  exists 2, 100, (with_zones (flat_map zevents f)), stt, files, rg, tl, core, f, "B"%string, 210, 300.
  split; [apply zones_proper|]. split; [unfold proper_cpt; lia|]. split; [reflexivity|]. split; [exact E|]. split; [exact HD|]. split; [reflexivity|].
  split; [repeat constructor; cbn; intuition congruence|]. split; [reflexivity|]. split; [cbn; auto|]. split; [cbn; auto|]. split; [|exact HZ]. unfold inside. rewrite R1, R2. reflexivity.
Qed.
Lemma shadow_lost : exists thr cpt wl stt files tl k f n a b js, proper wl /\ proper_cpt cpt /\ 0 < thr /\ tl_run thr cpt wl = Ok (Stats stt, files) /\
  document f32A files None tl /\ forallb closed f = true /\ wl_zones wl = [(k, flat_map zevents f)] /\
  In (mkZone a n ZONE_START) (flat_map zevents f) /\ In (mkZone b n ZONE_END) (flat_map zevents f) /\ tl_zones f32A tl = [(k, js)] /\ ~ in_file n a b js.
Proof.
  assert (V : zone_view (tl_run 9 100 (with_zones (flat_map zevents shadow))) = Some [(None, [(core, [ZJ 10 None None [ZJ 10 (Some ("A"%string, 0)) (Some 30) []]])])])
    by (vm_compute; reflexivity).
  apply zone_view_ok in V as (stt & files & E & V). destruct (V None [(core, [ZJ 10 None None [ZJ 10 (Some ("A"%string, 0)) (Some 30) []]])]) as (rg & tl & HD & HR & HZ); [left; reflexivity|].
  destruct rg as [rg|]; [discriminate|].
  exists 9, 100, (with_zones (flat_map zevents shadow)), stt, files, tl, core, shadow, "A"%string, 10, 20, [ZJ 10 None None [ZJ 10 (Some ("A"%string, 0)) (Some 30) []]].
  split; [apply zones_proper|]. split; [unfold proper_cpt; lia|]. split; [reflexivity|]. split; [exact E|]. split; [exact HD|]. split; [reflexivity|].
  split; [reflexivity|]. split; [cbn; auto|]. split; [cbn; auto|]. split; [exact HZ|].
  intros H. inversion H as [k kids l Hin|s i e kids l Hin H2]; subst.
  - destruct Hin as [Hin|[]]. discriminate.
  - destruct Hin as [Hin|[]]. injection Hin as <- <- <- <-. inversion H2 as [k kids l Hin|s i e kids l Hin H3]; subst.
    + destruct Hin as [Hin|[]]. discriminate.
    + destruct Hin as [Hin|[]]. injection Hin as <- <- <- <-. inversion H3 as [k kids l Hin|s i e kids l Hin H4]; subst; destruct Hin.
Qed.
Lemma unmatched_end : exists thr cpt wl wl' k z n a, proper wl /\ proper_cpt cpt /\ 0 < thr /\
  (exists r, runSinglePerfSim f32A same_links same_buckets wormhole_b0 "fast" cpt wl = Ok r) /\ wl_zones wl = [(k, [z])] /\ z_phase z = ZONE_END /\
  tl_run thr cpt wl = UB "back() of an empty vector" /\
  wl' = setZones wl [(k, [mkZone a n ZONE_START; z])] /\ n <> z_name z /\ tl_run thr cpt wl' = Throw UNDEF_ERR.
Proof.
  set (z := mkZone 20 "B" ZONE_END).
  exists 9, 100, (with_zones [z]), (setZones (with_zones [z]) [(core, [mkZone 10 "A" ZONE_START; z])]), core, z, "A"%string, 10.
  split; [apply zones_proper|]. split; [unfold proper_cpt; lia|]. split; [reflexivity|]. split.
  { assert (V : match runSinglePerfSim f32A same_links same_buckets wormhole_b0 "fast" 100 (with_zones [z]) with Ok _ => true | _ => false end = true) by (vm_compute; reflexivity).
    destruct (runSinglePerfSim f32A same_links same_buckets wormhole_b0 "fast" 100 (with_zones [z])) as [r| | | | | |]; try discriminate. exists r. reflexivity. }
  split; [reflexivity|]. split; [reflexivity|]. split.
  { assert (V : match tl_run 9 100 (with_zones [z]) with UB s => Some s | _ => None end = Some "back() of an empty vector"%string) by (vm_compute; reflexivity).
    destruct (tl_run 9 100 (with_zones [z])); try discriminate V. injection V as ->. reflexivity. }
  split; [reflexivity|]. split; [discriminate|]. apply tl_throw. vm_compute. reflexivity.
Qed.
