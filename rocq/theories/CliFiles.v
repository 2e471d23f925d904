(* Lemmas: the files the command line writes (C79). *)
From Coq Require Import ZArith Arith Lia ZifyBool ZifyNat String List Bool Floats.SpecFloat.
From Verif Require Import Base Arith Util Json Device SpecDevice Workload SpecWorkload Rates Stats Engine Api Bindings Ingest Timeline SpecTimeline TimelineSplit TrackerProofs WorkloadProofs Cli SpecCli CliProofs.
Import ListNotations.
Local Open Scope list_scope.
Open Scope Z_scope.
Ltac Zify.zify_post_hook ::= idtac.

Lemma congfree_get g (stt : stats f32A) id ds : stats_get f32A (map (fun e => (fst e, with_congfree f32A (snd e) (g e))) stt) id = Some ds ->
  exists ds0, stats_get f32A stt id = Some ds0 /\ ds_ts f32A ds = ds_ts f32A ds0.
Proof.
  induction stt as [|[k x] stt IH]; [discriminate|]. cbn [map stats_get fst snd]. destruct (k =? id); [|exact IH].
  intros H. injection H as <-. exists x. split; reflexivity.
Qed.
Section Files.
  Context (ord : Z -> list Z -> list Z) (bord : list bucket -> list bucket) (gord : gmap -> gmap) (zord : zone_map -> zone_map).
  (* where the files of a successful run come from *)
  Lemma single_files e d model cpt wl stt fs : single_run ord bord gord zord e d model cpt wl = Ok (Stats stt, fs) ->
    (em_on e = false /\ fs = []) \/ (em_on e = true /\ exists sts wl', emitSimTimelineToFile f32A gord zord d (em_topo e) (em_legacy e) (em_thr e) wl' stt sts = Ok fs).
  Proof.
    unfold single_run. destruct (em_on e).
    - intros H. right. split; [reflexivity|]. unfold runWithTimeline in H. apply bind_ok in H as (r & _ & H). destruct r as [s|er]; [|discriminate H].
      apply bind_ok in H as (s1 & _ & H). apply bind_ok in H as (s2 & _ & H). apply bind_ok in H as (f & Hf & H). injection H as <- <-. eauto.
    - intros H. left. split; [reflexivity|]. apply bind_ok in H as (r & _ & H). injection H as _ <-. reflexivity.
  Qed.
  Lemma api_files e d cfg wl stt fs : api_run ord bord gord zord e d cfg wl = Ok (Stats stt, fs) ->
    exists stt0, (forall id ds, stats_get f32A stt id = Some ds -> exists ds0, stats_get f32A stt0 id = Some ds0 /\ ds_ts f32A ds = ds_ts f32A ds0) /\
      ((em_on e = false /\ fs = []) \/ (em_on e = true /\ exists sts wl', emitSimTimelineToFile f32A gord zord d (em_topo e) (em_legacy e) (em_thr e) wl' stt0 sts = Ok fs)).
  Proof.
    intros H. unfold api_run in H. apply bind_ok in H as (w & _ & H). apply bind_ok in H as (ok & _ & H). destruct ok; [|discriminate H].
    destruct (estimate_run ord bord gord zord e d cfg w) as [[r fs']| | | | | |] eqn:E; try discriminate H. injection H as -> ->. unfold estimate_run in E. destruct (cf_impact cfg).
    - apply bind_ok in E as ([r1 f1] & H1 & E). cbn [fst snd] in E. destruct r1 as [s1|er]; [|discriminate E]. apply bind_ok in E as (r0 & _ & E). destruct r0 as [s0|er].
      + injection E as <- <-. exists s1. split; [intros id ds; apply congfree_get|exact (single_files _ _ _ _ _ _ _ H1)].
      + injection E as <- <-. exists s1. split; [eauto|exact (single_files _ _ _ _ _ _ _ H1)].
    - exists stt. split; [eauto|exact (single_files _ _ _ _ _ _ _ E)].
  Qed.
  Theorem main_files file_at topology_at accept o st stt fs ds : main ord bord gord zord file_at topology_at accept o = Ok (st, Some (Stats stt), fs) ->
    stats_get f32A stt MESH_DEVICE = Some ds -> Z.of_nat (List.length (ds_ts f32A ds)) < 2 ^ 63 ->
    (op_emit o = false -> fs = []) /\
    (op_emit o = true -> op_legacy o = true -> exists doc, fs = [FullV0 f32A doc]) /\
    (op_emit o = true -> op_legacy o = false ->
      (Z.of_nat (List.length (ds_ts f32A ds)) <= 10000 -> exists doc, fs = [FullV1 f32A doc]) /\
      (10000 < Z.of_nat (List.length (ds_ts f32A ds)) ->
        flat_map (fun r => positions (rg_first r) (rg_last r)) (split_regions fs) = positions 0 (Z.of_nat (List.length (ds_ts f32A ds))) /\
        Forall (fun r => 0 < rg_last r - rg_first r <= 10000) (split_regions fs))).
  Proof.
    intros H G L. unfold main in H. destruct (_ || _); [discriminate H|]. apply bind_ok in H as (cpt & _ & H). apply bind_ok in H as (sc & _ & H). cbv zeta in H.
    destruct (String.eqb (op_workload o) ""); [discriminate H|]. apply bind_ok in H as (mw & _ & H). destruct mw as [wl|]; [|discriminate H]. apply bind_ok in H as (api & _ & H). destruct api as [d|]; [|discriminate H].
    apply bind_ok in H as ([r f1] & HR & H). cbn [fst snd] in H. injection H as _ -> ->. destruct (api_files _ _ _ _ _ _ HR) as (stt0 & GT & CF). destruct (GT _ _ G) as (ds0 & G0 & ET).
    assert (LT : List.length (ds_ts f32A ds0) = List.length (ds_ts f32A ds)) by congruence. cbn [emission_of em_on em_topo em_legacy em_thr] in CF.
    destruct CF as [[EM ->]|(EM & sts & wl' & HE)]; [split; [auto|split; [congruence|congruence]]|]. split; [congruence|]. split.
    - intros _ LG. unfold emitSimTimelineToFile in HE. rewrite G0, LG in HE. apply bind_ok in HE as (doc & _ & HE). injection HE as <-. eauto.
    - intros _ LG. rewrite LG in HE. destruct (split_ranges f32A gord zord d _ wl' 10000 stt0 sts fs ds0 HE G0 ltac:(rewrite LT; exact L) ltac:(lia)) as [S1 S2]. rewrite LT in S1, S2. split; [|exact S2].
      intros LE. unfold emitSimTimelineToFile in HE. rewrite G0 in HE. apply bind_ok in HE as (full & _ & HE). rewrite LT in HE. destruct (Z.ltb_spec 10000 (Z.of_nat (List.length (ds_ts f32A ds)))); [lia|]. injection HE as <-. eauto.
  Qed.
End Files.
