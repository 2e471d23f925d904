(* Witnesses for C66. *)
From Coq Require Import ZArith Arith Lia Floats.SpecFloat String List Bool Sorting.Permutation ZifyBool ZifyNat.
From Verif Require Import Base Arith Util Device SpecDevice Workload SpecWorkload Rates Stats Engine Api SpecEngine SpecRates SpecStats Cases EngineWitness RatesWitness FloatWitness Timeline SpecTimeline TimelineWitness SpecZones SpecGroups.
Import ListNotations.
Local Open Scope list_scope.
Open Scope Z_scope.

Definition register (ts : list (transfer (F f32A))) : workload (F f32A) :=
  match registerTransferGroupID (build f32A ts) with Ok (w, _) => w | _ => empty_workload end.
(* a hop and two that follow it; the last one is short *)
Definition wl_branch : workload (F f32A) :=
  register [hop f32A 100 (0,1,1) (0,1,5) 0 0 0 (-1); hop f32A 900 (0,1,5) (0,1,8) 0 0 1 0; hop f32A 30 (0,1,5) (0,5,5) 0 0 2 0].
(* two hops without parents, the first one late *)
Definition wl_loose : workload (F f32A) :=
  register [hop f32A 100 (0,1,1) (0,1,5) 500 0 0 (-1); hop f32A 100 (0,1,5) (0,1,8) 0 0 1 (-1)].
Lemma branch_proper : proper wl_branch. Proof. proper. Qed.
Lemma loose_proper : proper wl_loose. Proof. proper. Qed.

(* (id, start, end, intervals of the segments) of the groups of the full file *)
Definition group_view {A} (r : outcome (npe_result A * list (content A))) : option (list (Z * Z * Z * list (Z * Z))) :=
  match r with
  | Ok (Stats _, FullV1 _ (Some tl) :: _) => Some (map (fun tg => (tg_id A tg, tg_start A tg, tg_end A tg, map (fun sg => (sg_start A sg, sg_end A sg)) (tg_route A tg))) (tl_groups A tl))
  | _ => None
  end.
Lemma group_view_ok {A} r vs : @group_view A r = Some vs -> exists stt files tl, r = Ok (Stats stt, files) /\ document A files None tl /\
  forall g s e l, In (g, s, e, l) vs -> exists tg, In tg (tl_groups A tl) /\ tg_id A tg = g /\ tg_start A tg = s /\ tg_end A tg = e /\ map (fun sg => (sg_start A sg, sg_end A sg)) (tg_route A tg) = l.
Proof.
  unfold group_view. destruct r as [[[stt|] [|[|[tl|]|] files]]| | | | | |]; try discriminate. intros H. injection H as <-. exists stt, (FullV1 A (Some tl) :: files), tl. split; [reflexivity|]. split; [left; split; [left; reflexivity|reflexivity]|].
  intros g s e l Hin. apply in_map_iff in Hin as (tg & E & Hin). injection E as <- <- <- <-. exists tg. auto.
Qed.
Lemma outside thr cpt wl vs g s e l a b : group_view (tl_run thr cpt wl) = Some vs -> In (g, s, e, l) vs -> In (a, b) l ->
  exists stt files tl tg sg, tl_run thr cpt wl = Ok (Stats stt, files) /\ document f32A files None tl /\ In tg (tl_groups f32A tl) /\ In sg (tg_route f32A tg) /\
    tg_start f32A tg = s /\ tg_end f32A tg = e /\ sg_start f32A sg = a /\ sg_end f32A sg = b.
Proof.
  intros V H1 H2. destruct (group_view_ok _ _ V) as (stt & files & tl & R & D & G). destruct (G _ _ _ _ H1) as (tg & T1 & T2 & T3 & T4 & T5). rewrite <- T5 in H2. apply in_map_iff in H2 as (sg & E & H2). injection E as E1 E2.
  exists stt, files, tl, tg, sg. do 7 (split; [assumption|]). assumption.
Qed.
Definition on_gridb {Fl} (d : device) (t : transfer Fl) : bool :=
  let inb c := (0 <=? c_dev c) && (c_dev c <? Z.of_nat (dv_chips d)) && (0 <=? c_row c) && (c_row c <? Z.of_nat (dv_rows d)) && (0 <=? c_col c) && (c_col c <? Z.of_nat (dv_cols d)) in
  inb (t_src t) && match t_dst t with Unicast c => inb c && (c_dev (t_src t) =? c_dev c) | Multicast _ => false end.
Lemma on_gridb_ok {Fl} d (t : transfer Fl) : on_gridb d t = true -> on_grid d t.
Proof. unfold on_gridb, on_grid, in_grid. destruct (t_dst t); [|rewrite andb_false_r; discriminate]. lia. Qed.
Lemma fits (wl : workload (F f32A)) : forallb (fun t => on_gridb wormhole_b0 t && soundb t && (negb (negb (t_gid t =? -1) && negb (t_gix t =? -1)) || (t_gid t <? wl_groups wl))) (all_transfers wl) = true ->
  Forall (on_grid wormhole_b0) (all_transfers wl) /\ Forall sound_transfer (all_transfers wl) /\ registered wl.
Proof.
  intros H. rewrite forallb_forall in H. split; [|split].
  - apply Forall_forall. intros t Ht. apply H in Ht. cbn beta in Ht. rewrite !andb_true_iff in Ht. destruct Ht as [[Ht1 Ht2] Ht3]. apply on_gridb_ok. exact Ht1.
  - apply Forall_forall. intros t Ht. apply H in Ht. cbn beta in Ht. rewrite !andb_true_iff in Ht. destruct Ht as [[Ht1 Ht2] Ht3]. apply soundb_ok. exact Ht2.
  - intros t Ht [G1 G2]. apply H in Ht. cbn beta in Ht. rewrite !andb_true_iff in Ht. destruct Ht as [_ Ht]. clear -Ht G1 G2. apply orb_true_iff in Ht as [Ht|Ht]; [|apply Z.ltb_lt; exact Ht]. exfalso. apply negb_true_iff, andb_false_iff in Ht as [Ht|Ht]; apply negb_false_iff, Z.eqb_eq in Ht; contradiction.
Qed.
(* a group that ends before one of its transfers *)
Lemma group_short : exists wl thr cpt stt files tl tg sg, proper wl /\ proper_cpt cpt /\ Forall (on_grid wormhole_b0) (all_transfers wl) /\ Forall sound_transfer (all_transfers wl) /\ registered wl /\ 0 < thr /\
  tl_run thr cpt wl = Ok (Stats stt, files) /\ document f32A files None tl /\ In tg (tl_groups f32A tl) /\ In sg (tg_route f32A tg) /\ tg_end f32A tg < sg_end f32A sg.
Proof.
  assert (V : group_view (tl_run 10 100 wl_branch) = Some [(0, 0, 220, [(0, 100); (170, 1105); (180, 220)])]) by (vm_compute; reflexivity).
  destruct (outside _ _ _ _ _ _ _ _ 170 1105 V (or_introl eq_refl)) as (stt & files & tl & tg & sg & R & D & H1 & H2 & _ & H3 & _ & H4); [right; left; reflexivity|].
  destruct (fits wl_branch) as (B1 & B2 & B3); [vm_compute; reflexivity|]. exists wl_branch, 10, 100, stt, files, tl, tg, sg. split; [exact branch_proper|]. split; [unfold proper_cpt; lia|]. do 3 (split; [assumption|]). split; [lia|]. do 4 (split; [assumption|]). lia.
Qed.
(* a group that starts after one of its transfers, and ends before it starts *)
Lemma group_late : exists wl thr cpt stt files tl tg sg, proper wl /\ proper_cpt cpt /\ Forall (on_grid wormhole_b0) (all_transfers wl) /\ Forall sound_transfer (all_transfers wl) /\ registered wl /\ 0 < thr /\
  tl_run thr cpt wl = Ok (Stats stt, files) /\ document f32A files None tl /\ In tg (tl_groups f32A tl) /\ In sg (tg_route f32A tg) /\ sg_start f32A sg < tg_start f32A tg /\ tg_end f32A tg < tg_start f32A tg.
Proof.
  assert (V : group_view (tl_run 10 100 wl_loose) = Some [(0, 500, 100, [(500, 600); (0, 100)])]) by (vm_compute; reflexivity).
  destruct (outside _ _ _ _ _ _ _ _ 0 100 V (or_introl eq_refl)) as (stt & files & tl & tg & sg & R & D & H1 & H2 & H3 & H4 & H5 & H6); [right; left; reflexivity|].
  destruct (fits wl_loose) as (B1 & B2 & B3); [vm_compute; reflexivity|]. exists wl_loose, 10, 100, stt, files, tl, tg, sg. split; [exact loose_proper|]. split; [unfold proper_cpt; lia|]. do 3 (split; [assumption|]). split; [lia|]. do 4 (split; [assumption|]). lia.
Qed.
(* a chain of two hops, and a transfer of its own *)
Lemma group_chain : chain f32A wl_group 0 /\ Forall (on_grid wormhole_b0) (all_transfers wl_group) /\ Forall sound_transfer (all_transfers wl_group) /\ registered wl_group /\
  group_view (tl_run 10 100 wl_group) = Some [(0, 0, 320, [(0, 150); (220, 320)]); (1, 0, 20, [(0, 20)])].
Proof.
  split.
  - assert (E : exists a b c, all_transfers wl_group = [a; b; c] /\ map (fun t : transfer (F f32A) => (t_gid t, t_gix t, t_gpar t)) [a; b; c] = [(0, 0, -1); (0, 1, 0); (-1, -1, -1)]) by (do 3 eexists; split; vm_compute; reflexivity).
    destruct E as (a & b & c & EA & E). unfold chain. rewrite EA. cbn [map] in E. injection E as A1 A2 A3 B1 B2 B3 C1 C2 C3. exists [a; b]. change (F f32A) with spec_float in *. split.
    + intros t. unfold grouped. cbn [In]. split.
      * intros [<-|[<-|[]]]; rewrite ?A1, ?A2, ?B1, ?B2; (split; [auto|]; lia).
      * intros ([<-|[<-|[<-|[]]]] & G); [auto|auto|]. exfalso. rewrite C1 in G. lia.
    + intros l x y l' H. destruct l as [|z [|z' l]]; [|discriminate H|destruct l; discriminate H]. injection H as <- <- _. rewrite B3, A2, B2. lia.
  - destruct (fits wl_group) as (B1 & B2 & B3); [vm_compute; reflexivity|]. do 3 (split; [assumption|]). vm_compute. reflexivity.
Qed.
