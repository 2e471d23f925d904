(* No undefined behaviour, no escaping exception and no endless loop in the simulation of a validated workload (C22, C31). *)
From Coq Require Import ZArith Arith String List Bool Lia ZifyBool ZifyNat Sorting.Permutation Sorting.Sorted.
From Verif Require Import Base Arith Util Device SpecDevice Workload SpecWorkload DepTracker Rates Stats Engine UtilProofs DeviceProofs RouteProofs MulticastProofs FactoryProofs
  WorkloadProofs SpecTracker TrackerProofs DepGenProofs StepProofs SpecEngine EngineProofs RunProofs EngineFacts EngineFacts2.
Import ListNotations.
Local Open Scope list_scope.
Open Scope Z_scope.
Ltac Zify.zify_post_hook ::= idtac.

(* a value or an npe exception *)
Definition safe {X} (m : outcome X) : Prop := match m with Ok _ | Throw _ => True | _ => False end.
Lemma safe_bind {X Y} (m : outcome X) (f : X -> outcome Y) : safe m -> (forall x, m = Ok x -> safe (f x)) -> safe (bind m f).
Proof. destruct m; cbn; auto. Qed.
Lemma safe_fold {X S} (P : S -> Prop) (f : S -> X -> outcome S) l :
  (forall s x, P s -> In x l -> safe (f s x) /\ forall s', f s x = Ok s' -> P s') -> forall s, P s ->
  safe (foldM f l s) /\ forall s', foldM f l s = Ok s' -> P s'.
Proof.
  induction l as [|x l IH]; intros H s HP; cbn [foldM].
  - split; [exact I|]. intros s' [= <-]. exact HP.
  - destruct (H s x HP (or_introl eq_refl)) as [H1 H2]. destruct (f s x) as [s1| | | | | |]; cbn [bind]; try contradiction.
    + apply IH; auto. intros s2 y HP2 Hy. apply H; auto. right; assumption.
    + split; [exact I|discriminate].
Qed.
Lemma safe_map {X Y} (f : X -> outcome Y) l : (forall x, In x l -> safe (f x)) -> safe (mapM f l).
Proof.
  induction l as [|x l IH]; intros H; cbn [mapM]; [exact I|]. apply safe_bind; [apply H; left; reflexivity|]. intros y _.
  apply safe_bind; [apply IH; intros z Hz; apply H; right; assumption|]. intros ys _. exact I.
Qed.
Lemma safe_assert b : safe (tt_assert b).
Proof. destruct b; exact I. Qed.
Lemma safe_linkid d a : safe (getLinkID d a).
Proof. unfold getLinkID. destruct (index_of _ _); exact I. Qed.
Lemma safe_niuid d a : safe (getNIUID d a).
Proof. unfold getNIUID. destruct (index_of _ _); exact I. Qed.
Lemma safe_linkattr d a : safe (getLinkAttributes d a).
Proof. unfold getLinkAttributes. destruct (_ <? _); [exact I|]. destruct (nth_error _ _); exact I. Qed.
Lemma safe_cp tk k : safe (cp_at tk k).
Proof. unfold cp_at. destruct (nth_error _ _); exact I. Qed.
Lemma safe_done tk k c : safe (done tk k c).
Proof. destruct k; [|exact I]. cbn [done]. apply safe_bind; [apply safe_cp|]. intros; exact I. Qed.
Lemma safe_end tk k : safe (end_cycle tk k).
Proof. destruct k; [|exact I]. cbn [end_cycle]. apply safe_bind; [apply safe_cp|]. intros; exact I. Qed.
Lemma safe_update tk k e : safe (updateCheckpoint tk k e).
Proof. destruct k; [|exact I]. cbn [updateCheckpoint]. apply safe_bind; [apply safe_cp|]. intros; exact I. Qed.
Lemma safe_niu d c t : safe (niu_of d c t).
Proof. unfold niu_of. destruct (dv_class d); apply safe_niuid. Qed.
Lemma safe_vec {X} (l : list X) n : (n < List.length l)%nat -> safe (vec_get l n).
Proof. intros H. unfold vec_get. destruct (nth_lt_some _ _ H) as [x ->]. exact I. Qed.
Lemma safe_gget {X} (l : list X) z : 0 <= z < Z.of_nat (List.length l) -> safe (grid_get l z).
Proof. intros H. unfold grid_get. replace (z <? 0) with false by lia. apply safe_vec. lia. Qed.
Lemma safe_gmod {X} (l : list X) z f : 0 <= z < Z.of_nat (List.length l) -> safe (grid_mod l z f).
Proof. intros H. unfold grid_mod, vec_mod. replace (z <? 0) with false by lia. destruct (nth_lt_some l (Z.to_nat z) ltac:(lia)) as [x ->]. exact I. Qed.
Lemma upd_len {X} (l : list X) n x : List.length (upd l n x) = List.length l.
Proof. revert n. induction l; intros [|n]; cbn; auto. Qed.
Lemma gmod_len {X} (l l' : list X) z f : grid_mod l z f = Ok l' -> List.length l' = List.length l.
Proof. unfold grid_mod, vec_mod. destruct (_ <? _); [discriminate|]. destruct (nth_error _ _); [|discriminate]. intros [= <-]. apply upd_len. Qed.

(** * Routes *)
Definition link_ok (d : device) (id : Z) : Prop := 0 <= id < Z.of_nat (List.length (link_table d)).
Lemma niu_range d c t id : wf_device d -> niu_of d c t = Ok id -> 0 <= id < Z.of_nat (List.length (niu_table d)).
Proof.
  intros HW H. assert (G : exists a, getNIUID d a = Ok id) by (unfold niu_of in H; destruct (dv_class d); eauto).
  apply niu_id_range in G; [|exact HW]. rewrite niu_table_length. lia.
Qed.
Lemma link_idx_ok d a : wf_device d -> in_grid d (l_coord a) -> link_ok d (link_idx d a).
Proof.
  intros HW H. pose proof (getLinkID_eq d a HW H) as E. assert (G : exists b, getLinkID d b = Ok (link_idx d a)) by eauto.
  apply link_id_range in G; [|exact HW]. unfold link_ok. rewrite link_table_length. lia.
Qed.
(* what the route of an accepted transfer says about its destination *)
Definition dest_ok (d : device) (dst : noc_dest) : Prop :=
  match dst with
  | Unicast c => in_grid d c
  | Multicast m => exists g, m = [g] /\ on_chip_grid d (g_start g) /\ on_chip_grid d (g_end g)
  end.
Lemma route_safe {Fl} d noc (t : transfer Fl) : wf_device d -> accepted d t -> safe (route d noc (t_src t) (t_dst t)) /\
  forall r, route d noc (t_src t) (t_dst t) = Ok r -> Forall (link_ok d) r /\ dest_ok d (t_dst t).
Proof.
  intros HW (_ & _ & HS & HD). destruct (t_dst t) as [c|m].
  - destruct HD as [HG HE]. rewrite route_unicast_eq by (auto; symmetry; assumption). split; [exact I|]. intros r [= <-]. split; [|exact HG].
    apply Forall_forall. intros y Hy. apply in_map_iff in Hy as (a & <- & Ha). apply link_idx_ok; [exact HW|].
    pose proof (uni_links_grid d noc (t_src t) c HW HS HG) as F. rewrite Forall_forall in F. apply F. exact Ha.
  - destruct HD as ((g & m' & -> & Hd) & (g' & Hin & G1 & G2)). destruct m' as [|g2 m'].
    + destruct Hin as [->|[]]. destruct G1 as [G1 G1'], G2 as [G2 G2'].
      destruct (route_multicast_gen d noc (t_src t) g' HW HS G1 G1' G2 G2' Hd) as (ids & E & _ & HI). rewrite E. split; [exact I|]. intros r [= <-]. split.
      * apply Forall_forall. intros y Hy. apply HI in Hy as (p & Hp & Hy). apply in_map_iff in Hy as (a & <- & Ha). apply link_idx_ok; [exact HW|].
        destruct (edge_bounds noc g' d p Hp G1 G1' G2 G2') as [B1 B2]. destruct HS as (S1 & S2 & S3).
        pose proof (uni_links_in_grid d (c_dev (t_src t)) noc (c_row (t_src t)) (c_col (t_src t)) (fst p) (snd p) HW S1 S2 S3 B1 B2) as F.
        rewrite Forall_forall in F. apply (F a Ha).
      * exists g'. split; [reflexivity|]. split; split; assumption.
    + assert (E : exists e, route d noc (t_src t) (Multicast (g :: g2 :: m')) = Throw e).
      { unfold route, route_f. destruct (dv_class d); unfold chip_route; cbn [dest_device_ids mcast_device_ids map List.length Nat.eqb tt_assert bind]; eauto. }
      destruct E as [e ->]. split; [exact I|discriminate].
Qed.

(** * Walks over one rectangle *)
Definition cell_ok (d : device) (c : coord) : Prop := on_chip_grid d c.
Lemma i16_small z : 0 <= z <= 2 ^ 15 - 1 -> i16 z = z.
Proof. intros H. apply i16_id. lia. Qed.
Lemma walk_one d g fuel : forall row col, Z.of_nat (dv_rows d) < 2 ^ 15 -> Z.of_nat (dv_cols d) < 2 ^ 15 ->
  on_chip_grid d (g_start g) -> on_chip_grid d (g_end g) -> 0 <= row < Z.of_nat (dv_rows d) -> 0 <= col < Z.of_nat (dv_cols d) ->
  c_row (g_start g) <= row -> c_col (g_start g) <= col ->
  (Z.to_nat (Z.max 0 (c_row (g_end g) - row)) * Z.to_nat (Z.max 1 (c_col (g_end g) - c_col (g_start g) + 1)) +
   Z.to_nat (Z.max 1 (c_col (g_end g) - col + 1)) <= fuel)%nat ->
  exists l, mc_walk fuel [g] (mkCoord (c_dev (g_start g)) row col, O) = Some l /\ Forall (fun c => on_chip_grid d c /\ c_dev c = c_dev (g_start g)) l.
Proof.
  induction fuel as [|fuel IH]; intros row col W1 W2 G1 G2 HR HC HR' HC' HF; [lia|].
  cbn [mc_walk mc_at_end snd List.length Nat.eqb fst mc_next nth_error c_col c_row c_dev].
  assert (HP : on_chip_grid d (mkCoord (c_dev (g_start g)) row col) /\ c_dev (mkCoord (c_dev (g_start g)) row col) = c_dev (g_start g)) by (split; [split; assumption|reflexivity]).
  destruct G1 as [A1 A2], G2 as [B1 B2].
  destruct (Z.ltb_spec col (c_col (g_end g))) as [L|L].
  - rewrite i16_small by lia. destruct (IH row (col + 1)) as (l & E & FL); try assumption; try lia; try (split; assumption).
    rewrite E. cbn [option_map]. eexists. split; [reflexivity|]. constructor; assumption.
  - rewrite i16_small by lia. destruct (row + 1 >? c_row (g_end g)) eqn:E2.
    + destruct fuel; cbn [mc_walk mc_at_end snd List.length Nat.eqb option_map]; (eexists; split; [reflexivity|]; constructor; [assumption|constructor]).
    + destruct (IH (row + 1) (c_col (g_start g))) as (l & E & FL); try assumption; try lia; try (split; assumption).
      { set (w := Z.to_nat (Z.max 1 (c_col (g_end g) - c_col (g_start g) + 1))) in *.
        replace (Z.to_nat (Z.max 0 (c_row (g_end g) - row))) with (S (Z.to_nat (Z.max 0 (c_row (g_end g) - (row + 1))))) in HF by lia. cbn [Nat.mul] in HF. lia. }
      rewrite E. cbn [option_map]. eexists. split; [reflexivity|]. constructor; assumption.
Qed.
Lemma coords_ok d g : wf_device d -> on_chip_grid d (g_start g) -> on_chip_grid d (g_end g) ->
  exists cs, mcast_coords [g] = Ok cs /\ Forall (fun c => on_chip_grid d c /\ c_dev c = c_dev (g_start g)) cs.
Proof.
  intros (W1 & W2 & W3 & W4 & _) G1 G2. unfold mcast_coords, mc_begin. assert (Z.of_nat (dv_rows d) < 2 ^ 15 /\ Z.of_nat (dv_cols d) < 2 ^ 15) as [B1 B2] by (change (2 ^ 15) with 32768 in *; nia).
  destruct (walk_one d g (mc_fuel [g]) (c_row (g_start g)) (c_col (g_start g))) as (l & E & FL); auto; try apply G1; try lia.
  - unfold mc_fuel. cbn [map list_sum fold_right]. unfold grid_cells. set (w := Z.to_nat (Z.max 1 (c_col (g_end g) - c_col (g_start g) + 1))).
    destruct (Z_le_gt_dec (c_row (g_end g) - c_row (g_start g)) 0).
    + replace (Z.to_nat (Z.max 0 (c_row (g_end g) - c_row (g_start g)))) with O by lia. replace (Z.to_nat (Z.max 1 (c_row (g_end g) - c_row (g_start g) + 1))) with 1%nat by lia. lia.
    + replace (Z.to_nat (Z.max 1 (c_row (g_end g) - c_row (g_start g) + 1))) with (S (Z.to_nat (Z.max 0 (c_row (g_end g) - c_row (g_start g))))) by lia. cbn [Nat.mul]. lia.
  - replace (mkCoord (c_dev (g_start g)) (c_row (g_start g)) (c_col (g_start g))) with (g_start g) in E by (destruct (g_start g); reflexivity). rewrite E. eauto.
Qed.

Section Engine.
  Context (A : arith).
  Notation state := (tstate (F A)).
  Context (d : device) (HD : supported d).
  Let WF : wf_device d := supported_wf d HD.

  (* a transfer state of an accepted workload *)
  Definition state_fine (x : state) : Prop := accepted d (s_tr x) /\ dest_ok d (t_dst (s_tr x)) /\ Forall (link_ok d) (s_route x).
  Lemma core_ok c : on_chip_grid d c -> exists ty, getCoreType d c = Ok ty.
  Proof.
    intros [H1 H2]. assert (E : getCoreType d c = getCoreType d (mkCoord 0 (c_row c) (c_col c))) by reflexivity. rewrite E.
    rewrite core_type_in_grid; [eauto|exact HD|]. destruct WF as (W1 & _). split; cbn; [lia|]. split; assumption.
  Qed.

  (** * Rates *)
  Definition sized (g : grids (F A)) : Prop := List.length (g_niu g) = List.length (niu_table d) /\
    List.length (g_link g) = List.length (link_table d) /\ List.length (g_mc g) = List.length (link_table d).
  Lemma zero_sized : sized (zero_grids A d).
  Proof. unfold sized, zero_grids. cbn [g_niu g_link g_mc]. rewrite !map_length. auto. Qed.
  Lemma bump_safe n c ty (f : F A -> F A) : List.length n = List.length (niu_table d) ->
    safe (let! id := niu_of d c ty in grid_mod n id f) /\
    forall n', (let! id := niu_of d c ty in grid_mod n id f) = Ok n' -> List.length n' = List.length (niu_table d).
  Proof.
    intros HL. pose proof (safe_niu d c ty) as S. destruct (niu_of d c ty) as [id| | | | | |] eqn:E; cbn [bind safe] in *; try contradiction.
    - split; [apply safe_gmod; rewrite HL; eapply niu_range; eassumption|]. intros n' H. apply gmod_len in H. congruence.
    - split; [exact I|discriminate].
  Qed.
  Lemma niu_demand_safe eff x n : state_fine x -> List.length n = List.length (niu_table d) ->
    safe (add_niu_demand A d eff x n) /\ forall n', add_niu_demand A d eff x n = Ok n' -> List.length n' = List.length (niu_table d).
  Proof.
    intros (HA & HT & _) HL. unfold add_niu_demand. cbv zeta beta.
    destruct (bump_safe n (t_src (s_tr x)) (src_niu_type (t_noc (s_tr x))) (fun y => f_add A y eff) HL) as [S1 L1].
    destruct (let! id := niu_of d (t_src (s_tr x)) (src_niu_type (t_noc (s_tr x))) in grid_mod n id (fun y => f_add A y eff)) as [n1| | | | | |] eqn:E; try contradiction; cbn [bind]; [|split; [exact I|discriminate]].
    specialize (L1 _ eq_refl). destruct (t_dst (s_tr x)) as [c|m].
    - apply bump_safe. exact L1.
    - destruct HT as (g & -> & G1 & G2). destruct (coords_ok d g WF G1 G2) as (cs & -> & FC). cbn [bind].
      apply safe_fold with (P := fun n => List.length n = List.length (niu_table d)); [|exact L1].
      intros n2 c HL2 Hc. rewrite Forall_forall in FC. destruct (core_ok c (proj1 (FC c Hc))) as [ty ->]. cbn [bind].
      destruct ty; try (split; [exact I|intros ? [= <-]; exact HL2]). apply bump_safe. exact HL2.
  Qed.
  Lemma link_demand_safe eff r g : Forall (link_ok d) r -> List.length g = List.length (link_table d) ->
    safe (add_link_demand A eff r g) /\ forall g', add_link_demand A eff r g = Ok g' -> List.length g' = List.length (link_table d).
  Proof.
    intros HR HL. apply safe_fold with (P := fun n => List.length n = List.length (link_table d)); [|exact HL].
    intros n2 c HL2 Hc. rewrite Forall_forall in HR. specialize (HR c Hc). split; [apply safe_gmod; rewrite HL2; exact HR|]. intros n' H. apply gmod_len in H. congruence.
  Qed.
  Lemma demand_safe st en sts live : (forall i, In i live -> exists x, nth_error sts i = Some x /\ state_fine x) -> forall g, sized g ->
    safe (foldM (add_demand A d st en sts) live g) /\ forall g', foldM (add_demand A d st en sts) live g = Ok g' -> sized g'.
  Proof.
    intros HS. apply safe_fold. intros g i (L1 & L2 & L3) Hi. destruct (HS i Hi) as (x & Hx & FX). unfold add_demand, vec_get. rewrite Hx. cbn [bind]. cbv zeta.
    set (eff := effective_demand A st en x). destruct (niu_demand_safe eff x (g_niu g) FX L1) as [S1 K1].
    destruct (add_niu_demand A d eff x (g_niu g)) as [n| | | | | |]; try contradiction; cbn [bind]; [|split; [exact I|discriminate]]. specialize (K1 _ eq_refl).
    destruct FX as (_ & _ & FR). destruct (link_demand_safe eff (s_route x) (g_link g) FR L2) as [S2 K2].
    destruct (add_link_demand A eff (s_route x) (g_link g)) as [l| | | | | |]; try contradiction; cbn [bind]; [|split; [exact I|discriminate]]. specialize (K2 _ eq_refl).
    destruct (String.eqb _ _); cbn [bind].
    - destruct (link_demand_safe eff (s_route x) (g_mc g) FR L3) as [S3 K3].
      destruct (add_link_demand A eff (s_route x) (g_mc g)) as [l3| | | | | |]; try contradiction; cbn [bind]; [|split; [exact I|discriminate]]. specialize (K3 _ eq_refl).
      split; [exact I|]. intros g' [= <-]. split; [|split]; assumption.
    - split; [exact I|]. intros g' [= <-]. split; [|split]; assumption.
  Qed.
  Lemma sink_safe t n : accepted d t -> dest_ok d (t_dst t) -> List.length n = List.length (niu_table d) -> safe (sink_derate A d t n).
  Proof.
    intros HA HT HL. unfold sink_derate. destruct (t_dst t) as [c|m].
    - apply safe_bind; [apply safe_niu|]. intros id Hid. apply safe_bind; [apply safe_gget; rewrite HL; eapply niu_range; eassumption|]. intros dem _.
      unfold getSinkAbsorptionRate. destruct (core_ok c) as [ty ->]; [split; apply HT|]. exact I.
    - destruct HT as (g & -> & G1 & G2). destruct (coords_ok d g WF G1 G2) as (cs & -> & FC). cbn [bind]. apply safe_bind; [|intros; exact I].
      apply (safe_fold (fun _ => True)); [|exact I]. intros a c _ Hc. split; [|auto]. rewrite Forall_forall in FC. destruct (core_ok c (proj1 (FC c Hc))) as [ty ->]. cbn [bind].
      destruct ty; try exact I. apply safe_bind; [apply safe_niu|]. intros id Hid. apply safe_bind; [apply safe_gget; rewrite HL; eapply niu_range; eassumption|]. intros; exact I.
  Qed.
  (* the states agree up to the bandwidths *)
  Definition same_bw (sts sts' : list state) : Prop := forall i x, nth_error sts i = Some x -> exists b, nth_error sts' i = Some (with_bw x b).
  Lemma with_bw_same (x : state) b b' : with_bw (with_bw x b) b' = with_bw x b'.
  Proof. reflexivity. Qed.
  Lemma same_upd sts sts' i x b : same_bw sts sts' -> nth_error sts' i = Some x -> same_bw sts (upd sts' i (with_bw x b)).
  Proof.
    intros H Hi j y Hy. destruct (H j y Hy) as (b' & E). rewrite upd_nth. destruct (Nat.eqb_spec i j) as [->|N]; [|eauto].
    rewrite Hi. rewrite Hi in E. injection E as ->. exists b. rewrite with_bw_same. reflexivity.
  Qed.
  Lemma derate_safe g sts live : sized g -> (forall i, In i live -> exists x, nth_error sts i = Some x /\ state_fine x) ->
    safe (foldM (derate A d g) live sts).
  Proof.
    intros (L1 & L2 & L3) HS. apply (safe_fold (same_bw sts)); [|intros i x Hx; exists (s_bw x); rewrite Hx; destruct x; reflexivity].
    intros sts' i SB Hi. destruct (HS i Hi) as (x & Hx & FX). destruct (SB i x Hx) as (b & Hx'). unfold derate, vec_get. rewrite Hx'. cbn [bind]. cbv zeta. cbn [with_bw s_tr s_route s_bw].
    destruct FX as (HA & HT & FR).
    assert (S1 : safe (max_link_demand A (g_link g) (s_route x))).
    { apply (safe_fold (fun _ => True)); [|exact I]. intros m id _ Hid. split; [|auto]. rewrite Forall_forall in FR. specialize (FR id Hid). apply safe_bind; [apply safe_gget; rewrite L2; exact FR|]. intros; exact I. }
    destruct (max_link_demand A (g_link g) (s_route x)) as [m| | | | | |]; try contradiction; cbn [bind]; [|split; [exact I|discriminate]].
    pose proof (safe_niu d (t_src (s_tr x)) (src_niu_type (t_noc (s_tr x)))) as S2. destruct (niu_of d (t_src (s_tr x)) (src_niu_type (t_noc (s_tr x)))) as [id| | | | | |] eqn:E2; try contradiction; cbn [bind]; [|split; [exact I|discriminate]].
    pose proof (niu_range _ _ _ _ WF E2) as R2. rewrite <- L1 in R2. apply safe_gget in R2. destruct (grid_get (g_niu g) id) as [dem| | | | | |]; try contradiction; cbn [bind]; [|split; [exact I|discriminate]].
    pose proof (sink_safe (s_tr x) (g_niu g) HA HT L1) as S3. destruct (sink_derate A d (s_tr x) (g_niu g)) as [sd| | | | | |]; try contradiction; cbn [bind]; [|split; [exact I|discriminate]].
    destruct (_ || _).
    - split; [exact I|]. intros s' [= <-]. apply (same_upd sts sts' i _ _ SB Hx').
    - split; [exact I|]. intros s' [= <-]. exact SB.
  Qed.
  Lemma interp_safe m p n : safe (interpolateBW A (tbt A d) m p n).
  Proof.
    unfold interpolateBW. apply safe_bind; [apply safe_assert|]. intros _ _. assert (NE : tbt A d <> []) by (unfold tbt; destruct (dv_class d); discriminate).
    revert NE. generalize (tbt A d). induction l as [|lo rest IH]; intros NE; [contradiction|]. cbn [interp_loop]. destruct rest as [|hi rest].
    - destruct (_ <=? _); exact I.
    - destruct (_ && _); [|apply IH; discriminate]. unfold interp_pair. cbv zeta. apply safe_bind; [apply safe_assert|]. intros _ _. apply safe_bind; [apply safe_assert|]. intros; exact I.
  Qed.
  Lemma update_safe sts live : (forall i, In i live -> exists x, nth_error sts i = Some x /\ state_fine x) ->
    safe (updateTransferBandwidth A d sts live) /\ forall sts', updateTransferBandwidth A d sts live = Ok sts' -> same_bw sts sts'.
  Proof.
    intros HS. apply (safe_fold (same_bw sts)); [|intros i x Hx; exists (s_bw x); rewrite Hx; destruct x; reflexivity].
    intros sts' i SB Hi. destruct (HS i Hi) as (x & Hx & FX). destruct (SB i x Hx) as (b & Hx'). unfold vec_get. rewrite Hx'. cbn [bind with_bw s_tr].
    unfold uncongested_bw. pose proof (interp_safe (max_noc_bandwidth A d) (t_psize (s_tr x)) (t_npkts (s_tr x))) as S1.
    destruct (interpolateBW A (tbt A d) (max_noc_bandwidth A d) (t_psize (s_tr x)) (t_npkts (s_tr x))); try contradiction; cbn [bind]; [|split; [exact I|discriminate]].
    split; [exact I|]. intros s' [= <-]. apply (same_upd sts sts' i _ _ SB Hx').
  Qed.
  Lemma rates_safe st en sts live g c : (forall i, In i live -> exists x, nth_error sts i = Some x /\ state_fine x) ->
    safe (computeCurrentTransferRate A d st en sts live g c).
  Proof.
    intros HS. unfold computeCurrentTransferRate. destruct (update_safe sts live HS) as [S1 K1]. apply safe_bind; [exact S1|]. intros sts1 E1. specialize (K1 _ E1).
    destruct c; [|exact I]. assert (HS1 : forall i, In i live -> exists x, nth_error sts1 i = Some x /\ state_fine x).
    { intros i Hi. destruct (HS i Hi) as (x & Hx & FX). destruct (K1 i x Hx) as (b & Hb). exists (with_bw x b). split; [exact Hb|exact FX]. }
    unfold modelCongestion. destruct (demand_safe st en sts1 live HS1 _ zero_sized) as [S2 K2]. apply safe_bind; [exact S2|]. intros g2 E2.
    apply safe_bind; [apply derate_safe; auto|]. intros; exact I.
  Qed.
End Engine.
