(* Proofs about routing (Device.v): closed form of routes, paths, relocation, multicast coverage *)
From Coq Require Import ZArith Arith String List Bool Lia ZifyBool ZifyNat.
From Verif Require Import Base Arith Util Device SpecUtil SpecDevice UtilProofs DeviceProofs.
Import ListNotations.
Open Scope Z_scope.
Ltac Zify.zify_post_hook ::= idtac.

(** * Ring distances *)
Lemma ring_sub n x y : 0 <= x < n -> 0 <= y < n -> (y - x) mod n = if x <=? y then y - x else y - x + n.
Proof.
  intros Hx Hy. destruct (x <=? y) eqn:E.
  - apply Z.mod_small. lia.
  - rewrite <- (Z.mod_add (y - x) 1 n) by lia. rewrite Z.mod_small by lia. lia.
Qed.
Lemma ring_succ n x : 0 <= x < n -> (x + 1) mod n = if x =? n - 1 then 0 else x + 1.
Proof.
  intros Hx. destruct (x =? n - 1) eqn:E.
  - replace (x + 1) with n by lia. apply Z.mod_same. lia.
  - apply Z.mod_small. lia.
Qed.
Lemma ring_pred n x : 0 <= x < n -> (x - 1) mod n = if x =? 0 then n - 1 else x - 1.
Proof.
  intros Hx. destruct (x =? 0) eqn:E.
  - rewrite <- (Z.mod_add (x - 1) 1 n) by lia. rewrite Z.mod_small by lia. lia.
  - apply Z.mod_small. lia.
Qed.
Lemma ring_range n x : 0 < n -> 0 <= x mod n < n.
Proof. intros. apply Z.mod_pos_bound; auto. Qed.

Lemma mod_pred k n : 0 < n -> k mod n <> 0 -> (k - 1) mod n = k mod n - 1.
Proof.
  intros Hn Hk. pose proof (ring_range n k Hn).
  symmetry. apply (Z.mod_unique_pos (k - 1) n (k / n)); [lia|].
  pose proof (Z.div_mod k n ltac:(lia)). lia.
Qed.
Lemma ring_step_up n x y m : 0 < n -> Z.of_nat (S m) = (y - x) mod n ->
  Z.of_nat m = (y - (x + 1) mod n) mod n.
Proof.
  intros Hn H. rewrite Zminus_mod_idemp_r. replace (y - (x + 1)) with (y - x - 1) by lia.
  rewrite mod_pred by lia. lia.
Qed.
Lemma ring_step_down n x y m : 0 < n -> Z.of_nat (S m) = (x - y) mod n ->
  Z.of_nat m = ((x - 1) mod n - y) mod n.
Proof.
  intros Hn H. rewrite Zminus_mod_idemp_l. replace (x - 1 - y) with (x - y - 1) by lia.
  rewrite mod_pred by lia. lia.
Qed.

Fixpoint zdown (z : Z) (n : nat) : list Z :=
  match n with O => [] | S n' => z :: zdown (z - 1) n' end.
Lemma zdown_in z n x : In x (zdown z n) <-> z - Z.of_nat n < x <= z.
Proof. revert z. induction n as [|n IH]; intros z; cbn [zdown]; simpl; [lia|]. rewrite IH. lia. Qed.
Lemma zdown_length z n : List.length (zdown z n) = n.
Proof. revert z. induction n; simpl; auto. Qed.

Section Lists.
  Context {A : Type} (f : Z -> A) (n : Z) (Hn : 0 < n).
  Lemma map_zseq_mod k a b : a mod n = b mod n -> map (fun x => f (x mod n)) (zseq a k) = map (fun x => f (x mod n)) (zseq b k).
  Proof.
    revert a b. induction k as [|k IH]; intros a b H; cbn [zseq map]; auto. f_equal; [congruence|].
    apply IH. rewrite Z.add_mod, H, <- Z.add_mod by lia. reflexivity.
  Qed.
  Lemma map_zdown_mod k a b : a mod n = b mod n -> map (fun x => f (x mod n)) (zdown a k) = map (fun x => f (x mod n)) (zdown b k).
  Proof.
    revert a b. induction k as [|k IH]; intros a b H; cbn [zdown map]; auto. f_equal; [congruence|].
    apply IH. rewrite Zminus_mod, H, <- Zminus_mod. reflexivity.
  Qed.
End Lists.

(** * Closed form of a unicast route *)
Definition east_links (dev C row col : Z) (n : nat) : list link_attr :=
  map (fun x => mkLink (mkCoord dev row (x mod C)) NOC0_EAST) (zseq col n).
Definition south_links (dev R row col : Z) (n : nat) : list link_attr :=
  map (fun x => mkLink (mkCoord dev (x mod R) col) NOC0_SOUTH) (zseq row n).
Definition north_links (dev R row col : Z) (n : nat) : list link_attr :=
  map (fun x => mkLink (mkCoord dev (x mod R) col) NOC1_NORTH) (zdown row n).
Definition west_links (dev C row col : Z) (n : nat) : list link_attr :=
  map (fun x => mkLink (mkCoord dev row (x mod C)) NOC1_WEST) (zdown col n).
Definition uni_links (d : device) (dev : Z) (noc : noc_type) (row col erow ecol : Z) : list link_attr :=
  let R := Z.of_nat (dv_rows d) in
  let C := Z.of_nat (dv_cols d) in
  match noc with
  | NOC0 => east_links dev C row col (Z.to_nat ((ecol - col) mod C)) ++
            south_links dev R row ecol (Z.to_nat ((erow - row) mod R))
  | NOC1 => north_links dev R row col (Z.to_nat ((row - erow) mod R)) ++
            west_links dev C erow col (Z.to_nat ((col - ecol) mod C))
  end.

Section Loop.
  Context (d : device) (Hwf : wf_device d).
  Let R := Z.of_nat (dv_rows d).
  Let C := Z.of_nat (dv_cols d).
  Lemma RC_bounds : 0 < R < 2 ^ 15 /\ 0 < C < 2 ^ 15.
  Proof. destruct Hwf as (H1 & H2 & H3 & H4 & _). unfold R, C. nia. Qed.

  Lemma lookup0 row col t : 0 <= row < R -> 0 <= col < C ->
    getLinkID d (mkLink (Coord_make 0 row col) t) = Ok (link_idx d (mkLink (mkCoord 0 row col) t)).
  Proof.
    intros Hr Hc. pose proof RC_bounds as [B1 B2]. unfold Coord_make. rewrite !i16_id by lia.
    apply getLinkID_eq; auto. destruct Hwf as (H1 & _). unfold in_grid; simpl. fold R C. lia.
  Qed.

  Lemma east_loop n : forall fuel row col erow ecol, 0 <= row < R -> 0 <= col < C -> 0 <= ecol < C ->
    Z.of_nat n = (ecol - col) mod C ->
    unicast_loop (n + fuel) d NOC0 row col erow ecol =
    let! rest := unicast_loop fuel d NOC0 row ecol erow ecol in
    Ok (map (link_idx d) (east_links 0 C row col n) ++ rest).
  Proof.
    pose proof RC_bounds as [B1 B2].
    induction n as [|n IH]; intros fuel row col erow ecol Hr Hc He Hn.
    - rewrite ring_sub in Hn by lia. assert (col = ecol) by (destruct (col <=? ecol) eqn:?; lia). subst.
      simpl. destruct (unicast_loop fuel d NOC0 row ecol erow ecol); reflexivity.
    - pose proof (ring_sub C col ecol Hc He) as Hs.
      assert (Hne : col <> ecol) by (rewrite Hs in Hn; destruct (col <=? ecol) eqn:?; lia).
      cbn [Nat.add unicast_loop]. replace (negb (col =? ecol)) with true by lia.
      rewrite lookup0 by auto. cbn [bind].
      fold C. rewrite wrapToRange_eq by lia. cbn [bind].
      assert (Hc' : 0 <= (col + 1) mod C < C) by (apply ring_range; lia).
      rewrite i32_id by lia.
      rewrite (IH fuel row ((col + 1) mod C)); auto.
      + destruct (unicast_loop fuel d NOC0 row ecol erow ecol); cbn [bind]; try reflexivity.
        unfold east_links. cbn [zseq map]. rewrite (Z.mod_small col C) by lia.
        rewrite (map_zseq_mod (fun x => mkLink (mkCoord 0 row x) NOC0_EAST) C ltac:(lia) n ((col + 1) mod C) (col + 1)); auto.
        apply Z.mod_mod. lia.
      + apply ring_step_up; [lia|auto].
  Qed.
  Lemma south_loop n : forall row col erow fuel, 0 <= row < R -> 0 <= col < C -> 0 <= erow < R ->
    Z.of_nat n = (erow - row) mod R ->
    unicast_loop (n + S fuel) d NOC0 row col erow col = Ok (map (link_idx d) (south_links 0 R row col n)).
  Proof.
    pose proof RC_bounds as [B1 B2].
    induction n as [|n IH]; intros row col erow fuel Hr Hc He Hn.
    - rewrite ring_sub in Hn by lia. assert (row = erow) by (destruct (row <=? erow) eqn:?; lia). subst.
      cbn [Nat.add unicast_loop]. rewrite !Z.eqb_refl. reflexivity.
    - pose proof (ring_sub R row erow Hr He) as Hs.
      assert (Hne : row <> erow) by (rewrite Hs in Hn; destruct (row <=? erow) eqn:?; lia).
      cbn [Nat.add unicast_loop]. rewrite Z.eqb_refl. cbn [negb].
      replace (negb (row =? erow)) with true by lia.
      rewrite lookup0 by auto. cbn [bind].
      fold R. rewrite wrapToRange_eq by lia. cbn [bind].
      assert (Hc' : 0 <= (row + 1) mod R < R) by (apply ring_range; lia).
      rewrite i32_id by lia.
      rewrite (IH ((row + 1) mod R)); auto.
      + cbn [bind]. unfold south_links. cbn [zseq map]. rewrite (Z.mod_small row R) by lia.
        rewrite (map_zseq_mod (fun x => mkLink (mkCoord 0 x col) NOC0_SOUTH) R ltac:(lia) n ((row + 1) mod R) (row + 1)); auto.
        apply Z.mod_mod. lia.
      + apply ring_step_up; [lia|auto].
  Qed.
  Lemma north_loop n : forall fuel row col erow ecol, 0 <= row < R -> 0 <= col < C -> 0 <= erow < R ->
    Z.of_nat n = (row - erow) mod R ->
    unicast_loop (n + fuel) d NOC1 row col erow ecol =
    let! rest := unicast_loop fuel d NOC1 erow col erow ecol in
    Ok (map (link_idx d) (north_links 0 R row col n) ++ rest).
  Proof.
    pose proof RC_bounds as [B1 B2].
    induction n as [|n IH]; intros fuel row col erow ecol Hr Hc He Hn.
    - rewrite ring_sub in Hn by lia. assert (row = erow) by (destruct (erow <=? row) eqn:?; lia). subst.
      simpl. destruct (unicast_loop fuel d NOC1 erow col erow ecol); reflexivity.
    - pose proof (ring_sub R erow row He Hr) as Hs.
      assert (Hne : row <> erow) by (rewrite Hs in Hn; destruct (erow <=? row) eqn:?; lia).
      cbn [Nat.add unicast_loop]. replace (negb (row =? erow)) with true by lia.
      rewrite lookup0 by auto. cbn [bind].
      fold R. rewrite wrapToRange_eq by lia. cbn [bind].
      assert (Hc' : 0 <= (row - 1) mod R < R) by (apply ring_range; lia).
      rewrite i32_id by lia.
      rewrite (IH fuel ((row - 1) mod R)); auto.
      + destruct (unicast_loop fuel d NOC1 erow col erow ecol); cbn [bind]; try reflexivity.
        unfold north_links. cbn [zdown map]. rewrite (Z.mod_small row R) by lia.
        rewrite (map_zdown_mod (fun x => mkLink (mkCoord 0 x col) NOC1_NORTH) R n ((row - 1) mod R) (row - 1)); auto.
        apply Z.mod_mod. lia.
      + apply ring_step_down; [lia|auto].
  Qed.
  Lemma west_loop n : forall row col ecol fuel, 0 <= row < R -> 0 <= col < C -> 0 <= ecol < C ->
    Z.of_nat n = (col - ecol) mod C ->
    unicast_loop (n + S fuel) d NOC1 row col row ecol = Ok (map (link_idx d) (west_links 0 C row col n)).
  Proof.
    pose proof RC_bounds as [B1 B2].
    induction n as [|n IH]; intros row col ecol fuel Hr Hc He Hn.
    - rewrite ring_sub in Hn by lia. assert (col = ecol) by (destruct (ecol <=? col) eqn:?; lia). subst.
      cbn [Nat.add unicast_loop]. rewrite !Z.eqb_refl. reflexivity.
    - pose proof (ring_sub C ecol col He Hc) as Hs.
      assert (Hne : col <> ecol) by (rewrite Hs in Hn; destruct (ecol <=? col) eqn:?; lia).
      cbn [Nat.add unicast_loop]. rewrite Z.eqb_refl. cbn [negb].
      replace (negb (col =? ecol)) with true by lia.
      rewrite lookup0 by auto. cbn [bind].
      fold C. rewrite wrapToRange_eq by lia. cbn [bind].
      assert (Hc' : 0 <= (col - 1) mod C < C) by (apply ring_range; lia).
      rewrite i32_id by lia.
      rewrite (IH row ((col - 1) mod C)); auto.
      + cbn [bind]. unfold west_links. cbn [zdown map]. rewrite (Z.mod_small col C) by lia.
        rewrite (map_zdown_mod (fun x => mkLink (mkCoord 0 row x) NOC1_WEST) C n ((col - 1) mod C) (col - 1)); auto.
        apply Z.mod_mod. lia.
      + apply ring_step_down; [lia|auto].
  Qed.

  Lemma unicast_loop_eq noc row col erow ecol extra :
    0 <= row < R -> 0 <= col < C -> 0 <= erow < R -> 0 <= ecol < C ->
    unicast_loop (dv_rows d + dv_cols d + extra) d noc row col erow ecol =
    Ok (map (link_idx d) (uni_links d 0 noc row col erow ecol)).
  Proof.
    intros Hr Hc Her Hec. pose proof RC_bounds as [B1 B2].
    unfold uni_links. fold R C. destruct noc.
    - pose proof (ring_range C (ecol - col) ltac:(lia)). pose proof (ring_range R (erow - row) ltac:(lia)).
      set (n := Z.to_nat ((ecol - col) mod C)). set (m := Z.to_nat ((erow - row) mod R)).
      assert (Hf : exists f, (dv_rows d + dv_cols d + extra = n + (m + S f))%nat).
      { exists (dv_rows d + dv_cols d + extra - n - m - 1)%nat. unfold n, m. unfold R, C in *. lia. }
      destruct Hf as [f ->].
      rewrite east_loop by (auto; unfold n; lia). rewrite south_loop by (auto; unfold m; lia).
      cbn [bind]. rewrite map_app. reflexivity.
    - pose proof (ring_range C (col - ecol) ltac:(lia)). pose proof (ring_range R (row - erow) ltac:(lia)).
      set (n := Z.to_nat ((col - ecol) mod C)). set (m := Z.to_nat ((row - erow) mod R)).
      assert (Hf : exists f, (dv_rows d + dv_cols d + extra = m + (n + S f))%nat).
      { exists (dv_rows d + dv_cols d + extra - n - m - 1)%nat. unfold n, m. unfold R, C in *. lia. }
      destruct Hf as [f ->].
      rewrite north_loop by (auto; unfold m; lia). rewrite west_loop by (auto; unfold n; lia).
      cbn [bind]. rewrite map_app. reflexivity.
  Qed.

  (* a destination outside the grid is never reached *)
  Lemma unicast_loop_diverges noc erow ecol :
    ~ (0 <= erow < R /\ 0 <= ecol < C) ->
    forall fuel row col, 0 <= row < R -> 0 <= col < C ->
    unicast_loop fuel d noc row col erow ecol = Diverge.
  Proof.
    intros Hbad. pose proof RC_bounds as [B1 B2].
    induction fuel as [|fuel IH]; intros row col Hr Hc; [reflexivity|].
    pose proof (ring_range C (col + 1) ltac:(lia)). pose proof (ring_range C (col - 1) ltac:(lia)).
    pose proof (ring_range R (row + 1) ltac:(lia)). pose proof (ring_range R (row - 1) ltac:(lia)).
    assert (W1 : forall x, wrapToRange x C = Ok (x mod C)) by (intros; apply wrapToRange_eq; clear - B2; lia).
    assert (W2 : forall x, wrapToRange x R = Ok (x mod R)) by (intros; apply wrapToRange_eq; clear - B1; lia).
    cbn [unicast_loop]. fold R C. rewrite !W1, !W2. rewrite !lookup0 by auto. cbn [bind].
    rewrite !i32_id by (clear Hbad; lia).
    destruct (col =? ecol) eqn:E1, (row =? erow) eqn:E2; cbn [negb]; destruct noc;
      try (rewrite IH by auto; reflexivity); exfalso; apply Hbad; lia.
  Qed.
End Loop.

Lemma chip_device_wf d : wf_device d -> wf_device (chip_device d).
Proof.
  intros (H1 & H2 & H3 & H4 & H5). unfold wf_device, chip_device; cbn [dv_class dv_rows dv_cols dv_chips].
  split; [lia|split; [auto|split; [auto|split; [|reflexivity]]]].
  eapply Z.le_trans; [|exact H4]. change (Z.of_nat 1) with 1.
  assert (0 <= Z.of_nat (dv_rows d) * Z.of_nat (dv_cols d)) by (apply Z.mul_nonneg_nonneg; lia). nia.
Qed.
Lemma chip_device_single d : dv_class d <> ClsMultichip -> wf_device d -> chip_device d = d.
Proof.
  intros Hc (_ & _ & _ & _ & H). specialize (H Hc). destruct d as [[] r c n b]; simpl in *; subst; auto; congruence.
Qed.

Lemma uni_links_chip d dev noc row col erow ecol :
  uni_links (chip_device d) dev noc row col erow ecol = uni_links d dev noc row col erow ecol.
Proof. reflexivity. Qed.

Definition set_dev (dev : Z) (a : link_attr) : link_attr :=
  mkLink (mkCoord dev (c_row (l_coord a)) (c_col (l_coord a))) (l_type a).
Lemma set_dev_uni d dev noc row col erow ecol :
  map (set_dev dev) (uni_links d 0 noc row col erow ecol) = uni_links d dev noc row col erow ecol.
Proof.
  unfold uni_links, east_links, south_links, north_links, west_links.
  destruct noc; rewrite map_app, !map_map; reflexivity.
Qed.
Lemma link_idx_chip d a : c_dev (l_coord a) = 0 -> link_idx (chip_device d) a = link_idx d a.
Proof. intros H. unfold link_idx, pos_idx. rewrite H. reflexivity. Qed.

Lemma uni_links_in_grid d dev noc row col erow ecol : wf_device d ->
  0 <= dev < Z.of_nat (dv_chips d) ->
  0 <= row < Z.of_nat (dv_rows d) -> 0 <= col < Z.of_nat (dv_cols d) ->
  0 <= erow < Z.of_nat (dv_rows d) -> 0 <= ecol < Z.of_nat (dv_cols d) ->
  Forall (fun a => in_grid d (l_coord a) /\ c_dev (l_coord a) = dev) (uni_links d dev noc row col erow ecol).
Proof.
  intros Hwf Hd Hr Hc Her Hec. apply Forall_forall. intros a Ha.
  unfold uni_links, east_links, south_links, north_links, west_links in Ha.
  pose proof (RC_bounds d Hwf) as [B1 B2].
  destruct noc; rewrite in_app_iff, !in_map_iff in Ha; destruct Ha as [[x [<- _]]|[x [<- _]]];
    unfold in_grid; cbn [l_coord c_dev c_row c_col];
    (split; [|reflexivity]); split; [lia|split| lia|split| lia|split| lia|split]; auto;
    apply Z.mod_pos_bound; lia.
Qed.

Lemma mapM_ok {A B} (f : A -> outcome B) (g : A -> B) l :
  Forall (fun a => f a = Ok (g a)) l -> mapM f l = Ok (map g l).
Proof. induction 1; simpl; auto. rewrite H. simpl. rewrite IHForall. reflexivity. Qed.

Lemma changeRoute_eq d dev ls : wf_device d -> 0 <= dev < Z.of_nat (dv_chips d) ->
  Forall (fun a => in_grid (chip_device d) (l_coord a)) ls ->
  changeRouteDeviceID d (map (link_idx (chip_device d)) ls) dev = Ok (map (link_idx d) (map (set_dev dev) ls)).
Proof.
  intros Hwf Hd Hls. unfold changeRouteDeviceID.
  induction Hls as [|a ls Ha Hls IH]; [reflexivity|].
  cbn [map mapM]. rewrite IH.
  assert (H0 : c_dev (l_coord a) = 0) by (destruct Ha as (Ha & _); simpl in Ha; lia).
  assert (Hg : in_grid d (l_coord a)).
  { destruct Ha as (_ & Hr & Hc). simpl in Hr, Hc. destruct Hwf as (H1 & _). unfold in_grid. lia. }
  rewrite link_idx_chip by auto. rewrite getLinkAttributes_eq by (auto; apply wf_small; auto).
  cbn [bind].
  assert (Hg' : in_grid d (mkCoord dev (c_row (l_coord a)) (c_col (l_coord a)))).
  { destruct Hg as (_ & Hr & Hc). unfold in_grid; simpl. auto. }
  pose proof (wf_small d Hwf) as (S1 & S2 & S3). destruct Hg as (_ & Hr & Hc).
  unfold Coord_make. rewrite !i16_id by lia.
  rewrite getLinkID_eq by auto. reflexivity.
Qed.

Definition same_chip (s e : coord) : Prop := c_dev s = c_dev e.

Theorem route_unicast_eq d noc s e : wf_device d -> in_grid d s -> in_grid d e -> same_chip s e ->
  route d noc s (Unicast e) =
  Ok (map (link_idx d) (uni_links d (c_dev s) noc (c_row s) (c_col s) (c_row e) (c_col e))).
Proof.
  intros Hwf Hs He Hse. unfold route, route_f, route_fuel.
  destruct Hs as (Hs1 & Hs2 & Hs3). destruct He as (He1 & He2 & He3).
  assert (U : forall d', d' = chip_device d ->
    chip_route (dv_rows d + dv_cols d) d' noc s (Unicast e) =
    Ok (map (link_idx d') (uni_links d' 0 noc (c_row s) (c_col s) (c_row e) (c_col e)))).
  { intros d' ->. unfold chip_route, unicastRoute.
    change (dv_rows d) with (dv_rows (chip_device d)). change (dv_cols d) with (dv_cols (chip_device d)).
    rewrite <- (Nat.add_0_r (dv_rows (chip_device d) + dv_cols (chip_device d))).
    apply unicast_loop_eq; auto. apply chip_device_wf; auto. }
  destruct (dv_class d) eqn:Ec.
  - assert (E : d = chip_device d) by (symmetry; apply chip_device_single; auto; congruence).
    rewrite (U d E). destruct Hwf as (_ & _ & _ & _ & H1). rewrite H1 in Hs1 by congruence.
    replace (c_dev s) with 0 by lia. reflexivity.
  - cbn [dest_device_ids List.length Nat.eqb tt_assert bind].
    unfold same_chip in Hse. rewrite <- Hse, Z.eqb_refl. cbn [tt_assert bind].
    rewrite (U _ eq_refl). cbn [bind].
    rewrite changeRoute_eq; auto.
    + rewrite uni_links_chip, set_dev_uni. reflexivity.
    + eapply Forall_impl; [|apply uni_links_in_grid]; try (simpl; auto; lia).
      * simpl. tauto.
      * apply chip_device_wf; auto.
  - assert (E : d = chip_device d) by (symmetry; apply chip_device_single; auto; congruence).
    rewrite (U d E). destruct Hwf as (_ & _ & _ & _ & H1). rewrite H1 in Hs1 by congruence.
    replace (c_dev s) with 0 by lia. reflexivity.
Qed.

(** * Paths *)
Lemma path_app d a ls1 b ls2 c : path d a ls1 b -> path d b ls2 c -> path d a (ls1 ++ ls2) c.
Proof. induction 1; simpl; auto. intros. econstructor; eauto. Qed.

Lemma east_path d dev row n : wf_device d -> 0 <= dev < Z.of_nat (dv_chips d) ->
  0 <= row < Z.of_nat (dv_rows d) -> forall col, 
  path d (mkCoord dev row (col mod Z.of_nat (dv_cols d)))
    (east_links dev (Z.of_nat (dv_cols d)) row col n)
    (mkCoord dev row ((col + Z.of_nat n) mod Z.of_nat (dv_cols d))).
Proof.
  intros Hwf Hd Hr. pose proof (RC_bounds d Hwf) as [B1 B2]. set (C := Z.of_nat (dv_cols d)) in *.
  induction n as [|n IH]; intros col.
  - rewrite Z.add_0_r. constructor. pose proof (ring_range C col ltac:(lia)). unfold in_grid; simpl. fold C. lia.
  - unfold east_links. cbn [zseq map].
    pose proof (ring_range C col ltac:(lia)). pose proof (ring_range C (col + 1) ltac:(lia)).
    apply path_cons with (b := mkCoord dev row ((col + 1) mod C)).
    + unfold hop, in_grid, succ_ring; cbn [l_coord l_type c_dev c_row c_col]. fold C.
      assert (E : (col + 1) mod C = if col mod C =? C - 1 then 0 else col mod C + 1).
      { rewrite <- ring_succ by auto. rewrite Z.add_mod_idemp_l by lia. reflexivity. }
      split; [reflexivity|]. destruct (col mod C =? C - 1) eqn:?; lia.
    + replace (col + Z.of_nat (S n)) with (col + 1 + Z.of_nat n) by lia. apply IH.
Qed.
Lemma south_path d dev col n : wf_device d -> 0 <= dev < Z.of_nat (dv_chips d) ->
  0 <= col < Z.of_nat (dv_cols d) -> forall row,
  path d (mkCoord dev (row mod Z.of_nat (dv_rows d)) col)
    (south_links dev (Z.of_nat (dv_rows d)) row col n)
    (mkCoord dev ((row + Z.of_nat n) mod Z.of_nat (dv_rows d)) col).
Proof.
  intros Hwf Hd Hr. pose proof (RC_bounds d Hwf) as [B1 B2]. set (R := Z.of_nat (dv_rows d)) in *.
  induction n as [|n IH]; intros row.
  - rewrite Z.add_0_r. constructor. pose proof (ring_range R row ltac:(lia)). unfold in_grid; simpl. fold R. lia.
  - unfold south_links. cbn [zseq map].
    pose proof (ring_range R row ltac:(lia)). pose proof (ring_range R (row + 1) ltac:(lia)).
    apply path_cons with (b := mkCoord dev ((row + 1) mod R) col).
    + unfold hop, in_grid, succ_ring; cbn [l_coord l_type c_dev c_row c_col]. fold R.
      assert (E : (row + 1) mod R = if row mod R =? R - 1 then 0 else row mod R + 1).
      { rewrite <- ring_succ by auto. rewrite Z.add_mod_idemp_l by lia. reflexivity. }
      split; [reflexivity|]. destruct (row mod R =? R - 1) eqn:?; lia.
    + replace (row + Z.of_nat (S n)) with (row + 1 + Z.of_nat n) by lia. apply IH.
Qed.
Lemma north_path d dev col n : wf_device d -> 0 <= dev < Z.of_nat (dv_chips d) ->
  0 <= col < Z.of_nat (dv_cols d) -> forall row,
  path d (mkCoord dev (row mod Z.of_nat (dv_rows d)) col)
    (north_links dev (Z.of_nat (dv_rows d)) row col n)
    (mkCoord dev ((row - Z.of_nat n) mod Z.of_nat (dv_rows d)) col).
Proof.
  intros Hwf Hd Hr. pose proof (RC_bounds d Hwf) as [B1 B2]. set (R := Z.of_nat (dv_rows d)) in *.
  induction n as [|n IH]; intros row.
  - rewrite Z.sub_0_r. constructor. pose proof (ring_range R row ltac:(lia)). unfold in_grid; simpl. fold R. lia.
  - unfold north_links. cbn [zdown map].
    pose proof (ring_range R row ltac:(lia)). pose proof (ring_range R (row - 1) ltac:(lia)).
    apply path_cons with (b := mkCoord dev ((row - 1) mod R) col).
    + unfold hop, in_grid, succ_ring; cbn [l_coord l_type c_dev c_row c_col]. fold R.
      assert (E : (row - 1) mod R = if row mod R =? 0 then R - 1 else row mod R - 1).
      { rewrite <- ring_pred by auto. rewrite Zminus_mod_idemp_l. reflexivity. }
      split; [reflexivity|]. destruct (row mod R =? 0) eqn:?; lia.
    + replace (row - Z.of_nat (S n)) with (row - 1 - Z.of_nat n) by lia. apply IH.
Qed.
Lemma west_path d dev row n : wf_device d -> 0 <= dev < Z.of_nat (dv_chips d) ->
  0 <= row < Z.of_nat (dv_rows d) -> forall col,
  path d (mkCoord dev row (col mod Z.of_nat (dv_cols d)))
    (west_links dev (Z.of_nat (dv_cols d)) row col n)
    (mkCoord dev row ((col - Z.of_nat n) mod Z.of_nat (dv_cols d))).
Proof.
  intros Hwf Hd Hr. pose proof (RC_bounds d Hwf) as [B1 B2]. set (C := Z.of_nat (dv_cols d)) in *.
  induction n as [|n IH]; intros col.
  - rewrite Z.sub_0_r. constructor. pose proof (ring_range C col ltac:(lia)). unfold in_grid; simpl. fold C. lia.
  - unfold west_links. cbn [zdown map].
    pose proof (ring_range C col ltac:(lia)). pose proof (ring_range C (col - 1) ltac:(lia)).
    apply path_cons with (b := mkCoord dev row ((col - 1) mod C)).
    + unfold hop, in_grid, succ_ring; cbn [l_coord l_type c_dev c_row c_col]. fold C.
      assert (E : (col - 1) mod C = if col mod C =? 0 then C - 1 else col mod C - 1).
      { rewrite <- ring_pred by auto. rewrite Zminus_mod_idemp_l. reflexivity. }
      split; [reflexivity|]. destruct (col mod C =? 0) eqn:?; lia.
    + replace (col - Z.of_nat (S n)) with (col - 1 - Z.of_nat n) by lia. apply IH.
Qed.

Lemma uni_links_path d noc s e : wf_device d -> in_grid d s -> in_grid d e -> same_chip s e ->
  path d s (uni_links d (c_dev s) noc (c_row s) (c_col s) (c_row e) (c_col e)) e.
Proof.
  intros Hwf (S1 & S2 & S3) (E1 & E2 & E3) H. pose proof (RC_bounds d Hwf) as [B1 B2].
  unfold uni_links. set (R := Z.of_nat (dv_rows d)) in *. set (C := Z.of_nat (dv_cols d)) in *.
  assert (Hs : s = mkCoord (c_dev s) (c_row s) (c_col s)) by (destruct s; reflexivity).
  assert (He : e = mkCoord (c_dev s) (c_row e) (c_col e)) by (rewrite H; destruct e; reflexivity).
  pose proof (ring_range C (c_col e - c_col s) ltac:(lia)). pose proof (ring_range R (c_row e - c_row s) ltac:(lia)).
  pose proof (ring_range C (c_col s - c_col e) ltac:(lia)). pose proof (ring_range R (c_row s - c_row e) ltac:(lia)).
  destruct noc.
  - apply path_app with (b := mkCoord (c_dev s) (c_row s) (c_col e)).
    + pose proof (east_path d (c_dev s) (c_row s) (Z.to_nat ((c_col e - c_col s) mod C)) Hwf S1 S2 (c_col s)) as P.
      fold C in P. rewrite Z2Nat.id in P by lia. rewrite Z.add_mod_idemp_r in P by lia.
      replace (c_col s + (c_col e - c_col s)) with (c_col e) in P by lia.
      rewrite (Z.mod_small (c_col s)), (Z.mod_small (c_col e)) in P by lia. rewrite <- Hs in P. exact P.
    + pose proof (south_path d (c_dev s) (c_col e) (Z.to_nat ((c_row e - c_row s) mod R)) Hwf S1 E3 (c_row s)) as P.
      fold R in P. rewrite Z2Nat.id in P by lia. rewrite Z.add_mod_idemp_r in P by lia.
      replace (c_row s + (c_row e - c_row s)) with (c_row e) in P by lia.
      rewrite (Z.mod_small (c_row s)), (Z.mod_small (c_row e)) in P by lia. rewrite <- He in P. exact P.
  - apply path_app with (b := mkCoord (c_dev s) (c_row e) (c_col s)).
    + pose proof (north_path d (c_dev s) (c_col s) (Z.to_nat ((c_row s - c_row e) mod R)) Hwf S1 S3 (c_row s)) as P.
      fold R in P. rewrite Z2Nat.id in P by lia. rewrite Zminus_mod_idemp_r in P.
      replace (c_row s - (c_row s - c_row e)) with (c_row e) in P by lia.
      rewrite (Z.mod_small (c_row s)), (Z.mod_small (c_row e)) in P by lia. rewrite <- Hs in P. exact P.
    + pose proof (west_path d (c_dev s) (c_row e) (Z.to_nat ((c_col s - c_col e) mod C)) Hwf S1 E2 (c_col s)) as P.
      fold C in P. rewrite Z2Nat.id in P by lia. rewrite Zminus_mod_idemp_r in P.
      replace (c_col s - (c_col s - c_col e)) with (c_col e) in P by lia.
      rewrite (Z.mod_small (c_col s)), (Z.mod_small (c_col e)) in P by lia. rewrite <- He in P. exact P.
Qed.

(** * Shape of routes *)
Lemma map_const_repeat {A B} (f : A -> B) b l : (forall a, f a = b) -> map f l = repeat b (List.length l).
Proof. intros H. induction l; simpl; auto. rewrite H, IHl. auto. Qed.
Lemma uni_links_ordered d dev noc row col erow ecol :
  dimension_ordered noc (uni_links d dev noc row col erow ecol).
Proof.
  unfold dimension_ordered, uni_links, east_links, south_links, north_links, west_links.
  destruct noc; do 2 eexists; rewrite map_app, !map_map; f_equal; apply map_const_repeat; reflexivity.
Qed.
Lemma uni_links_length d dev noc row col erow ecol : wf_device d ->
  Z.of_nat (List.length (uni_links d dev noc row col erow ecol)) =
  match noc with
  | NOC0 => (ecol - col) mod Z.of_nat (dv_cols d) + (erow - row) mod Z.of_nat (dv_rows d)
  | NOC1 => (col - ecol) mod Z.of_nat (dv_cols d) + (row - erow) mod Z.of_nat (dv_rows d)
  end.
Proof.
  intros Hwf. pose proof (RC_bounds d Hwf) as [B1 B2].
  unfold uni_links, east_links, south_links, north_links, west_links.
  destruct noc; rewrite app_length, !map_length, ?zseq_length, ?zdown_length, Nat2Z.inj_add, !Z2Nat.id;
    try (apply ring_range; lia); lia.
Qed.

Lemma NoDup_map_in {A B} (f : A -> B) l :
  (forall x y, In x l -> In y l -> f x = f y -> x = y) -> NoDup l -> NoDup (map f l).
Proof.
  intros Hf Hl. induction Hl as [|x l Hx Hl IH]; simpl; constructor.
  - rewrite in_map_iff. intros [y [E Hy]]. apply Hx. rewrite (Hf x y); simpl; auto.
  - apply IH. intros; apply Hf; simpl; auto.
Qed.
Lemma zseq_NoDup z n : NoDup (zseq z n).
Proof.
  revert z. induction n as [|n IH]; intros z; cbn [zseq]; constructor; auto. rewrite zseq_in. lia.
Qed.
Lemma zdown_NoDup z n : NoDup (zdown z n).
Proof.
  revert z. induction n as [|n IH]; intros z; cbn [zdown]; constructor; auto. rewrite zdown_in. lia.
Qed.
Lemma mod_window n x y : 0 < n -> x mod n = y mod n -> Z.abs (x - y) < n -> x = y.
Proof.
  intros Hn E H. pose proof (Z.div_mod x n ltac:(lia)). pose proof (Z.div_mod y n ltac:(lia)).
  assert (x / n = y / n) by nia. nia.
Qed.
Lemma NoDup_app_disj {A} (l1 l2 : list A) :
  NoDup l1 -> NoDup l2 -> (forall x, In x l1 -> In x l2 -> False) -> NoDup (l1 ++ l2).
Proof.
  induction l1 as [|a l1 IH]; simpl; intros H1 H2 H; auto. inversion H1; subst. constructor.
  - rewrite in_app_iff. intros [|]; eauto.
  - apply IH; eauto.
Qed.
Lemma uni_links_NoDup d dev noc row col erow ecol : wf_device d -> NoDup (uni_links d dev noc row col erow ecol).
Proof.
  intros Hwf. pose proof (RC_bounds d Hwf) as [B1 B2].
  set (R := Z.of_nat (dv_rows d)) in *. set (C := Z.of_nat (dv_cols d)) in *.
  unfold uni_links, east_links, south_links, north_links, west_links. fold R C.
  pose proof (ring_range C (ecol - col) ltac:(lia)). pose proof (ring_range R (erow - row) ltac:(lia)).
  pose proof (ring_range C (col - ecol) ltac:(lia)). pose proof (ring_range R (row - erow) ltac:(lia)).
  destruct noc; apply NoDup_app_disj.
  - apply NoDup_map_in; [|apply zseq_NoDup]. intros x y Hx Hy [= E]. apply zseq_in in Hx. apply zseq_in in Hy.
    apply (mod_window C); lia.
  - apply NoDup_map_in; [|apply zseq_NoDup]. intros x y Hx Hy [= E]. apply zseq_in in Hx. apply zseq_in in Hy.
    apply (mod_window R); lia.
  - intros a. rewrite !in_map_iff. intros [x [<- _]] [y [[=] _]].
  - apply NoDup_map_in; [|apply zdown_NoDup]. intros x y Hx Hy [= E]. apply zdown_in in Hx. apply zdown_in in Hy.
    apply (mod_window R); lia.
  - apply NoDup_map_in; [|apply zdown_NoDup]. intros x y Hx Hy [= E]. apply zdown_in in Hx. apply zdown_in in Hy.
    apply (mod_window C); lia.
  - intros a. rewrite !in_map_iff. intros [x [<- _]] [y [[=] _]].
Qed.

Lemma reads_as_idx d ls : wf_device d -> Forall (fun a => in_grid d (l_coord a)) ls ->
  reads_as d (map (link_idx d) ls) ls.
Proof.
  intros Hwf. induction 1; simpl; constructor; auto.
  apply getLinkAttributes_eq; auto. apply wf_small; auto.
Qed.

Lemma uni_links_grid d noc s e : wf_device d -> in_grid d s -> in_grid d e -> 
  Forall (fun a => in_grid d (l_coord a) /\ c_dev (l_coord a) = c_dev s)
    (uni_links d (c_dev s) noc (c_row s) (c_col s) (c_row e) (c_col e)).
Proof. intros Hwf (S1 & S2 & S3) (E1 & E2 & E3). apply uni_links_in_grid; auto. Qed.

Theorem route_unicast_spec d noc s e :
  wf_device d -> in_grid d s -> in_grid d e -> c_dev s = c_dev e ->
  exists ids ls, route d noc s (Unicast e) = Ok ids /\ reads_as d ids ls /\
    path d s ls e /\ dimension_ordered noc ls /\ NoDup ids /\ (ids = [] <-> s = e).
Proof.
  intros Hwf Hs He Hse.
  pose proof (route_unicast_eq d noc s e Hwf Hs He Hse) as Hr.
  pose proof (uni_links_grid d noc s e Hwf Hs He) as Hg.
  do 2 eexists. split; [exact Hr|]. split.
  { apply reads_as_idx; auto. eapply Forall_impl; [|exact Hg]. simpl; tauto. }
  split; [apply uni_links_path; auto|]. split; [apply uni_links_ordered|]. split.
  - apply NoDup_map_in; [|apply uni_links_NoDup; auto].
    rewrite Forall_forall in Hg. intros x y Hx Hy. apply link_idx_inj.
    + apply wf_small; auto.
    + apply Hg; auto.
    + apply Hg; auto.
  - pose proof (uni_links_length d (c_dev s) noc (c_row s) (c_col s) (c_row e) (c_col e) Hwf) as L.
    pose proof (RC_bounds d Hwf) as [B1 B2].
    destruct Hs as (S1 & S2 & S3). destruct He as (E1 & E2 & E3).
    rewrite !ring_sub in L by lia.
    destruct s as [sd sr sc], e as [ed er ec]; cbn [c_dev c_row c_col] in *.
    split.
    + intros Hn. apply map_eq_nil in Hn. rewrite Hn in L. simpl List.length in L.
      destruct noc, (sc <=? ec) eqn:?, (ec <=? sc) eqn:?, (sr <=? er) eqn:?, (er <=? sr) eqn:?; f_equal; lia.
    + intros [= <- <- <-]. rewrite !Z.leb_refl, !Z.sub_diag in L.
      destruct (uni_links _ _ _ _ _ _ _); [reflexivity|]. destruct noc; simpl in L; lia.
Qed.

(** * C03: relocation *)
Theorem route_multichip_relocates n banks noc s e :
  let d := mkDevice ClsMultichip (dv_rows wormhole_b0) (dv_cols wormhole_b0) n banks in
  let chip := mkDevice ClsWormhole (dv_rows wormhole_b0) (dv_cols wormhole_b0) 1 banks in
  wf_device d -> in_grid d s -> in_grid d e -> c_dev s = c_dev e ->
  exists ids ids0 ls ls0,
    route d noc s (Unicast e) = Ok ids /\ reads_as d ids ls /\
    route chip noc (mkCoord 0 (c_row s) (c_col s)) (Unicast (mkCoord 0 (c_row e) (c_col e))) = Ok ids0 /\
    reads_as chip ids0 ls0 /\
    ls = map (fun l => mkLink (mkCoord (c_dev s) (c_row (l_coord l)) (c_col (l_coord l))) (l_type l)) ls0.
Proof.
  intros d chip Hwf Hs He Hse.
  assert (Hwc : wf_device chip) by (apply (chip_device_wf d Hwf)).
  set (s0 := mkCoord 0 (c_row s) (c_col s)). set (e0 := mkCoord 0 (c_row e) (c_col e)).
  assert (Hs0 : in_grid chip s0) by (destruct Hs as (S1 & S2 & S3); unfold in_grid, s0; simpl in *; lia).
  assert (He0 : in_grid chip e0) by (destruct He as (S1 & S2 & S3); unfold in_grid, e0; simpl in *; lia).
  exists (map (link_idx d) (uni_links d (c_dev s) noc (c_row s) (c_col s) (c_row e) (c_col e))),
    (map (link_idx chip) (uni_links chip 0 noc (c_row s) (c_col s) (c_row e) (c_col e))),
    (uni_links d (c_dev s) noc (c_row s) (c_col s) (c_row e) (c_col e)),
    (uni_links chip 0 noc (c_row s) (c_col s) (c_row e) (c_col e)).
  split; [apply route_unicast_eq; auto|]. split.
  { apply reads_as_idx; auto. eapply Forall_impl; [|apply uni_links_grid; auto]. simpl; tauto. }
  split; [apply (route_unicast_eq chip noc s0 e0); auto; reflexivity|]. split.
  { apply reads_as_idx; auto. eapply Forall_impl; [|apply (uni_links_grid chip noc s0 e0); auto]. simpl; tauto. }
  symmetry. apply (set_dev_uni chip (c_dev s)).
Qed.
Theorem route_other_chip_rejected d noc s dst : dv_class d = ClsMultichip ->
  dest_device_ids dst <> [c_dev s] -> route d noc s dst = Throw UNDEF_ERR.
Proof.
  intros Hc Hd. unfold route, route_f. rewrite Hc.
  destruct (dest_device_ids dst) as [|i [|j l]]; simpl; auto.
  destruct (i =? c_dev s) eqn:E; simpl; auto. exfalso. apply Hd. f_equal. lia.
Qed.

(** * C06 *)
Theorem write_latency_is_route_length d noc s e ids : wf_device d ->
  in_grid d s -> in_grid d e -> c_dev s = c_dev e ->
  route d noc s (Unicast e) = Ok ids ->
  write_latency d (c_col s) (c_row s) (c_col e) (c_row e) (noc_name noc) =
  Ok (40 + cycles_per_hop (dv_arch d) * Z.of_nat (List.length ids)).
Proof.
  intros Hwf Hs He Hse Hr. rewrite route_unicast_eq in Hr by auto. injection Hr as <-.
  rewrite map_length, uni_links_length by auto. pose proof (RC_bounds d Hwf) as [B1 B2].
  unfold write_latency, route_hops. destruct noc.
  - change (String.eqb (noc_name NOC0) "NOC_0") with true. cbv iota.
    rewrite !modulo_eq by lia; cbn [bind]; destruct (dv_arch d); cbn [cycles_per_hop]; apply f_equal; ring.
  - change (String.eqb (noc_name NOC1) "NOC_0") with false.
    change (String.eqb (noc_name NOC1) "NOC_1") with true. cbv iota.
    rewrite !modulo_eq by lia; cbn [bind]; destruct (dv_arch d); cbn [cycles_per_hop]; apply f_equal; ring.
Qed.
Theorem read_latency_table_eq a sx sy dx dy :
  read_latency a sx sy dx dy = read_latency_table a (sx =? dx) (sy =? dy).
Proof. unfold read_latency, read_latency_table. destruct a, (sx =? dx), (sy =? dy); reflexivity. Qed.
