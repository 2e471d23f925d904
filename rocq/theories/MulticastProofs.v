(* Proofs about multicast routes (Device.v): a multicast route is the union of unicast routes to the far
   edge of the rectangle; exactly which rectangles it covers *)
From Coq Require Import ZArith Arith String List Bool Lia ZifyBool ZifyNat.
From Verif Require Import Base Arith Util Device SpecUtil SpecDevice UtilProofs DeviceProofs RouteProofs.
Import ListNotations.
Open Scope Z_scope.
Ltac Zify.zify_post_hook ::= idtac.

Lemma set_insert_in s x y : In y (set_insert s x) <-> In y s \/ y = x.
Proof.
  unfold set_insert. destruct (existsb (Z.eqb x) s) eqn:E.
  - apply existsb_exists in E. destruct E as [z [Hz E]]. apply Z.eqb_eq in E. subst. intuition subst; auto.
  - rewrite in_app_iff. simpl. intuition.
Qed.
Lemma set_insert_NoDup s x : NoDup s -> NoDup (set_insert s x).
Proof.
  unfold set_insert. destruct (existsb (Z.eqb x) s) eqn:E; auto. intros H.
  apply NoDup_app_disj; auto. repeat constructor; simpl; tauto.
  intros y Hy [<-|[]]. assert (existsb (Z.eqb x) s = true); [|congruence].
  apply existsb_exists. exists x. rewrite Z.eqb_refl; auto.
Qed.
Lemma fold_insert r : forall s, NoDup s ->
  NoDup (fold_left set_insert r s) /\ forall y, In y (fold_left set_insert r s) <-> In y s \/ In y r.
Proof.
  induction r as [|x r IH]; intros s Hs; simpl; [tauto|].
  destruct (IH (set_insert s x)) as [H1 H2]; [apply set_insert_NoDup; auto|]. split; auto.
  intros y. rewrite H2, set_insert_in. intuition.
Qed.

Lemma foldM_union (f : Z -> outcome (list Z)) (g : Z -> list Z) l : forall s, NoDup s ->
  Forall (fun x => f x = Ok (g x)) l ->
  exists r, foldM (fun acc x => let! r := f x in Ok (fold_left set_insert r acc)) l s = Ok r /\ NoDup r /\
    forall y, In y r <-> In y s \/ exists x, In x l /\ In y (g x).
Proof.
  induction l as [|x l IH]; intros s Hs Hf; simpl.
  - exists s. split; [auto|]. split; auto. intros y. split; [auto|]. intros [|[x [[] _]]]; auto.
  - inversion Hf as [|? ? Hx Hl]; subst. rewrite Hx. cbn [bind].
    destruct (fold_insert (g x) s Hs) as [H1 H2].
    destruct (IH _ H1 Hl) as [r [E [Hr Hi]]]. exists r. split; [exact E|]. split; auto.
    intros y. rewrite Hi, H2. split.
    + intros [[|]|[z [? ?]]]; eauto.
    + intros [|[z [[<-|] ?]]]; eauto.
Qed.

(* the far edge as a list of positions of the chip *)
Definition edge (noc : noc_type) (g : cgrid) : list (Z * Z) :=
  match noc with
  | NOC0 => map (fun c => (c_row (g_end g), c)) (zrange (c_col (g_start g)) (c_col (g_end g)))
  | NOC1 => map (fun r => (r, c_col (g_end g))) (zrange (c_row (g_start g)) (c_row (g_end g)))
  end.
Lemma zrange_in lo hi x : In x (zrange lo hi) <-> lo <= x <= hi.
Proof. unfold zrange. rewrite zseq_in. lia. Qed.

Lemma chip_multicast d noc s g fuel : wf_device d -> (route_fuel d <= fuel)%nat ->
  0 <= c_row s < Z.of_nat (dv_rows d) -> 0 <= c_col s < Z.of_nat (dv_cols d) ->
  0 <= c_row (g_start g) < Z.of_nat (dv_rows d) -> 0 <= c_col (g_start g) < Z.of_nat (dv_cols d) ->
  0 <= c_row (g_end g) < Z.of_nat (dv_rows d) -> 0 <= c_col (g_end g) < Z.of_nat (dv_cols d) ->
  exists r, chip_route fuel d noc s (Multicast [g]) = Ok r /\ NoDup r /\
    forall y, In y r <-> exists p, In p (edge noc g) /\
      In y (map (link_idx d) (uni_links d 0 noc (c_row s) (c_col s) (fst p) (snd p))).
Proof.
  intros Hwf Hfuel Hr Hc Hsr Hsc Her Hec. unfold chip_route. cbn [List.length Nat.eqb tt_assert bind].
  pose proof (wf_small d Hwf) as (S1 & S2 & S3).
  assert (Hf : exists k, fuel = (dv_rows d + dv_cols d + k)%nat) by (exists (fuel - route_fuel d)%nat; unfold route_fuel in *; lia).
  destruct Hf as [k ->].
  destruct noc.
  - destruct (foldM_union (fun col => unicastRoute (dv_rows d + dv_cols d + k) d NOC0 s (Coord_make 0 (c_row (g_end g)) col))
      (fun col => map (link_idx d) (uni_links d 0 NOC0 (c_row s) (c_col s) (c_row (g_end g)) col))
      (zrange (c_col (g_start g)) (c_col (g_end g))) []) as [r [E [N I]]].
    + constructor.
    + apply Forall_forall. intros x Hx. rewrite zrange_in in Hx. unfold unicastRoute, Coord_make.
      cbn [c_row c_col]. rewrite !i16_id by lia. apply unicast_loop_eq; auto; lia.
    + exists r. split; [exact E|]. split; auto. intros y. rewrite I. unfold edge. split.
      * intros [[]|[x [Hx Hy]]]. exists (c_row (g_end g), x). split; auto. apply in_map_iff; eauto.
      * intros [p [Hp Hy]]. apply in_map_iff in Hp. destruct Hp as [x [<- Hx]]. right. exists x. auto.
  - destruct (foldM_union (fun row => unicastRoute (dv_rows d + dv_cols d + k) d NOC1 s (Coord_make 0 row (c_col (g_end g))))
      (fun row => map (link_idx d) (uni_links d 0 NOC1 (c_row s) (c_col s) row (c_col (g_end g))))
      (zrange (c_row (g_start g)) (c_row (g_end g))) []) as [r [E [N I]]].
    + constructor.
    + apply Forall_forall. intros x Hx. rewrite zrange_in in Hx. unfold unicastRoute, Coord_make.
      cbn [c_row c_col]. rewrite !i16_id by lia. apply unicast_loop_eq; auto; lia.
    + exists r. split; [exact E|]. split; auto. intros y. rewrite I. unfold edge. split.
      * intros [[]|[x [Hx Hy]]]. exists (x, c_col (g_end g)). split; auto. apply in_map_iff; eauto.
      * intros [p [Hp Hy]]. apply in_map_iff in Hp. destruct Hp as [x [<- Hx]]. right. exists x. auto.
Qed.

Lemma edge_bounds noc g d p : In p (edge noc g) ->
  0 <= c_row (g_start g) < Z.of_nat (dv_rows d) -> 0 <= c_col (g_start g) < Z.of_nat (dv_cols d) ->
  0 <= c_row (g_end g) < Z.of_nat (dv_rows d) -> 0 <= c_col (g_end g) < Z.of_nat (dv_cols d) ->
  0 <= fst p < Z.of_nat (dv_rows d) /\ 0 <= snd p < Z.of_nat (dv_cols d).
Proof.
  unfold edge. destruct noc; rewrite in_map_iff; intros [x [<- Hx]]; rewrite zrange_in in Hx; simpl; lia.
Qed.

Lemma as_map {A B} (f : A -> B) (P : A -> Prop) l :
  (forall y, In y l -> exists x, f x = y /\ P x) -> exists l', l = map f l' /\ Forall P l'.
Proof.
  induction l as [|y l IH]; intros H.
  - exists []. auto.
  - destruct IH as [l' [-> Hl]]; [intros; apply H; simpl; auto|].
    destruct (H y) as [x [<- Hx]]; [simpl; auto|]. exists (x :: l'). auto.
Qed.

Theorem route_multicast_gen d noc s g : wf_device d -> in_grid d s ->
  0 <= c_row (g_start g) < Z.of_nat (dv_rows d) -> 0 <= c_col (g_start g) < Z.of_nat (dv_cols d) ->
  0 <= c_row (g_end g) < Z.of_nat (dv_rows d) -> 0 <= c_col (g_end g) < Z.of_nat (dv_cols d) ->
  c_dev (g_start g) = c_dev s ->
  exists ids, route d noc s (Multicast [g]) = Ok ids /\ NoDup ids /\
    forall y, In y ids <-> exists p, In p (edge noc g) /\
      In y (map (link_idx d) (uni_links d (c_dev s) noc (c_row s) (c_col s) (fst p) (snd p))).
Proof.
  intros Hwf Hs A2 A3 B2 B3 Hd. pose proof Hs as (S1 & S2 & S3).
  assert (U : forall d', d' = chip_device d -> exists r, chip_route (route_fuel d) d' noc s (Multicast [g]) = Ok r /\ NoDup r /\
    forall y, In y r <-> exists p, In p (edge noc g) /\
      In y (map (link_idx d') (uni_links d' 0 noc (c_row s) (c_col s) (fst p) (snd p)))).
  { intros d' ->. apply chip_multicast; auto. apply chip_device_wf; auto. }
  unfold route, route_f.
  assert (W : dv_class d <> ClsMultichip -> exists r, chip_route (route_fuel d) d noc s (Multicast [g]) = Ok r /\ NoDup r /\
    forall y, In y r <-> exists p, In p (edge noc g) /\
      In y (map (link_idx d) (uni_links d (c_dev s) noc (c_row s) (c_col s) (fst p) (snd p)))).
  { intros Hc. assert (E : d = chip_device d) by (symmetry; apply chip_device_single; auto).
    destruct Hwf as (_ & _ & _ & _ & H1). rewrite H1 in S1 by auto. replace (c_dev s) with 0 by lia.
    apply U. exact E. }
  destruct (dv_class d) eqn:Ec; [apply W; congruence| |apply W; congruence].
  cbn [dest_device_ids mcast_device_ids map List.length Nat.eqb tt_assert bind].
  rewrite Hd, Z.eqb_refl. cbn [tt_assert bind].
  destruct (U _ eq_refl) as [r [Er [Nr Ir]]]. rewrite Er. cbn [bind].
  pose proof (chip_device_wf d Hwf) as Hwc.
  destruct (as_map (link_idx (chip_device d)) (fun a => in_grid (chip_device d) (l_coord a)) r) as [ls [-> Hls]].
  { intros y Hy. apply Ir in Hy. destruct Hy as [p [Hp Hy]]. apply in_map_iff in Hy. destruct Hy as [a [<- Ha]].
    exists a. split; auto.
    destruct (edge_bounds noc g d p Hp A2 A3 B2 B3) as [P1 P2].
    pose proof (uni_links_in_grid (chip_device d) 0 noc (c_row s) (c_col s) (fst p) (snd p) Hwc ltac:(simpl; lia) S2 S3 P1 P2) as F.
    rewrite Forall_forall in F. apply F. auto. }
  rewrite changeRoute_eq; auto. eexists. split; [reflexivity|].
  assert (Hinj : forall a b, In a ls -> In b ls -> link_idx d (set_dev (c_dev s) a) = link_idx d (set_dev (c_dev s) b) -> a = b).
  { rewrite Forall_forall in Hls. intros a b Ha Hb E.
    pose proof (Hls a Ha) as (Ga1 & Ga2 & Ga3). pose proof (Hls b Hb) as (Gb1 & Gb2 & Gb3). simpl in *.
    apply link_idx_inj in E; [|apply wf_small; auto|unfold in_grid, set_dev; simpl; auto|unfold in_grid, set_dev; simpl; auto].
    destruct a as [[? ? ?] ?], b as [[? ? ?] ?]; unfold set_dev in E; simpl in *. injection E as -> -> ->. f_equal. f_equal. lia. }
  split.
  - rewrite map_map. apply NoDup_map_in; auto.
    apply NoDup_map_inv in Nr. auto.
  - intros y. rewrite map_map, in_map_iff. split.
    + intros [a [<- Ha]].
      assert (In (link_idx (chip_device d) a) (map (link_idx (chip_device d)) ls)) as Hy by (apply in_map; auto).
      apply Ir in Hy. destruct Hy as [p [Hp Hy]]. exists p. split; auto.
      rewrite <- set_dev_uni, map_map. apply in_map_iff in Hy. destruct Hy as [b [Eb Hb]].
      apply in_map_iff. exists b. split; auto. f_equal. f_equal.
      rewrite Forall_forall in Hls. apply link_idx_inj in Eb; auto; [apply wf_small; auto|].
      destruct (edge_bounds noc g d p Hp A2 A3 B2 B3) as [P1 P2].
      pose proof (uni_links_in_grid (chip_device d) 0 noc (c_row s) (c_col s) (fst p) (snd p) Hwc ltac:(simpl; lia) S2 S3 P1 P2) as F.
      rewrite Forall_forall in F. apply F. auto.
    + intros [p [Hp Hy]]. rewrite <- set_dev_uni, map_map in Hy. apply in_map_iff in Hy. destruct Hy as [b [<- Hb]].
      assert (In (link_idx (chip_device d) b) (map (link_idx (chip_device d)) ls)) as Hi.
      { apply Ir. exists p. split; auto. apply in_map. auto. }
      apply in_map_iff in Hi. destruct Hi as [a [Ea Ha]]. exists a. split; auto. f_equal. f_equal.
      rewrite Forall_forall in Hls. apply link_idx_inj in Ea; auto; [apply wf_small; auto|].
      destruct (edge_bounds noc g d p Hp A2 A3 B2 B3) as [P1 P2].
      pose proof (uni_links_in_grid (chip_device d) 0 noc (c_row s) (c_col s) (fst p) (snd p) Hwc ltac:(simpl; lia) S2 S3 P1 P2) as F.
      rewrite Forall_forall in F. apply F. auto.
Qed.

Theorem route_multicast_eq d noc s g : wf_device d -> in_grid d s -> rect_in_grid d g ->
  c_dev (g_start g) = c_dev s ->
  exists ids, route d noc s (Multicast [g]) = Ok ids /\ NoDup ids /\
    forall y, In y ids <-> exists p, In p (edge noc g) /\
      In y (map (link_idx d) (uni_links d (c_dev s) noc (c_row s) (c_col s) (fst p) (snd p))).
Proof.
  intros Hwf Hs Hg Hd. destruct Hg as ((A1 & A2 & A3) & (B1 & B2 & B3) & _).
  apply route_multicast_gen; auto.
Qed.

Lemma far_edge_iff noc g c d : rect_in_grid d g ->
  far_edge noc g c <-> c_dev c = c_dev (g_start g) /\ In (c_row c, c_col c) (edge noc g).
Proof.
  intros (_ & _ & _ & Hr & Hc). unfold far_edge, cell_of, edge.
  destruct noc; rewrite in_map_iff.
  - split.
    + intros [[H1 [H2 H3]] H4]. split; auto. exists (c_col c). rewrite zrange_in. split; [f_equal; auto|lia].
    + intros [H1 [x [[= E1 E2] Hx]]]. rewrite zrange_in in Hx. lia.
  - split.
    + intros [[H1 [H2 H3]] H4]. split; auto. exists (c_row c). rewrite zrange_in. split; [f_equal; auto|lia].
    + intros [H1 [x [[= E1 E2] Hx]]]. rewrite zrange_in in Hx. lia.
Qed.

Theorem route_multicast_union d noc s g : wf_device d -> in_grid d s -> rect_in_grid d g ->
  c_dev (g_start g) = c_dev s ->
  exists ids, route d noc s (Multicast [g]) = Ok ids /\ NoDup ids /\
    forall id, In id ids <-> exists e u, far_edge noc g e /\ route d noc s (Unicast e) = Ok u /\ In id u.
Proof.
  intros Hwf Hs Hg Hd. destruct (route_multicast_eq d noc s g Hwf Hs Hg Hd) as [ids [E [N I]]].
  exists ids. split; auto. split; auto. intros id. rewrite I.
  pose proof Hg as ((A1 & A2 & A3) & (B1 & B2 & B3) & Hse & Hrr & Hcc). split.
  - intros [[r c] [Hp Hy]]. simpl in Hy. set (e := mkCoord (c_dev s) r c).
    destruct (edge_bounds noc g d _ Hp A2 A3 B2 B3) as [P1 P2]. simpl in P1, P2.
    assert (He : in_grid d e) by (destruct Hs; unfold in_grid, e; simpl; auto).
    exists e. eexists. split.
    + apply (far_edge_iff noc g e d Hg). split; auto.
    + split; [apply route_unicast_eq; auto; reflexivity|]. exact Hy.
  - intros [e [u [He [Hu Hi]]]]. rewrite (far_edge_iff noc g e d Hg) in He. destruct He as [Hde Hp].
    exists (c_row e, c_col e). split; auto. simpl.
    destruct (edge_bounds noc g d _ Hp A2 A3 B2 B3) as [P1 P2]. simpl in P1, P2.
    rewrite route_unicast_eq in Hu; auto.
    + injection Hu as <-. auto.
    + destruct Hs as (S1 & _). unfold in_grid. rewrite Hde, Hd. auto.
    + unfold same_chip. congruence.
Qed.

(** * Coverage *)
Lemma window_up C a n y : 0 < C -> 0 <= n <= C ->
  (exists x, a <= x < a + n /\ y = x mod C) <-> 0 <= y < C /\ (y - a) mod C < n.
Proof.
  intros HC Hn. split.
  - intros [x [Hx ->]]. split; [apply Z.mod_pos_bound; lia|]. rewrite Zminus_mod_idemp_l.
    rewrite Z.mod_small by lia. lia.
  - intros [Hy H]. pose proof (Z.mod_pos_bound (y - a) C HC). exists (a + (y - a) mod C). split; [lia|].
    rewrite Zplus_mod_idemp_r. replace (a + (y - a)) with y by lia. rewrite Z.mod_small; lia.
Qed.
Lemma window_down C a n y : 0 < C -> 0 <= n <= C ->
  (exists x, a - n < x <= a /\ y = x mod C) <-> 0 <= y < C /\ (a - y) mod C < n.
Proof.
  intros HC Hn. split.
  - intros [x [Hx ->]]. split; [apply Z.mod_pos_bound; lia|]. rewrite Zminus_mod_idemp_r.
    rewrite Z.mod_small by lia. lia.
  - intros [Hy H]. pose proof (Z.mod_pos_bound (a - y) C HC). exists (a - (a - y) mod C). split; [lia|].
    rewrite Zminus_mod_idemp_r. replace (a - (a - y)) with y by lia. rewrite Z.mod_small; lia.
Qed.

Definition on_uni (d : device) (dev : Z) (noc : noc_type) (row col erow ecol : Z) (l : link_attr) : Prop :=
  let R := Z.of_nat (dv_rows d) in
  let C := Z.of_nat (dv_cols d) in
  let c := l_coord l in
  c_dev c = dev /\
  match noc, l_type l with
  | NOC0, NOC0_EAST => c_row c = row /\ 0 <= c_col c < C /\ (c_col c - col) mod C < (ecol - col) mod C
  | NOC0, NOC0_SOUTH => c_col c = ecol /\ 0 <= c_row c < R /\ (c_row c - row) mod R < (erow - row) mod R
  | NOC1, NOC1_NORTH => c_col c = col /\ 0 <= c_row c < R /\ (row - c_row c) mod R < (row - erow) mod R
  | NOC1, NOC1_WEST => c_row c = erow /\ 0 <= c_col c < C /\ (col - c_col c) mod C < (col - ecol) mod C
  | _, _ => False
  end.
Lemma in_uni_links d dev noc row col erow ecol l : wf_device d ->
  In l (uni_links d dev noc row col erow ecol) <-> on_uni d dev noc row col erow ecol l.
Proof.
  intros Hwf. pose proof (RC_bounds d Hwf) as [B1 B2].
  set (R := Z.of_nat (dv_rows d)) in *. set (C := Z.of_nat (dv_cols d)) in *.
  pose proof (ring_range C (ecol - col) ltac:(lia)). pose proof (ring_range R (erow - row) ltac:(lia)).
  pose proof (ring_range C (col - ecol) ltac:(lia)). pose proof (ring_range R (row - erow) ltac:(lia)).
  unfold uni_links, on_uni, east_links, south_links, north_links, west_links. fold R C.
  destruct l as [[ld lr lc] lt]. cbn [l_coord l_type c_dev c_row c_col].
  destruct noc; rewrite in_app_iff, !in_map_iff; setoid_rewrite zseq_in || setoid_rewrite zdown_in.
  - split.
    + intros [[x [[= <- <- E <-] Hx]]|[x [[= <- E <- <-] Hx]]]; (split; [reflexivity|split; [reflexivity|]]).
      * apply window_up; [lia|lia|]. exists x. split; [lia|auto].
      * apply window_up; [lia|lia|]. exists x. split; [lia|auto].
    + intros [-> Hl]. destruct lt; try tauto; destruct Hl as [-> Hw]; apply window_up in Hw; try lia;
        destruct Hw as [x [Hx ->]]; [left|right]; exists x; (split; [reflexivity|lia]).
  - split.
    + intros [[x [[= <- E <- <-] Hx]]|[x [[= <- <- E <-] Hx]]]; (split; [reflexivity|split; [reflexivity|]]).
      * apply window_down; [lia|lia|]. exists x. split; [lia|auto].
      * apply window_down; [lia|lia|]. exists x. split; [lia|auto].
    + intros [-> Hl]. destruct lt; try tauto; destruct Hl as [-> Hw]; apply window_down in Hw; try lia;
        destruct Hw as [x [Hx ->]]; [left|right]; exists x; (split; [reflexivity|lia]).
Qed.

Lemma entered_iff d noc s g ids c : wf_device d -> in_grid d s -> rect_in_grid d g -> c_dev (g_start g) = c_dev s ->
  route d noc s (Multicast [g]) = Ok ids ->
  entered d ids c <->
  exists p l, In p (edge noc g) /\ on_uni d (c_dev s) noc (c_row s) (c_col s) (fst p) (snd p) l /\ hop d l (l_coord l) c.
Proof.
  intros Hwf Hs Hg Hd E. destruct (route_multicast_eq d noc s g Hwf Hs Hg Hd) as [ids' [E' [N I]]].
  rewrite E in E'. injection E' as <-. unfold entered.
  pose proof Hg as ((A1 & A2 & A3) & (B1 & B2 & B3) & Hse & Hrr & Hcc). split.
  - intros [id [l [a [Hid [Hl Hh]]]]]. apply I in Hid. destruct Hid as [p [Hp Hi]].
    apply in_map_iff in Hi. destruct Hi as [l' [<- Hl']].
    destruct (edge_bounds noc g d p Hp A2 A3 B2 B3) as [P1 P2]. pose proof Hs as (S1 & S2 & S3).
    pose proof (uni_links_in_grid d (c_dev s) noc (c_row s) (c_col s) (fst p) (snd p) Hwf S1 S2 S3 P1 P2) as F.
    rewrite Forall_forall in F. rewrite getLinkAttributes_eq in Hl; [|apply wf_small; auto|apply F; auto].
    injection Hl as <-. exists p, l'. split; auto. split; [apply in_uni_links; auto|].
    destruct Hh as [<- Hh]. split; auto.
  - intros [p [l [Hp [Hl Hh]]]]. exists (link_idx d l), l, (l_coord l). split.
    + apply I. exists p. split; auto. apply in_map. apply in_uni_links; auto.
    + split; auto. apply getLinkAttributes_eq; [apply wf_small; auto|]. apply Hh.
Qed.

Definition ring_prev (n x : Z) : Z := if x =? 0 then n - 1 else x - 1.
Definition ring_next (n x : Z) : Z := if x =? n - 1 then 0 else x + 1.
Ltac ring_cases :=
  repeat match goal with
  | H : context [if ?b then _ else _] |- _ => destruct b eqn:?
  | |- context [if ?b then _ else _] => destruct b eqn:?
  end.

Lemma enters_noc0 d s er ec c : wf_device d -> in_grid d s -> in_grid d c -> c_dev c = c_dev s ->
  0 <= er < Z.of_nat (dv_rows d) -> 0 <= ec < Z.of_nat (dv_cols d) ->
  (exists l, on_uni d (c_dev s) NOC0 (c_row s) (c_col s) er ec l /\ hop d l (l_coord l) c) <->
  (c_row c = c_row s /\ 0 < (c_col c - c_col s) mod Z.of_nat (dv_cols d) <= (ec - c_col s) mod Z.of_nat (dv_cols d)) \/
  (c_col c = ec /\ 0 < (c_row c - c_row s) mod Z.of_nat (dv_rows d) <= (er - c_row s) mod Z.of_nat (dv_rows d)).
Proof.
  intros Hwf (S1 & S2 & S3) Hc Hd Her Hec. pose proof Hc as (C1 & C2 & C3).
  set (R := Z.of_nat (dv_rows d)) in *. set (C := Z.of_nat (dv_cols d)) in *.
  rewrite !ring_sub by lia. split.
  - intros [[[ld lr lc] lt] [[Hld Hl] (_ & Hg & _ & Hdd & Hh)]]. unfold succ_ring in Hh. fold R C in Hh, Hl.
    cbn [l_coord l_type c_dev c_row c_col] in *.
    destruct lt; try tauto; destruct Hl as [L1 [L2 L3]]; rewrite !ring_sub in L3 by lia; ring_cases; lia.
  - intros [[H1 H2]|[H1 H2]].
    + exists (mkLink (mkCoord (c_dev s) (c_row s) (ring_prev C (c_col c))) NOC0_EAST).
      unfold on_uni, hop, in_grid, succ_ring, ring_prev; cbn [l_coord l_type c_dev c_row c_col]; fold R C.
      assert (0 <= (if c_col c =? 0 then C - 1 else c_col c - 1) < C) by (ring_cases; lia).
      split; [split; [reflexivity|split; [reflexivity|split; [auto|]]]|].
      * rewrite !ring_sub by lia. ring_cases; lia.
      * split; [reflexivity|]. ring_cases; lia.
    + exists (mkLink (mkCoord (c_dev s) (ring_prev R (c_row c)) ec) NOC0_SOUTH).
      unfold on_uni, hop, in_grid, succ_ring, ring_prev; cbn [l_coord l_type c_dev c_row c_col]; fold R C.
      assert (0 <= (if c_row c =? 0 then R - 1 else c_row c - 1) < R) by (ring_cases; lia).
      split; [split; [reflexivity|split; [reflexivity|split; [auto|]]]|].
      * rewrite !ring_sub by lia. ring_cases; lia.
      * split; [reflexivity|]. ring_cases; lia.
Qed.
Lemma enters_noc1 d s er ec c : wf_device d -> in_grid d s -> in_grid d c -> c_dev c = c_dev s ->
  0 <= er < Z.of_nat (dv_rows d) -> 0 <= ec < Z.of_nat (dv_cols d) ->
  (exists l, on_uni d (c_dev s) NOC1 (c_row s) (c_col s) er ec l /\ hop d l (l_coord l) c) <->
  (c_col c = c_col s /\ 0 < (c_row s - c_row c) mod Z.of_nat (dv_rows d) <= (c_row s - er) mod Z.of_nat (dv_rows d)) \/
  (c_row c = er /\ 0 < (c_col s - c_col c) mod Z.of_nat (dv_cols d) <= (c_col s - ec) mod Z.of_nat (dv_cols d)).
Proof.
  intros Hwf (S1 & S2 & S3) Hc Hd Her Hec. pose proof Hc as (C1 & C2 & C3).
  set (R := Z.of_nat (dv_rows d)) in *. set (C := Z.of_nat (dv_cols d)) in *.
  rewrite !ring_sub by lia. split.
  - intros [[[ld lr lc] lt] [[Hld Hl] (_ & Hg & _ & Hdd & Hh)]]. unfold succ_ring in Hh. fold R C in Hh, Hl.
    cbn [l_coord l_type c_dev c_row c_col] in *.
    destruct lt; try tauto; destruct Hl as [L1 [L2 L3]]; rewrite !ring_sub in L3 by lia; ring_cases; lia.
  - intros [[H1 H2]|[H1 H2]].
    + exists (mkLink (mkCoord (c_dev s) (ring_next R (c_row c)) (c_col s)) NOC1_NORTH).
      unfold on_uni, hop, in_grid, succ_ring, ring_next; cbn [l_coord l_type c_dev c_row c_col]; fold R C.
      assert (0 <= (if c_row c =? R - 1 then 0 else c_row c + 1) < R) by (ring_cases; lia).
      split; [split; [reflexivity|split; [reflexivity|split; [auto|]]]|].
      * rewrite !ring_sub by lia. ring_cases; lia.
      * split; [reflexivity|]. ring_cases; lia.
    + exists (mkLink (mkCoord (c_dev s) er (ring_next C (c_col c))) NOC1_WEST).
      unfold on_uni, hop, in_grid, succ_ring, ring_next; cbn [l_coord l_type c_dev c_row c_col]; fold R C.
      assert (0 <= (if c_col c =? C - 1 then 0 else c_col c + 1) < C) by (ring_cases; lia).
      split; [split; [reflexivity|split; [reflexivity|split; [auto|]]]|].
      * rewrite !ring_sub by lia. ring_cases; lia.
      * split; [reflexivity|]. ring_cases; lia.
Qed.

Lemma cell_in_grid d s g c : in_grid d s -> rect_in_grid d g -> c_dev (g_start g) = c_dev s -> cell_of g c ->
  in_grid d c /\ c_dev c = c_dev s.
Proof.
  intros (S1 & S2 & S3) ((A1 & A2 & A3) & (B1 & B2 & B3) & Hse & Hrr & Hcc) Hd (C1 & C2 & C3).
  unfold in_grid. lia.
Qed.

Theorem multicast_covers_iff d noc s g ids : wf_device d -> in_grid d s -> rect_in_grid d g ->
  c_dev (g_start g) = c_dev s -> route d noc s (Multicast [g]) = Ok ids ->
  covers d s g ids <-> coverable d noc s g.
Proof.
  intros Hwf Hs Hg Hd E. unfold covers.
  pose proof Hg as ((A1 & A2 & A3) & (B1 & B2 & B3) & Hse & Hrr & Hcc). pose proof Hs as (S1 & S2 & S3).
  set (R := Z.of_nat (dv_rows d)) in *. set (C := Z.of_nat (dv_cols d)) in *.
  destruct noc; unfold coverable.
  - split.
    + intros H Hbad.
      set (c := mkCoord (c_dev s) (c_row (g_start g)) (c_col (g_start g))).
      assert (Hc : cell_of g c) by (unfold cell_of, c; simpl; lia).
      destruct (cell_in_grid d s g c Hs Hg Hd Hc) as [Hcg Hcd].
      assert (Hne : c <> s) by (intros Ecs; assert (c_row (g_start g) = c_row s) by (rewrite <- Ecs; reflexivity); lia).
      specialize (H c Hc Hne). rewrite (entered_iff d NOC0 s g ids c) in H by auto.
      destruct H as [p [l [Hp Hl]]]. unfold edge in Hp. apply in_map_iff in Hp. destruct Hp as [x [<- Hx]].
      rewrite zrange_in in Hx. cbn [fst snd] in Hl.
      assert (Ex : exists l, on_uni d (c_dev s) NOC0 (c_row s) (c_col s) (c_row (g_end g)) x l /\ hop d l (l_coord l) c) by eauto.
      apply enters_noc0 in Ex; auto; [|fold R C; lia]. fold R C in Ex. unfold c in Ex; cbn [c_row c_col] in Ex.
      rewrite !ring_sub in Ex by lia. ring_cases; lia.
    + intros Hok c Hc Hne. destruct (cell_in_grid d s g c Hs Hg Hd Hc) as [Hcg Hcd].
      pose proof Hcg as (G1 & G2 & G3). fold R C in G2, G3. destruct Hc as (D1 & D2 & D3).
      apply (entered_iff d NOC0 s g ids c); auto.
      assert (Ex : exists l, on_uni d (c_dev s) NOC0 (c_row s) (c_col s) (c_row (g_end g)) (c_col c) l /\ hop d l (l_coord l) c).
      { apply enters_noc0; auto. fold R C. rewrite !ring_sub by lia.
        assert (c_row c = c_row s -> c_col c <> c_col s).
        { intros E1 E2. apply Hne. destruct c, s; simpl in *; congruence. }
        ring_cases; lia. }
      destruct Ex as [l Hl]. exists (c_row (g_end g), c_col c), l. split; auto.
      unfold edge. apply in_map_iff. exists (c_col c). rewrite zrange_in. auto.
  - unfold succ_ring. fold C. split.
    + intros H.
      destruct (Z.eq_dec (c_col (g_start g)) (c_col (g_end g))) as [|Hwide]; [auto|right].
      set (c := mkCoord (c_dev s) (c_row (g_start g)) (c_col (g_end g) - 1)).
      assert (Hc : cell_of g c) by (unfold cell_of, c; simpl; lia).
      destruct (cell_in_grid d s g c Hs Hg Hd Hc) as [Hcg Hcd].
      destruct (Z.eq_dec (c_col s) (c_col (g_end g) - 1)) as [|Hn]; [lia|].
      assert (Hne : c <> s) by (intros Ecs; apply Hn; rewrite <- Ecs; reflexivity).
      specialize (H c Hc Hne). rewrite (entered_iff d NOC1 s g ids c) in H by auto.
      destruct H as [p [l [Hp Hl]]]. unfold edge in Hp. apply in_map_iff in Hp. destruct Hp as [x [<- Hx]].
      rewrite zrange_in in Hx. cbn [fst snd] in Hl.
      assert (Ex : exists l, on_uni d (c_dev s) NOC1 (c_row s) (c_col s) x (c_col (g_end g)) l /\ hop d l (l_coord l) c) by eauto.
      apply enters_noc1 in Ex; auto; [|fold R C; lia]. fold R C in Ex. unfold c in Ex; cbn [c_row c_col] in Ex.
      rewrite !ring_sub in Ex by lia. ring_cases; lia.
    + intros Hok c Hc Hne. destruct (cell_in_grid d s g c Hs Hg Hd Hc) as [Hcg Hcd].
      pose proof Hcg as (G1 & G2 & G3). fold R C in G2, G3. destruct Hc as (D1 & D2 & D3).
      apply (entered_iff d NOC1 s g ids c); auto.
      assert (Ex : exists l, on_uni d (c_dev s) NOC1 (c_row s) (c_col s) (c_row c) (c_col (g_end g)) l /\ hop d l (l_coord l) c).
      { apply enters_noc1; auto. fold R C. rewrite !ring_sub by lia.
        assert (c_row c = c_row s -> c_col c <> c_col s).
        { intros E1 E2. apply Hne. destruct c, s; simpl in *; congruence. }
        ring_cases; lia. }
      destruct Ex as [l Hl]. exists (c_row c, c_col (g_end g)), l. split; auto.
      unfold edge. apply in_map_iff. exists (c_row c). rewrite zrange_in. auto.
Qed.

(* the two kinds of rectangle that are not covered *)
Definition ex_noc0_src := mkCoord 0 5 1.
Definition ex_rect := mkGrid (mkCoord 0 4 1) (mkCoord 0 6 3).
Definition ex_noc1_src := mkCoord 0 0 0.
Lemma multicast_covers_refuted :
  exists d noc s g ids, supported d /\ in_grid d s /\ rect_in_grid d g /\ c_dev (g_start g) = c_dev s /\
    route d noc s (Multicast [g]) = Ok ids /\ ~ covers d s g ids.
Proof.
  assert (Hwf : wf_device wormhole_b0).
  { unfold wf_device, wormhole_b0; simpl. repeat split; lia. }
  assert (Hs : in_grid wormhole_b0 ex_noc0_src) by (unfold in_grid; simpl; lia).
  assert (Hg : rect_in_grid wormhole_b0 ex_rect) by (unfold rect_in_grid, in_grid; simpl; lia).
  destruct (route_multicast_eq wormhole_b0 NOC0 ex_noc0_src ex_rect Hwf Hs Hg eq_refl) as [ids [E _]].
  exists wormhole_b0, NOC0, ex_noc0_src, ex_rect, ids. split; [exists "N150"%string; simpl; auto|].
  split; auto. split; auto. split; [reflexivity|]. split; auto.
  rewrite (multicast_covers_iff wormhole_b0 NOC0) by (auto; reflexivity). unfold coverable. simpl. lia.
Qed.
Lemma multicast_noc1_covers_refuted :
  exists d s g ids, supported d /\ in_grid d s /\ rect_in_grid d g /\ c_dev (g_start g) = c_dev s /\
    route d NOC1 s (Multicast [g]) = Ok ids /\ ~ covers d s g ids.
Proof.
  assert (Hwf : wf_device wormhole_b0).
  { unfold wf_device, wormhole_b0; simpl. repeat split; lia. }
  assert (Hs : in_grid wormhole_b0 ex_noc1_src) by (unfold in_grid; simpl; lia).
  assert (Hg : rect_in_grid wormhole_b0 ex_rect) by (unfold rect_in_grid, in_grid; simpl; lia).
  destruct (route_multicast_eq wormhole_b0 NOC1 ex_noc1_src ex_rect Hwf Hs Hg eq_refl) as [ids [E _]].
  exists wormhole_b0, ex_noc1_src, ex_rect, ids. split; [exists "N150"%string; simpl; auto|].
  split; auto. split; auto. split; [reflexivity|]. split; auto.
  rewrite (multicast_covers_iff wormhole_b0 NOC1) by (auto; reflexivity). unfold coverable, succ_ring. simpl. lia.
Qed.
