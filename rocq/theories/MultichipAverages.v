(* Proofs about the generator of timeline files: fields of the transfers, averages over the links, and the outcome of a transfer between chips. *)
From Coq Require Import ZArith QArith Qminmax Lia Lqa String List Bool Permutation.
From Verif Require Import Base Util Device Multichip SpecMultichip MultichipProofs MultichipSteps.
Import ListNotations.
Local Open Scope string_scope.
Local Open Scope list_scope.
Open Scope Z_scope.
From Coq Require Import ZifyBool ZifyNat.
Ltac Zify.zify_post_hook ::= idtac.

(** * Transfers *)
Lemma time_lasts b : lasts b (estimate_transfer_time b).
Proof.
  unfold lasts, estimate_transfer_time. pose proof (Z.div_mod (b * 10) 281 ltac:(lia)) as E. pose proof (Z.mod_pos_bound (b * 10) 281 ltac:(lia)) as B.
  destruct (Z_le_gt_dec (b * 10 / 281) 40); [left|right]; lia.
Qed.
Lemma file_transfers fuel rows cols devices cpt rs ts ss : generate fuel rows cols devices cpt rs = Ok (ts, ss) ->
  List.length ts = List.length rs /\
  forall k r t, nth_error rs k = Some r -> nth_error ts k = Some t ->
    gt_id t = Z.of_nat k /\ gt_bytes t = dr_bytes r /\ gt_dev t = dr_dev r /\ gt_src t = dr_src r /\ gt_dst t = dr_dst r /\ gt_noc t = dr_noc r /\ gt_start t = dr_start r /\
    lasts (gt_bytes t) (gt_end t - gt_start t).
Proof.
  intros H. apply generate_inv in H as (H & _). apply transfers_inv in H as (L & H). split; [exact L|]. intros k r t Er Et. specialize (H k t r Et Er).
  unfold generate_transfer in H. destruct (dr_inter r && (1 <? devices)); [discriminate|].
  destruct (generate_route_segment fuel rows cols (dr_dev r) (dr_src r) (dr_dst r) (dr_noc r)) as [ls| | | | | |]; try discriminate. cbn [bind] in H. injection H as <-.
  cbn [gt_id gt_bytes gt_dev gt_src gt_dst gt_noc gt_start gt_end]. repeat (split; [reflexivity|]).
  replace (dr_start r + estimate_transfer_time (dr_bytes r) - dr_start r) with (estimate_transfer_time (dr_bytes r)) by lia. apply time_lasts.
Qed.
Lemma between_asserts d devices cpt fuel rs : (dv_rows d + dv_cols d <= fuel)%nat ->
  Forall (drawn (Z.of_nat (dv_rows d)) (Z.of_nat (dv_cols d)) devices) rs -> Exists (between_chips devices) rs ->
  generate fuel (Z.of_nat (dv_rows d)) (Z.of_nat (dv_cols d)) devices cpt rs = StdThrow "AssertionError".
Proof.
  intros F H X. unfold generate. enough (G : forall id, generate_transfers fuel (Z.of_nat (dv_rows d)) (Z.of_nat (dv_cols d)) devices id rs = StdThrow "AssertionError") by (rewrite G; reflexivity).
  induction rs as [|r rs IH]; intros id; [inversion X|]. cbn [generate_transfers]. inversion H as [|? ? Hr Hrs]; subst. unfold generate_transfer.
  destruct (dr_inter r && (1 <? devices)) eqn:B; [reflexivity|]. assert (X' : Exists (between_chips devices) rs). { inversion X as [? ? (B1 & B2)|]; subst; [|assumption]. rewrite B1 in B. cbn in B. lia. }
  destruct Hr as (_ & Hd & Hs & He & _). destruct (segment_links d (dr_dev r) (dr_noc r) _ _ fuel Hs He F) as (ls & E & _). rewrite E. cbn [bind]. rewrite (IH Hrs X'). reflexivity.
Qed.

Lemma walk_no_throw move last x : forall fuel cur, walk fuel move cur last <> StdThrow x.
Proof. induction fuel as [|fuel IH]; intros cur; cbn [walk]; [discriminate|]. destruct (cur =? last); [discriminate|]. specialize (IH (move cur)). destruct (walk fuel move (move cur) last); try discriminate; cbn; congruence. Qed.
Lemma segment_no_throw fuel rows cols dev s e noc x : generate_route_segment fuel rows cols dev s e noc <> StdThrow x.
Proof.
  unfold generate_route_segment. destruct noc; [pose proof (walk_no_throw (wrap_up cols) (snd e) x fuel (snd s)) as A; pose proof (walk_no_throw (wrap_up rows) (fst e) x fuel (fst s)) as B|
    pose proof (walk_no_throw (wrap_down rows) (fst e) x fuel (fst s)) as A; pose proof (walk_no_throw (wrap_down cols) (snd e) x fuel (snd s)) as B];
  (destruct (walk fuel _ _ _); try discriminate; cbn [bind]; [destruct (walk fuel _ _ _); try discriminate; cbn [bind]; congruence|congruence]).
Qed.
Lemma transfers_no_throw fuel rows cols devices rs : forall id, generate_transfers fuel rows cols devices id rs <> StdThrow "ValueError".
Proof.
  induction rs as [|r rs IH]; intros id; cbn [generate_transfers]; [discriminate|]. unfold generate_transfer. destruct (dr_inter r && (1 <? devices)); [discriminate|].
  pose proof (segment_no_throw fuel rows cols (dr_dev r) (dr_src r) (dr_dst r) (dr_noc r) "ValueError") as A.
  destruct (generate_route_segment fuel rows cols (dr_dev r) (dr_src r) (dr_dst r) (dr_noc r)); try discriminate; cbn [bind]; [|congruence].
  specialize (IH (id + 1)). destruct (generate_transfers fuel rows cols devices (id + 1) rs); try discriminate; cbn [bind]; congruence.
Qed.
Lemma no_draws fuel rows cols devices cpt rs : generate fuel rows cols devices cpt rs = StdThrow "ValueError" <-> rs = [].
Proof.
  split; [|intros ->; reflexivity]. unfold generate. intros H. pose proof (transfers_no_throw fuel rows cols devices rs 0) as N. destruct (generate_transfers fuel rows cols devices 0 rs) as [ts| | | | | |] eqn:E; try discriminate; [|cbn [bind] in H; congruence].
  apply transfers_inv in E as (L & _). cbn [bind] in H. destruct ts; [|discriminate]. destruct rs; [reflexivity|discriminate].
Qed.

(** * Averages *)
Open Scope Q_scope.
Lemma qsum_of l : qsum l == sum_of (fun x => x) l.
Proof.
  unfold qsum. enough (G : forall a, fold_left Qplus l a == a + sum_of (fun x => x) l) by (rewrite G; lra).
  induction l as [|x l IH]; intros a; cbn [fold_left sum_of fold_right]; [lra|]. rewrite IH. fold (sum_of (fun x : Q => x) l). lra.
Qed.
Lemma sum_map {X Y} (f : Y -> Q) (g : X -> Y) l : sum_of f (map g l) = sum_of (fun x => f (g x)) l.
Proof. induction l as [|x l IH]; cbn; [reflexivity|]. unfold sum_of in *. rewrite IH. reflexivity. Qed.
Lemma sum_ext {X} (f g : X -> Q) l : (forall x, In x l -> f x == g x) -> sum_of f l == sum_of g l.
Proof.
  induction l as [|x l IH]; intros H; cbn [sum_of fold_right]; [reflexivity|]. fold (sum_of f l). fold (sum_of g l). rewrite (H x (or_introl eq_refl)), IH; [reflexivity|]. intros y Hy. apply H. right. exact Hy.
Qed.
Lemma sum_scale {X} (f : X -> Q) a l : sum_of (fun x => a * f x) l == a * sum_of f l.
Proof. induction l as [|x l IH]; cbn [sum_of fold_right]; [lra|]. fold (sum_of f l). fold (sum_of (fun x => a * f x) l). rewrite IH. lra. Qed.
Lemma sum_perm {X} (f : X -> Q) a b : Permutation a b -> sum_of f a == sum_of f b.
Proof. unfold sum_of. induction 1; cbn [fold_right]; lra. Qed.
Lemma sum_split {X} (f : X -> Q) p l : sum_of f l == sum_of f (filter p l) + sum_of f (filter (fun x => negb (p x)) l).
Proof. unfold sum_of. induction l as [|x l IH]; cbn [filter fold_right]; [lra|]. destruct (p x); cbn [negb fold_right]; lra. Qed.
Lemma sum_zero {X} (f : X -> Q) l : (forall x, In x l -> f x == 0) -> sum_of f l == 0.
Proof. intros H. rewrite (sum_ext f (fun _ => 0) l H). clear H. unfold sum_of. induction l as [|x l IH]; cbn [fold_right]; lra. Qed.
(* summing over any list with the given links *)
Lemma sum_cover (f : plink -> Q) ks ls : NoDup ks -> NoDup ls -> (forall l, In l ks -> In l ls) -> (forall l, In l ls -> ~ In l ks -> f l == 0) -> sum_of f ls == sum_of f ks.
Proof.
  intros N1 N2 I Z. rewrite (sum_split f (fun l => if in_dec plink_dec l ks then true else false) ls). rewrite (sum_zero f (filter (fun x => negb _) ls)).
  - rewrite Qplus_0_r. apply sum_perm, NoDup_Permutation; [apply NoDup_filter, N2|exact N1|]. intros l. rewrite filter_In. destruct (in_dec plink_dec l ks) as [K|K]; split; try tauto; [auto|]. intros (_ & D). discriminate.
  - intros l H. apply filter_In in H as (H0 & H). destruct (in_dec plink_dec l ks); [discriminate|]. auto.
Qed.
Lemma find_nodup (m : list (plink * Q)) e : NoDup (map fst m) -> In e m -> find (fun x => plink_eqb (fst x) (fst e)) m = Some e.
Proof.
  induction m as [|y m IH]; intros N H; [destruct H|]. destruct H as [->|H]; cbn [find]; [rewrite plink_eqb_refl; reflexivity|]. cbn [map] in N. inversion N as [|? ? N1 N2]; subst.
  destruct (plink_eqb (fst y) (fst e)) eqn:E; [|auto]. apply plink_eqb_spec in E. destruct N1. rewrite E. apply in_map, H.
Qed.
Lemma find_none (m : list (plink * Q)) l : ~ In l (map fst m) -> find (fun x => plink_eqb (fst x) l) m = None.
Proof.
  induction m as [|y m IH]; intros N; cbn [find]; [reflexivity|]. cbn [map In] in N. rewrite plink_eqb_no by tauto. apply IH. tauto.
Qed.
(* a sum over the entries of the timestep that satisfy p is a sum over any complete list of links *)
Lemma sum_entries s (p : plink -> bool) P (g : Q -> Q) ls : (forall l, p l = true <-> P l) -> g 0 == 0 -> NoDup (map fst (gs_demands s)) -> all_of P s ls ->
  sum_of (fun e => g (snd e)) (filter (fun e => p (fst e)) (gs_demands s)) == sum_of (fun l => g (demand_of s l)) ls.
Proof.
  intros HP G N (N2 & I1 & I2). rewrite (sum_cover (fun l => g (demand_of s l)) (map fst (filter (fun e => p (fst e)) (gs_demands s))) ls).
  - rewrite sum_map. apply sum_ext. intros e H. apply filter_In in H as (H & _). unfold demand_of. rewrite find_nodup by assumption. reflexivity.
  - clear -N. induction (gs_demands s) as [|e l IH]; cbn [filter map]; [constructor|]. inversion N as [|? ? N1 N2]; subst. destruct (p (fst e)); [|auto]. cbn [map]. constructor; [|auto].
    intros H. apply N1. apply in_map_iff in H as (y & <- & H). apply filter_In in H as (H & _). apply in_map, H.
  - exact N2.
  - intros l H. apply in_map_iff in H as (e & <- & H). apply filter_In in H as (H & K). apply I2; [apply in_map, H|apply HP, K].
  - intros l K H. apply I1, HP in K. unfold demand_of. rewrite find_none; [exact G|]. intros J. apply H. apply in_map_iff in J as (e & <- & J). apply in_map, filter_In. auto.
Qed.
Lemma filter_all {X} (l : list X) : filter (fun _ => true) l = l.
Proof. induction l as [|x l IH]; cbn; [reflexivity|]. rewrite IH. reflexivity. Qed.
Lemma of_noc_spec noc l : of_noc noc l = true <-> on_noc noc l.
Proof. unfold of_noc, on_noc. destruct (snd l), noc; split; intros H; try discriminate; try reflexivity; auto; destruct H; discriminate. Qed.
Lemma min_scale x : Qmin 100 (100 / max_link_bw * x) == 100 / max_link_bw * Qmin max_link_bw x.
Proof.
  unfold max_link_bw. setoid_replace (100 / (281 # 10)) with (1000 # 281) by reflexivity.
  destruct (Q.min_spec 100 ((1000 # 281) * x)) as [(A & ->)|(A & ->)], (Q.min_spec (281 # 10) x) as [(B & ->)|(B & ->)]; lra.
Qed.
Lemma file_averages fuel rows cols devices cpt rs ts ss : generate fuel rows cols devices cpt rs = Ok (ts, ss) -> (0 < cpt)%Z -> forall s, In s ss ->
  (forall ls, all_of (fun _ => True) s ls ->
     gs_demand s == 100 / (281 # 10) * sum_of (fun l => demand_of s l) ls / inject_Z (8 * rows * cols) /\
     gs_util s == 100 / (281 # 10) * sum_of (fun l => Qmin (281 # 10) (demand_of s l)) ls / inject_Z (8 * rows * cols)) /\
  forall noc ls, all_of (on_noc noc) s ls ->
     gs_noc_demand s noc == 100 / (281 # 10) * sum_of (fun l => demand_of s l) ls / inject_Z (4 * rows * cols) /\
     gs_noc_util s noc == 100 / (281 # 10) * sum_of (fun l => Qmin (281 # 10) (demand_of s l)) ls / inject_Z (4 * rows * cols).
Proof.
  intros H Hc s I. destruct (steps_in _ _ _ _ _ _ _ _ _ H I) as (M & k & ->). clear H I.
  destruct (step_listed rows cols cpt ts (Z.of_nat k) Hc M) as (N & _). set (s := generate_step rows cols cpt (fold_left record_usage ts []) (Z.of_nat k)) in *.
  assert (Z8 : 2 * num_links_per_noc rows cols == inject_Z (8 * rows * cols)). { unfold num_links_per_noc. replace (8 * rows * cols)%Z with (2 * (rows * cols * 4))%Z by lia. rewrite (inject_Z_mult 2). reflexivity. }
  assert (Z4 : num_links_per_noc rows cols == inject_Z (4 * rows * cols)). { unfold num_links_per_noc. replace (4 * rows * cols)%Z with (rows * cols * 4)%Z by lia. reflexivity. }
  assert (G0 : Qmin (281 # 10) 0 == 0) by reflexivity. split.
  - intros ls A. pose proof (sum_entries s (fun _ => true) (fun _ => True) (fun q => q) ls ltac:(intros; tauto) (Qeq_refl 0) N A) as E1.
    pose proof (sum_entries s (fun _ => true) (fun _ => True) (fun q => Qmin (281 # 10) q) ls ltac:(intros; tauto) G0 N A) as E2. rewrite filter_all in E1, E2. split; [rewrite <- E1|rewrite <- E2]; rewrite <- Z8.
    + unfold s at 1, generate_step. cbn [gs_demand]. change (aggregate (link_bin cpt (Z.of_nat k) (fold_left record_usage ts []))) with (gs_demands s). rewrite qsum_of, sum_map. apply Qmult_comp; [apply Qmult_comm|reflexivity].
    + unfold s at 1, generate_step. cbn [gs_util]. change (aggregate (link_bin cpt (Z.of_nat k) (fold_left record_usage ts []))) with (gs_demands s). rewrite qsum_of, sum_map. apply Qmult_comp; [apply Qmult_comm|reflexivity].
  - intros noc ls A. pose proof (sum_entries s (of_noc noc) _ (fun q => q) ls (of_noc_spec noc) (Qeq_refl 0) N A) as E1.
    pose proof (sum_entries s (of_noc noc) _ (fun q => Qmin (281 # 10) q) ls (of_noc_spec noc) G0 N A) as E2. split; [rewrite <- E1|rewrite <- E2]; rewrite <- Z4, <- sum_scale.
    + unfold s at 1, generate_step. cbn [gs_noc_demand]. change (aggregate (link_bin cpt (Z.of_nat k) (fold_left record_usage ts []))) with (gs_demands s). rewrite qsum_of, sum_map. reflexivity.
    + unfold s at 1, generate_step. cbn [gs_noc_util]. change (aggregate (link_bin cpt (Z.of_nat k) (fold_left record_usage ts []))) with (gs_demands s). rewrite qsum_of, sum_map.
      apply Qmult_comp; [|reflexivity]. apply sum_ext. intros e _. apply min_scale.
Qed.
