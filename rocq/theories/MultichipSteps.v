(* Proofs about the generator of timeline files: timesteps. *)
From Coq Require Import ZArith QArith Qminmax Lia Lqa String List Bool Permutation.
From Verif Require Import Base Util Device Multichip SpecMultichip MultichipProofs.
Import ListNotations.
Local Open Scope list_scope.
Open Scope Z_scope.
From Coq Require Import ZifyBool ZifyNat.
Ltac Zify.zify_post_hook ::= idtac.

Lemma plink_eqb_spec a b : plink_eqb a b = true <-> a = b.
Proof.
  destruct a as [[[d r] c] t], b as [[[d' r'] c'] t']. unfold plink_eqb. rewrite !andb_true_iff, !Z.eqb_eq.
  assert (H : ltype_eqb t t' = true <-> t = t') by (destruct t, t'; cbn; split; congruence). rewrite H. split; [intros (((-> & ->) & ->) & ->); reflexivity|].
  intros E. injection E as -> -> -> ->. auto.
Qed.
Lemma plink_eqb_refl a : plink_eqb a a = true.
Proof. apply plink_eqb_spec. reflexivity. Qed.
Lemma plink_eqb_no a b : a <> b -> plink_eqb a b = false.
Proof. destruct (plink_eqb a b) eqn:E; [apply plink_eqb_spec in E; congruence|reflexivity]. Qed.

Lemma plink_dec (a b : plink) : {a = b} + {a <> b}.
Proof. destruct (plink_eqb a b) eqn:E; [left; apply plink_eqb_spec, E|right; intros ->; rewrite plink_eqb_refl in E; discriminate]. Qed.

(** * Routes have no repetition and stay on the grid *)
Lemma walk_same move b : forall f1 f2 a l1 l2, walk f1 move a b = Ok l1 -> walk f2 move a b = Ok l2 -> l1 = l2.
Proof.
  induction f1 as [|f1 IH]; intros [|f2] a l1 l2; cbn [walk]; try discriminate. destruct (a =? b); [congruence|].
  destruct (walk f1 move (move a) b) as [x| | | | | |] eqn:E1; try discriminate. destruct (walk f2 move (move a) b) as [y| | | | | |] eqn:E2; try discriminate.
  cbn [bind]. intros H1 H2. injection H1 as <-. injection H2 as <-. f_equal. eapply IH; eauto.
Qed.
Lemma walk_later move b x : forall f a l, walk f move a b = Ok l -> In x l -> exists f' l', walk f' move x b = Ok l' /\ (List.length l' <= List.length l)%nat.
Proof.
  induction f as [|f IH]; intros a l; cbn [walk]; try discriminate. destruct (a =? b) eqn:Eab; [intros E; injection E as <-; intros []|].
  destruct (walk f move (move a) b) as [y| | | | | |] eqn:E1; try discriminate. cbn [bind]. intros E. injection E as <-. intros [->|H].
  - exists (S f), (x :: y). split; [|lia]. cbn [walk]. rewrite Eab, E1. reflexivity.
  - destruct (IH _ _ E1 H) as (f' & l' & W & L). exists f', l'. split; [exact W|]. cbn. lia.
Qed.
Lemma walk_nodup move b : forall f a l, walk f move a b = Ok l -> NoDup l.
Proof.
  induction f as [|f IH]; intros a l; cbn [walk]; try discriminate. destruct (a =? b) eqn:Eab; [intros E; injection E as <-; constructor|].
  destruct (walk f move (move a) b) as [y| | | | | |] eqn:E1; try discriminate. cbn [bind]. intros E. injection E as <-. constructor; [|eapply IH; eauto].
  intros H. destruct (walk_later _ _ _ _ _ _ E1 H) as (f' & l' & W & L).
  assert (F : walk (S f) move a b = Ok (a :: y)) by (cbn [walk]; rewrite Eab, E1; reflexivity). pose proof (walk_same _ _ _ _ _ _ _ W F). subst l'. cbn in L. lia.
Qed.
Lemma walk_range move b n : (forall x, 0 <= x < n -> 0 <= move x < n) -> forall f a l, 0 <= a < n -> walk f move a b = Ok l -> Forall (fun x => 0 <= x < n) l.
Proof.
  intros M. induction f as [|f IH]; intros a l Ha; cbn [walk]; try discriminate. destruct (a =? b); [intros E; injection E as <-; constructor|].
  destruct (walk f move (move a) b) as [y| | | | | |] eqn:E1; try discriminate. cbn [bind]. intros E. injection E as <-. constructor; [exact Ha|]. eapply IH; [|exact E1]. auto.
Qed.
Definition on_chip (rows cols dev : Z) (l : plink) : Prop := let '(d, r, c, _) := l in d = dev /\ on_grid rows cols (r, c).
Lemma nodup_map_inj {A B} (f : A -> B) l : (forall x y, f x = f y -> x = y) -> NoDup l -> NoDup (map f l).
Proof. intros I. induction 1 as [|x l H _ IH]; cbn; constructor; auto. intros K. apply in_map_iff in K as (y & E & K). apply I in E. subst. auto. Qed.
Lemma nodup_app {A} (l l' : list A) : NoDup l -> NoDup l' -> (forall x, In x l -> In x l' -> False) -> NoDup (l ++ l').
Proof. intros H H' D. induction H as [|x l N _ IH]; cbn; [exact H'|]. constructor; [rewrite in_app_iff; intros [K|K]; [auto|eapply D; [left; reflexivity|exact K]]|]. apply IH. intros y Hy. apply D. right. exact Hy. Qed.
Lemma segment_nodup fuel rows cols dev s e noc ls : generate_route_segment fuel rows cols dev s e noc = Ok ls -> NoDup ls.
Proof.
  unfold generate_route_segment. destruct noc.
  - destruct (walk fuel (wrap_up cols) (snd s) (snd e)) as [cs| | | | | |] eqn:E1; try discriminate. cbn [bind].
    destruct (walk fuel (wrap_up rows) (fst s) (fst e)) as [rs| | | | | |] eqn:E2; try discriminate. cbn [bind]. intros E. injection E as <-.
    apply nodup_app; [apply nodup_map_inj; [intros x y E; congruence|eapply walk_nodup; eauto]|apply nodup_map_inj; [intros x y E; congruence|eapply walk_nodup; eauto]|].
    intros x H H'. apply in_map_iff in H as (? & <- & _). apply in_map_iff in H' as (? & K & _). discriminate.
  - destruct (walk fuel (wrap_down rows) (fst s) (fst e)) as [rs| | | | | |] eqn:E1; try discriminate. cbn [bind].
    destruct (walk fuel (wrap_down cols) (snd s) (snd e)) as [cs| | | | | |] eqn:E2; try discriminate. cbn [bind]. intros E. injection E as <-.
    apply nodup_app; [apply nodup_map_inj; [intros x y E; congruence|eapply walk_nodup; eauto]|apply nodup_map_inj; [intros x y E; congruence|eapply walk_nodup; eauto]|].
    intros x H H'. apply in_map_iff in H as (? & <- & _). apply in_map_iff in H' as (? & K & _). discriminate.
Qed.
Lemma segment_range fuel rows cols dev s e noc ls : on_grid rows cols s -> on_grid rows cols e -> generate_route_segment fuel rows cols dev s e noc = Ok ls -> Forall (on_chip rows cols dev) ls.
Proof.
  intros (S1 & S2) (E1' & E2'). unfold generate_route_segment. destruct noc.
  - destruct (walk fuel (wrap_up cols) (snd s) (snd e)) as [cs| | | | | |] eqn:E1; try discriminate. cbn [bind].
    destruct (walk fuel (wrap_up rows) (fst s) (fst e)) as [rs| | | | | |] eqn:E2; try discriminate. cbn [bind]. intros E. injection E as <-.
    apply (walk_range _ _ cols (up_range cols)) in E1; [|exact S2]. apply (walk_range _ _ rows (up_range rows)) in E2; [|exact S1].
    rewrite Forall_forall in *. intros x H. apply in_app_iff in H as [H|H]; apply in_map_iff in H as (y & <- & H); pose proof (E1 y); pose proof (E2 y); unfold on_chip, on_grid; cbn [fst snd]; tauto.
  - destruct (walk fuel (wrap_down rows) (fst s) (fst e)) as [rs| | | | | |] eqn:E1; try discriminate. cbn [bind].
    destruct (walk fuel (wrap_down cols) (snd s) (snd e)) as [cs| | | | | |] eqn:E2; try discriminate. cbn [bind]. intros E. injection E as <-.
    apply (walk_range _ _ rows (down_range rows)) in E1; [|exact S1]. apply (walk_range _ _ cols (down_range cols)) in E2; [|exact S2].
    rewrite Forall_forall in *. intros x H. apply in_app_iff in H as [H|H]; apply in_map_iff in H as (y & <- & H); pose proof (E1 y); pose proof (E2 y); unfold on_chip, on_grid; cbn [fst snd]; tauto.
Qed.

(* what is known of every generated transfer *)
Definition made (t : gen_transfer) : Prop := NoDup (gt_links t) /\ gt_start t + 40 <= gt_end t.
Lemma transfers_made fuel rows cols devices rs : forall id ts, generate_transfers fuel rows cols devices id rs = Ok ts -> Forall made ts.
Proof.
  induction rs as [|r rs IH]; intros id ts; cbn [generate_transfers]; [intros E; injection E as <-; constructor|].
  destruct (generate_transfer fuel rows cols devices id r) as [t| | | | | |] eqn:T; try discriminate. cbn [bind].
  destruct (generate_transfers fuel rows cols devices (id + 1) rs) as [ts'| | | | | |] eqn:TS; try discriminate. cbn [bind]. intros E. injection E as <-. constructor; [|eauto].
  unfold generate_transfer in T. destruct (dr_inter r && (1 <? devices)); [discriminate|].
  destruct (generate_route_segment fuel rows cols (dr_dev r) (dr_src r) (dr_dst r) (dr_noc r)) as [ls| | | | | |] eqn:E; try discriminate. cbn [bind] in T. injection T as <-.
  split; cbn [gt_links gt_start gt_end]; [eapply segment_nodup, E|unfold estimate_transfer_time; lia].
Qed.
Lemma transfers_range fuel rows cols devices rs : Forall (drawn rows cols devices) rs -> forall id ts, generate_transfers fuel rows cols devices id rs = Ok ts ->
  Forall (fun t => 0 <= gt_start t /\ exists dev, 0 <= dev < devices /\ Forall (on_chip rows cols dev) (gt_links t)) ts.
Proof.
  induction 1 as [|r rs D _ IH]; intros id ts; cbn [generate_transfers]; [intros E; injection E as <-; constructor|].
  destruct (generate_transfer fuel rows cols devices id r) as [t| | | | | |] eqn:T; try discriminate. cbn [bind].
  destruct (generate_transfers fuel rows cols devices (id + 1) rs) as [ts'| | | | | |] eqn:TS; try discriminate. cbn [bind]. intros E. injection E as <-. constructor; [|eauto].
  unfold generate_transfer in T. destruct (dr_inter r && (1 <? devices)); [discriminate|].
  destruct (generate_route_segment fuel rows cols (dr_dev r) (dr_src r) (dr_dst r) (dr_noc r)) as [ls| | | | | |] eqn:E; try discriminate. cbn [bind] in T. injection T as <-.
  destruct D as (_ & Hd & Hs & He & _ & Hst). cbn [gt_links gt_start]. split; [exact Hst|]. exists (dr_dev r). split; [exact Hd|]. eapply segment_range; [exact Hs|exact He|exact E].
Qed.

(** * The dictionary of usages *)
Definition usage_of (t : gen_transfer) : usage := mkUsage (gt_start t) (gt_end t) (inject_Z (gt_bytes t) / inject_Z (gt_end t - gt_start t + 1)) (gt_id t).
Definition flat (m : list (plink * list usage)) : list (plink * usage) := flat_map (fun e => map (pair (fst e)) (snd e)) m.
Definition entries (t : gen_transfer) : list (plink * usage) := map (fun l => (l, usage_of t)) (gt_links t).
Lemma add_flat l u : forall m, Permutation (flat (add_usage m l u)) (flat m ++ [(l, u)]).
Proof.
  induction m as [|[k us] m IH]; cbn [add_usage]; [reflexivity|]. destruct (plink_eqb k l) eqn:E.
  - apply plink_eqb_spec in E. subst k. unfold flat. cbn [flat_map fst snd]. rewrite map_app, <- !app_assoc. apply Permutation_app_head. apply Permutation_app_comm.
  - unfold flat in *. cbn [flat_map fst snd]. rewrite <- app_assoc. apply Permutation_app_head, IH.
Qed.
Lemma record_flat t m : made t -> Permutation (flat (record_usage m t)) (flat m ++ entries t).
Proof.
  intros (_ & H). unfold record_usage. replace (gt_end t - gt_start t + 1 <=? 0) with false by lia. cbn [orb]. unfold entries. fold (usage_of t).
  destruct (gt_links t) as [|l ls] eqn:L; [rewrite app_nil_r; reflexivity|]. rewrite <- L. clear L l ls.
  generalize (gt_links t). intros ls. revert m. induction ls as [|l ls IH]; intros m; cbn [fold_left map]; [rewrite app_nil_r; reflexivity|].
  rewrite IH, add_flat, <- app_assoc. reflexivity.
Qed.
Lemma all_flat ts : Forall made ts -> forall m, Permutation (flat (fold_left record_usage ts m)) (flat m ++ flat_map entries ts).
Proof.
  induction 1 as [|t ts H _ IH]; intros m; cbn [fold_left flat_map]; [rewrite app_nil_r; reflexivity|]. rewrite IH, record_flat, <- app_assoc by exact H. reflexivity.
Qed.
Lemma link_bin_flat cpt t m : link_bin cpt t m = map (fun e => (fst e, us_demand (snd e))) (filter (fun e => covers_step cpt t (snd e)) (flat m)).
Proof.
  unfold link_bin, flat. induction m as [|[k us] m IH]; cbn [flat_map fst snd]; [reflexivity|]. rewrite filter_app, map_app, IH. f_equal.
  induction us as [|u us IHu]; cbn [filter map snd]; [reflexivity|]. destruct (covers_step cpt t u); cbn [map fst snd]; rewrite IHu; reflexivity.
Qed.
Lemma transfer_bin_in cpt t m id : In id (transfer_bin cpt t m) <-> exists l u, In (l, u) (flat m) /\ covers_step cpt t u = true /\ us_id u = id.
Proof.
  unfold transfer_bin. rewrite nodup_In, in_flat_map. split.
  - intros ([k us] & H & K). apply in_map_iff in K as (u & <- & K). apply filter_In in K as (K & C). cbn in K. exists k, u. split; [|auto].
    apply in_flat_map. exists (k, us). split; [exact H|]. cbn. apply in_map, K.
  - intros (l & u & H & C & <-). apply in_flat_map in H as ([k us] & H & K). cbn in K. apply in_map_iff in K as (u' & E & K). injection E as <- <-.
    exists (k, us). split; [exact H|]. apply in_map. apply filter_In. auto.
Qed.
Lemma covers_under cpt k t : 0 < cpt -> made t -> covers_step cpt k (usage_of t) = true <-> under_way (k * cpt) ((k + 1) * cpt) t.
Proof.
  intros Hc (_ & H). unfold covers_step, under_way. cbn [us_start us_end usage_of]. rewrite andb_true_iff, !Z.leb_le. split.
  - intros (A & B). exists (Z.max (gt_start t) (k * cpt)).
    assert (gt_start t < (k + 1) * cpt). { pose proof (Z.mul_succ_div_gt (gt_start t) cpt Hc). nia. }
    assert (k * cpt <= gt_end t - 1). { pose proof (Z.mul_div_le (gt_end t - 1) cpt Hc). nia. } lia.
  - intros (c & A & B). split.
    + apply Z.div_le_upper_bound in A || idtac. assert (gt_start t / cpt <= c / cpt) by (apply Z.div_le_mono; lia). assert (c / cpt < k + 1) by (apply Z.div_lt_upper_bound; lia). lia.
    + apply Z.div_le_lower_bound; lia.
Qed.

(** * Demands *)
Open Scope Q_scope.
Definition hits (l : plink) (e : plink * Q) : bool := plink_eqb (fst e) l.
Definition lookup (m : list (plink * Q)) (l : plink) : Q := match find (hits l) m with Some e => snd e | None => 0 end.
Definition total (l : plink) (bin : list (plink * Q)) : Q := fold_right (fun e q => if hits l e then snd e + q else q) 0 bin.
Lemma lookup_add l k q : forall m, lookup (add_demand m k q) l == lookup m l + (if plink_eqb k l then q else 0).
Proof.
  unfold lookup. induction m as [|[a x] m IH]; cbn [add_demand find].
  - unfold hits. cbn [fst]. destruct (plink_eqb k l); cbn [snd]; lra.
  - destruct (plink_eqb a k) eqn:E.
    + apply plink_eqb_spec in E. subst a. cbn [find]. unfold hits at 1 3. cbn [fst]. destruct (plink_eqb k l); cbn [snd]; [reflexivity|]. lra.
    + cbn [find]. unfold hits at 1 3. cbn [fst]. destruct (plink_eqb a l) eqn:E2; cbn [snd]; [|exact IH].
      apply plink_eqb_spec in E2. subst a. rewrite plink_eqb_no; [lra|]. intros ->. rewrite plink_eqb_refl in E. discriminate.
Qed.
Lemma lookup_aggregate l bin : forall m, lookup (fold_left (fun m e => add_demand m (fst e) (snd e)) bin m) l == lookup m l + total l bin.
Proof.
  induction bin as [|[k q] bin IH]; intros m; cbn [fold_left total fold_right]; [lra|]. rewrite IH, lookup_add. cbn [fst snd]. fold (total l bin). unfold hits. cbn [fst].
  destruct (plink_eqb k l); lra.
Qed.
Lemma total_perm l a b : Permutation a b -> total l a == total l b.
Proof.
  induction 1 as [|[k q] a b _ IH|[k q] [k' q'] a|a b c _ IH _ IH']; cbn [total fold_right]; try reflexivity.
  - fold (total l a). fold (total l b). destruct (hits l (k, q)); [rewrite IH|]; [reflexivity|exact IH].
  - destruct (hits l (k, q)), (hits l (k', q')); cbn [snd]; fold (total l a); lra.
  - rewrite IH, IH'. reflexivity.
Qed.
Lemma total_app l a b : total l (a ++ b) == total l a + total l b.
Proof. induction a as [|e a IH]; [symmetry; apply Qplus_0_l|]. cbn [app total fold_right]. fold (total l (a ++ b)) (total l a) (total l b). destruct (hits l e); rewrite IH; [apply Qplus_assoc|reflexivity]. Qed.
Lemma total_one l t : NoDup (gt_links t) -> total l (map (fun e => (fst e, us_demand (snd e))) (entries t)) == (if in_dec plink_dec l (gt_links t) then share t else 0).
Proof.
  intros N. unfold entries. rewrite map_map. cbn [fst snd usage_of us_demand]. fold (share t). generalize (share t). intros q.
  destruct in_dec as [I|I].
  - induction N as [|k ls H _ IH]; [destruct I|]. cbn [map total fold_right]. unfold hits at 1. cbn [fst snd]. fold (total l (map (fun x => (x, q)) ls)). destruct I as [->|I].
    + rewrite plink_eqb_refl. assert (E : total l (map (fun x => (x, q)) ls) == 0); [|rewrite E; lra].
      clear -H. induction ls as [|k ls IH]; cbn [map total fold_right]; [reflexivity|]. fold (total l (map (fun x => (x, q)) ls)). unfold hits. cbn [fst]. rewrite plink_eqb_no by (intros ->; apply H; left; reflexivity). apply IH. intros K. apply H. right. exact K.
    + rewrite plink_eqb_no by (intros ->; auto). apply IH, I.
  - clear N. induction (gt_links t) as [|k ls IH]; cbn [map total fold_right]; [reflexivity|]. fold (total l (map (fun x => (x, q)) ls)). unfold hits. cbn [fst]. rewrite plink_eqb_no by (intros ->; apply I; left; reflexivity). apply IH. intros K. apply I. right. exact K.
Qed.

Lemma bin_ok ts cpt k l : (0 < cpt)%Z -> Forall made ts -> exists q, link_sum l (k * cpt) ((k + 1) * cpt) ts q /\
  total l (map (fun e => (fst e, us_demand (snd e))) (filter (fun e => covers_step cpt k (snd e)) (flat_map entries ts))) == q.
Proof.
  intros Hc. induction 1 as [|t ts M _ (q & IH & E)]; [exists 0; split; [constructor|reflexivity]|]. cbn [flat_map]. rewrite filter_app, map_app.
  assert (F : filter (fun e => covers_step cpt k (snd e)) (entries t) = if covers_step cpt k (usage_of t) then entries t else []).
  { unfold entries. induction (gt_links t) as [|x ls IHl]; cbn [map filter snd]; [destruct (covers_step cpt k (usage_of t)); reflexivity|]. rewrite IHl. destruct (covers_step cpt k (usage_of t)); reflexivity. }
  rewrite F. clear F. pose proof (covers_under cpt k t Hc M) as C. destruct (covers_step cpt k (usage_of t)).
  - pose proof (total_one l t (proj1 M)) as T. destruct in_dec as [I|I].
    + exists (share t + q). split; [eapply ls_use; [exact I|tauto|exact IH|reflexivity]|]. rewrite total_app, T, E. reflexivity.
    + exists q. split; [apply ls_skip; [tauto|exact IH]|]. rewrite total_app, T, E. ring.
  - exists q. split; [apply ls_skip; [|exact IH]|]. { intros (_ & U). destruct C as (_ & C). specialize (C U). discriminate. } rewrite total_app, E. cbn [map total fold_right]. ring.
Qed.
Lemma filter_perm {A} (f : A -> bool) a b : Permutation a b -> Permutation (filter f a) (filter f b).
Proof.
  induction 1 as [|x a b H IH|x y a|a b c _ IH _ IH']; cbn [filter]; [reflexivity| | |etransitivity; eauto].
  - destruct (f x); [apply perm_skip|]; exact IH.
  - destruct (f x), (f y); [apply perm_swap|reflexivity|reflexivity|reflexivity].
Qed.
Lemma step_demand rows cols cpt ts k l : (0 < cpt)%Z -> Forall made ts ->
  exists q, link_sum l (k * cpt) ((k + 1) * cpt) ts q /\ demand_of (generate_step rows cols cpt (fold_left record_usage ts []) k) l == q.
Proof.
  intros Hc M. destruct (bin_ok ts cpt k l Hc M) as (q & L & E). exists q. split; [exact L|]. unfold demand_of, generate_step. cbn [gs_demands].
  change (lookup (aggregate (link_bin cpt k (fold_left record_usage ts []))) l == q). unfold aggregate. rewrite lookup_aggregate. unfold lookup at 1. cbn [find]. rewrite link_bin_flat, <- E, Qplus_0_l.
  apply total_perm, Permutation_map, filter_perm. apply (all_flat ts M []).
Qed.
Lemma step_active rows cols cpt ts k id : (0 < cpt)%Z -> Forall made ts ->
  In id (gs_active (generate_step rows cols cpt (fold_left record_usage ts []) k)) <-> exists t, In t ts /\ gt_id t = id /\ gt_links t <> [] /\ under_way (k * cpt) ((k + 1) * cpt) t.
Proof.
  intros Hc M. unfold generate_step. cbn [gs_active]. rewrite transfer_bin_in. pose proof (all_flat ts M []) as P. cbn [flat flat_map app] in P. rewrite Forall_forall in M. split.
  - intros (l & u & H & C & <-). apply (Permutation_in _ P), in_flat_map in H as (t & H & K). apply in_map_iff in K as (l' & E & K). injection E as -> <-. exists t. split; [exact H|]. split; [reflexivity|].
    split; [intros N; rewrite N in K; destruct K|]. apply covers_under; auto.
  - intros (t & H & <- & N & U). destruct (gt_links t) as [|l ls] eqn:L; [congruence|]. exists l, (usage_of t). split; [|split; [apply covers_under; auto|reflexivity]].
    apply (Permutation_in _ (Permutation_sym P)), in_flat_map. exists t. split; [exact H|]. unfold entries. rewrite L. left. reflexivity.
Qed.

(** * Which links are listed; the utilisation *)
Definition keys {B} (m : list (plink * B)) : list plink := map fst m.
Lemma add_keys m l q : (In l (keys m) -> keys (add_demand m l q) = keys m) /\ (~ In l (keys m) -> keys (add_demand m l q) = keys m ++ [l]).
Proof.
  unfold keys. induction m as [|[k x] m (IH1 & IH2)]; cbn [add_demand map fst]; [split; [intros []|reflexivity]|]. destruct (plink_eqb k l) eqn:E.
  - apply plink_eqb_spec in E. subst. split; [reflexivity|]. intros N. destruct N. left. reflexivity.
  - assert (k <> l) by (intros ->; rewrite plink_eqb_refl in E; discriminate). cbn [map fst]. split; intros H0; [f_equal; apply IH1; destruct H0; [contradiction|assumption]|cbn; f_equal; apply IH2; intros K; apply H0; right; exact K].
Qed.
Lemma aggregate_keys bin : forall m, NoDup (keys m) -> NoDup (keys (fold_left (fun m e => add_demand m (fst e) (snd e)) bin m)) /\
  forall l, In l (keys (fold_left (fun m e => add_demand m (fst e) (snd e)) bin m)) <-> In l (keys m) \/ In l (keys bin).
Proof.
  induction bin as [|[k q] bin IH]; intros m N; cbn [fold_left fst snd]; [split; [exact N|cbn; tauto]|].
  destruct (add_keys m k q) as (A & B). destruct (in_dec plink_dec k (keys m)) as [I|I].
  - rewrite <- (A I) in N. destruct (IH _ N) as (N' & K). split; [exact N'|]. intros l. rewrite K, (A I). cbn [keys map fst]. fold (keys bin). cbn [In]. split; [tauto|]. intros [H|[->|H]]; auto.
  - assert (N1 : NoDup (keys (add_demand m k q))). { rewrite (B I). apply nodup_app; [exact N|constructor; [intros []|constructor]|]. intros x H [->|[]]. contradiction. }
    destruct (IH _ N1) as (N' & K). split; [exact N'|]. intros l. rewrite K, (B I), in_app_iff. cbn [keys map fst]. fold (keys bin). cbn [In]. tauto.
Qed.
Lemma bin_keys cpt ts k l : (0 < cpt)%Z -> Forall made ts -> In l (keys (link_bin cpt k (fold_left record_usage ts []))) <-> exists t, In t ts /\ In l (gt_links t) /\ under_way (k * cpt) ((k + 1) * cpt) t.
Proof.
  intros Hc M. pose proof (all_flat ts M []) as P. cbn [flat flat_map app] in P. unfold keys. rewrite link_bin_flat, map_map. cbn [fst]. rewrite in_map_iff. rewrite Forall_forall in M. split.
  - intros ([l' u] & E & H). cbn in E. subst l'. apply filter_In in H as (H & C). apply (Permutation_in _ P), in_flat_map in H as (t & H & K). apply in_map_iff in K as (l' & E & K). injection E as -> <-.
    exists t. split; [exact H|]. split; [exact K|]. apply covers_under; auto.
  - intros (t & H & K & U). exists (l, usage_of t). split; [reflexivity|]. apply filter_In. split; [|apply covers_under; auto].
    apply (Permutation_in _ (Permutation_sym P)), in_flat_map. exists t. split; [exact H|]. unfold entries. apply in_map_iff. exists l. auto.
Qed.
Lemma step_listed rows cols cpt ts k : (0 < cpt)%Z -> Forall made ts -> let s := generate_step rows cols cpt (fold_left record_usage ts []) k in
  NoDup (map fst (gs_demands s)) /\ forall l, In l (map fst (gs_demands s)) <-> exists t, In t ts /\ In l (gt_links t) /\ under_way (k * cpt) ((k + 1) * cpt) t.
Proof.
  intros Hc M s. unfold s, generate_step. cbn [gs_demands]. unfold aggregate. destruct (aggregate_keys (link_bin cpt k (fold_left record_usage ts [])) [] (NoDup_nil _)) as (N & K).
  split; [exact N|]. intros l. change (map fst (A := plink * Q)) with (@keys Q). rewrite K. rewrite <- bin_keys by assumption. cbn [keys map In]. tauto.
Qed.

(** * Bound of the utilisation *)
Definition chip_links (rows cols : Z) (types : list link_type) (dev : Z) : list plink :=
  flat_map (fun r => flat_map (fun c => map (fun t => (dev, r, c, t)) types) (zrange 0 (cols - 1))) (zrange 0 (rows - 1)).
Definition all_links (devices rows cols : Z) (types : list link_type) : list plink := flat_map (chip_links rows cols types) (zrange 0 (devices - 1)).
Lemma flat_map_len {A B} (f : A -> list B) n l : (forall x, List.length (f x) = n) -> List.length (flat_map f l) = (List.length l * n)%nat.
Proof. intros H. induction l as [|x l IH]; cbn [flat_map]; [reflexivity|]. rewrite app_length, H, IH. reflexivity. Qed.
Lemma all_links_len devices rows cols types : List.length (all_links devices rows cols types) = (Z.to_nat devices * (Z.to_nat rows * (Z.to_nat cols * List.length types)))%nat.
Proof.
  assert (L : forall n, List.length (zrange 0 (n - 1)) = Z.to_nat n) by (intros n; unfold zrange; rewrite UtilProofs.zseq_length; f_equal; lia).
  unfold all_links. erewrite flat_map_len; [rewrite L; reflexivity|]. intros x. unfold chip_links. erewrite flat_map_len; [rewrite L; reflexivity|]. intros y. erewrite flat_map_len; [rewrite L; reflexivity|].
  intros z. apply map_length.
Qed.
Lemma all_links_in devices rows cols types dev r c t : (0 <= dev < devices)%Z -> on_grid rows cols (r, c) -> In t types -> In (dev, r, c, t) (all_links devices rows cols types).
Proof.
  intros Hd (Hr & Hc) Ht. cbn in Hr, Hc. apply in_flat_map. exists dev. split; [apply UtilProofs.zrange_in; lia|]. apply in_flat_map. exists r. split; [apply UtilProofs.zrange_in; lia|].
  apply in_flat_map. exists c. split; [apply UtilProofs.zrange_in; lia|]. apply in_map, Ht.
Qed.
Lemma qsum_le f b (l : list (plink * Q)) : (forall x, f x <= b) -> qsum (map f l) <= b * inject_Z (Z.of_nat (List.length l)).
Proof.
  intros H. unfold qsum. assert (G : forall a, fold_left Qplus (map f l) a <= a + b * inject_Z (Z.of_nat (List.length l))).
  { induction l as [|x l IH]; intros a; cbn [map fold_left List.length]; [change (inject_Z (Z.of_nat 0)) with 0; lra|].
    eapply Qle_trans; [apply IH|]. rewrite Nat2Z.inj_succ, <- Z.add_1_r, inject_Z_plus. specialize (H x). change (inject_Z 1) with 1. nra. }
  eapply Qle_trans; [apply G|]. lra.
Qed.
Definition types_of (noc : noc_type) : list link_type := match noc with NOC0 => [NOC0_EAST; NOC0_SOUTH] | NOC1 => [NOC1_NORTH; NOC1_WEST] end.
Lemma listed_few rows cols devices cpt ts k : (0 < cpt)%Z -> Forall made ts -> (0 < rows)%Z -> (0 < cols)%Z -> (0 <= devices)%Z ->
  Forall (fun t => (0 <= gt_start t)%Z /\ exists dev, (0 <= dev < devices)%Z /\ Forall (on_chip rows cols dev) (gt_links t)) ts ->
  let s := generate_step rows cols cpt (fold_left record_usage ts []) k in
  (Z.of_nat (List.length (gs_demands s)) <= 4 * (devices * (rows * cols)))%Z /\
  forall noc, (Z.of_nat (List.length (filter (fun e => of_noc noc (fst e)) (gs_demands s))) <= 2 * (devices * (rows * cols)))%Z.
Proof.
  intros Hc M Hr Hcl Hd R s. destruct (step_listed rows cols cpt ts k Hc M) as (N & K). fold s in N, K. rewrite Forall_forall in R.
  assert (I : forall d r c t, In (d, r, c, t) (map fst (gs_demands s)) -> (0 <= d < devices)%Z /\ on_grid rows cols (r, c)).
  { intros d r c t H. apply K in H as (x & H & L & _). destruct (R x H) as (_ & dev & D & F). rewrite Forall_forall in F. destruct (F _ L) as (-> & G). auto. }
  split.
  - rewrite <- (map_length fst). assert (LL : (List.length (map fst (gs_demands s)) <= List.length (all_links devices rows cols [NOC0_EAST; NOC0_SOUTH; NOC1_NORTH; NOC1_WEST]))%nat).
    { apply NoDup_incl_length; [exact N|]. intros [[[d r] c] t] H. destruct (I _ _ _ _ H). apply all_links_in; auto. destruct t; cbn; auto. }
    rewrite all_links_len in LL. cbn [List.length] in LL. nia.
  - intros noc. rewrite <- (map_length fst).
    assert (LL : (List.length (map fst (filter (fun e => of_noc noc (fst e)) (gs_demands s))) <= List.length (all_links devices rows cols (types_of noc)))%nat).
    { apply NoDup_incl_length.
      - clear -N. induction (gs_demands s) as [|e l IH]; cbn [filter map]; [constructor|]. inversion N as [|? ? N1 N2]; subst. destruct (of_noc noc (fst e)); [|auto]. cbn [map]. constructor; [|auto].
        intros H. apply N1. apply in_map_iff in H as (y & <- & H). apply filter_In in H as (H & _). apply in_map, H.
      - intros [[[d r] c] t] H. apply in_map_iff in H as ([l q] & E & H). cbn in E. subst l. apply filter_In in H as (H & T). cbn [fst] in T.
        destruct (I d r c t) as (D & G). { apply in_map_iff. exists (d, r, c, t, q). auto. } apply all_links_in; auto. destruct noc, t; cbn in T |- *; auto; discriminate. }
    rewrite all_links_len in LL. replace (List.length (types_of noc)) with 2%nat in LL by (destruct noc; reflexivity). nia.
Qed.
Lemma step_util rows cols devices cpt ts k : (0 < cpt)%Z -> Forall made ts -> (0 < rows)%Z -> (0 < cols)%Z -> (0 <= devices)%Z ->
  Forall (fun t => (0 <= gt_start t)%Z /\ exists dev, (0 <= dev < devices)%Z /\ Forall (on_chip rows cols dev) (gt_links t)) ts ->
  let s := generate_step rows cols cpt (fold_left record_usage ts []) k in
  gs_util s <= 50 * inject_Z devices /\ forall noc, gs_noc_util s noc <= 50 * inject_Z devices.
Proof.
  intros Hc M Hr Hcl Hd R s. destruct (listed_few rows cols devices cpt ts k Hc M Hr Hcl Hd R) as (L1 & L2). fold s in L1, L2.
  assert (P : 0 < inject_Z (rows * cols)) by (change 0 with (inject_Z 0); rewrite <- Zlt_Qlt; nia).
  split.
  - unfold s, generate_step. cbn [gs_util]. change (aggregate (link_bin cpt k (fold_left record_usage ts []))) with (gs_demands s). unfold num_links_per_noc. rewrite inject_Z_mult. apply Qle_shift_div_r; [change (inject_Z 4) with 4; lra|].
    pose proof (qsum_le (fun e => Qmin max_link_bw (snd e)) max_link_bw (gs_demands s) (fun x => Q.le_min_l _ _)) as B.
    rewrite Zle_Qle, !inject_Z_mult in L1. rewrite inject_Z_mult. change (inject_Z 4) with 4 in *. revert B L1. generalize (qsum (map (fun e : plink * Q => Qmin max_link_bw (snd e)) (gs_demands s))). generalize (inject_Z (Z.of_nat (List.length (gs_demands s)))).
    intros n S B L1. unfold max_link_bw in *. setoid_replace (100 / (281 # 10)) with (1000 # 281) by reflexivity.
    setoid_replace (50 * inject_Z devices * (2 * (inject_Z rows * inject_Z cols * 4))) with (400 * (inject_Z devices * (inject_Z rows * inject_Z cols))) by ring. lra.
  - intros noc. specialize (L2 noc). unfold s, generate_step. cbn [gs_noc_util]. change (aggregate (link_bin cpt k (fold_left record_usage ts []))) with (gs_demands s). unfold num_links_per_noc. rewrite inject_Z_mult. apply Qle_shift_div_r; [change (inject_Z 4) with 4; lra|].
    pose proof (qsum_le (fun e => Qmin 100 (100 / max_link_bw * snd e)) 100 (filter (fun e => of_noc noc (fst e)) (gs_demands s)) (fun x => Q.le_min_l _ _)) as B.
    rewrite Zle_Qle, !inject_Z_mult in L2. rewrite inject_Z_mult. change (inject_Z 4) with 4 in *. change (inject_Z 2) with 2 in *.
    setoid_replace (50 * inject_Z devices * (inject_Z rows * inject_Z cols * 4)) with (200 * (inject_Z devices * (inject_Z rows * inject_Z cols))) by ring. lra.
Qed.

(** * The whole file *)
Open Scope Z_scope.
Lemma generate_inv fuel rows cols devices cpt rs ts ss : generate fuel rows cols devices cpt rs = Ok (ts, ss) ->
  generate_transfers fuel rows cols devices 0 rs = Ok ts /\ ts <> [] /\ ss = map (generate_step rows cols cpt (fold_left record_usage ts [])) (zrange 0 (num_timesteps cpt ts - 1)).
Proof.
  unfold generate. destruct (generate_transfers fuel rows cols devices 0 rs) as [[|t l]| | | | | |] eqn:E; try discriminate. cbn [bind]. intros H. injection H as <- <-. split; [reflexivity|]. split; [discriminate|reflexivity].
Qed.
Lemma nth_zseq : forall n z k, (k < n)%nat -> nth_error (zseq z n) k = Some (z + Z.of_nat k).
Proof. induction n as [|n IH]; intros z [|k] H; cbn [zseq nth_error]; try lia; [f_equal; lia|]. rewrite IH by lia. f_equal. lia. Qed.
Lemma steps_nth fuel rows cols devices cpt rs ts ss k s : generate fuel rows cols devices cpt rs = Ok (ts, ss) -> nth_error ss k = Some s ->
  s = generate_step rows cols cpt (fold_left record_usage ts []) (Z.of_nat k).
Proof.
  intros H N. apply generate_inv in H as (_ & _ & ->). unfold zrange in N. rewrite nth_error_map in N. destruct (nth_error (zseq 0 _) k) as [z|] eqn:Z; [|discriminate]. cbn in N. injection N as <-.
  rewrite nth_zseq in Z; [injection Z as <-; reflexivity|]. assert (X : nth_error (zseq 0 (Z.to_nat (num_timesteps cpt ts - 1 - 0 + 1))) k <> None) by congruence. apply nth_error_Some in X. rewrite UtilProofs.zseq_length in X. exact X.
Qed.
Lemma steps_in fuel rows cols devices cpt rs ts ss s : generate fuel rows cols devices cpt rs = Ok (ts, ss) -> In s ss ->
  Forall made ts /\ exists k, s = generate_step rows cols cpt (fold_left record_usage ts []) (Z.of_nat k).
Proof.
  intros H I. apply In_nth_error in I as [k I]. split; [|exists k; eapply steps_nth; eauto]. apply generate_inv in H as (H & _). eapply transfers_made, H.
Qed.
Lemma max_ge l : forall a, a <= fold_left Z.max l a /\ forall x, In x l -> x <= fold_left Z.max l a.
Proof. induction l as [|y l IH]; intros a; cbn [fold_left]; [split; [lia|intros x []]|]. destruct (IH (Z.max a y)) as (A & B). split; [lia|]. intros x [<-|H]; [lia|auto]. Qed.

Lemma file_steps fuel rows cols devices cpt rs ts ss : generate fuel rows cols devices cpt rs = Ok (ts, ss) ->
  forall k s, nth_error ss k = Some s -> gs_start s = Z.of_nat k * cpt /\ gs_end s = gs_start s + cpt.
Proof. intros H k s N. rewrite (steps_nth _ _ _ _ _ _ _ _ _ _ H N). cbn [gs_start gs_end generate_step]. split; [reflexivity|ring]. Qed.
Lemma file_active fuel rows cols devices cpt rs ts ss : generate fuel rows cols devices cpt rs = Ok (ts, ss) -> 0 < cpt ->
  forall s, In s ss -> NoDup (gs_active s) /\
    forall id, In id (gs_active s) <-> exists t, In t ts /\ gt_id t = id /\ gt_links t <> [] /\ under_way (gs_start s) (gs_end s) t.
Proof.
  intros H Hc s I. destruct (steps_in _ _ _ _ _ _ _ _ _ H I) as (M & k & ->). split; [apply NoDup_nodup|]. intros id. apply (step_active rows cols cpt ts (Z.of_nat k) id Hc M).
Qed.
Lemma file_demand fuel rows cols devices cpt rs ts ss : generate fuel rows cols devices cpt rs = Ok (ts, ss) -> 0 < cpt ->
  forall s, In s ss -> NoDup (map fst (gs_demands s)) /\
    (forall l, In l (map fst (gs_demands s)) <-> exists t, In t ts /\ In l (gt_links t) /\ under_way (gs_start s) (gs_end s) t) /\
    forall l, exists q, link_sum l (gs_start s) (gs_end s) ts q /\ (demand_of s l == q)%Q.
Proof.
  intros H Hc s I. destruct (steps_in _ _ _ _ _ _ _ _ _ H I) as (M & k & ->). destruct (step_listed rows cols cpt ts (Z.of_nat k) Hc M) as (N & K). split; [exact N|]. split; [exact K|].
  intros l. apply (step_demand rows cols cpt ts (Z.of_nat k) l Hc M).
Qed.
Lemma file_covers fuel rows cols devices cpt rs ts ss : generate fuel rows cols devices cpt rs = Ok (ts, ss) -> 0 < cpt ->
  forall t c, In t ts -> 0 <= c -> gt_start t <= c < gt_end t -> exists s, In s ss /\ gs_start s <= c < gs_end s /\ (gt_links t <> [] -> In (gt_id t) (gs_active s)).
Proof.
  intros H Hc t c I P C. pose proof (generate_inv _ _ _ _ _ _ _ _ H) as (T & _ & E). pose proof (transfers_made _ _ _ _ _ _ _ T) as M.
  exists (generate_step rows cols cpt (fold_left record_usage ts []) (c / cpt)).
  pose proof (Z.mul_div_le c cpt Hc). pose proof (Z.mul_succ_div_gt c cpt Hc). assert (0 <= c / cpt) by (apply Z.div_pos; lia).
  assert (G : c < max_cycle ts). { unfold max_cycle. destruct (max_ge (map gt_end ts) 0) as (_ & X). specialize (X (gt_end t) (in_map _ _ _ I)). lia. }
  split; [|split].
  - rewrite E. apply in_map. apply UtilProofs.zrange_in. split; [lia|]. unfold num_timesteps. assert (c / cpt + 1 <= (max_cycle ts + cpt + cpt - 1) / cpt); [|lia]. apply Z.div_le_lower_bound; [lia|]. nia.
  - cbn [gs_start gs_end generate_step]. nia.
  - intros N. apply step_active; auto. exists t. repeat split; auto. exists c. nia.
Qed.
Lemma file_util fuel rows cols devices cpt rs ts ss : generate fuel rows cols devices cpt rs = Ok (ts, ss) -> 0 < cpt -> Forall (drawn rows cols devices) rs ->
  forall s, In s ss -> (gs_util s <= 50 * inject_Z devices)%Q /\ forall noc, (gs_noc_util s noc <= 50 * inject_Z devices)%Q.
Proof.
  intros H Hc D s I. destruct (steps_in _ _ _ _ _ _ _ _ _ H I) as (M & k & ->). pose proof (generate_inv _ _ _ _ _ _ _ _ H) as (T & NE & _).
  destruct rs as [|r rs]; [cbn in T; injection T as <-; congruence|]. inversion D as [|? ? (_ & Dd & (D1 & D2) & _) _]; subst. apply step_util; auto; try lia. eapply transfers_range; [exact D|exact T].
Qed.
