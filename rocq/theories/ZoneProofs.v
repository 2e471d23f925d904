(* Lemmas: the zones in the timeline files are the zone tree of the processor (C64). *)
From Coq Require Import ZArith Arith Lia Bool String List Permutation.
From Verif Require Import Base Arith Util Device Workload Rates Stats Engine SpecWorkload SpecEngine Timeline TrackerProofs WorkloadProofs SpecUtil SpecTimeline UtilProofs TimelineSplit SpecZones.
Import ListNotations.
Local Open Scope list_scope.
Open Scope Z_scope.

(** * The document as a stack of open zones *)
Definition frame : Type := list zjson * (zone * Z).
Fixpoint plug (ctx : list frame) (c : list zjson) : list zjson :=
  match ctx with [] => c | (lft, (z, _)) :: rest => lft ++ [ZJ (z_ts z) None None (plug rest c)] end.
Definition path (ctx : list frame) : zpath := map (fun f => List.length (fst f)) ctx.

Lemma nth_last {X} (l : list X) x : nth_error (l ++ [x]) (List.length l) = Some x.
Proof. rewrite nth_error_app2 by auto. rewrite Nat.sub_diag. reflexivity. Qed.
Lemma upd_last {X} (l : list X) x y : upd (l ++ [x]) (List.length l) y = l ++ [y].
Proof. induction l as [|a l IH]; simpl; auto. f_equal. exact IH. Qed.
Lemma at_path_plug ctx f c : at_path (path ctx) f (plug ctx c) = let! c' := f c in Ok (plug ctx c').
Proof.
  induction ctx as [|[lft [z k]] rest IH]; simpl.
  - destruct (f c); reflexivity.
  - rewrite nth_last. cbn [zj_zones zj_start zj_id zj_end]. rewrite IH. destruct (f c); simpl; auto. rewrite upd_last. reflexivity.
Qed.
Lemma path_length_plug ctx c : path_length (path ctx) (plug ctx c) = Ok (List.length c).
Proof.
  unfold path_length. induction ctx as [|[lft [z k]] rest IH]; simpl; auto. rewrite nth_last. cbn [zj_zones]. exact IH.
Qed.
Definition start_at (i : nat) := fix go (q : list nat) (l : list zjson) {struct q} : Z :=
  match q with
  | [] => match nth_error l i with Some j => zj_start j | None => 0 end
  | k :: q' => match nth_error l k with Some j => go q' (zj_zones j) | None => 0 end
  end.
Lemma start_at_plug ctx c j : start_at (List.length c) (path ctx) (plug ctx (c ++ [j])) = zj_start j.
Proof.
  induction ctx as [|[lft [z k]] rest IH]; simpl.
  - rewrite nth_last. reflexivity.
  - rewrite nth_last. cbn [zj_zones]. exact IH.
Qed.
Lemma path_app a b : path (a ++ b) = path a ++ path b. Proof. apply map_app. Qed.
Lemma plug_app a b c : plug (a ++ b) c = plug a (plug b c).
Proof. induction a as [|[lft [z k]] a IH]; simpl; auto. rewrite IH. reflexivity. Qed.
Lemma at_zone_plug ctx lft z k c f : at_zone (path (ctx ++ [(lft, (z, k))])) f (plug (ctx ++ [(lft, (z, k))]) c) =
  Ok (plug ctx (lft ++ [f (ZJ (z_ts z) None None c)])).
Proof.
  unfold at_zone. rewrite path_app, rev_app_distr. cbn [path map rev app fst]. rewrite rev_involutive, plug_app, at_path_plug.
  cbn [plug]. rewrite nth_last, upd_last. reflexivity.
Qed.

(** * Pointers *)
Lemma zone_eqb_eq a b : zone_eqb a b = true <-> a = b.
Proof.
  unfold zone_eqb. destruct a as [t n p], b as [t' n' p']. cbn [z_ts z_name z_phase]. rewrite !andb_true_iff, Z.eqb_eq, String.eqb_eq.
  destruct p, p'; intuition congruence.
Qed.
Lemma zp_get_set m z p z' : zp_get (zp_set m z p) z' = if zone_eqb z z' then Some p else zp_get m z'.
Proof.
  induction m as [|[z0 p0] m IH]; simpl.
  - destruct (zone_eqb z z'); reflexivity.
  - destruct (zone_eqb z0 z) eqn:E; simpl.
    + apply zone_eqb_eq in E. subst z0. destruct (zone_eqb z z'); reflexivity.
    + rewrite IH. destruct (zone_eqb z0 z') eqn:E2; auto. apply zone_eqb_eq in E2. subst z0.
      destruct (zone_eqb z z') eqn:E3; auto. apply zone_eqb_eq in E3. subst z. rewrite (proj2 (zone_eqb_eq z' z') eq_refl) in E. discriminate.
Qed.

Lemma occ_snoc n m l : occurrences n (l ++ [m]) = occurrences n l + (if String.eqb m n then 1 else 0).
Proof.
  unfold occurrences. rewrite count_occ_app. cbn [count_occ]. destruct (string_dec m n) as [->|N].
  - rewrite String.eqb_refl. lia.
  - rewrite (proj2 (String.eqb_neq m n) N). lia.
Qed.

(** * The walk *)
Definition pointed (ptrs : zptrs) (ctx : list frame) : Prop := forall pre f post, ctx = pre ++ f :: post -> zp_get ptrs (fst (snd f)) = Some (path (pre ++ [f])).
Definition zinv (ctx : list frame) (c : list zjson) (seen : list string) (rest : list zone) (st : zstate) : Prop :=
  zs_root st = plug ctx c /\ zi_enclosing (zs_it st) = map snd ctx /\ skipn (zi_index (zs_it st)) (zi_list (zs_it st)) = rest /\
  (forall k, count_get (zi_counts (zs_it st)) k = occurrences k seen) /\ pointed (zs_ptrs st) ctx.

Lemma skipn_nth {X} (l : list X) : forall i x rest, skipn i l = x :: rest -> nth_error l i = Some x /\ skipn (S i) l = rest.
Proof.
  induction l as [|a l IH]; intros [|i] x rest E; cbn [skipn] in E; try discriminate.
  - injection E as -> ->. auto.
  - apply IH in E. exact E.
Qed.
Lemma snoc_cases {X} (l : list X) : l = [] \/ exists l' x, l = l' ++ [x].
Proof. destruct l as [|a l]; auto. right. destruct (@exists_last _ (a :: l)) as (l' & x & E); [discriminate|]. eauto. Qed.
Lemma split_snoc {X} (ctx : list X) fr : forall pre f post, ctx ++ [fr] = pre ++ f :: post ->
  (post = [] /\ pre = ctx /\ f = fr) \/ (exists post', post = post' ++ [fr] /\ ctx = pre ++ f :: post').
Proof.
  intros pre f post E. destruct (snoc_cases post) as [->|(post' & y & ->)].
  - change (pre ++ [f]) with (pre ++ [f]) in E. apply app_inj_tail in E. destruct E as [-> ->]. auto.
  - right. exists post'. replace (pre ++ f :: post' ++ [y]) with ((pre ++ f :: post') ++ [y]) in E by (rewrite <- app_assoc; reflexivity).
    apply app_inj_tail in E. destruct E as [-> ->]. auto.
Qed.

Lemma last_enclosing_map it : last_enclosing it = match rev (zi_enclosing it) with [] => None | x :: _ => Some x end.
Proof. reflexivity. Qed.
Lemma parent_pointer ctx c seen rest st : zinv ctx c seen rest st ->
  match last_enclosing (zs_it st) with None => Ok [] | Some (p, _) => zptr (zs_ptrs st) p end = Ok (path ctx).
Proof.
  intros (_ & Henc & _ & _ & Hp). rewrite last_enclosing_map, Henc. destruct (snoc_cases ctx) as [->|(ctx' & f & ->)]; auto.
  rewrite map_app, rev_app_distr. destruct f as [lft [z k]]. cbn [map rev app snd]. unfold zptr.
  rewrite (Hp ctx' (lft, (z, k)) [] eq_refl : zp_get (zs_ptrs st) z = _). reflexivity.
Qed.

Lemma start_step r ctx c seen rest st z : z_phase z = ZONE_START -> zinv ctx c seen (z :: rest) st ->
  (forall f, In f ctx -> fst (snd f) <> z) ->
  exists st', zone_step r st z = Ok st' /\ zinv (ctx ++ [(c, (z, occurrences (z_name z) seen))]) [] (seen ++ [z_name z]) rest st'.
Proof.
  intros Hz Hi Hd. unfold zone_step. rewrite Hz. rewrite (parent_pointer _ _ _ _ _ Hi).
  destruct Hi as (Hroot & Henc & Hrest & Hcount & Hp). apply skipn_nth in Hrest. destruct Hrest as [Hn Hrest].
  cbn [bind]. rewrite Hroot, path_length_plug. cbn [bind]. rewrite at_path_plug. cbn [bind zs_root zs_ptrs zs_it].
  unfold zi_next. rewrite Hn, Hz. cbn [bind]. eexists. split; [reflexivity|].
  split; [|split; [|split; [|split]]]; cbn [zs_root zs_it zs_ptrs zi_enclosing zi_index zi_list zi_counts].
  - rewrite plug_app. reflexivity.
  - rewrite map_app, Henc. cbn [map snd]. rewrite Hcount. reflexivity.
  - exact Hrest.
  - intros k. rewrite count_inc_get, Hcount, occ_snoc. reflexivity.
  - intros pre f post E. rewrite zp_get_set. apply split_snoc in E. destruct E as [(-> & -> & ->)|(post' & -> & E)].
    + cbn [snd fst]. rewrite (proj2 (zone_eqb_eq z z) eq_refl). rewrite path_app. reflexivity.
    + destruct (zone_eqb z (fst (snd f))) eqn:Eq.
      * apply zone_eqb_eq in Eq. exfalso. apply (Hd f); [|congruence]. rewrite E. apply in_or_app. right. left. reflexivity.
      * apply (Hp _ _ _ E).
Qed.

Lemma end_step r ctx lft top k c seen rest st z : z_phase z = ZONE_END -> z_name z = z_name top ->
  zinv (ctx ++ [(lft, (top, k))]) c seen (z :: rest) st ->
  exists st', zone_step r st z = Ok st' /\
    zinv ctx (lft ++ if inside r (z_ts top) (z_ts z) then [ZJ (z_ts top) (Some (z_name top, k)) (Some (z_ts z)) c] else []) seen rest st'.
Proof.
  intros Hz Hname Hi. unfold zone_step. rewrite Hz.
  destruct Hi as (Hroot & Henc & Hrest & Hcount & Hp). apply skipn_nth in Hrest. destruct Hrest as [Hn Hrest].
  assert (Hlast : last_enclosing (zs_it st) = Some (top, k)) by (rewrite last_enclosing_map, Henc, map_app, rev_app_distr; reflexivity).
  rewrite Hlast. pose proof (Hp ctx (lft, (top, k)) [] eq_refl) as Ptop. cbn [fst snd] in Ptop. unfold zptr at 1. rewrite Ptop. cbn [bind].
  rewrite Hroot, at_zone_plug. cbn [bind zj_start zj_zones].
  set (j := ZJ (z_ts top) (Some (z_name top, k)) (Some (z_ts z)) c).
  assert (Hstart : match rev (path (ctx ++ [(lft, (top, k))])) with [] => 0 | i :: q => start_at i (rev q) (plug ctx (lft ++ [j])) end = z_ts top).
  { rewrite path_app, rev_app_distr. cbn [path map rev app fst]. rewrite rev_involutive. exact (start_at_plug ctx lft j). }
  match goal with |- context [fully_contained _ ?s _] => change s with (match rev (path (ctx ++ [(lft, (top, k))])) with [] => 0 | i :: q => start_at i (rev q) (plug ctx (lft ++ [j])) end) | _ => idtac end.
  rewrite ?Hstart. clear Hstart.
  assert (Hnext : zi_next (zs_it st) = Ok (mkZI (zi_list (zs_it st)) (S (zi_index (zs_it st))) (removelast (zi_enclosing (zs_it st))) (zi_counts (zs_it st)))).
  { unfold zi_next. rewrite Hn, Hz, Hlast, Hname, String.eqb_refl. reflexivity. }
  assert (Hp' : pointed (zs_ptrs st) ctx).
  { intros pre f post E. apply (Hp pre f (post ++ [(lft, (top, k))])). rewrite E, <- app_assoc. reflexivity. }
  assert (Hinv : forall root, root = plug ctx (lft ++ if inside r (z_ts top) (z_ts z) then [j] else []) ->
    zinv ctx (lft ++ if inside r (z_ts top) (z_ts z) then [j] else []) seen rest
      (mkZs (mkZI (zi_list (zs_it st)) (S (zi_index (zs_it st))) (removelast (zi_enclosing (zs_it st))) (zi_counts (zs_it st))) root (zs_ptrs st))).
  { intros root ->. split; [reflexivity|]. split.
    - cbn [zs_it zi_enclosing]. rewrite Henc, map_app. cbn [map snd]. apply removelast_last.
    - split; [exact Hrest|]. split; [exact Hcount|exact Hp']. }
  destruct r as [rg|].
  - unfold inside in *. unfold fully_contained. destruct ((rg_start rg <=? z_ts top) && (z_ts z <=? rg_end rg)) eqn:E.
    + cbn [bind zs_it zs_root zs_ptrs]. rewrite Hnext. cbn [bind]. eexists. split; [reflexivity|]. apply Hinv. reflexivity.
    + assert (Hpar : match rev (zi_enclosing (zs_it st)) with | _ :: (pz, _) :: _ => zptr (zs_ptrs st) pz | _ => Ok [] end = Ok (path ctx)).
      { rewrite Henc, map_app, rev_app_distr. cbn [map rev app snd]. destruct (snoc_cases ctx) as [->|(ctx' & [l' [z' k']] & ->)]; auto.
        rewrite map_app, rev_app_distr. cbn [map rev app snd]. unfold zptr.
        rewrite (Hp' ctx' (l', (z', k')) [] eq_refl : zp_get (zs_ptrs st) z' = _). reflexivity. }
      rewrite Hpar. cbn [bind]. rewrite at_path_plug.
      replace (match lft ++ [j] with [] => StdThrow "nlohmann out_of_range" | _ :: _ => Ok (removelast (lft ++ [j])) end) with (@Ok (list zjson) lft)
        by (rewrite removelast_last; destruct lft; reflexivity).
      cbn [bind zs_it zs_root zs_ptrs]. rewrite Hnext. cbn [bind]. eexists. split; [reflexivity|]. apply Hinv. rewrite app_nil_r. reflexivity.
  - cbn [bind zs_it zs_root zs_ptrs]. rewrite Hnext. cbn [bind]. eexists. split; [reflexivity|]. apply Hinv. reflexivity.
Qed.

(** * One zone, then all *)
Lemma ztree_nested_ind (P : ztree -> Prop) : (forall n a e inner, Forall P inner -> P (ZT n a e inner)) -> forall t, P t.
Proof.
  intros H. fix IH 1. intros [n a e inner]. apply H. induction inner as [|t ts IHts]; constructor; auto.
Qed.
Lemma entries_eq r before n a e inner : entries r before (ZT n a e inner) =
  let kids := all_entries r (before ++ [n]) inner in
  match e with
  | Some b => if inside r a b then [ZJ a (Some (n, occurrences n before)) (Some b) kids] else []
  | None => [ZJ a None None kids]
  end.
Proof.
  cbn [entries].
  assert (E : forall ts bf, (fix all before ts := match ts with [] => [] | t :: ts' => entries r before t ++ all (before ++ names t) ts' end) bf ts = all_entries r bf ts).
  { induction ts as [|t ts IH]; intros bf; cbn [all_entries]; auto. rewrite IH. reflexivity. }
  rewrite E. reflexivity.
Qed.
Lemma all_entries_app r f g : forall before, all_entries r before (f ++ g) = all_entries r before f ++ all_entries r (before ++ flat_map names f) g.
Proof.
  induction f as [|t f IH]; intros before; cbn [app all_entries flat_map].
  - rewrite app_nil_r. reflexivity.
  - rewrite IH, <- !app_assoc. reflexivity.
Qed.
Definition keys (ctx : list frame) : list (string * Z) := map (fun f => (z_name (fst (snd f)), z_ts (fst (snd f)))) ctx.
Lemma keys_new ctx outer n a : incl (keys ctx) outer -> ~ In (n, a) outer -> forall f, In f ctx -> fst (snd f) <> mkZone a n ZONE_START.
Proof.
  intros Hi Hn f Hf E. apply Hn, Hi. unfold keys. apply in_map_iff. exists f. rewrite E. auto.
Qed.
Definition walks r (t : ztree) : Prop := closed t = true -> forall outer, unshadowed outer t -> forall ctx c seen rest st, incl (keys ctx) outer ->
  zinv ctx c seen (zevents t ++ rest) st ->
  exists st', foldM (zone_step r) (zevents t) st = Ok st' /\ zinv ctx (c ++ entries r seen t) (seen ++ names t) rest st'.
Lemma walk_all r f : Forall (walks r) f -> forallb closed f = true -> forall outer, Forall (unshadowed outer) f -> forall ctx c seen rest st,
  incl (keys ctx) outer -> zinv ctx c seen (flat_map zevents f ++ rest) st ->
  exists st', foldM (zone_step r) (flat_map zevents f) st = Ok st' /\ zinv ctx (c ++ all_entries r seen f) (seen ++ flat_map names f) rest st'.
Proof.
  induction f as [|t f IH]; intros Hw Hc outer Hu ctx c seen rest st Hk Hi.
  - exists st. cbn. rewrite !app_nil_r. auto.
  - cbn [forallb] in Hc. apply andb_true_iff in Hc. destruct Hc as [Hc1 Hc2].
    cbn [flat_map] in *. rewrite <- app_assoc in Hi.
    destruct (Forall_inv Hw Hc1 outer (Forall_inv Hu) ctx c seen _ st Hk Hi) as (st1 & E1 & H1).
    destruct (IH (Forall_inv_tail Hw) Hc2 outer (Forall_inv_tail Hu) ctx _ _ _ st1 Hk H1) as (st2 & E2 & H2).
    exists st2. rewrite foldM_app, E1. split; [exact E2|]. cbn [all_entries]. rewrite !app_assoc. exact H2.
Qed.
Lemma keys_app ctx outer c n a k : incl (keys ctx) outer -> incl (keys (ctx ++ [(c, (mkZone a n ZONE_START, k))])) ((n, a) :: outer).
Proof.
  intros H x Hx. unfold keys in Hx. rewrite map_app in Hx. apply in_app_or in Hx. destruct Hx as [Hx|[<-|[]]]; [right; apply H; exact Hx|left; reflexivity].
Qed.
Lemma walk r : forall t, walks r t.
Proof.
  apply ztree_nested_ind. intros n a e inner IH Hc outer Hu ctx c seen rest st Hk Hi.
  destruct e as [b|]; [|discriminate]. cbn [closed] in Hc. inversion Hu as [o n' a' e' i' Hnew Hin Eo]. subst.
  cbn [zevents] in *. cbn [app] in Hi. rewrite <- app_assoc in Hi.
  destruct (start_step r ctx c seen _ st (mkZone a n ZONE_START) eq_refl Hi (keys_new _ _ _ _ Hk Hnew)) as (st1 & E1 & H1). cbn [z_name] in H1.
  destruct (walk_all r inner IH Hc _ Hin _ _ _ _ st1 (keys_app ctx outer c n a _ Hk) H1) as (st2 & E2 & H2). cbn [app] in H2.
  destruct (end_step r ctx c (mkZone a n ZONE_START) _ _ _ rest st2 (mkZone b n ZONE_END) eq_refl eq_refl H2) as (st3 & E3 & H3).
  exists st3. split.
  - cbn [foldM]. rewrite E1. cbn [bind]. rewrite foldM_app, E2. cbn [foldM bind]. rewrite E3. reflexivity.
  - cbn [z_ts z_name] in H3. rewrite entries_eq. cbv zeta. cbn [names].
    replace (seen ++ n :: flat_map names inner) with ((seen ++ [n]) ++ flat_map names inner) by (rewrite <- app_assoc; reflexivity). exact H3.
Qed.
Lemma walk_open r : forall f, tail_open f -> forall outer, Forall (unshadowed outer) f -> forall ctx c seen st, incl (keys ctx) outer ->
  zinv ctx c seen (flat_map zevents f) st ->
  exists st', foldM (zone_step r) (flat_map zevents f) st = Ok st' /\ zs_root st' = plug ctx (c ++ all_entries r seen f).
Proof.
  intros f0. induction 1 as [f Hc|f n a inner Hc Ho IH]; intros outer Hu ctx c seen st Hk Hi.
  - rewrite <- (app_nil_r (flat_map zevents f)) in Hi.
    destruct (walk_all r f (proj2 (Forall_forall _ _) (fun t _ => walk r t)) Hc outer Hu ctx c seen [] st Hk Hi) as (st' & E & H).
    exists st'. split; auto. apply H.
  - apply Forall_app in Hu. destruct Hu as [Hu1 Hu2]. apply Forall_inv in Hu2. inversion Hu2 as [o n' a' e' i' Hnew Hin Eo]. subst.
    rewrite flat_map_app in *. cbn [flat_map zevents] in *. rewrite !app_nil_r in *.
    destruct (walk_all r f (proj2 (Forall_forall _ _) (fun t _ => walk r t)) Hc outer Hu1 ctx c seen _ st Hk Hi) as (st1 & E1 & H1).
    destruct (start_step r ctx _ _ _ st1 (mkZone a n ZONE_START) eq_refl H1 (keys_new _ _ _ _ Hk Hnew)) as (st2 & E2 & H2). cbn [z_name] in H2.
    destruct (IH _ Hin _ _ _ st2 (keys_app ctx outer _ n a _ Hk) H2) as (st3 & E3 & H3).
    exists st3. rewrite foldM_app, E1. cbn [bind foldM]. rewrite E2. cbn [bind]. split; [exact E3|].
    rewrite H3, plug_app. cbn [plug z_ts app]. rewrite all_entries_app. cbn [all_entries]. rewrite entries_eq. cbv zeta.
    rewrite app_nil_r, !app_assoc. reflexivity.
Qed.
Lemma zinv_init zs : zinv [] [] [] zs (mkZs (zi_make zs) [] []).
Proof.
  split; [reflexivity|]. split; [reflexivity|]. split; [reflexivity|]. split; [reflexivity|]. intros [|] f0 post E; discriminate.
Qed.
Lemma forest_entries r f : tail_open f -> Forall (unshadowed []) f -> zone_forest r (flat_map zevents f) = Ok (all_entries r [] f).
Proof.
  intros Ho Hu. unfold zone_forest. destruct (walk_open r f Ho [] Hu [] [] [] _ (fun x H => H) (zinv_init _)) as (st' & -> & H).
  cbn [bind]. rewrite H. reflexivity.
Qed.

(** * A list the writer accepts is the list of events of zones *)
Definition zframe : Type := list ztree * (string * Z).
Fixpoint zplug (ctx : list zframe) (c : list ztree) : list ztree :=
  match ctx with [] => c | (l, (n, a)) :: rest => l ++ [ZT n a None (zplug rest c)] end.
Definition shaped (ctx : list zframe) (c : list ztree) : Prop := Forall (fun f => forallb closed (fst f) = true) ctx /\ forallb closed c = true.
Lemma shaped_tail ctx : forall c, shaped ctx c -> tail_open (zplug ctx c).
Proof.
  induction ctx as [|[l [n a]] ctx IH]; intros c [H1 H2]; cbn [zplug].
  - constructor. exact H2.
  - apply to_open; [exact (Forall_inv H1)|]. apply IH. split; [exact (Forall_inv_tail H1)|exact H2].
Qed.
Lemma zplug_app a b c : zplug (a ++ b) c = zplug a (zplug b c).
Proof. induction a as [|[l [n s]] a IH]; cbn [app zplug]; auto. rewrite IH. reflexivity. Qed.
Lemma zplug_events ctx : forall c x, flat_map zevents (zplug ctx (c ++ [x])) = flat_map zevents (zplug ctx c) ++ zevents x.
Proof.
  induction ctx as [|[l [n a]] ctx IH]; intros c x; cbn [zplug].
  - rewrite flat_map_app. cbn [flat_map]. rewrite app_nil_r. reflexivity.
  - rewrite !flat_map_app. cbn [flat_map zevents]. rewrite !app_nil_r, IH, <- app_assoc. reflexivity.
Qed.
Lemma zone_ext z : z = mkZone (z_ts z) (z_name z) (z_phase z). Proof. destruct z; reflexivity. Qed.
Definition shape_inv (seen rest : list zone) (it : zone_iter) : Prop :=
  exists ctx c, shaped ctx c /\ seen = flat_map zevents (zplug ctx c) /\ skipn (zi_index it) (zi_list it) = rest /\
    map (fun e => (z_name (fst e), z_ts (fst e))) (zi_enclosing it) = map snd ctx.
Lemma step_iter r st z st' : zone_step r st z = Ok st' -> zi_next (zs_it st) = Ok (zs_it st').
Proof.
  unfold zone_step. intros H. apply bind_ok in H as (s1 & _ & H). apply bind_ok in H as (it & H2 & H). injection H as <-. exact H2.
Qed.
Lemma shape_next seen z rest it it' : shape_inv seen (z :: rest) it -> zi_next it = Ok it' -> shape_inv (seen ++ [z]) rest it'.
Proof.
  intros (ctx & c & [Hs1 Hs2] & -> & Hr & He) H. apply skipn_nth in Hr. destruct Hr as [Hn Hr]. unfold zi_next in H. rewrite Hn in H.
  destruct (z_phase z) eqn:Ez.
  - injection H as <-. exists (ctx ++ [(c, (z_name z, z_ts z))]), []. cbn [zi_index zi_list zi_enclosing]. split; [|split; [|split]].
    + split; [|reflexivity]. apply Forall_app. split; [assumption|]. constructor; [exact Hs2|constructor].
    + rewrite zplug_app. cbn [zplug]. rewrite zplug_events. cbn [zevents flat_map app]. rewrite <- Ez, <- zone_ext. reflexivity.
    + exact Hr.
    + rewrite !map_app, He. reflexivity.
  - rewrite last_enclosing_map in H. destruct (snoc_cases (zi_enclosing it)) as [E|(enc & [top k] & E)]; [rewrite E in H; discriminate|].
    rewrite E in H, He. rewrite rev_app_distr in H. cbn [rev app] in H. destruct (String.eqb_spec (z_name z) (z_name top)) as [En|]; [|discriminate].
    injection H as <-. rewrite map_app in He. destruct (snoc_cases ctx) as [->|(ctx' & [l [n a]] & ->)]; [destruct enc; discriminate|].
    rewrite map_app in He. apply app_inj_tail in He. destruct He as [He1 He2]. cbn [fst snd] in He2. injection He2 as En2 Ea.
    apply Forall_app in Hs1. destruct Hs1 as [Hs1 Hl]. apply Forall_inv in Hl. cbn [fst] in Hl.
    exists ctx', (l ++ [ZT n a (Some (z_ts z)) c]). cbn [zi_index zi_list zi_enclosing]. split; [|split; [|split]].
    + split; [assumption|]. rewrite forallb_app, Hl. cbn [forallb closed]. rewrite Hs2. reflexivity.
    + rewrite zplug_app. cbn [zplug]. rewrite !zplug_events. cbn [zevents]. rewrite !app_nil_r, <- app_assoc. cbn [app].
      replace (mkZone (z_ts z) n ZONE_END) with z; [reflexivity|]. rewrite (zone_ext z) at 1. rewrite Ez. congruence.
    + exact Hr.
    + rewrite removelast_last. exact He1.
Qed.
Lemma shape_walk r rest : forall seen st st', shape_inv seen rest (zs_it st) -> foldM (zone_step r) rest st = Ok st' ->
  exists f, tail_open f /\ seen ++ rest = flat_map zevents f.
Proof.
  induction rest as [|z rest IH]; intros seen st st' Hi H.
  - destruct Hi as (ctx & c & Hs & -> & _). exists (zplug ctx c). split; [apply shaped_tail; assumption|apply app_nil_r].
  - cbn [foldM] in H. apply bind_ok in H as (s1 & H1 & H). apply step_iter in H1. apply (shape_next _ _ _ _ _ Hi) in H1.
    destruct (IH _ _ _ H1 H) as (f & Hf & E). exists f. split; [assumption|]. rewrite <- E, <- app_assoc. reflexivity.
Qed.
Lemma forest_shape r zs js : zone_forest r zs = Ok js -> exists f, tail_open f /\ zs = flat_map zevents f.
Proof.
  unfold zone_forest. intros H. apply bind_ok in H as (st & H & _). apply (shape_walk r zs [] (mkZs (zi_make zs) [] []) st); [|exact H].
  exists [], []. cbn. split; [split; [constructor|reflexivity]|]. auto.
Qed.

(** * The files *)
Section S.
  Context (A : arith) (gord : gmap -> gmap) (zord : zone_map -> zone_map) (zord_perm : map_order zord).
  Context (d : device) (topo : topology) (wl : workload (F A)).
  Lemma v1_zones ds sts r tl : v1 A gord zord d topo wl ds sts r = Ok (Some tl) ->
    Forall2 (fun e o => fst o = fst e /\ zone_forest r (snd e) = Ok (snd o)) (zord (wl_zones wl)) (tl_zones A tl).
  Proof.
    unfold v1. intros H. apply bind_ok in H as ([chips|] & _ & H); [|discriminate]. apply bind_ok in H as (gs & HG & H). cbv zeta in H. apply bind_ok in H as (u & _ & H). apply bind_ok in H as (tgs & HT & H).
    apply bind_ok in H as (zs & HZ & H). apply bind_ok in H as (ps & HP & H). injection H as <-. cbn [tl_zones].
    apply mapM_Forall2 in HZ. eapply Forall2_imp; [exact HZ|]. cbn beta. intros e o Ho. apply bind_ok in Ho as (f & Hf & Ho). injection Ho as <-. auto.
  Qed.
  Lemma emit_doc_at thr stt sts files r tl ds : emitSimTimelineToFile A gord zord d topo false thr wl stt sts = Ok files -> document A files r tl ->
    stats_get A stt MESH_DEVICE = Some ds -> v1 A gord zord d topo wl ds sts r = Ok (Some tl).
  Proof.
    intros H HD E. destruct (emit_cases _ _ _ _ _ _ _ _ _ _ _ H E) as (full & HF & HC). cbv zeta in HC.
    assert (G : files = [FullV1 A full] \/ exists splits is, files = FullV1 A full :: splits /\
       Forall2 (fun i c => exists rg doc, c = Split A (Z.of_nat i) rg doc /\ split_region A (ds_ts A ds) (Z.of_nat (List.length (ds_ts A ds))) thr (Z.of_nat i) = Ok rg /\ v1 A gord zord d topo wl ds sts (Some rg) = Ok doc) is splits).
    { destruct HC as [(_ & ->)|(_ & _ & sp & -> & HS)]; eauto. }
    clear HC. destruct HD as [(I & ->)|(k & rg & I & ->)].
    - destruct G as [->|(sp & is & -> & HS)].
      + destruct I as [I|[]]. injection I as ->. exact HF.
      + destruct I as [I|I]; [injection I as ->; exact HF|]. exfalso. clear - I HS. induction HS as [|i c is sp (rg & doc & -> & _) HS IH]; [destruct I|]. destruct I as [I|I]; [discriminate|auto].
    - destruct G as [->|(sp & is & -> & HS)].
      + destruct I as [I|[]]. discriminate.
      + destruct I as [I|I]; [discriminate|]. clear - I HS. induction HS as [|i c is sp (rg' & doc & -> & _ & HV) HS IH]; [destruct I|]. destruct I as [I|I]; [injection I as <- <- ->; exact HV|auto].
  Qed.
  Lemma emit_doc thr stt sts files r tl : emitSimTimelineToFile A gord zord d topo false thr wl stt sts = Ok files -> document A files r tl ->
    exists ds, v1 A gord zord d topo wl ds sts r = Ok (Some tl).
  Proof.
    intros H HD. destruct (stats_get A stt MESH_DEVICE) as [ds|] eqn:E; [|unfold emitSimTimelineToFile in H; rewrite E in H; discriminate]. exists ds. eapply emit_doc_at; eassumption.
  Qed.
End S.
Section R.
  Context (A : arith) (ord : Z -> list Z -> list Z) (bord : list bucket -> list bucket).
  Context (gord : gmap -> gmap) (zord : zone_map -> zone_map) (zord_perm : map_order zord) (topo : topology).
  Context (d : device) (cpt : Z) (wl : workload (F A)).
  Lemma run_zones thr model stt files r tl : runWithTimeline A ord bord gord zord topo false thr d model cpt wl = Ok (Stats stt, files) -> document A files r tl ->
    Forall2 (fun e o => fst o = fst e /\ zone_forest r (snd e) = Ok (snd o)) (zord (wl_zones wl)) (tl_zones A tl).
  Proof.
    intros H HD. destruct (run_emit _ _ _ _ _ _ _ _ _ _ _ _ _ _ H) as (s & _ & HE). eapply emit_doc in HE as (ds & HV); [|exact HD].
    eapply v1_zones; exact HV.
  Qed.
  Theorem timeline_zones thr model stt files r tl k f : runWithTimeline A ord bord gord zord topo false thr d model cpt wl = Ok (Stats stt, files) -> document A files r tl ->
    tail_open f -> Forall (unshadowed []) f -> In (k, flat_map zevents f) (wl_zones wl) -> In (k, all_entries r [] f) (tl_zones A tl).
  Proof.
    intros H HD Ho Hu Hin. pose proof (run_zones _ _ _ _ _ _ H HD) as HF. apply (Permutation_in _ (Permutation_sym (zord_perm _))) in Hin. revert Hin.
    induction HF as [|e [k' js] es os [Hk Hz] HF IH]; [intros []|]. intros [->|I]; [|right; auto]. cbn [fst snd] in *. subst k'.
    rewrite (forest_entries r f Ho Hu) in Hz. injection Hz as <-. left. reflexivity.
  Qed.
  Theorem timeline_zones_only thr model stt files r tl : runWithTimeline A ord bord gord zord topo false thr d model cpt wl = Ok (Stats stt, files) -> document A files r tl ->
    Permutation (map fst (tl_zones A tl)) (map fst (wl_zones wl)) /\ forall k zs, In (k, zs) (wl_zones wl) -> exists f, tail_open f /\ zs = flat_map zevents f.
  Proof.
    intros H HD. pose proof (run_zones _ _ _ _ _ _ H HD) as HF. split.
    - transitivity (map fst (zord (wl_zones wl))); [|apply Permutation_map, zord_perm].
      replace (map fst (tl_zones A tl)) with (map fst (zord (wl_zones wl))); [reflexivity|].
      clear - HF. induction HF as [|e o es os [Hk _] HF IH]; [reflexivity|]. cbn [map]. rewrite IH, Hk. reflexivity.
    - intros k zs Hin. apply (Permutation_in _ (Permutation_sym (zord_perm _))) in Hin. clear - HF Hin.
      induction HF as [|e o es os [_ Hz] HF IH]; [destruct Hin|]. destruct Hin as [->|I]; [|auto]. exact (forest_shape _ _ _ Hz).
  Qed.
End R.
