(* C70: the topology and its file. *)
From Coq Require Import ZArith Arith Lia Bool String List Permutation ZifyBool ZifyNat.
From Verif Require Import Util Fabric SpecFabric FabricProofs.
Import ListNotations.
Local Open Scope string_scope.
Local Open Scope list_scope.
Open Scope Z_scope.
Ltac Zify.zify_post_hook ::= idtac.

Lemma pfold_fail {X S} (f : S -> X -> py S) l m : (forall s, m <> Val s) -> fold_left (fun m x => pbind m (fun s => f s x)) l m = m.
Proof.
  revert m. induction l as [|x l IH]; intros m H; [reflexivity|]. cbn [fold_left]. destruct m as [s| |e]; [congruence|apply IH; discriminate|apply IH; discriminate].
Qed.
Lemma pfold_cons {X S} (f : S -> X -> py S) x l s : pfold f (x :: l) s = pbind (f s x) (fun s' => pfold f l s').
Proof. unfold pfold. cbn [fold_left pbind]. destruct (f s x) as [s'| |e]; cbn [pbind]; [reflexivity| |]; apply pfold_fail; discriminate. Qed.
Lemma pfold_nil {X S} (f : S -> X -> py S) s : pfold f [] s = Val s.
Proof. reflexivity. Qed.

(** * Dictionaries that are built entry by entry *)
Definition dict_of {K V} (eqb : K -> K -> bool) (es : list (K * V)) (m : list (K * V)) : list (K * V) := fold_left (fun m e => dict_set eqb m (fst e) (snd e)) es m.
Section Dict.
  Context {K V : Type} (eqb : K -> K -> bool) (eqb_spec : forall a b, eqb a b = true <-> a = b).
  Lemma dict_of_nodup (es m : list (K * V)) : NoDup (map fst m) -> NoDup (map fst (dict_of eqb es m)).
  Proof. revert m. induction es as [|[k v] es IH]; intros m H; [exact H|]. cbn. apply IH. apply dict_set_keys; assumption. Qed.
  Lemma dict_of_in (es : list (K * V)) : forall m, NoDup (map fst m) -> NoDup (map fst es) -> (forall k, In k (map fst es) -> ~ In k (map fst m)) ->
    forall k v, In (k, v) (dict_of eqb es m) <-> In (k, v) m \/ In (k, v) es.
  Proof.
    induction es as [|[a w] es IH]; intros m HM HE HD k v; [cbn; tauto|]. cbn [dict_of fold_left fst snd]. cbn [map fst] in HE. apply NoDup_cons_iff in HE as [E1 E2].
    assert (Na : ~ In a (map fst m)) by (apply HD; left; reflexivity).
    rewrite (IH (dict_set eqb m a w)).
    - rewrite (dict_set_in eqb eqb_spec) by exact HM. cbn [In]. split.
      + intros [[[-> ->]|[_ H]]|H]; auto.
      + intros [H|[H|H]]; [left; right; split; [intros ->; apply Na; apply (in_map fst) in H; exact H|exact H]|injection H as -> ->; auto|auto].
    - apply dict_set_keys; assumption.
    - exact E2.
    - intros b Hb C. apply (dict_set_keys eqb eqb_spec) in C; [|exact HM]. destruct C as [->|C]; [contradiction|]. apply (HD b); [right; exact Hb|exact C].
  Qed.
  Lemma dict_of_empty (es : list (K * V)) : NoDup (map fst es) -> forall k v, In (k, v) (dict_of eqb es []) <-> In (k, v) es.
  Proof. intros H k v. rewrite dict_of_in; [cbn; tauto|constructor|exact H|intros ? _ []]. Qed.
End Dict.
(* the values that are there *)
Definition somes {K V} (l : list (K * option V)) : list (K * V) := flat_map (fun e => match snd e with Some v => [(fst e, v)] | None => [] end) l.
Lemma somes_in {K V} (l : list (K * option V)) k v : In (k, v) (somes l) <-> In (k, Some v) l.
Proof.
  unfold somes. rewrite in_flat_map. split.
  - intros ([a [w|]] & H & E); cbn in E; [destruct E as [E|[]]; injection E as -> ->; exact H|contradiction].
  - intros H. exists (k, Some v). split; [exact H|left; reflexivity].
Qed.
Lemma somes_nodup {K V} (l : list (K * option V)) : NoDup (map fst l) -> NoDup (map fst (somes l)).
Proof.
  induction l as [|[k o] l IH]; intros H; [constructor|]. cbn [map fst] in H. apply NoDup_cons_iff in H as [H1 H2]. unfold somes. cbn [flat_map fst snd]. fold (somes l). destruct o as [v|]; cbn [app map fst]; [|exact (IH H2)].
  constructor; [|exact (IH H2)]. intros C. apply H1. apply in_map_iff in C as ([k' v'] & E & C). cbn in E. subst k'. apply (proj1 (somes_in _ _ _)) in C. apply (in_map fst) in C. exact C.
Qed.
Lemma somes_values {K V} (l : list (K * option V)) : NoDup (map snd l) -> NoDup (map snd (somes l)).
Proof.
  induction l as [|[k o] l IH]; intros H; [constructor|]. cbn [map snd] in H. apply NoDup_cons_iff in H as [H1 H2]. unfold somes. cbn [flat_map fst snd]. fold (somes l). destruct o as [v|]; cbn [app map snd]; [|exact (IH H2)].
  constructor; [|exact (IH H2)]. intros C. apply H1. apply in_map_iff in C as ([k' v'] & E & C). cbn in E. subst v'. apply (proj1 (somes_in _ _ _)) in C. apply (in_map snd) in C. exact C.
Qed.
Lemma pfold_somes {K V} (eqb : K -> K -> bool) (l : list (K * option V)) : forall m m',
  pfold (fun m e => match snd e with Some s => Val (dict_set eqb m (fst e) s) | None => Processing end) l m = Val m' -> m' = dict_of eqb (somes l) m.
Proof.
  induction l as [|[k o] l IH]; intros m m' H; [injection H as <-; reflexivity|]. rewrite pfold_cons in H. cbn [fst snd] in H. unfold somes. cbn [flat_map fst snd]. fold (somes l). destruct o as [v|]; [|discriminate H]. cbn [pbind] in H.
  cbn [app dict_of fold_left fst snd]. exact (IH _ _ H).
Qed.
Definition swap {X Y} (e : X * Y) : Y * X := (snd e, fst e).
Lemma pfold_nodes (l : list (Z * option node)) : forall m m',
  pfold (fun m e => match snd e with Some n => Val (dict_set Z.eqb (fst m) (fst e) n, dict_set node_eqb (snd m) n (fst e)) | None => Processing end) l m = Val m' ->
  m' = (dict_of Z.eqb (somes l) (fst m), dict_of node_eqb (map swap (somes l)) (snd m)).
Proof.
  induction l as [|[k o] l IH]; intros m m' H; [injection H as <-; destruct m; reflexivity|]. rewrite pfold_cons in H. cbn [fst snd] in H. unfold somes. cbn [flat_map fst snd]. fold (somes l). destruct o as [v|]; [|discriminate H]. cbn [pbind] in H.
  cbn [app dict_of fold_left fst snd map swap]. exact (IH _ _ H).
Qed.

(** * Routing planes *)
Definition plane_entries (dev p : Z) (cs : list (dir * Z)) : list (plane_key * Z) :=
  flat_map (fun g => match dict_get dir_eqb cs g with Some c => [((dev, p, g), c)] | None => [] end) directions.
Definition device_entries (dev : Z) (ps : list (option Z * list (dir * Z))) : list (plane_key * Z) :=
  flat_map (fun e => match fst e with Some p => plane_entries dev p (snd e) | None => [] end) ps.
Definition all_entries (l : list (option Z * list (option Z * list (dir * Z)))) : list (plane_key * Z) :=
  flat_map (fun e => match fst e with Some d => device_entries d (snd e) | None => [] end) l.
Lemma dict_of_app {K V} (eqb : K -> K -> bool) (a b m : list (K * V)) : dict_of eqb (a ++ b) m = dict_of eqb b (dict_of eqb a m).
Proof. unfold dict_of. apply fold_left_app. Qed.
Lemma plane_fold dev p cs m : fold_left (fun m g => match dict_get dir_eqb cs g with Some c => dict_set plane_eqb m (dev, p, g) c | None => m end) directions m = dict_of plane_eqb (plane_entries dev p cs) m.
Proof.
  unfold plane_entries. generalize directions. intros l. revert m. induction l as [|g l IH]; intros m; [reflexivity|]. cbn [fold_left flat_map]. rewrite dict_of_app. rewrite IH. destruct (dict_get dir_eqb cs g); reflexivity.
Qed.
Lemma device_fold dev (ps : list (option Z * list (dir * Z))) : forall m m', pfold (fun m (e : option Z * list (dir * Z)) =>
    match fst e with
    | None => Processing
    | Some p => Val (fold_left (fun m g => match dict_get dir_eqb (snd e) g with Some c => dict_set plane_eqb m (dev, p, g) c | None => m end) directions m)
    end) ps m = Val m' -> m' = dict_of plane_eqb (device_entries dev ps) m.
Proof.
  induction ps as [|[o cs] ps IH]; intros m m' H; [injection H as <-; reflexivity|]. rewrite pfold_cons in H. cbn [fst snd] in H. destruct o as [p|]; [|discriminate H]. cbn [pbind] in H. apply IH in H. subst m'.
  unfold device_entries. cbn [flat_map fst snd]. rewrite dict_of_app, plane_fold. reflexivity.
Qed.
Lemma all_fold (l : list (option Z * list (option Z * list (dir * Z)))) : forall m m', pfold (fun m (e : option Z * list (option Z * list (dir * Z))) =>
    match fst e with
    | None => Processing
    | Some dev => pfold (fun m (e : option Z * list (dir * Z)) =>
        match fst e with
        | None => Processing
        | Some p => Val (fold_left (fun m g => match dict_get dir_eqb (snd e) g with Some c => dict_set plane_eqb m (dev, p, g) c | None => m end) directions m)
        end) (snd e) m
    end) l m = Val m' -> m' = dict_of plane_eqb (all_entries l) m.
Proof.
  induction l as [|[o ps] l IH]; intros m m' H; [injection H as <-; reflexivity|]. rewrite pfold_cons in H. cbn [fst snd] in H. destruct o as [d|]; [|discriminate H].
  apply (proj1 (pbind_val _ _ _)) in H as (m1 & H1 & H). apply device_fold in H1. apply IH in H. subst m1 m'. unfold all_entries. cbn [flat_map fst snd]. rewrite dict_of_app. reflexivity.
Qed.
Lemma plane_entries_in dev p cs e : NoDup (map fst cs) -> (In e (plane_entries dev p cs) <-> exists g c, e = ((dev, p, g), c) /\ In (g, c) cs).
Proof.
  intros HN. unfold plane_entries. rewrite in_flat_map. split.
  - intros (g & _ & H). destruct (dict_get dir_eqb cs g) as [c|] eqn:E; [|contradiction]. destruct H as [<-|[]]. exists g, c. split; [reflexivity|]. apply (dict_get_iff dir_eqb dir_eqb_spec _ _ _ HN). exact E.
  - intros (g & c & -> & H). exists g. split; [destruct g; cbn; tauto|]. apply (dict_get_iff dir_eqb dir_eqb_spec _ _ _ HN) in H. rewrite H. left; reflexivity.
Qed.
Lemma plane_entries_nodup dev p cs : NoDup (map fst (plane_entries dev p cs)).
Proof.
  unfold plane_entries, directions. cbn [flat_map]. destruct (dict_get dir_eqb cs dN), (dict_get dir_eqb cs dS), (dict_get dir_eqb cs dE), (dict_get dir_eqb cs dW); cbn [app map fst];
    repeat (apply NoDup_cons; [cbn; intuition discriminate|]); apply NoDup_nil.
Qed.
Lemma nodup_flat {X Y Z} (f : X -> list Y) (k : Y -> Z) (l : list X) : (forall x, In x l -> NoDup (map k (f x))) ->
  (ForallOrdPairs (fun x y => forall a b, In a (f x) -> In b (f y) -> k a <> k b) l) -> NoDup (map k (flat_map f l)).
Proof.
  induction l as [|x l IH]; intros H1 H2; [constructor|]. cbn [flat_map]. rewrite map_app. inversion H2 as [|? ? P1 P2]; subst. rewrite Forall_forall in P1.
  assert (H3 : NoDup (map k (flat_map f l))) by (apply IH; [intros; apply H1; right; assumption|exact P2]). specialize (H1 x (or_introl eq_refl)).
  clear - H1 H3 P1. induction (f x) as [|y ys IH] in H1, P1 |- *; [exact H3|]. cbn [map app] in *. apply NoDup_cons_iff in H1 as [N1 N2]. constructor.
  - rewrite in_app_iff. intros [C|C]; [contradiction|]. apply in_map_iff in C as (b & E & C). apply in_flat_map in C as (z & Hz & Hb). apply (P1 z Hz y b); [left; reflexivity|exact Hb|congruence].
  - apply IH; [exact N2|]. intros z Hz a b Ha Hb. apply (P1 z Hz); [right; exact Ha|exact Hb].
Qed.
Lemma pairs_keys {X Y} (l : list (X * Y)) (R : X * Y -> X * Y -> Prop) : NoDup (map fst l) -> (forall a b, In a l -> In b l -> fst a <> fst b -> R a b) -> ForallOrdPairs R l.
Proof.
  induction l as [|x l IH]; intros HN HR; [constructor|]. cbn [map] in HN. apply NoDup_cons_iff in HN as [H1 H2]. constructor.
  - rewrite Forall_forall. intros y Hy. apply HR; [left; reflexivity|right; exact Hy|]. intros E. apply H1. rewrite E. apply in_map. exact Hy.
  - apply IH; [exact H2|]. intros. apply HR; [right|right|]; assumption.
Qed.
Lemma device_entries_in dev ps e : (forall p cs, In (p, cs) ps -> NoDup (map fst cs)) -> (In e (device_entries dev ps) <-> exists p cs g c, e = ((dev, p, g), c) /\ In (Some p, cs) ps /\ In (g, c) cs).
Proof.
  intros HN. unfold device_entries. rewrite in_flat_map. split.
  - intros ([[p|] cs] & Hin & H); cbn [fst snd] in H; [|contradiction]. apply plane_entries_in in H; [|eapply HN; exact Hin]. destruct H as (g & c & -> & H). exists p, cs, g, c. auto.
  - intros (p & cs & g & c & -> & Hin & H). exists (Some p, cs). split; [exact Hin|]. cbn [fst snd]. apply plane_entries_in; [eapply HN; exact Hin|]. eauto.
Qed.
Lemma device_entries_nodup dev ps : NoDup (map fst ps) -> (forall p cs, In (p, cs) ps -> NoDup (map fst cs)) -> NoDup (map fst (device_entries dev ps)).
Proof.
  intros H1 H2. apply nodup_flat.
  - intros [[p|] cs] _; [apply plane_entries_nodup|constructor].
  - apply pairs_keys; [exact H1|]. intros [[p|] cs] [[q|] cs'] Ha Hb NE x y Hx Hy; cbn [fst snd] in *; try contradiction. apply plane_entries_in in Hx; [|eapply H2; exact Ha]. apply plane_entries_in in Hy; [|eapply H2; exact Hb].
    destruct Hx as (? & ? & -> & _), Hy as (? & ? & -> & _). cbn [fst]. congruence.
Qed.

(** * The constructor *)
Lemma made_unique f t : TopologyGraph f = Val t ->
  NoDup (map fst (tp_shapes t)) /\ NoDup (map fst (tp_planes t)) /\ NoDup (map fst (tp_coord t)) /\ NoDup (map fst (tp_node t)) /\ NoDup (map fst (tp_device t)) /\ (List.length (tp_shapes t) <= 1)%nat.
Proof.
  unfold TopologyGraph. intros H. apply (proj1 (pbind_val _ _ _)) in H as (shapes & HS & H). apply pfold_somes in HS. destruct (negb _); [discriminate H|]. destruct (tf_cluster f) as [cl|]; [|discriminate H].
  destruct (Nat.ltb 1 (List.length shapes)) eqn:EL; [discriminate H|]. apply (proj1 (pbind_val _ _ _)) in H as (planes & HP & H). apply all_fold in HP. apply (proj1 (pbind_val _ _ _)) in H as (nodes & HN & H). apply pfold_nodes in HN.
  apply (proj1 (pbind_val _ _ _)) in H as (coords & HC & H). apply pfold_somes in HC. injection H as <-. cbn [tp_shapes tp_planes tp_coord tp_node tp_device]. apply Nat.ltb_ge in EL. subst. cbn [fst snd].
  split; [|split; [|split; [|split; [|split; [|exact EL]]]]]; apply dict_of_nodup; first [exact Z.eqb_eq|exact plane_eqb_spec|exact node_eqb_spec|apply NoDup_nil].
Qed.
Lemma keys_swap (l : list (Z * node)) : map fst (map swap l) = map snd l.
Proof. rewrite map_map. reflexivity. Qed.
Theorem made f t : TopologyGraph f = Val t -> distinct f -> well_formed t /\ contains f t.
Proof.
  intros H (D1 & D2 & D3 & D4 & D5 & D6 & D7). destruct (made_unique _ _ H) as (U1 & U2 & U3 & U4 & U5 & _).
  assert (C : contains f t).
  { clear U1 U2 U3 U4 U5. unfold TopologyGraph in H. apply (proj1 (pbind_val _ _ _)) in H as (shapes & HS & H). apply pfold_somes in HS. destruct (negb _); [discriminate H|]. destruct (tf_cluster f) as [cl|] eqn:ECL; [|discriminate H].
    destruct (Nat.ltb 1 (List.length shapes)) eqn:EL; [discriminate H|]. apply (proj1 (pbind_val _ _ _)) in H as (planes & HP & H). apply all_fold in HP. apply (proj1 (pbind_val _ _ _)) in H as (nodes & HN & H). apply pfold_nodes in HN.
    apply (proj1 (pbind_val _ _ _)) in H as (coords & HC & H). apply pfold_somes in HC. injection H as <-. cbn [fst snd] in HN. subst. unfold contains. cbn [tp_config tp_cluster tp_shapes tp_planes tp_node tp_device tp_coord fst snd].
    split; [reflexivity|]. split; [exact ECL|]. split; [|split; [|split; [|split]]].
    - intros m s. rewrite (dict_of_empty Z.eqb Z.eqb_eq); [apply somes_in|apply somes_nodup; exact D1].
    - intros d p g c. rewrite (dict_of_empty plane_eqb plane_eqb_spec).
      + unfold all_entries. rewrite in_flat_map. split.
        * intros ([[d'|] ps] & Hin & H); cbn [fst snd] in H; [|contradiction]. apply device_entries_in in H; [|apply (D3 _ _ Hin)]. destruct H as (p' & cs & g' & c' & E & H1 & H2). injection E as <- <- <- <-. eauto.
        * intros (ps & cs & Hin & H1 & H2). exists (Some d, ps). split; [exact Hin|]. cbn [fst snd]. apply device_entries_in; [apply (D3 _ _ Hin)|]. exists p, cs, g, c. auto.
      + apply nodup_flat.
        * intros [[d'|] ps] Hin; cbn [fst snd]; [apply device_entries_nodup; apply (D3 _ _ Hin)|constructor].
        * apply pairs_keys; [exact D2|]. intros [[a|] ps] [[b|] ps'] Ha Hb NE x y Hx Hy; cbn [fst snd] in *; try contradiction. apply device_entries_in in Hx; [|apply (D3 _ _ Ha)]. apply device_entries_in in Hy; [|apply (D3 _ _ Hb)].
          destruct Hx as (? & ? & ? & ? & -> & _), Hy as (? & ? & ? & ? & -> & _). cbn [fst]. congruence.
    - intros d n. rewrite (dict_of_empty Z.eqb Z.eqb_eq); [apply somes_in|apply somes_nodup; exact D4].
    - intros n d. rewrite (dict_of_empty node_eqb node_eqb_spec).
      + rewrite <- somes_in, in_map_iff. split; [intros ([a b] & E & HI); injection E as -> ->; exact HI|intros HI; exists (d, n); auto].
      + rewrite keys_swap. apply somes_values. exact D5.
    - intros c xy. rewrite (dict_of_empty Z.eqb Z.eqb_eq); [apply somes_in|apply somes_nodup; exact D6]. }
  split; [|exact C]. destruct C as (C1 & C2 & C3 & C4 & C5 & C6 & C7).
  split; [exact U1|]. split; [exact U2|]. split; [exact U3|]. split; [exact U4|]. split; [exact U5|]. split.
  - intros d n. rewrite C5, C6. tauto.
  - intros m ns ew Hin. apply C3 in Hin. exact (D7 _ _ _ Hin).
Qed.
