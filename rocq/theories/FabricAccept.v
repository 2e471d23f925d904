(* C70: which topology files are accepted. *)
From Coq Require Import ZArith Arith Lia Bool String List Permutation ZifyBool ZifyNat.
From Verif Require Import Util Fabric SpecFabric FabricProofs FabricTopology.
Import ListNotations.
Local Open Scope string_scope.
Local Open Scope list_scope.
Open Scope Z_scope.
Ltac Zify.zify_post_hook ::= idtac.

(* a loop over entries of which some are malformed *)
Lemma pfold_class {X S} (f : S -> X -> py S) (bad : X -> Prop) :
  (forall x, (bad x /\ forall s, f s x = Processing) \/ (~ bad x /\ forall s, exists s', f s x = Val s')) ->
  forall l s, ((exists x, In x l /\ bad x) /\ pfold f l s = Processing) \/ ((forall x, In x l -> ~ bad x) /\ exists s', pfold f l s = Val s').
Proof.
  intros H. induction l as [|x l IH]; intros s; [right; split; [intros x []|exists s; reflexivity]|]. rewrite pfold_cons.
  destruct (H x) as [(B & E)|(B & E)].
  - left. split; [exists x; split; [left; reflexivity|exact B]|]. rewrite E. reflexivity.
  - destruct (E s) as (s1 & ->). cbn [pbind]. destruct (IH s1) as [((y & I & Y) & ->)|(N & s' & ->)].
    + left. split; [exists y; split; [right; exact I|exact Y]|reflexivity].
    + right. split; [intros y [<-|I]; auto|eauto].
Qed.
Lemma keys_of {V} (es : list (Z * V)) : forall m, NoDup (map fst m) -> forall k, In k (map fst (dict_of Z.eqb es m)) <-> In k (map fst es) \/ In k (map fst m).
Proof.
  induction es as [|[a v] es IH]; intros m N k; cbn [dict_of fold_left fst snd map In]; [tauto|]. destruct (dict_set_keys Z.eqb Z.eqb_eq m a v N) as (N' & K).
  change (fold_left _ es ?x) with (dict_of Z.eqb es x). rewrite (IH _ N'), K. split; intros; intuition congruence.
Qed.
Lemma few_keys {V} (m : list (Z * V)) : NoDup (map fst m) -> Nat.ltb 1 (List.length m) = false <-> forall a b, In a (map fst m) -> In b (map fst m) -> a = b.
Proof.
  destruct m as [|[a v] [|[b w] m]]; cbn [map fst List.length]; intros N; split; intros H; try reflexivity.
  - intros x y [].
  - intros x y [<-|[]] [<-|[]]. reflexivity.
  - apply Nat.ltb_ge in H. lia.
  - exfalso. inversion N as [|? ? N1 _]; subst. apply N1. left. symmetry. apply H; [left|right; left]; reflexivity.
Qed.
Theorem accepted f : (acceptable f /\ exists t, TopologyGraph f = Val t) \/ (~ acceptable f /\ TopologyGraph f = Processing).
Proof.
  unfold TopologyGraph, acceptable.
  destruct (pfold_class (fun (m : list (Z * (Z * Z))) e => match snd e with Some s => Val (dict_set Z.eqb m (fst e) s) | None => Processing end) (fun e => snd e = None)
    ltac:(intros [k [s|]]; cbn [fst snd]; [right; split; [discriminate|eauto]|left; auto]) (tf_shapes f) []) as [((x & I & B) & ->)|(NB & shapes & HS)].
  { right. split; [|reflexivity]. intros (_ & _ & _ & N & _). apply (N (fst x)). rewrite <- B. destruct x. exact I. }
  rewrite HS. cbn [pbind]. apply pfold_somes in HS.
  destruct (existsb (String.eqb (tf_config f)) fabric_configs) eqn:C; cbn [negb].
  2: { right. split; [|reflexivity]. intros (N & _). assert (existsb (String.eqb (tf_config f)) fabric_configs = true); [|congruence].
       apply existsb_exists. exists (tf_config f). split; [|apply String.eqb_refl]. unfold fabric_configs. cbn [In]. intuition auto. }
  assert (Cfg : tf_config f = "FABRIC_1D" \/ tf_config f = "FABRIC_1D_RING" \/ tf_config f = "FABRIC_2D" \/ tf_config f = "FABRIC_2D_TORUS" \/ tf_config f = "DISABLED").
  { apply existsb_exists in C as (x & I & E). apply String.eqb_eq in E. rewrite E. unfold fabric_configs in I. cbn [In] in I. intuition auto. }
  destruct (tf_cluster f) as [cl|]; [|right; split; [tauto|reflexivity]].
  assert (NS : NoDup (map fst shapes)) by (subst; apply dict_of_nodup; [exact Z.eqb_eq|constructor]).
  assert (KS : forall k, In k (map fst shapes) <-> In k (map fst (tf_shapes f))).
  { intros k. subst shapes. rewrite keys_of by constructor. cbn [map In]. split.
    - intros [H|[]]. apply in_map_iff in H as ([k' v] & <- & H). apply (proj1 (somes_in _ _ _)) in H. apply (in_map fst) in H. exact H.
    - intros H. left. apply in_map_iff in H as ([k' [v|]] & <- & H); [|destruct (NB _ H); reflexivity]. apply in_map_iff. exists (k', v). split; [reflexivity|]. apply somes_in. exact H. }
  assert (one : Nat.ltb 1 (List.length shapes) = false <-> forall a b, In a (tf_shapes f) -> In b (tf_shapes f) -> fst a = fst b).
  { rewrite (few_keys shapes NS). split.
    - intros H a b Ha Hb. apply H; apply KS, in_map; assumption.
    - intros H a b Ha Hb. apply KS in Ha, Hb. apply in_map_iff in Ha as (x & <- & Ha). apply in_map_iff in Hb as (y & <- & Hb). auto. }
  destruct (Nat.ltb 1 (List.length shapes)) eqn:EL. { right. split; [|reflexivity]. intros (_ & _ & H & _). apply one in H. discriminate. }
  pose proof (proj1 one eq_refl) as One.
  match goal with |- context [pfold ?g (tf_planes f) []] => destruct (pfold_class g (fun e => fst e = None \/ exists cs, In (None, cs) (snd e))) with (l := tf_planes f) (s := @nil (plane_key * Z)) as [((x & I & B) & E)|(NP & planes & E)]; [| |] end.
  { intros [[dv|] ps]; cbn [fst snd]; [|left; auto].
    match goal with |- context [pfold ?h ps _] => pose proof (pfold_class h (fun e => fst e = None)) as K end.
    assert (KK : forall x : option Z * list (dir * Z), (fst x = None /\ forall s : list (plane_key * Z), match fst x with Some p => Val (fold_left (fun m g => match dict_get dir_eqb (snd x) g with Some c => dict_set plane_eqb m (dv, p, g) c | None => m end) directions s) | None => Processing end = Processing) \/
      (fst x <> None /\ forall s : list (plane_key * Z), exists s', match fst x with Some p => Val (fold_left (fun m g => match dict_get dir_eqb (snd x) g with Some c => dict_set plane_eqb m (dv, p, g) c | None => m end) directions s) | None => Processing end = Val s')).
    { intros [[p|] cs]; cbn [fst snd]; [right; split; [discriminate|eauto]|left; auto]. }
    specialize (K KK ps).
    assert (D : (exists cs, In (None, cs) ps) \/ forall cs, ~ In (None, cs) ps).
    { clear. induction ps as [|[[p|] cs] ps IH]; [right; intros ? []| |left; exists cs; left; reflexivity]. destruct IH as [(c & I)|N]; [left; exists c; right; exact I|]. right. intros c [E|I]; [discriminate|]. exact (N c I). }
    destruct D as [(cs & I)|N].
    - left. split; [right; eauto|]. intros s. destruct (K s) as [(_ & E)|(N & _)]; [exact E|]. destruct (N _ I). reflexivity.
    - right. split; [intros [B|(cs & I)]; [discriminate|exact (N cs I)]|]. intros s. destruct (K s) as [(([o cs] & I & B) & _)|(_ & E)]; [|exact E]. cbn in B. subst o. destruct (N cs I). }
  { right. rewrite E. split; [|reflexivity]. intros (_ & _ & _ & _ & _ & _ & N). destruct x as [dv ps]. destruct (N dv ps I) as (N1 & N2). destruct B as [B|(cs & B)]; [exact (N1 B)|exact (N2 cs B)]. }
  rewrite E. cbn [pbind]. clear E.
  destruct (pfold_class (fun (m : list (Z * node) * list (node * Z)) e => match snd e with Some n => Val (dict_set Z.eqb (fst m) (fst e) n, dict_set node_eqb (snd m) n (fst e)) | None => Processing end) (fun e => snd e = None)
    ltac:(intros [k [s|]]; cbn [fst snd]; [right; split; [discriminate|eauto]|left; auto]) (tf_node f) ([], [])) as [((x & I & B) & ->)|(NN & nodes & ->)].
  { right. split; [|reflexivity]. intros (_ & _ & _ & _ & N & _). apply (N (fst x)). rewrite <- B. destruct x. exact I. }
  cbn [pbind].
  destruct (pfold_class (fun (m : list (Z * (Z * Z))) e => match snd e with Some s => Val (dict_set Z.eqb m (fst e) s) | None => Processing end) (fun e => snd e = None)
    ltac:(intros [k [s|]]; cbn [fst snd]; [right; split; [discriminate|eauto]|left; auto]) (tf_coord f) []) as [((x & I & B) & ->)|(NC & coords & ->)].
  { right. split; [|reflexivity]. intros (_ & _ & _ & _ & _ & N & _). apply (N (fst x)). rewrite <- B. destruct x. exact I. }
  cbn [pbind]. left. split; [|eauto]. split; [exact Cfg|]. split; [discriminate|]. split; [exact One|].
  split; [intros k I; exact (NB _ I eq_refl)|]. split; [intros k I; exact (NN _ I eq_refl)|]. split; [intros k I; exact (NC _ I eq_refl)|].
  intros dv ps I. pose proof (NP _ I) as N. cbn [fst snd] in N. split; [tauto|]. intros cs J. apply N. right. eauto.
Qed.
