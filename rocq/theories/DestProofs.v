(* The texts of destinations can be read back (C98). *)
From Coq Require Import ZArith Lia ZifyBool String List Bool Ascii.
From Verif Require Import Base Util Report SpecFiles Files FilesProofs TextProofs SpecReport ReportProofs TextDest SpecDest.
Import ListNotations.
Local Open Scope string_scope.
Open Scope Z_scope.
Ltac Zify.zify_post_hook ::= idtac.

(** * The texts have the form described *)
Lemma sapp_assoc3 a b c : (a ++ b) ++ c = a ++ (b ++ c) :> string. Proof. induction a as [|x a IH]; cbn; [reflexivity|rewrite IH; reflexivity]. Qed.
Lemma sapp_nil a : a ++ "" = a :> string. Proof. induction a as [|x a IH]; cbn; [reflexivity|rewrite IH; reflexivity]. Qed.
Lemma coord_words c : place_words c (coord_str c).
Proof. exists (signed (c_dev c)), (signed (c_row c)), (signed (c_col c)). repeat (split; [apply signed_text|]). reflexivity. Qed.
Lemma grid_words g : rect_words g (grid_str g).
Proof.
  exists (coord_str (g_start g)), (signed (c_row (g_end g))), (signed (c_col (g_end g))). split; [apply coord_words|]. repeat (split; [apply signed_text|]).
  unfold grid_str, coord_str. cbn [String.concat]. change (")-(") with (")" ++ "-("). rewrite !sapp_assoc3. reflexivity.
Qed.
Lemma grids_words m : m <> [] -> rects_words m (grids_str m).
Proof.
  induction m as [|g m IH]; [contradiction|]. intros _. destruct m as [|h m]; [constructor; apply grid_words|].
  change (grids_str (g :: h :: m)) with (grid_str g ++ ", " ++ grids_str (h :: m)). constructor; [apply grid_words|]. apply IH. discriminate.
Qed.
Theorem dest_written d : dest_words d (dest_str d).
Proof.
  destruct d as [c|m]; [constructor; apply coord_words|]. destruct m as [|g m]; [constructor|]. constructor. apply (grids_words (g :: m)). discriminate.
Qed.

(** * No two destinations have one text *)
Lemma int_text_lacks c n s : lacksb c "-0123456789" = true -> int_text n s -> lacksb c s = true.
Proof.
  intros H. change "-0123456789" with ("-" ++ "0123456789") in H. rewrite lacksb_app in H. apply andb_prop in H as [H1 H2].
  intros [[_ N]|(_ & u & N & ->)]; [exact (numeral_lacks c n s H2 N)|]. rewrite lacksb_app, H1. exact (numeral_lacks c _ u H2 N).
Qed.
Lemma int_text_inj n m s : int_text n s -> int_text m s -> n = m.
Proof.
  intros [[_ N]|(_ & u & N & ->)] [[_ N']|(_ & u' & N' & E)].
  - exact (numeral_inj _ _ N _ N').
  - exfalso. subst s. destruct (numeral_head _ _ N) as (c & r & E & C). injection E as E _. subst c. discriminate C.
  - exfalso. destruct (numeral_head _ _ N') as (c & r & E & C). injection E as E _. subst c. discriminate C.
  - injection E as E. subst u'. pose proof (numeral_inj _ _ N _ N'). lia.
Qed.
(* a number ends at the first character that is none of a number *)
Lemma int_text_peel c n m s t r r' : lacksb c "-0123456789" = true -> int_text n s -> int_text m t -> s ++ String c r = t ++ String c r' -> n = m /\ r = r'.
Proof.
  intros H N M E. destruct (peel c s t r r' (int_text_lacks _ _ _ H N) (int_text_lacks _ _ _ H M) E) as [<- ER]. split; [exact (int_text_inj _ _ _ N M)|exact ER].
Qed.
Lemma pair_peel x y x' y' b e b' e' r r' : int_text x b -> int_text y e -> int_text x' b' -> int_text y' e' ->
  b ++ String "," (e ++ String ")" r) = b' ++ String "," (e' ++ String ")" r') -> x = x' /\ y = y' /\ r = r'.
Proof.
  intros B E B' E' H. destruct (int_text_peel "," _ _ _ _ _ _ eq_refl B B' H) as [H1 H2]. destruct (int_text_peel ")" _ _ _ _ _ _ eq_refl E E' H2) as [H3 H4]. auto.
Qed.
Lemma place_peel c c' s s' r r' : place_words c s -> place_words c' s' -> s ++ r = s' ++ r' -> c = c' /\ r = r'.
Proof.
  intros (a & b & e & A & B & E & ->) (a' & b' & e' & A' & B' & E' & ->) H. rewrite !sapp_assoc3 in H. cbn [append] in H. injection H as H.
  destruct (int_text_peel "(" _ _ _ _ _ _ eq_refl A A' H) as [H1 H2]. destruct (pair_peel _ _ _ _ _ _ _ _ _ _ B E B' E' H2) as (H3 & H4 & H5).
  split; [|exact H5]. destruct c, c'. cbn in *. congruence.
Qed.
(* what the text of a rectangle says *)
Definition said (g : cgrid) : coord * Z * Z := (g_start g, c_row (g_end g), c_col (g_end g)).
Lemma rect_peel g g' s s' r r' : rect_words g s -> rect_words g' s' -> s ++ r = s' ++ r' -> said g = said g' /\ r = r'.
Proof.
  intros (p & b & e & P & B & E & ->) (p' & b' & e' & P' & B' & E' & ->) H. rewrite !sapp_assoc3 in H. destruct (place_peel _ _ _ _ _ _ P P' H) as [H1 H2].
  cbn [append] in H2. injection H2 as H2. destruct (pair_peel _ _ _ _ _ _ _ _ _ _ B E B' E' H2) as (H3 & H4 & H5). split; [|exact H5]. unfold said. congruence.
Qed.
Lemma rects_said m s : rects_words m s -> forall m', rects_words m' s -> map said m = map said m'.
Proof.
  induction 1 as [g s G|g m s t G M IH]; intros m' H; inversion H as [g' s' G' E1 E2|g' n s' t' G' M' E1 E2]; subst.
  - destruct (rect_peel _ _ _ _ "" "" G G' eq_refl) as [K _]. cbn. rewrite K. reflexivity.
  - exfalso. destruct (rect_peel _ _ _ _ "" (", " ++ t') G G') as [_ K]; [apply sapp_nil|discriminate K].
  - exfalso. destruct (rect_peel _ _ _ _ (", " ++ t) "" G G') as [_ K]; [symmetry; apply sapp_nil|discriminate K].
  - destruct (rect_peel _ _ _ _ (", " ++ t) (", " ++ t') G G') as [K1 K2]; [symmetry; assumption|]. cbn [append] in K2. injection K2 as K2. subst t'.
    cbn [map]. rewrite K1. f_equal. apply IH. exact M'.
Qed.
Lemma place_head c s : place_words c s -> exists r, s = "Dev" ++ r. Proof. intros (a & b & e & _ & _ & _ & ->). eexists. reflexivity. Qed.
Lemma rects_head m s : rects_words m s -> exists c p r, place_words c p /\ s = p ++ "-" ++ r.
Proof.
  intros H. inversion H as [g s' G E1 E2|g n s' t' G M E1 E2]; subst; destruct G as (p & b & e & P & _ & _ & ->).
  - exists (g_start g), p. eexists. split; [exact P|]. reflexivity.
  - exists (g_start g), p. eexists. split; [exact P|]. rewrite !sapp_assoc3. reflexivity.
Qed.
Lemma core_not_rects c m s : place_words c s -> rects_words m s -> False.
Proof. intros C M. destruct (rects_head _ _ M) as (c' & p & r & P & E). subst s. destruct (place_peel _ _ _ _ "" ("-" ++ r) C P) as [_ K]; [apply sapp_nil|discriminate K]. Qed.
Lemma core_not_empty c : place_words c "(empty)" -> False. Proof. intros H. destruct (place_head _ _ H) as [r E]. discriminate E. Qed.
Lemma rects_not_empty m : rects_words m "(empty)" -> False.
Proof. intros H. destruct (rects_head _ _ H) as (c & p & r & P & E). destruct (place_head _ _ P) as [q ->]. discriminate E. Qed.

(* destinations of one text: the same core, or sets that say the same *)
Lemma words_said d d' s : dest_words d s -> dest_words d' s ->
  match d, d' with Unicast c, Unicast c' => c = c' | Multicast m, Multicast m' => map said m = map said m' | _, _ => False end.
Proof.
  intros [c t C| |m t M] H; inversion H as [c' t' C' E1 E2|E1 E2|m' t' M' E1 E2]; subst.
  - apply (place_peel c c' t t "" "" C C' eq_refl).
  - exact (core_not_empty _ C).
  - exact (core_not_rects _ _ _ C M').
  - exact (core_not_empty _ C').
  - reflexivity.
  - destruct (rects_not_empty _ M').
  - exact (core_not_rects _ _ _ C' M).
  - destruct (rects_not_empty _ M).
  - exact (rects_said _ _ M _ M').
Qed.
Lemma said_equal m : forall m', map said m = map said m' -> (forall g, In g m -> c_dev (g_start g) = c_dev (g_end g)) -> (forall g, In g m' -> c_dev (g_start g) = c_dev (g_end g)) -> m = m'.
Proof.
  induction m as [|[[d r c] [d1 r1 c1]] m IH]; intros [|[[d' r' c'] [d1' r1' c1']] m'] E H H'; try discriminate; [reflexivity|]. cbn in E. injection E as -> -> -> -> -> E.
  pose proof (H _ (or_introl eq_refl)) as K. pose proof (H' _ (or_introl eq_refl)) as K'. cbn in K, K'. subst d1 d1'. f_equal. apply IH; [exact E| |]; intros g Hg; [apply H|apply H']; right; exact Hg.
Qed.
Lemma said_eqb m : forall m', map said m = map said m' -> mcast_eqb m m' = true.
Proof.
  induction m as [|g m IH]; intros [|g' m'] E; try discriminate; [reflexivity|]. cbn [map] in E. injection E as E1 E2 E3 E. cbn [mcast_eqb]. rewrite (IH _ E), andb_true_r.
  unfold cgrid_eqb. rewrite E1, E2, E3, !Z.eqb_refl. reflexivity.
Qed.
Theorem dest_unique d d' s : one_chip d -> one_chip d' -> dest_words d s -> dest_words d' s -> d = d'.
Proof.
  intros O O' H H'. pose proof (words_said _ _ _ H H') as K. destruct d as [c|m], d' as [c'|m']; try contradiction; [rewrite K; reflexivity|].
  rewrite (said_equal _ _ K O O'). reflexivity.
Qed.
Theorem dest_identified d d' : one_chip d -> one_chip d' -> dest_str d = dest_str d' -> d = d'.
Proof. intros O O' E. apply (dest_unique d d' (dest_str d) O O'); [apply dest_written|]. rewrite E. apply dest_written. Qed.
Theorem mcast_same m m' : mcast_str m = mcast_str m' -> mcast_eqb m m' = true.
Proof.
  intros E. apply said_eqb. apply (words_said (Multicast m) (Multicast m') (dest_str (Multicast m))); [apply dest_written|]. cbn [dest_str]. rewrite E. apply (dest_written (Multicast m')).
Qed.
Theorem made_one_chip a b m : mcast_make a b = Ok m -> one_chip (Multicast m).
Proof.
  unfold mcast_make, tt_assert. destruct (c_dev a =? c_dev b) eqn:E; [|discriminate]. cbn. destruct (_ || _); [|discriminate]. cbn. intros H. injection H as <-.
  intros g [<-|[]]. cbn. lia.
Qed.
Theorem chip_lost : exists m m', mcast_str m = mcast_str m' /\ m <> m'.
Proof. exists [mkGrid (mkCoord 0 1 1) (mkCoord 0 2 2)], [mkGrid (mkCoord 0 1 1) (mkCoord 1 2 2)]. split; [reflexivity|discriminate]. Qed.
Theorem equal_texts_differ : exists m m', mcast_eqb m m' = true /\ mcast_str m <> mcast_str m'.
Proof. exists [mkGrid (mkCoord 0 1 1) (mkCoord 0 2 2)], [mkGrid (mkCoord 1 1 1) (mkCoord 1 2 2)]. split; [reflexivity|discriminate]. Qed.
