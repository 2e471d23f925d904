(* C71, C72: paths. *)
From Coq Require Import ZArith Arith Lia Bool String List Permutation ZifyBool ZifyNat.
From Verif Require Import Util Fabric SpecFabric FabricProofs.
Import ListNotations.
Local Open Scope string_scope.
Local Open Scope list_scope.
Open Scope Z_scope.
Ltac Zify.zify_post_hook ::= idtac.

Section Paths.
  Context (t : topology) (WF : well_formed t) (BR : broad t).
  Notation next_spec := (next_spec t WF BR).
  Lemma plane_get_iff d p g c : plane_get t d p g = Some c <-> In ((d, p, g), c) (tp_planes t).
  Proof. destruct WF as (_ & W2 & _). unfold plane_get. apply (dict_get_iff plane_eqb plane_eqb_spec _ _ _ W2). Qed.
  Lemma coord_iff c xy : dict_item Z.eqb (tp_coord t) c = Val xy <-> In (c, xy) (tp_coord t).
  Proof. destruct WF as (_ & _ & W3 & _). apply (dict_item_iff Z.eqb Z.eqb_eq _ _ _ W3). Qed.
  Theorem forward_spec p d g d' g' fc rc : forward t p d g = Val (d', g', fc, rc) <-> link t p d g d' g' fc rc.
  Proof.
    unfold forward, link, core_on. rewrite pbind_val. split.
    - intros ([d1 g1] & HN & H). apply (proj1 (next_spec _ _ _ _)) in HN. destruct (plane_get t d p g1) as [c|] eqn:E1; [|discriminate H]. apply pbind_val in H as (fc1 & H1 & H).
      destruct (plane_get t d1 p (get_inverse_direction g1)) as [c'|] eqn:E2; [|discriminate H]. apply pbind_val in H as (rc1 & H2 & H). injection H as <- <- <- <-.
      apply (proj1 (plane_get_iff _ _ _ _)) in E1, E2. apply (proj1 (coord_iff _ _)) in H1, H2. split; [exact HN|]. split; [eauto|]. exists (get_inverse_direction g1). split; [apply inverse_opposite; reflexivity|eauto].
    - intros (HN & (c & H1 & H2) & b & HO & c' & H3 & H4). apply next_spec in HN. exists (d', g'). split; [exact HN|]. apply inverse_opposite in HO. subst b. apply plane_get_iff in H1, H3. rewrite H1. apply pbind_val. apply coord_iff in H2, H4.
      exists fc. split; [exact H2|]. rewrite H3. apply pbind_val. exists rc. auto.
  Qed.
  Lemma link_fun p d g d1 g1 fc1 rc1 d2 g2 fc2 rc2 : link t p d g d1 g1 fc1 rc1 -> link t p d g d2 g2 fc2 rc2 -> d1 = d2 /\ g1 = g2 /\ fc1 = fc2 /\ rc1 = rc2.
  Proof. intros H1 H2. apply forward_spec in H1, H2. rewrite H1 in H2. injection H2 as <- <- <- <-. auto. Qed.
  Lemma travels_fun p d rc g n d1 r1 g1 d2 r2 g2 : travels t p d rc g n d1 r1 g1 -> travels t p d rc g n d2 r2 g2 -> d1 = d2 /\ r1 = r2 /\ g1 = g2.
  Proof.
    intros H. revert d2 r2 g2. induction H as [|n da ra ga db gb fa rb H IH HL]; intros d2 r2 g2 H2; inversion H2 as [|? dc rc' gc ? ? fc ? H3 HL2]; subst; [auto|].
    destruct (IH _ _ _ H3) as (<- & <- & <-). destruct (link_fun _ _ _ _ _ _ _ _ _ _ _ HL HL2) as (<- & <- & _ & <-). auto.
  Qed.
  Lemma travels_cons p d rc g n d1 g1 fc rc1 d2 rc2 g2 : link t p d g d1 g1 fc rc1 -> travels t p d1 rc1 g1 n d2 rc2 g2 -> travels t p d rc g (S n) d2 rc2 g2.
  Proof. intros HL H. induction H; econstructor; eauto. constructor. Qed.
  Lemma travels_uncons p d rc g n d2 rc2 g2 : travels t p d rc g (S n) d2 rc2 g2 -> exists d1 g1 fc rc1, link t p d g d1 g1 fc rc1 /\ travels t p d1 rc1 g1 n d2 rc2 g2.
  Proof.
    remember (S n) as k eqn:E. intros H. revert n E. induction H as [|k da ra ga db gb fa rb H IH HL]; intros n E; [discriminate|]. injection E as ->. destruct n as [|n].
    - inversion H; subst. exists db, gb, fa, rb. split; [exact HL|constructor].
    - destruct (IH n eq_refl) as (d1 & g1 & f1 & r1 & L1 & T1). exists d1, g1, f1, r1. split; [exact L1|]. econstructor; eauto.
  Qed.
  Lemma travels_shorter p d rc g n d2 rc2 g2 : travels t p d rc g n d2 rc2 g2 -> forall k, (k <= n)%nat -> exists d1 r1 g1, travels t p d rc g k d1 r1 g1.
  Proof.
    intros H. induction H as [|n da ra ga db gb fa rb H IH HL]; intros k Hk.
    - assert (k = O) by lia. subst. exists d, rc, g. constructor.
    - destruct (Nat.eq_dec k (S n)) as [->|NE]; [exists db, rb, gb; econstructor; eauto|apply IH; lia].
  Qed.

  (** * Hops *)
  Context (W : Type).
  Lemma hops_spec p start total dst (onward : bool) n : forall hop d rc g parent l de re,
    hops t W p start total dst (negb onward) n hop d rc g parent = Val (l, (de, re)) -> hop + Z.of_nat n = total + 1 ->
    (List.length l = n /\ forall k s, nth_error l k = Some s -> exists dk rk gk, travels t p d rc g k dk rk gk /\
      sg_device W s = dk /\ sg_start W s = rk /\ sg_noc W s = "NOC_1" /\ sg_parent W s = parent + Z.of_nat k /\
      (sg_writes W s = if (start <=? hop + Z.of_nat k) && negb onward then Some dst else None) /\
      match sg_forward W s with
      | Some fc => ((S k < n)%nat \/ onward = true) /\ exists d' g' rc', link t p dk gk d' g' fc rc'
      | None => S k = n /\ onward = false
      end) /\ stops t p d rc g n onward de re.
  Proof.
    induction n as [|n IH]; intros hop d rc g parent l de re H HT; cbn [hops] in H.
    - injection H as <- <- <-. split; [split; [reflexivity|intros [|k] s E; discriminate E]|]. exists g. destruct onward; constructor.
    - rewrite negb_involutive in H. destruct ((hop <? total) || onward) eqn:EF.
      + apply pbind_val in H as ([[[d1 g1] fc] rc1] & HL & H). apply (proj1 (forward_spec _ _ _ _ _ _ _)) in HL. apply pbind_val in H as ([l1 [de1 re1]] & HR & H). cbn [fst snd] in H. injection H as <- <- <-.
        destruct (IH _ _ _ _ _ _ _ _ HR ltac:(lia)) as ((IL & IK) & g2 & IS). split; [split; [cbn; congruence|]|].
        * intros [|k] s E; cbn [nth_error] in E.
          -- injection E as <-. exists d, rc, g. split; [constructor|]. cbn [sg_device sg_start sg_noc sg_parent sg_writes sg_forward]. rewrite Z.add_0_r. split; [reflexivity|]. split; [reflexivity|]. split; [reflexivity|]. split; [lia|].
             split; [replace (hop + Z.of_nat 0) with hop by lia; reflexivity|]. split; [destruct onward; [right; reflexivity|left; lia]|]. eauto.
          -- destruct (IK k s E) as (dk & rk & gk & T & A1 & A2 & A3 & A4 & A5 & A6). exists dk, rk, gk. split; [eapply travels_cons; eassumption|]. split; [exact A1|]. split; [exact A2|]. split; [exact A3|]. split; [lia|].
             split; [replace (hop + Z.of_nat (S k)) with (hop + 1 + Z.of_nat k) by lia; exact A5|]. destruct (sg_forward W s); [destruct A6 as [[A6|A6] A7]; split; try exact A7; [left; lia|right; exact A6]|destruct A6; split; [congruence|assumption]].
        * exists g2. destruct onward; [eapply travels_cons; eassumption|]. cbn [pred] in *. assert (exists n', n = S n') as (n' & ->) by (destruct n; [lia|eauto]). eapply travels_cons; eassumption.
      + assert (n = O) by lia. subst n. cbn [hops pbind fst snd] in H. injection H as <- <- <-. destruct onward; [lia|]. split; [split; [reflexivity|]|exists g; constructor].
        intros [|[|k]] s E; try discriminate E. cbn [nth_error] in E. injection E as <-. exists d, rc, g. split; [constructor|]. cbn [sg_device sg_start sg_noc sg_parent sg_writes sg_forward].
        split; [reflexivity|]. split; [reflexivity|]. split; [reflexivity|]. split; [lia|]. split; [replace (hop + Z.of_nat 0) with hop by lia; reflexivity|]. auto.
  Qed.
  Lemma hops_found p start total dst (onward : bool) n : forall hop d rc g parent, hop + Z.of_nat n = total + 1 ->
    (exists de re ge, travels t p d rc g (if onward then n else pred n) de re ge) -> exists r, hops t W p start total dst (negb onward) n hop d rc g parent = Val r.
  Proof.
    induction n as [|n IH]; intros hop d rc g parent HT (de & re & ge & T); cbn [hops]; [eauto|]. rewrite negb_involutive. destruct ((hop <? total) || onward) eqn:EF.
    - assert (exists k, (if onward then S n else pred (S n)) = S k /\ k = if onward then n else pred n) as (k & E & EK).
      { destruct onward; [eauto|]. destruct n; [lia|]. cbn. eauto. }
      rewrite E in T. apply travels_uncons in T as (d1 & g1 & fc & rc1 & L & T). apply forward_spec in L. rewrite L. cbn [pbind]. destruct (IH (hop + 1) d1 rc1 g1 (parent + 1) ltac:(lia)) as (r & ->); [subst k; eauto|]. cbn [pbind]. eauto.
    - assert (n = O) by lia. subst n. cbn [hops pbind fst snd]. eauto.
  Qed.
  Theorem add_hops_spec p d rc start range g (dst : W) (onward : bool) parent l de re : add_hops t W d rc start range g p dst (negb onward) parent = Val (l, (de, re)) -> 0 <= start + range - 1 ->
    along t p d rc g (Z.to_nat (start + range - 1)) start dst onward parent l /\ stops t p d rc g (Z.to_nat (start + range - 1)) onward de re.
  Proof.
    unfold add_hops, along. cbv zeta. intros H HT. apply hops_spec in H; [|lia]. destruct H as [[H1 H2] H3]. split; [|exact H3]. split; [exact H1|]. intros k s E. destruct (H2 k s E) as (dk & rk & gk & A). exists dk, rk, gk.
    rewrite (Z.add_comm (Z.of_nat k) 1). exact A.
  Qed.
  Theorem add_hops_found p d rc start range g (dst : W) (onward : bool) parent : 0 <= start + range - 1 ->
    (exists de re ge, travels t p d rc g (let n := Z.to_nat (start + range - 1) in if onward then n else pred n) de re ge) -> exists r, add_hops t W d rc start range g p dst (negb onward) parent = Val r.
  Proof. intros HT H. unfold add_hops. cbv zeta. apply hops_found; [lia|exact H]. Qed.

  (** * First link *)
  Definition pstep (dev chan : Z) (s : option (Z * dir) * option Z) (e : plane_key * Z) : option (Z * dir) * option Z :=
    let '((d, p, g), c) := e in (if (d =? dev) && (c =? chan) then Some (p, g) else fst s, Some p).
  Lemma plane_fold_spec dev chan l : let r := fold_left (pstep dev chan) l (None, None) in
    (forall p g, fst r = Some (p, g) -> In ((dev, p, g), chan) l) /\ (fst r = None <-> forall p g, ~ In ((dev, p, g), chan) l) /\
    (forall q, snd r = Some q <-> exists l' d g c, l = l' ++ [((d, q, g), c)]).
  Proof.
    cbv zeta. induction l as [|[[[d p] g] c] l IH] using rev_ind.
    - cbn. split; [discriminate|]. split; [split; [auto|reflexivity]|]. intros q. split; [discriminate|intros (l' & d & g & c & E); destruct l'; discriminate].
    - rewrite fold_left_app. cbn [fold_left]. destruct IH as (I1 & I2 & I3). set (r := fold_left (pstep dev chan) l (None, None)) in *. cbn [pstep fst snd]. split; [|split].
      + intros p' g' E. rewrite in_app_iff. destruct ((d =? dev) && (c =? chan)) eqn:EE; [|left; apply I1; exact E]. injection E as <- <-. right. left. replace d with dev by lia; replace c with chan by lia; reflexivity.
      + destruct ((d =? dev) && (c =? chan)) eqn:EE.
        * split; [discriminate|]. intros H. exfalso. apply (H p g). rewrite in_app_iff. right. left. replace d with dev by lia; replace c with chan by lia; reflexivity.
        * rewrite I2. split; intros H p' g' C; [|apply (H p' g'); apply in_app_iff; auto]. apply in_app_iff in C as [C|[C|[]]]; [exact (H _ _ C)|]. injection C as -> _ _ ->. lia.
      + intros q. split.
        * intros E. injection E as <-. exists l, d, g, c. reflexivity.
        * intros (l' & d' & g' & c' & E). apply app_inj_tail in E as [_ E]. injection E as _ -> _ _. reflexivity.
  Qed.
  Lemma plane_of_fold dev chan : plane_of t dev chan = fold_left (pstep dev chan) (tp_planes t) (None, None).
  Proof. reflexivity. Qed.
  Lemma plane_of_spec dev chan p g : channel_of t dev chan p g -> exists q, plane_of t dev chan = (Some (p, g), Some q) /\ last_plane t q.
  Proof.
    intros [H1 H2]. rewrite plane_of_fold. destruct (plane_fold_spec dev chan (tp_planes t)) as (I1 & I2 & I3). destruct (fold_left (pstep dev chan) (tp_planes t) (None, None)) as [[[p' g']|] o]; cbn [fst snd] in *.
    - destruct (H2 _ _ (I1 _ _ eq_refl)) as [-> ->]. destruct o as [q|]; [exists q; split; [reflexivity|apply I3; reflexivity]|].
      exfalso. destruct (exists_last (l := tp_planes t)) as (l' & [[[d q] b] c] & E); [intros E; rewrite E in H1; exact H1|]. assert (C : None = Some q) by (apply I3; eauto). discriminate C.
    - exfalso. exact (proj1 I2 eq_refl _ _ H1).
  Qed.
  Lemma plane_of_unknown dev chan : (forall p g, ~ In ((dev, p, g), chan) (tp_planes t)) -> first_link t dev chan = Raised "NameError".
  Proof.
    intros H. unfold first_link. rewrite plane_of_fold. destruct (plane_fold_spec dev chan (tp_planes t)) as (_ & I2 & _). apply I2 in H. destruct (fold_left (pstep dev chan) (tp_planes t) (None, None)) as [o1 o2]. cbn [fst] in H. subst o1. reflexivity.
  Qed.
  Lemma last_plane_fun q q' : last_plane t q -> last_plane t q' -> q = q'.
  Proof. intros (l & d & g & c & E) (l' & d' & g' & c' & E'). rewrite E in E'. apply app_inj_tail in E' as [_ E']. injection E' as _ -> _ _. reflexivity. Qed.
  Theorem first_link_spec dev chan p g : channel_of t dev chan p g -> forall d g' p' rc,
    first_link t dev chan = Val (d, g', p', rc) <-> p' = p /\ exists q, last_plane t q /\ departs t dev g q d g' rc.
  Proof.
    intros HC d g' p' rc. destruct (plane_of_spec _ _ _ _ HC) as (q & E & HQ). unfold first_link. rewrite E. rewrite pbind_val. unfold departs, core_on. split.
    - intros ([d1 g1] & HN & H). apply (proj1 (next_spec _ _ _ _)) in HN. destruct (plane_get t d1 q (get_inverse_direction g1)) as [c|] eqn:EP; [|discriminate H]. apply pbind_val in H as (rc1 & H1 & H). injection H as <- <- <- <-.
      split; [reflexivity|]. exists q. split; [exact HQ|]. split; [exact HN|]. exists (get_inverse_direction g1). split; [apply inverse_opposite; reflexivity|]. exists c. apply (proj1 (plane_get_iff _ _ _ _)) in EP. apply (proj1 (coord_iff _ _)) in H1. auto.
    - intros (-> & q' & HQ' & HN & b & HO & c & H1 & H2). rewrite (last_plane_fun _ _ HQ' HQ) in *. apply next_spec in HN. exists (d, g'). split; [exact HN|]. apply inverse_opposite in HO. subst b. apply plane_get_iff in H1. rewrite H1. apply pbind_val. apply coord_iff in H2. eauto.
  Qed.
  Theorem first_hop_spec src dev chan m noc l : add_first_hop t W src dev chan m noc = Val l <-> exists xy, In (chan, xy) (tp_coord t) /\ out_of dev src noc m xy l.
  Proof.
    unfold add_first_hop, out_of. rewrite pbind_val. destruct m as [[[mx my] mnoc]|]; split.
    - intros (xy & H & E). apply (proj1 (coord_iff _ _)) in H. injection E as <-. eauto.
    - intros (xy & H & ->). apply coord_iff in H. eauto.
    - intros (xy & H & E). apply (proj1 (coord_iff _ _)) in H. injection E as <-. eauto.
    - intros (xy & H & ->). apply coord_iff in H. eauto.
  Qed.

  (** * Lines *)
  Theorem path_1d src dst dev chan start range m noc p g path de : channel_of t dev chan p g -> 0 <= start + range - 1 -> find_path_1d t W src dst dev chan start range m noc = Val (path, de) ->
    exists q d g' rc xy first rest re, last_plane t q /\ departs t dev g q d g' rc /\ In (chan, xy) (tp_coord t) /\ out_of dev src noc m xy first /\ path = first ++ rest /\
      along t p d rc g' (Z.to_nat (start + range - 1)) start dst false (Z.of_nat (List.length first) - 1) rest /\ stops t p d rc g' (Z.to_nat (start + range - 1)) false de re.
  Proof.
    intros HC HT H. unfold find_path_1d in H. apply pbind_val in H as (first & H1 & H). apply (proj1 (first_hop_spec _ _ _ _ _ _)) in H1 as (xy & H1 & H2). apply pbind_val in H as ([[[d g'] p'] rc] & H3 & H).
    apply (proj1 (first_link_spec _ _ _ _ HC _ _ _ _)) in H3 as (-> & q & HQ & HD). apply pbind_val in H as ([rest [de' re]] & H4 & H). cbn [fst snd] in H. injection H as <- <-.
    change true with (negb false) in H4. apply add_hops_spec in H4; [|exact HT]. exists q, d, g', rc, xy, first, rest, re. assert (EL : last_id m = Z.of_nat (List.length first) - 1) by (unfold out_of in H2; destruct m as [[[mx my] mnoc]|]; subst first; reflexivity).
    rewrite EL in H4. tauto.
  Qed.
  Theorem path_1d_found src dst dev chan start range m noc p g q d g' rc dl rl gl : channel_of t dev chan p g -> 1 <= start + range - 1 -> knows t chan -> last_plane t q -> departs t dev g q d g' rc ->
    travels t p d rc g' (Z.to_nat (start + range - 2)) dl rl gl -> exists path, find_path_1d t W src dst dev chan start range m noc = Val (path, dl).
  Proof.
    intros HC HT (xy & HK) HQ HD HR. unfold find_path_1d. assert (exists l, add_first_hop t W src dev chan m noc = Val l) as (l & HF).
    { destruct m as [[[mx my] mnoc]|]; eexists; apply first_hop_spec; exists xy; (split; [exact HK|reflexivity]). }
    rewrite HF. cbn [pbind]. assert (HL : first_link t dev chan = Val (d, g', p, rc)) by (apply (first_link_spec _ _ _ _ HC); eauto). rewrite HL. cbn [pbind].
    destruct (add_hops_found p d rc start range g' dst false (last_id m)) as ([rest [de re]] & HA); [lia|cbv zeta; replace (pred (Z.to_nat (start + range - 1))) with (Z.to_nat (start + range - 2)) by lia; eauto|].
    cbn [negb] in HA. rewrite HA. cbn [pbind fst snd]. change true with (negb false) in HA. apply add_hops_spec in HA; [|lia]. destruct HA as [_ (ge & HS)]. replace (pred (Z.to_nat (start + range - 1))) with (Z.to_nat (start + range - 2)) in HS by lia.
    destruct (travels_fun _ _ _ _ _ _ _ _ _ _ _ HS HR) as (-> & _). eauto.
  Qed.

  (** * What follows for paths *)
  Lemma travels_moves p d rc g n d' rc' g' : travels t p d rc g n d' rc' g' -> moves t n d g d' g'.
  Proof.
    revert d rc g. induction n as [|n IH]; intros d rc g H; [inversion H; subst; constructor|]. apply travels_uncons in H as (d1 & g1 & fc & rc1 & (L & _) & H). econstructor; [exact L|]. eapply IH; exact H.
  Qed.
  (* consecutive segments *)
  Lemma along_next p d rc g n from (dst : W) onward parent l k s s' : along t p d rc g n from dst onward parent l -> nth_error l k = Some s -> nth_error l (S k) = Some s' ->
    exists fc, sg_forward W s = Some fc /\ exists gk gk', neighbour t (sg_device W s) gk (sg_device W s') gk'.
  Proof.
    intros [HL HA] H1 H2. destruct (HA _ _ H1) as (dk & rk & gk & T & A1 & A2 & A3 & A4 & A5 & A6). destruct (HA _ _ H2) as (dk' & rk' & gk' & T' & B1 & _).
    assert (S k < n)%nat by (rewrite <- HL; apply nth_error_Some; congruence). destruct (sg_forward W s) as [fc|]; [|lia]. exists fc. split; [reflexivity|].
    inversion T' as [|? d1 r1 g1 ? ? fc2 ? T1 L1]; subst. destruct (travels_fun _ _ _ _ _ _ _ _ _ _ _ T T1) as (E1 & _ & _). rewrite E1. exists g1, gk'. exact (proj1 L1).
  Qed.
  Lemma out_last dev src noc m xy (first : list (segment W)) : out_of dev src noc m xy first -> exists l s, first = l ++ [s] /\ sg_device W s = dev /\ sg_forward W s = Some xy /\ sg_writes W s = None.
  Proof.
    unfold out_of. destruct m as [[[mx my] mnoc]|]; intros ->.
    - exists [mkSegment W dev noc (-1) src (Some (mx, my)) None], (mkSegment W dev mnoc 0 (mx, my) (Some xy) None). auto.
    - exists [], (mkSegment W dev noc (-1) src (Some xy) None). auto.
  Qed.
  Lemma out_connected dev src noc m xy (first : list (segment W)) : out_of dev src noc m xy first -> connected t first.
  Proof.
    unfold out_of. destruct m as [[[mx my] mnoc]|]; intros -> [|[|k]] s E; cbn [nth_error] in E; try discriminate E; try (destruct k; discriminate E).
    - injection E as <-. left. auto.
    - injection E as <-. right. exists O, (mkSegment W dev noc (-1) src (Some (mx, my)) None), (mx, my). cbn. repeat split; auto.
    - injection E as <-. left. auto.
  Qed.
  Lemma connected_app (a b : list (segment W)) l s fc p d rc g n from dst onward : connected t a -> a = l ++ [s] -> sg_forward W s = Some fc -> (exists g1 g2, neighbour t (sg_device W s) g1 d g2) ->
    along t p d rc g n from dst onward (Z.of_nat (List.length a) - 1) b -> connected t (a ++ b).
  Proof.
    intros HA EA HF HN HB k s' E. destruct (Nat.lt_ge_cases k (List.length a)) as [LT|GE].
    - rewrite nth_error_app1 in E by exact LT. destruct (HA _ _ E) as [H|(j & sp & f & H1 & H2 & H3 & H4)]; [left; exact H|]. right. exists j, sp, f. rewrite nth_error_app1 by lia. tauto.
    - rewrite nth_error_app2 in E by exact GE. right. destruct (proj2 HB _ _ E) as (dk & rk & gk & T & A1 & A2 & A3 & A4 & _). remember (k - List.length a)%nat as i eqn:EI. destruct i as [|i].
      + assert (ED : d = dk) by (inversion T; congruence). exists (List.length a - 1)%nat, s, fc. assert (LA : List.length a = S (List.length l)) by (rewrite EA, app_length; cbn; lia). split; [lia|]. split; [lia|]. split.
        * rewrite nth_error_app1 by lia. rewrite EA at 1. rewrite nth_error_app2 by lia. rewrite LA. replace (S (List.length l) - 1 - List.length l)%nat with O by lia. reflexivity.
        * split; [exact HF|]. right. rewrite A1, <- ED. exact HN.
      + assert (exists sp, nth_error b i = Some sp) as (sp & ES). { destruct (nth_error b i) eqn:EN; [eauto|]. apply nth_error_None in EN. assert (S i < List.length b)%nat by (apply nth_error_Some; congruence). lia. }
        destruct (along_next _ _ _ _ _ _ _ _ _ _ _ _ _ HB ES E) as (f & F1 & F2). exists (List.length a + i)%nat, sp, f. split; [lia|]. split; [lia|]. rewrite nth_error_app2 by lia. replace (List.length a + i - List.length a)%nat with i by lia. auto.
  Qed.
  Theorem connected_1d src dst dev chan start range m noc p g path de : channel_of t dev chan p g -> 0 <= start + range - 1 -> find_path_1d t W src dst dev chan start range m noc = Val (path, de) -> connected t path.
  Proof.
    intros HC HT H. apply (path_1d _ _ _ _ _ _ _ _ _ _ _ _ HC HT) in H as (q & d & g' & rc & xy & first & rest & re & HQ & HD & HK & HO & -> & HA & HS).
    destruct (out_last _ _ _ _ _ _ HO) as (l & s & E & E1 & E2 & _). eapply connected_app; [eapply out_connected; exact HO|exact E|exact E2| |exact HA]. rewrite E1. destruct HD as [HD _]. eauto.
  Qed.
  Theorem destination_1d src dst dev chan start range m noc p g path de : channel_of t dev chan p g -> 1 <= start + range - 1 -> find_path_1d t W src dst dev chan start range m noc = Val (path, de) ->
    exists g', moves t (Z.to_nat (start + range - 1)) dev g de g'.
  Proof.
    intros HC HT H. assert (HT0 : 0 <= start + range - 1) by lia. apply (path_1d _ _ _ _ _ _ _ _ _ _ _ _ HC HT0) in H as (q & d & g' & rc & xy & first & rest & re & HQ & [HD _] & HK & HO & -> & HA & (ge & HS)). exists ge.
    replace (Z.to_nat (start + range - 1)) with (S (pred (Z.to_nat (start + range - 1)))) by lia. econstructor; [exact HD|]. eapply travels_moves; exact HS.
  Qed.
  (* the writing segments, in order, are those on the chips from [start] to [start + range - 1] links away *)
  Lemma writers_skipn (l : list (segment W)) n : (n <= List.length l)%nat -> (forall k s, nth_error l k = Some s -> ((n <= k)%nat <-> sg_writes W s <> None)) -> writers l = skipn n l.
  Proof.
    revert n. induction l as [|s l IH]; intros n HN H; [cbn in HN; assert (n = O) by lia; subst; reflexivity|]. unfold writers. cbn [filter]. fold (writers l). pose proof (H O s eq_refl) as H0. destruct n as [|n].
    - destruct (sg_writes W s); [|exfalso; apply (proj1 H0); [lia|reflexivity]]. cbn [skipn]. f_equal. rewrite (IH O); [reflexivity|lia|]. intros k s' E. rewrite <- (H (S k) s' E). lia.
    - destruct (sg_writes W s); [exfalso; assert (S n <= O)%nat by (apply H0; discriminate); lia|]. cbn [skipn]. apply IH; [cbn in HN; lia|]. intros k s' E. rewrite <- (H (S k) s' E). lia.
  Qed.
  Lemma along_writers p d rc g n from (dst : W) parent l : 1 <= from <= Z.of_nat n + 1 -> along t p d rc g n from dst false parent l -> writers l = skipn (Z.to_nat from - 1) l.
  Proof.
    intros HF [HL HA]. apply writers_skipn; [lia|]. intros k s E. destruct (HA _ _ E) as (dk & rk & gk & _ & _ & _ & _ & _ & A5 & _). rewrite A5, andb_true_r. destruct (from <=? Z.of_nat k + 1) eqn:EF; split; intros; try discriminate; try congruence; lia.
  Qed.
  Lemma out_writers dev src noc m xy (first : list (segment W)) : out_of dev src noc m xy first -> writers first = [].
  Proof. unfold out_of. destruct m as [[[mx my] mnoc]|]; intros ->; reflexivity. Qed.
  Lemma moves_S_end n : forall d g d' g', moves t (S n) d g d' g' <-> exists d1 g1, moves t n d g d1 g1 /\ neighbour t d1 g1 d' g'.
  Proof.
    induction n as [|n IH]; intros d g d' g'.
    - split; [intros H; inversion H as [|? ? ? d1 g1 ? ? H1 H2]; subst; inversion H2; subst; exists d, g; split; [constructor|exact H1]|intros (d1 & g1 & H1 & H2); inversion H1; subst; econstructor; [exact H2|constructor]].
    - split.
      + intros H. inversion H as [|? ? ? d1 g1 ? ? H1 H2]; subst. apply IH in H2 as (d2 & g2 & H2 & H3). exists d2, g2. split; [econstructor; eassumption|exact H3].
      + intros (d1 & g1 & H1 & H2). inversion H1 as [|? ? ? d2 g2 ? ? H3 H4]; subst. econstructor; [exact H3|]. apply IH. eauto.
  Qed.
  Theorem writers_1d src dst dev chan start range m noc p g path de : channel_of t dev chan p g -> 1 <= start -> 0 <= range -> find_path_1d t W src dst dev chan start range m noc = Val (path, de) ->
    List.length (writers path) = Z.to_nat range /\
    forall i s, nth_error (writers path) i = Some s -> sg_writes W s = Some dst /\ exists g', moves t (Z.to_nat start + i) dev g (sg_device W s) g'.
  Proof.
    intros HC H1 H2 H. assert (HT0 : 0 <= start + range - 1) by lia. apply (path_1d _ _ _ _ _ _ _ _ _ _ _ _ HC HT0) in H as (q & d & g' & rc & xy & first & rest & re & HQ & [HD _] & HK & HO & -> & HA & _).
    unfold writers. rewrite filter_app. fold (writers first) (writers rest). rewrite (out_writers _ _ _ _ _ _ HO). cbn [app]. assert (HF : 1 <= start <= Z.of_nat (Z.to_nat (start + range - 1)) + 1) by lia. rewrite (along_writers _ _ _ _ _ _ _ _ _ HF HA). split.
    - rewrite skipn_length, (proj1 HA). lia.
    - intros i s E. assert (E' : nth_error rest (Z.to_nat start - 1 + i) = Some s).
      { rewrite <- E. clear. generalize (Z.to_nat start - 1)%nat. intros n. revert rest. induction n as [|n IH]; intros rest; [reflexivity|]. destruct rest; [destruct i; reflexivity|]. cbn. apply IH. }
      destruct (proj2 HA _ _ E') as (dk & rk & gk & T & A1 & _ & _ & _ & A5 & _). split.
      + rewrite A5. assert (start <=? Z.of_nat (Z.to_nat start - 1 + i) + 1 = true) as -> by lia. reflexivity.
      + exists gk. replace (Z.to_nat start + i)%nat with (S (Z.to_nat start - 1 + i)) by lia. econstructor; [exact HD|]. rewrite A1. eapply travels_moves; exact T.
  Qed.
End Paths.
