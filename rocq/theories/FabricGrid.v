(* C72: paths in two dimensions. *)
From Coq Require Import ZArith Arith Lia Bool String List Permutation ZifyBool ZifyNat.
From Verif Require Import Util Fabric SpecFabric FabricProofs FabricPaths.
Import ListNotations.
Local Open Scope string_scope.
Local Open Scope list_scope.
Open Scope Z_scope.
Ltac Zify.zify_post_hook ::= idtac.

Section Grid.
  Context (t : topology) (WF : well_formed t) (GR : grid t) (W : Type).
  Lemma no_turning : ~ turning t.
  Proof. unfold turning. destruct GR as [E|E]; rewrite E; intros [[C|C] _]; discriminate C. Qed.
  Lemma grid_broad : broad t.
  Proof. intros C. destruct (no_turning C). Qed.
  Notation BR := grid_broad.
  Lemma neighbour_keeps d g d' g' : neighbour t d g d' g' -> g' = g /\ straight t d g 1 d'.
  Proof.
    intros (m & ns & ew & x & y & x' & y' & L & [[[C _] _]|[_ ->]] & L' & HP); [destruct (no_turning C)|]. split; [reflexivity|].
    destruct HP as [[-> ->]|(C & (a & ->) & b & ->)].
    - exists m, ns, ew, x, y, (x + dx g), (y + dy g), 0, 0. split; [exact L|]. split; [exact L'|]. lia.
    - exists m, ns, ew, x, y, (x + dx g + a * ew), (y + dy g + b * ns), a, b. split; [exact L|]. split; [exact L'|]. split; [lia|]. split; [lia|]. tauto.
  Qed.
  Lemma straight_trans d g n d1 n' d2 : straight t d g n d1 -> straight t d1 g n' d2 -> straight t d g (n + n') d2.
  Proof.
    intros (m & ns & ew & x & y & x1 & y1 & a & b & L & L1 & E1 & E2 & Z1) (m' & ns' & ew' & x1' & y1' & x2 & y2 & a' & b' & L1' & L2 & E3 & E4 & Z2).
    destruct (located_fun t WF _ _ _ _ _ _ _ _ _ _ _ L1 L1') as (<- & <- & <- & <- & <-). exists m, ns, ew, x, y, x2, y2, (a + a'), (b + b'). split; [exact L|]. split; [exact L2|]. split; [lia|]. split; [lia|]. intros C. specialize (Z1 C). specialize (Z2 C). lia.
  Qed.
  Lemma straight_0 d g n d' : straight t d g n d' -> straight t d g 0 d /\ forall h, straight t d' h 0 d'.
  Proof.
    intros (m & ns & ew & x & y & x1 & y1 & a & b & L & L1 & _). split; [exists m, ns, ew, x, y, x, y, 0, 0; split; [exact L|]; split; [exact L|]; lia|].
    intros h. exists m, ns, ew, x1, y1, x1, y1, 0, 0. split; [exact L1|]. split; [exact L1|]. lia.
  Qed.
  Lemma moves_straight n : forall d g d' g', moves t n d g d' g' -> straight t d g 0 d -> straight t d g (Z.of_nat n) d' /\ g' = g.
  Proof.
    induction n as [|n IH]; intros d g d' g' H H0; [inversion H; subst; auto|]. inversion H as [|? ? ? d1 g1 ? ? H1 H2]; subst. destruct (neighbour_keeps _ _ _ _ H1) as [-> HS]. destruct (IH _ _ _ _ H2 (proj2 (straight_0 _ _ _ _ HS) g)) as [HS2 ->].
    split; [|reflexivity]. replace (Z.of_nat (S n)) with (1 + Z.of_nat n) by lia. eapply straight_trans; eassumption.
  Qed.
  Lemma moves_straight_S n d g d' g' : moves t (S n) d g d' g' -> straight t d g (Z.of_nat n + 1) d' /\ g' = g.
  Proof.
    intros H. assert (H' := H). inversion H as [|? ? ? d1 g1 ? ? H1 H2]; subst. destruct (neighbour_keeps _ _ _ _ H1) as [_ HS]. replace (Z.of_nat n + 1) with (Z.of_nat (S n)) by lia. apply moves_straight; [exact H'|]. apply (straight_0 _ _ _ _ HS).
  Qed.
  (* the first link followed by links of a plane *)
  Lemma from_start dev g d p rc n d' rc' g' : neighbour t dev g d g -> travels t p d rc g n d' rc' g' -> straight t dev g (Z.of_nat n + 1) d' /\ g' = g.
  Proof. intros H1 H2. apply moves_straight_S. econstructor; [exact H1|]. eapply travels_moves; exact H2. Qed.
  Lemma from_turn d0 g0 n0 dev p rc g n d' rc' g' : straight t d0 g0 n0 dev -> travels t p dev rc g n d' rc' g' -> straight t dev g (Z.of_nat n) d' /\ g' = g.
  Proof. intros H1 H2. apply moves_straight; [eapply travels_moves; exact H2|]. apply (straight_0 _ _ _ _ H1). Qed.
  (* the last of a row of segments that goes on *)
  Lemma along_last p d rc g n from (dst : W) parent l de re : along t p d rc g (S n) from dst true parent l -> stops t p d rc g (S n) true de re ->
    exists l' s fc, l = l' ++ [s] /\ sg_forward W s = Some fc /\ sg_writes W s = None /\ exists g1 g2, neighbour t (sg_device W s) g1 de g2.
  Proof.
    intros [HL HA] (ge & HS). destruct (exists_last (l := l)) as (l' & s & E); [intros ->; discriminate HL|]. assert (EL : List.length l' = n) by (rewrite E, app_length in HL; cbn in HL; lia).
    assert (EN : nth_error l n = Some s) by (rewrite E, nth_error_app2 by lia; rewrite EL, Nat.sub_diag; reflexivity). destruct (HA _ _ EN) as (dk & rk & gk & T & A1 & A2 & A3 & A4 & A5 & A6).
    destruct (sg_forward W s) as [fc|] eqn:EF; [|lia]. exists l', s, fc. split; [exact E|]. split; [exact EF|]. rewrite andb_false_r in A5. split; [exact A5|].
    inversion HS as [|? d1 r1 g1 ? ? fc2 ? T1 L1]; subst. destruct (travels_fun t WF BR _ _ _ _ _ _ _ _ _ _ _ T T1) as (E1 & _ & _). rewrite E1. exists g1, ge. exact (proj1 L1).
  Qed.
  Lemma along_no_writes p d rc g n from (dst : W) parent l : along t p d rc g n from dst true parent l -> writers l = [].
  Proof.
    intros [HL HA]. unfold writers. assert (H : forall s, In s l -> sg_writes W s = None).
    { intros s Hs. apply In_nth_error in Hs as (k & Hs). destruct (HA _ _ Hs) as (dk & rk & gk & T & A1 & A2 & A3 & A4 & A5 & A6). rewrite andb_false_r in A5. exact A5. }
    clear - H. induction l as [|s l IH]; [reflexivity|]. cbn [filter]. rewrite (H s (or_introl eq_refl)). apply IH. intros; apply H; right; assumption.
  Qed.
  (* a row of segments of which the last one writes *)
  Lemma along_one p d rc g n (dst : W) parent l de re : along t p d rc g (S n) (Z.of_nat (S n)) dst false parent l -> stops t p d rc g (S n) false de re -> one_write l de dst.
  Proof.
    intros HA (ge & HS). assert (HF : 1 <= Z.of_nat (S n) <= Z.of_nat (S n) + 1) by lia. pose proof (along_writers t W _ _ _ _ _ _ _ _ _ HF HA) as HW. destruct HA as [HL HA].
    destruct (exists_last (l := l)) as (l' & s & E); [intros ->; discriminate HL|]. assert (EL : List.length l' = n) by (rewrite E, app_length in HL; cbn in HL; lia).
    assert (EN : nth_error l n = Some s) by (rewrite E, nth_error_app2 by lia; rewrite EL, Nat.sub_diag; reflexivity). destruct (HA _ _ EN) as (dk & rk & gk & T & A1 & A2 & A3 & A4 & A5 & A6).
    exists l', s. split; [exact E|]. split.
    - rewrite HW, E. replace (Z.to_nat (Z.of_nat (S n)) - 1)%nat with (List.length l') by lia. rewrite skipn_app, skipn_all, Nat.sub_diag. reflexivity.
    - cbn [pred] in HS. destruct (travels_fun t WF BR _ _ _ _ _ _ _ _ _ _ _ T HS) as (E1 & _ & _). split; [congruence|]. rewrite A5. assert (Z.of_nat (S n) <=? Z.of_nat n + 1 = true) as -> by lia. reflexivity.
  Qed.
  Lemma one_write_app (a l : list (segment W)) d dst : writers a = [] -> one_write l d dst -> one_write (a ++ l) d dst.
  Proof. intros HA (l' & s & E & HW & H). exists (a ++ l'), s. split; [rewrite E, app_assoc; reflexivity|]. split; [|exact H]. unfold writers in *. rewrite filter_app, HA. exact HW. Qed.

  (** * The common part *)
  Lemma find_2d src (dst : W) dev chan ns e w mc m noc p g path de : channel_of t dev chan p g -> find_path_2d t W src dst dev chan ns e w mc m noc = Val (path, de) ->
    exists d rc xy first rest re, neighbour t dev g d g /\ out_of dev src noc m xy first /\ path = first ++ rest /\
      (if mc then multicast_hops t W d rc g p dst ns e w (Z.of_nat (List.length first) - 1) else unicast_hops t W d rc g p dst ns e w (Z.of_nat (List.length first) - 1)) = Val (rest, (de, re)).
  Proof.
    intros HC H. unfold find_path_2d in H. apply pbind_val in H as (first & H1 & H). apply (proj1 (first_hop_spec t WF W _ _ _ _ _ _)) in H1 as (xy & H1 & H2). apply pbind_val in H as ([[[d g'] p'] rc] & H3 & H).
    apply (proj1 (first_link_spec t WF BR _ _ _ _ HC _ _ _ _)) in H3 as (-> & q & HQ & [HD _]). destruct (neighbour_keeps _ _ _ _ HD) as [-> _]. apply pbind_val in H as ([rest [de' re]] & H4 & H). cbn [fst snd] in H. injection H as <- <-.
    assert (EL : last_id m = Z.of_nat (List.length first) - 1) by (unfold out_of in H2; destruct m as [[[mx my] mnoc]|]; subst first; reflexivity). rewrite EL in H4. exists d, rc, xy, first, rest, re. auto.
  Qed.
  Lemma joined dev src noc m xy first g d p rc n from (dst : W) onward rest : out_of dev src noc m xy first -> neighbour t dev g d g -> along t p d rc g n from dst onward (Z.of_nat (List.length first) - 1) rest -> connected t (first ++ rest).
  Proof.
    intros HO HN HA. destruct (out_last W _ _ _ _ _ _ HO) as (l & s & E & E1 & E2 & _). eapply (connected_app t WF BR W); [eapply out_connected; exact HO|exact E|exact E2| |exact HA]. rewrite E1. eauto.
  Qed.
  (* a straight row behind the first link *)
  Lemma straight_row dev src noc m xy first g d p rc n (dst : W) rest de re : 0 < n -> out_of dev src noc m xy first -> neighbour t dev g d g ->
    add_hops t W d rc n 1 g p dst true (Z.of_nat (List.length first) - 1) = Val (rest, (de, re)) -> connected t (first ++ rest) /\ one_write (first ++ rest) de dst /\ straight t dev g n de.
  Proof.
    intros Hn HO HN H. change true with (negb false) in H. apply (add_hops_spec t WF BR) in H; [|lia]. replace (n + 1 - 1) with n in H by lia. destruct H as [HA HS].
    split; [eapply joined; eassumption|]. assert (exists k, Z.to_nat n = S k /\ n = Z.of_nat (S k)) as (k & EK & EZ) by (exists (Z.to_nat n - 1)%nat; lia). rewrite EK in HA, HS. rewrite EZ in HA. split.
    - apply one_write_app; [eapply out_writers; exact HO|]. eapply along_one; eassumption.
    - destruct HS as (ge & HS). cbn [pred] in HS. replace n with (Z.of_nat k + 1) by lia. eapply from_start; eassumption.
  Qed.
  Lemma turned dev src noc m xy first g d p rc ns h n (dst : W) a d1 r1 b de re : 0 <= ns -> 0 < n -> out_of dev src noc m xy first -> neighbour t dev g d g ->
    add_hops t W d rc ns 1 g p dst false (Z.of_nat (List.length first) - 1) = Val (a, (d1, r1)) -> add_hops t W d1 r1 n 1 h p dst true (Z.of_nat (List.length first) - 1 + ns) = Val (b, (de, re)) ->
    connected t (first ++ a ++ b) /\ one_write (first ++ a ++ b) de dst /\ straight t dev g (ns + 1) d1 /\ straight t d1 h (n - 1) de.
  Proof.
    intros Hns Hn HO HN H1 H2. change false with (negb true) in H1. apply (add_hops_spec t WF BR) in H1; [|lia]. replace (ns + 1 - 1) with ns in H1 by lia. destruct H1 as [HA HS].
    change true with (negb false) in H2. apply (add_hops_spec t WF BR) in H2; [|lia]. replace (n + 1 - 1) with n in H2 by lia. destruct H2 as [HA' HS'].
    assert (HS1 : straight t dev g (ns + 1) d1). { destruct HS as (ge & HS). replace (ns + 1) with (Z.of_nat (Z.to_nat ns) + 1) by lia. eapply from_start; eassumption. }
    assert (EB : Z.of_nat (List.length first) - 1 + ns = Z.of_nat (List.length (first ++ a)) - 1) by (rewrite app_length, (proj1 HA); lia). rewrite EB in HA'. rewrite app_assoc.
    assert (HC : connected t (first ++ a)) by (eapply joined; eassumption).
    split; [|split; [|split; [exact HS1|]]].
    - destruct (Z.to_nat ns) as [|k] eqn:EN.
      + assert (a = []) by (apply length_zero_iff_nil; exact (proj1 HA)). subst a. rewrite app_nil_r in *. destruct HS as (ge & HS). inversion HS; subst d1 r1 ge.
        destruct (out_last W _ _ _ _ _ _ HO) as (l & s & E & E1 & E2 & _). eapply (connected_app t WF BR W); [exact HC|exact E|exact E2| |exact HA']. rewrite E1. eauto.
      + destruct (along_last _ _ _ _ _ _ _ _ _ _ _ HA HS) as (l' & s & fc & E & F & _ & NB). eapply (connected_app t WF BR W); [exact HC| |exact F|exact NB|exact HA']. rewrite E, app_assoc. reflexivity.
    - apply one_write_app; [unfold writers; rewrite filter_app; fold (writers first) (writers a); rewrite (out_writers W _ _ _ _ _ _ HO), (along_no_writes _ _ _ _ _ _ _ _ _ HA); reflexivity|].
      assert (exists k, Z.to_nat n = S k /\ n = Z.of_nat (S k)) as (k & EK & EZ) by (exists (Z.to_nat n - 1)%nat; lia). rewrite EK in HA', HS'. rewrite EZ in HA'. eapply along_one; eassumption.
    - destruct HS' as (ge & HS'). replace (n - 1) with (Z.of_nat (pred (Z.to_nat n))) by lia. eapply from_turn; eassumption.
  Qed.
  Theorem unicast src (dst : W) dev chan ns e w m noc p g path de : channel_of t dev chan p g -> 0 <= ns -> 0 <= e -> 0 <= w -> (g = dE -> 0 < e) -> (g = dW -> 0 < w) ->
    find_path_2d t W src dst dev chan ns e w false m noc = Val (path, de) ->
    connected t path /\ one_write path de dst /\
    match g with
    | dE => straight t dev dE e de
    | dW => straight t dev dW w de
    | _ => (e = 0 -> w = 0 -> straight t dev g ns de) /\
           (0 < e -> exists mid, straight t dev g (ns + 1) mid /\ straight t mid dE (e - 1) de) /\ (0 < w -> exists mid, straight t dev g (ns + 1) mid /\ straight t mid dW (w - 1) de)
    end.
  Proof.
    intros HC H1 H2 H3 HE HW H. apply (find_2d _ _ _ _ _ _ _ _ _ _ _ _ _ _ HC) in H as (d & rc & xy & first & rest & re & HN & HO & -> & H). unfold unicast_hops in H.
    destruct ((ns =? 0) && (e =? 0) && (w =? 0)) eqn:E0; [discriminate H|]. destruct (negb (e =? 0) && negb (w =? 0)) eqn:EW; [discriminate H|].
    assert (LW : forall gg, gg = g -> (let? a := add_hops t W d rc ns 1 gg p dst ((e =? 0) && (w =? 0)) (Z.of_nat (List.length first) - 1) in
       let parent := Z.of_nat (List.length first) - 1 + ns in
       let? b := if negb (e =? 0) then add_hops t W (fst (snd a)) (snd (snd a)) e 1 dE p dst true parent else if negb (w =? 0) then add_hops t W (fst (snd a)) (snd (snd a)) w 1 dW p dst true parent else Val ([], snd a) in
       Val (fst a ++ fst b, snd b)) = Val (rest, (de, re)) -> connected t (first ++ rest) /\ one_write (first ++ rest) de dst /\
       (e = 0 -> w = 0 -> straight t dev gg ns de) /\ (0 < e -> exists mid, straight t dev gg (ns + 1) mid /\ straight t mid dE (e - 1) de) /\ (0 < w -> exists mid, straight t dev gg (ns + 1) mid /\ straight t mid dW (w - 1) de)).
    { clear H. intros gg -> H. apply pbind_val in H as ([a [d1 r1]] & HA & H). cbn [fst snd] in H. cbv zeta in H. apply pbind_val in H as ([b [d2 r2]] & HB & H). cbn [fst snd] in H. injection H as <- <- <-.
      destruct (Z.eqb_spec e 0) as [->|NE]; cbn [negb andb] in *.
      - destruct (Z.eqb_spec w 0) as [->|NW]; cbn [negb andb] in *.
        + injection HB as <- <- <-. rewrite app_nil_r. assert (HL0 : 0 < ns) by lia. destruct (straight_row _ _ _ _ _ _ _ _ _ _ _ _ _ _ _ HL0 HO HN HA) as (A1 & A2 & A3). split; [exact A1|]. split; [exact A2|]. split; [auto|]. split; lia.
        + assert (HL0 : 0 < w) by lia. destruct (turned _ _ _ _ _ _ _ _ _ _ _ _ _ _ _ _ _ _ _ _ H1 HL0 HO HN HA HB) as (A1 & A2 & A3 & A4). split; [exact A1|]. split; [exact A2|]. split; [lia|]. split; [lia|eauto].
      - assert (HL0 : 0 < e) by lia. destruct (turned _ _ _ _ _ _ _ _ _ _ _ _ _ _ _ _ _ _ _ _ H1 HL0 HO HN HA HB) as (A1 & A2 & A3 & A4). split; [exact A1|]. split; [exact A2|]. split; [lia|]. split; [eauto|]. intros. lia. }
    destruct g.
    - exact (LW dN eq_refl H).
    - exact (LW dS eq_refl H).
    - exact (straight_row _ _ _ _ _ _ _ _ _ _ _ _ _ _ _ (HE eq_refl) HO HN H).
    - exact (straight_row _ _ _ _ _ _ _ _ _ _ _ _ _ _ _ (HW eq_refl) HO HN H).
  Qed.
  (** * Multicast along a line *)
  Lemma row dev src noc m xy first g d p rc n (dst : W) rest de re : 0 < n -> out_of dev src noc m xy first -> neighbour t dev g d g ->
    add_hops t W d rc 1 n g p dst true (Z.of_nat (List.length first) - 1) = Val (rest, (de, re)) -> connected t (first ++ rest) /\ row_written t dev g n dst (first ++ rest) /\ straight t dev g n de.
  Proof.
    intros Hn HO HN H. change true with (negb false) in H. apply (add_hops_spec t WF BR) in H; [|lia]. replace (1 + n - 1) with n in H by lia. destruct H as [HA HS].
    split; [eapply joined; eassumption|]. split.
    - unfold row_written, writers. rewrite filter_app. fold (writers first) (writers rest). rewrite (out_writers W _ _ _ _ _ _ HO). cbn [app]. assert (HL0 : 1 <= 1 <= Z.of_nat (Z.to_nat n) + 1) by lia. rewrite (along_writers t W _ _ _ _ _ _ _ _ _ HL0 HA). change (Z.to_nat 1 - 1)%nat with O. cbn [skipn].
      destruct HA as [HL HA]. split; [exact HL|]. intros i s E. destruct (HA _ _ E) as (dk & rk & gk & T & A1 & A2 & A3 & A4 & A5 & A6). split; [rewrite A5; assert (1 <=? Z.of_nat i + 1 = true) as -> by lia; reflexivity|]. rewrite A1. eapply from_start; eassumption.
    - destruct HS as (ge & HS). replace n with (Z.of_nat (pred (Z.to_nat n)) + 1) by lia. eapply from_start; eassumption.
  Qed.
  Theorem multicast_row src (dst : W) dev chan ns e w m noc p g path de : channel_of t dev chan p g ->
    (0 < ns /\ e = 0 /\ w = 0) \/ (ns = 0 /\ 0 < e /\ w = 0 /\ g = dE) \/ (ns = 0 /\ e = 0 /\ 0 < w /\ g = dW) ->
    find_path_2d t W src dst dev chan ns e w true m noc = Val (path, de) -> connected t path /\ row_written t dev g (ns + e + w) dst path /\ straight t dev g (ns + e + w) de.
  Proof.
    intros HC HH H. apply (find_2d _ _ _ _ _ _ _ _ _ _ _ _ _ _ HC) in H as (d & rc & xy & first & rest & re & HN & HO & -> & H). unfold multicast_hops in H.
    destruct HH as [(Hn & -> & ->)|[(-> & He & -> & ->)|(-> & -> & Hw & ->)]].
    - replace (ns + 0 + 0) with ns by lia. destruct (Z.eqb_spec ns 0); [lia|]. cbn [andb negb] in H. apply pbind_val in H as ([a [d1 r1]] & HA & H). cbn [fst snd] in H. apply pbind_val in H as ([b [d2 r2]] & HB & H). cbn [fst snd] in H. injection H as <- <- <-.
      assert (E : forall k parent, branches t W p dst 0 0 k d1 r1 parent = Val ([], (d1, r1))). { induction k as [|k IH]; intros parent; [reflexivity|]. cbn [branches]. change (0 =? 0) with true. cbn [negb pbind fst snd]. rewrite IH. reflexivity. }
      rewrite E in HB. injection HB as <- <- <-. rewrite app_nil_r. eapply row; eassumption.
    - replace (0 + e + 0) with e by lia. change (0 =? 0) with true in H. destruct (Z.eqb_spec e 0); [lia|]. cbn [andb negb] in H. eapply row; eassumption.
    - replace (0 + 0 + w) with w by lia. change (0 =? 0) with true in H. destruct (Z.eqb_spec w 0); [lia|]. cbn [andb negb] in H. eapply row; eassumption.
  Qed.
  (** * Multicast with branches *)
  Lemma arm_spec p (dst : W) g n d rc parent l d' rc' : 0 <= n ->
    (if negb (n =? 0) then add_hops t W d rc 1 n g p dst true parent else Val ([], (d, rc))) = Val (l, (d', rc')) -> arm t p dst g n d rc parent l d' rc'.
  Proof.
    intros Hn H. destruct (Z.eqb_spec n 0) as [->|NE]; cbn [negb] in H; [injection H as <- <- <-; left; auto|]. right. split; [lia|].
    change true with (negb false) in H. apply (add_hops_spec t WF BR) in H; [|lia]. replace (1 + n - 1) with n in H by lia. exact H.
  Qed.
  Lemma branches_spec p (dst : W) e w (He : 0 <= e) (Hw : 0 <= w) k : forall d rc parent l d' rc', branches t W p dst e w k d rc parent = Val (l, (d', rc')) -> fans t p dst e w k d rc parent l d' rc'.
  Proof.
    induction k as [|k IH]; intros d rc parent l d' rc' H; cbn [branches] in H; [injection H as <- <- <-; constructor|].
    apply pbind_val in H as ([a [d1 r1]] & HA & H). apply pbind_val in H as ([b [d2 r2]] & HB & H). apply pbind_val in H as ([r [d3 r3]] & HR & H). cbn [fst snd] in *. injection H as <- <- <-.
    econstructor; [apply arm_spec; eassumption|apply arm_spec; eassumption|]. apply IH. exact HR.
  Qed.
  Theorem multicast_fan src (dst : W) dev chan ns e w m noc p g path de : channel_of t dev chan p g -> 0 < ns -> 0 <= e -> 0 <= w ->
    find_path_2d t W src dst dev chan ns e w true m noc = Val (path, de) ->
    exists d rc xy first trunk rest d1 rc1 re, neighbour t dev g d g /\ out_of dev src noc m xy first /\ path = first ++ trunk ++ rest /\
      along t p d rc g (Z.to_nat ns) 1 dst false (Z.of_nat (List.length first) - 1) trunk /\ stops t p d rc g (Z.to_nat ns) false d1 rc1 /\
      fans t p dst e w (Z.to_nat ns) d1 rc1 (Z.of_nat (List.length first) - 1) rest de re.
  Proof.
    intros HC Hn He Hw H. apply (find_2d _ _ _ _ _ _ _ _ _ _ _ _ _ _ HC) in H as (d & rc & xy & first & rest & re & HN & HO & -> & H). unfold multicast_hops in H.
    destruct (Z.eqb_spec ns 0); [lia|]. cbn [andb negb] in H. apply pbind_val in H as ([a [d1 r1]] & HA & H). cbn [fst snd] in H. apply pbind_val in H as ([b [d2 r2]] & HB & H). cbn [fst snd] in H. injection H as <- <- <-.
    change true with (negb false) in HA. apply (add_hops_spec t WF BR) in HA; [|lia]. replace (1 + ns - 1) with ns in HA by lia. destruct HA as [HA HS].
    exists d, rc, xy, first, a, b, d1, r1, r2. split; [exact HN|]. split; [exact HO|]. split; [reflexivity|]. split; [exact HA|]. split; [exact HS|]. apply branches_spec; assumption.
  Qed.
End Grid.
