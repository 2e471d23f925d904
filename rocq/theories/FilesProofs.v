(* Lemmas: names of the timeline files (C65). *)
From Coq Require Import ZArith Arith Lia Bool String Ascii List Permutation.
From Verif Require Import Base Arith Util Device Workload Rates Stats Engine Timeline Files TrackerProofs WorkloadProofs SpecFiles TimelineSplit SpecTimeline SpecZones ZoneProofs.
Import ListNotations.
Local Open Scope string_scope.

(** * Strings *)
Lemma sapp_assoc a b c : (a ++ b) ++ c = a ++ b ++ c. Proof. induction a; simpl; congruence. Qed.
Lemma slen_app a b : String.length (a ++ b) = (String.length a + String.length b)%nat. Proof. induction a; simpl; congruence. Qed.
Lemma sapp_nil a : a ++ "" = a. Proof. induction a; simpl; congruence. Qed.
Lemma sapp_inj_l a b c : a ++ b = a ++ c -> b = c. Proof. induction a; simpl; intros H; [exact H|]. injection H as H. auto. Qed.
Lemma sapp_inj_r a b : forall c, a ++ c = b ++ c -> a = b.
Proof.
  revert b. induction a as [|x a IH]; intros [|y b] c H; simpl in *; auto.
  - exfalso. assert (E := f_equal String.length H). simpl in E. rewrite slen_app in E. lia.
  - exfalso. assert (E := f_equal String.length H). simpl in E. rewrite slen_app in E. lia.
  - injection H as -> H. f_equal. eapply IH; eauto.
Qed.
Lemma sapp_inj_last a b x y : a ++ String x "" = b ++ String y "" -> a = b /\ x = y.
Proof.
  revert b. induction a as [|c a IH]; intros [|d b] H; simpl in *.
  - injection H as ->. auto.
  - injection H as -> H. exfalso. destruct b; discriminate.
  - injection H as -> H. exfalso. destruct a; discriminate.
  - injection H as -> H. destruct (IH _ H) as [-> ->]. auto.
Qed.

(** * Decimal notation *)
Lemma ten_cases (P : Z -> Prop) : P 0%Z -> P 1%Z -> P 2%Z -> P 3%Z -> P 4%Z -> P 5%Z -> P 6%Z -> P 7%Z -> P 8%Z -> P 9%Z -> forall d, (0 <= d < 10)%Z -> P d.
Proof.
  intros. assert (C : (d = 0 \/ d = 1 \/ d = 2 \/ d = 3 \/ d = 4 \/ d = 5 \/ d = 6 \/ d = 7 \/ d = 8 \/ d = 9)%Z) by lia.
  destruct C as [->|[->|[->|[->|[->|[->|[->|[->|[->| ->]]]]]]]]]; assumption.
Qed.
Lemma digit_char_spec d : (0 <= d < 10)%Z -> digit_char d = digit d. Proof. revert d. apply ten_cases; reflexivity. Qed.
Lemma digit_inv d : (0 <= d < 10)%Z -> exists c, digit d = String c "" /\ forall e, (0 <= e < 10)%Z -> digit e = String c "" -> e = d.
Proof.
  revert d. apply (ten_cases (fun d => exists c, digit d = String c "" /\ forall e, (0 <= e < 10)%Z -> digit e = String c "" -> e = d)); (eexists; split; [reflexivity|]); intros e He; pattern e; revert e He; apply ten_cases; cbn beta; intros E; try reflexivity; discriminate E.
Qed.
Lemma numeral_pos n s : numeral n s -> (0 <= n)%Z. Proof. induction 1; lia. Qed.
Lemma numeral_nonempty n s : numeral n s -> exists t c, s = t ++ String c "".
Proof.
  induction 1 as [d Hd|n d s Hn Hd H IH].
  - destruct (digit_inv d Hd) as (c & -> & _). exists "", c. reflexivity.
  - destruct (digit_inv d Hd) as (c & -> & _). exists s, c. reflexivity.
Qed.
Lemma numeral_inv m s : numeral m s -> ((0 <= m < 10)%Z /\ s = digit m) \/
  exists n d s', (m = 10 * n + d)%Z /\ (0 <= d < 10)%Z /\ numeral n s' /\ s = s' ++ digit d.
Proof. intros [d Hd|n d s' Hn Hd H]; [left; auto|right; exists n, d, s'; auto]. Qed.
Lemma long_numeral n s d : numeral n s -> (0 <= d < 10)%Z -> forall e, (0 <= e < 10)%Z -> s ++ digit d <> digit e.
Proof.
  intros H Hd e He E. destruct (numeral_nonempty _ _ H) as (t & c & ->). destruct (digit_inv d Hd) as (c1 & E1 & _). destruct (digit_inv e He) as (c2 & E2 & _).
  rewrite E1, E2 in E. apply (f_equal String.length) in E. rewrite !slen_app in E. simpl in E. lia.
Qed.
Lemma numeral_inj n s : numeral n s -> forall m, numeral m s -> n = m.
Proof.
  induction 1 as [d Hd|n d s Hn Hd H IH]; intros m Hm; apply numeral_inv in Hm; destruct Hm as [[Hb E]|(n' & e & s' & -> & He & H' & E)].
  - destruct (digit_inv m Hb) as (c & Ec & U). apply U; [assumption|congruence].
  - exfalso. symmetry in E. exact (long_numeral _ _ _ H' He _ Hd E).
  - exfalso. exact (long_numeral _ _ _ H Hd _ Hb E).
  - destruct (digit_inv d Hd) as (c & Ec & U). destruct (digit_inv e He) as (c2 & E2 & _). rewrite Ec, E2 in E. apply sapp_inj_last in E. destruct E as [-> ->].
    rewrite (IH _ H'). rewrite (U e He E2). reflexivity.
Qed.
Lemma digits_numeral fuel : forall n, (0 <= n < 2 ^ Z.of_nat fuel)%Z -> numeral n (digits fuel n).
Proof.
  induction fuel as [|fuel IH]; intros n H.
  - change (2 ^ Z.of_nat 0)%Z with 1%Z in H. assert (n = 0%Z) by lia. subst n. exact (num_digit 0 ltac:(lia)).
  - cbn [digits]. destruct (Z.ltb_spec n 10).
    + rewrite digit_char_spec by lia. constructor. lia.
    + rewrite Nat2Z.inj_succ, Z.pow_succ_r in H by lia. pose proof (Z.div_mod n 10 ltac:(lia)) as D. pose proof (Z.mod_pos_bound n 10 ltac:(lia)) as M.
      rewrite D at 1. rewrite digit_char_spec by lia. constructor; [|lia|apply IH]; set (q := (n / 10)%Z) in *; lia.
Qed.
Lemma decimal_numeral n : (0 <= n)%Z -> numeral n (decimal n).
Proof.
  intros H. apply digits_numeral. split; [assumption|]. pose proof (Z.log2_nonneg n). rewrite Z2Nat.id by lia.
  destruct (Z.eq_dec n 0) as [->|]; [reflexivity|]. pose proof (Z.log2_spec n ltac:(lia)). rewrite Z.add_1_r. lia.
Qed.
Lemma decimal_inj n m : (0 <= n)%Z -> (0 <= m)%Z -> decimal n = decimal m -> n = m.
Proof. intros Hn Hm E. apply (numeral_inj n (decimal n)); [apply decimal_numeral; assumption|]. rewrite E. apply decimal_numeral. assumption. Qed.

(** * The extension *)
Lemma prefix_app p s : String.prefix p s = true -> exists b, s = p ++ b.
Proof.
  revert s. induction p as [|c p IH]; intros s H; [exists s; reflexivity|]. destruct s as [|d s]; [discriminate|]. cbn [String.prefix] in H.
  destruct (ascii_dec c d) as [->|]; [|discriminate]. destruct (IH _ H) as (b & ->). exists b. reflexivity.
Qed.
Lemma prefix_of p b : String.prefix p (p ++ b) = true.
Proof. induction p as [|c p IH]; [destruct b; reflexivity|]. cbn. destruct (ascii_dec c c); [exact IH|congruence]. Qed.
Lemma index_S c ss s : String.index 0 ss (String c s) = if String.prefix ss (String c s) then Some O else match String.index 0 ss s with Some n => Some (S n) | None => None end.
Proof. reflexivity. Qed.
Lemma substring_0 s : String.substring 0 0 s = "". Proof. destruct s; reflexivity. Qed.
Lemma base_cases base : (exists b, base = base_without_ext base ++ ".npeviz" ++ b) \/ (base_without_ext base = base /\ ~ occurs ".npeviz" base).
Proof.
  unfold base_without_ext. assert (G : match String.index 0 ".npeviz" base with
    | Some p => exists b, base = String.substring 0 p base ++ ".npeviz" ++ b | None => ~ occurs ".npeviz" base end).
  { induction base as [|c s IH].
    - cbn. intros (a & b & E). destruct a; discriminate.
    - rewrite index_S. destruct (String.prefix ".npeviz" (String c s)) eqn:P.
      + destruct (prefix_app _ _ P) as (b & E). exists b. rewrite substring_0. exact E.
      + destruct (String.index 0 ".npeviz" s) as [n|].
        * destruct IH as (b & E). exists b. cbn [String.substring String.append]. f_equal. exact E.
        * intros (a & b & E). destruct a as [|x a].
          -- rewrite E in P. change ("" ++ ".npeviz" ++ b) with (".npeviz" ++ b) in P. rewrite prefix_of in P. discriminate.
          -- cbn [String.append] in E. injection E as -> E. apply IH. exists a, b. exact E. }
  destruct (String.index 0 ".npeviz" base); [left; exact G|right; auto].
Qed.
Lemma split_not_base base k : split_filepath base k <> base.
Proof.
  unfold split_filepath. intros E. destruct (base_cases base) as [(b & H)|[H _]].
  - rewrite H in E at 2. apply sapp_inj_l in E. discriminate.
  - rewrite H in E. apply (f_equal String.length) in E. rewrite slen_app in E. simpl in E. lia.
Qed.
Lemma split_inj base k m : (0 <= k)%Z -> (0 <= m)%Z -> split_filepath base k = split_filepath base m -> k = m.
Proof.
  unfold split_filepath. intros Hk Hm E. apply sapp_inj_l in E. apply (sapp_inj_l "_split_") in E. apply sapp_inj_r in E. apply decimal_inj; assumption.
Qed.
Lemma stem_base stem : ~ occurs ".npeviz" stem -> base_without_ext (stem ++ ".npeviz") = stem.
Proof.
  intros H. unfold base_without_ext.
  assert (G : String.index 0 ".npeviz" (stem ++ ".npeviz") = Some (String.length stem)).
  { induction stem as [|c s IH]; [reflexivity|]. cbn [String.append]. rewrite index_S.
    rewrite IH by (intros (a & b & E); apply H; exists (String c a), b; rewrite E; reflexivity).
    destruct (String.prefix ".npeviz" (String c (s ++ ".npeviz"))) eqn:P; [|reflexivity]. exfalso.
    destruct (prefix_app _ _ P) as (b & E). 
    (* ".npeviz" begins inside the stem; it cannot reach into the next one, which begins with a dot *)
    do 6 (destruct s as [|? s]; [cbn in E; discriminate E|]). cbn in E. injection E. intros. subst. apply H. exists "", s. reflexivity. }
  rewrite G. clear. induction stem as [|c s IH]; [reflexivity|]. cbn [String.length String.append String.substring]. f_equal. exact IH.
Qed.
Lemma no_dot s : ~ occurs "." s -> before_last_dot s = None.
Proof.
  induction s as [|c s IH]; intros H; [reflexivity|]. cbn. rewrite IH.
  - destruct (Ascii.eqb_spec c "."); [|reflexivity]. exfalso. apply H. exists "", s. subst. reflexivity.
  - intros (a & b & ->). apply H. exists (String c a), b. reflexivity.
Qed.
Lemma before_dot_no s : before_last_dot s = None -> forall t, before_last_dot (t ++ String "." s) = Some t.
Proof. intros H t. induction t as [|c t IH]; cbn; [rewrite H; reflexivity|]. rewrite IH. reflexivity. Qed.

(** * The files of a run *)
Section S.
  Context (A : arith).
  Definition disjoint_names tp wj z (files : list (content A)) : Prop := NoDup (map (path_of A tp wj z) files).
  Lemma output_inj z a b : output_filepath z a = output_filepath z b -> a = b.
  Proof. destruct z; cbn; [apply sapp_inj_r|auto]. Qed.
  Lemma emit_indices gord zord d topo legacy thr wl stt sts files : emitSimTimelineToFile A gord zord d topo legacy thr wl stt sts = Ok files ->
    (exists v, files = [FullV0 A v]) \/ exists full splits is, files = FullV1 A full :: splits /\ NoDup is /\
      Forall2 (fun i c => exists rg doc, c = Split A (Z.of_nat i) rg doc) is splits.
  Proof.
    intros H. destruct (stats_get A stt MESH_DEVICE) as [ds|] eqn:E; [|unfold emitSimTimelineToFile in H; rewrite E in H; discriminate].
    destruct legacy.
    - left. unfold emitSimTimelineToFile in H. rewrite E in H. apply bind_ok in H as (v & _ & H). injection H as <-. eauto.
    - right. destruct (emit_cases _ _ _ _ _ _ _ _ _ _ _ H E) as (full & _ & HC). cbv zeta in HC. destruct HC as [(_ & ->)|(_ & _ & sp & -> & HS)].
      + exists full, [], []. split; [reflexivity|]. split; constructor.
      + exists full, sp, (seq 0 (Z.to_nat (num_splits (Z.of_nat (List.length (ds_ts A ds))) thr))). split; [reflexivity|]. split; [apply seq_NoDup|].
        eapply Forall2_imp; [exact HS|]. cbn beta. intros i c (rg & doc & -> & _). eauto.
  Qed.
  Lemma emit_names gord zord d topo legacy thr wl stt sts files tp wj z : emitSimTimelineToFile A gord zord d topo legacy thr wl stt sts = Ok files ->
    disjoint_names tp wj z files.
  Proof.
    intros H. apply emit_indices in H. unfold disjoint_names. destruct H as [(v & ->)|(full & sp & is & -> & ND & HF)].
    - repeat constructor. intros [].
    - set (base := base_filepath tp wj). cbn [map].
      assert (G : map (path_of A tp wj z) sp = map (fun i => output_filepath z (split_filepath base (Z.of_nat i))) is).
      { clear ND. induction HF as [|i c is sp (rg & doc & ->) HF IH]; [reflexivity|]. cbn [map]. rewrite IH. reflexivity. }
      rewrite G. constructor.
      + intros Hin. apply in_map_iff in Hin as (i & E & _). cbn [path_of] in E. apply output_inj in E. exact (split_not_base _ _ E).
      + apply FinFun.Injective_map_NoDup; [|exact ND]. intros i j E. apply output_inj, split_inj in E; lia.
  Qed.
  Lemma write_other opens fs p c q : p <> q -> write A opens fs p c q = fs q.
  Proof. unfold write. intros H. destruct (opens p); [|reflexivity]. destruct (String.eqb_spec p q); [contradiction|reflexivity]. Qed.
  Lemma write_all_out opens tp wj z files : forall fs p, (forall c, In c files -> opens p = true -> path_of A tp wj z c <> p) -> write_all A opens tp wj z files fs p = fs p.
  Proof.
    induction files as [|c files IH]; intros fs p H; [reflexivity|]. unfold write_all in *. cbn [fold_left]. rewrite IH by (intros; apply H; [right|]; assumption).
    unfold write. destruct (opens (path_of A tp wj z c)) eqn:O; [|reflexivity]. destruct (String.eqb_spec (path_of A tp wj z c) p) as [E|]; [|reflexivity].
    exfalso. apply (H c (or_introl eq_refl)); congruence.
  Qed.
  Lemma write_all_in opens tp wj z files : disjoint_names tp wj z files -> forall fs c, In c files -> opens (path_of A tp wj z c) = true ->
    write_all A opens tp wj z files fs (path_of A tp wj z c) = Some c.
  Proof.
    unfold disjoint_names. induction files as [|c0 files IH]; intros ND fs c Hin Ho; [destruct Hin|]. cbn [map] in ND. apply NoDup_cons_iff in ND. destruct ND as [Hn ND].
    unfold write_all in *. cbn [fold_left]. destruct Hin as [->|Hin]; [|apply IH; assumption].
    change (write_all A opens tp wj z files (write A opens fs (path_of A tp wj z c) c) (path_of A tp wj z c) = Some c). rewrite write_all_out.
    - unfold write. rewrite Ho, String.eqb_refl. reflexivity.
    - intros c' Hc' _ E. apply Hn. rewrite <- E. apply in_map. exact Hc'.
  Qed.
  Theorem run_written ord bord gord zord topo d cpt wl legacy thr model stt files :
    runWithTimeline A ord bord gord zord topo legacy thr d model cpt wl = Ok (Stats stt, files) ->
    forall opens tp wj z fs, NoDup (map (path_of A tp wj z) files) /\
      (forall c, In c files -> opens (path_of A tp wj z c) = true -> write_all A opens tp wj z files fs (path_of A tp wj z c) = Some c) /\
      (forall p, (forall c, In c files -> opens p = true -> path_of A tp wj z c <> p) -> write_all A opens tp wj z files fs p = fs p).
  Proof.
    intros H opens tp wj z fs. destruct (run_emit _ _ _ _ _ _ _ _ _ _ _ _ _ _ H) as (s & _ & HE). apply (emit_names _ _ _ _ _ _ _ _ _ _ tp wj z) in HE.
    split; [exact HE|]. split; [intros c; apply write_all_in; exact HE|intros p; apply write_all_out].
  Qed.
  Lemma named_path stem z c : (forall k rg tl, c = Split A k rg tl -> (0 <= k)%Z) -> ~ occurs ".npeviz" stem -> forall tp wj, base_filepath tp wj = stem ++ ".npeviz" ->
    exists p, named stem c p /\ path_of A tp wj z c = if z then p ++ ".zst" else p.
  Proof.
    intros Hk Hs tp wj Hb. unfold path_of. rewrite Hb. destruct c as [v|tl|k rg tl].
    - exists (stem ++ ".npeviz"). split; [constructor|reflexivity].
    - exists (stem ++ ".npeviz"). split; [constructor|reflexivity].
    - exists (stem ++ "_split_" ++ decimal k ++ ".npeviz"). split; [constructor; apply decimal_numeral; eauto|]. unfold split_filepath. rewrite stem_base by assumption. reflexivity.
  Qed.
  Theorem run_names ord bord gord zord topo d cpt wl legacy thr model stt files :
    runWithTimeline A ord bord gord zord topo legacy thr d model cpt wl = Ok (Stats stt, files) ->
    forall stem tp wj z c, ~ occurs ".npeviz" stem ->
    (tp = stem ++ ".npeviz" \/
     (tp = "" /\ exists name ext, wj = name ++ "." ++ ext /\ ~ occurs "." ext /\ stem = "npe_timeline_" ++ name) \/
     (tp = "" /\ wj <> "" /\ ~ occurs "." wj /\ stem = "npe_timeline_" ++ wj) \/ (tp = "" /\ wj = "" /\ stem = "npe_timeline")) ->
    In c files -> exists p, named stem c p /\ path_of A tp wj z c = if z then p ++ ".zst" else p.
  Proof.
    intros H stem tp wj z c Hs Ht Hin. apply named_path; [|assumption|].
    - intros k rg tl ->. destruct (run_emit _ _ _ _ _ _ _ _ _ _ _ _ _ _ H) as (s & _ & HE). apply emit_indices in HE.
      destruct HE as [(v & ->)|(full & sp & is & -> & _ & HF)]; [destruct Hin as [Hin|[]]; discriminate|]. destruct Hin as [Hin|Hin]; [discriminate|].
      clear - HF Hin. induction HF as [|i c is sp (rg' & doc & ->) HF IH]; [destruct Hin|]. destruct Hin as [E|Hin]; [injection E as <- _ _; lia|auto].
    - unfold base_filepath. destruct Ht as [->|[(-> & name & ext & -> & He & ->)|[(-> & Hw & Hd & ->)|(-> & -> & ->)]]].
      + destruct stem; reflexivity.
      + cbn [String.eqb]. rewrite sapp_assoc. unfold without_suffix. change (name ++ "." ++ ext) with (name ++ String "." ext). rewrite (before_dot_no ext (no_dot _ He)).
        destruct (String.eqb_spec (name ++ String "." ext) ""); [destruct name; discriminate|reflexivity].
      + cbn [String.eqb]. destruct (String.eqb_spec wj ""); [contradiction|]. unfold without_suffix. rewrite (no_dot _ Hd), sapp_assoc. reflexivity.
      + reflexivity.
  Qed.
End S.
