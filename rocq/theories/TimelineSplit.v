(* Split regions and descriptions in the timeline files (C44, C45). *)
From Coq Require Import ZArith Arith Lia Bool String List Sorting.Permutation ZifyBool ZifyNat.
From Verif Require Import Base Arith Util Device Workload SpecWorkload Rates Stats Engine UtilProofs WorkloadProofs SpecTracker TrackerProofs SpecEngine SpecStats StatsFacts Timeline SpecTimeline TimelineProofs.
Import ListNotations.
Local Open Scope list_scope.
Open Scope Z_scope.
Ltac Zify.zify_post_hook ::= idtac.

(** * Ranges *)
Lemma positions_app a b c : 0 <= a <= b -> b <= c -> positions a b ++ positions b c = positions a c.
Proof.
  intros H1 H2. unfold positions. rewrite <- map_app. f_equal. replace (Z.to_nat (c - a)) with (Z.to_nat (b - a) + Z.to_nat (c - b))%nat by lia. rewrite seq_app. do 2 f_equal. lia.
Qed.
Lemma splits_bound num thr : 0 < thr < num -> num < 2 ^ 63 -> let k := num_splits num thr in (k - 1) * thr < num <= k * thr /\ 0 < k.
Proof.
  intros H1 H2. unfold num_splits. change (2 ^ 63) with 9223372036854775808 in H2. rewrite (u64_id (num + thr)), u64_id by (change (2 ^ 64) with 18446744073709551616; lia).
  cbv zeta. pose proof (Z.div_mod (num + thr - 1) thr ltac:(lia)) as D. pose proof (Z.mod_pos_bound (num + thr - 1) thr ltac:(lia)) as M. nia.
Qed.
Lemma split_range_eq num thr i : 0 < thr < num -> num < 2 ^ 63 -> 0 <= i < num_splits num thr -> split_range num thr i = (i * thr, Z.min ((i + 1) * thr) num).
Proof.
  intros H1 H2 H3. destruct (splits_bound num thr H1 H2) as [B _]. unfold split_range. change (2 ^ 63) with 9223372036854775808 in H2.
  rewrite (u64_id (i * thr)), (u64_id (i + 1)), u64_id; [reflexivity|..]; change (2 ^ 64) with 18446744073709551616; nia.
Qed.
Lemma ranges_cover num thr : 0 < thr < num -> num < 2 ^ 63 -> forall n, (n <= Z.to_nat (num_splits num thr))%nat ->
  flat_map (fun i => let '(a, b) := split_range num thr (Z.of_nat i) in positions a b) (seq 0 n) = positions 0 (Z.min (Z.of_nat n * thr) num).
Proof.
  intros H1 H2. destruct (splits_bound num thr H1 H2) as [B B0]. induction n as [|n IH]; intros Hn; [unfold positions; cbn [seq flat_map]; replace (Z.min (Z.of_nat 0 * thr) num - 0) with 0 by lia; reflexivity|].
  rewrite seq_S, flat_map_app, IH by lia. cbn [flat_map plus]. rewrite app_nil_r, split_range_eq by lia. replace (Z.min (Z.of_nat n * thr) num) with (Z.of_nat n * thr) by nia.
  rewrite positions_app by nia. f_equal. nia.
Qed.

Section S.
  Context (A : arith) (gord : gmap -> gmap) (zord : zone_map -> zone_map).
  Context (d : device) (topo : topology) (wl : workload (F A)).
  Notation emit := (emitSimTimelineToFile A gord zord d topo).
  Notation v1' := (v1 A gord zord d topo wl).

  Lemma emit_cases thr stt sts files ds : emit false thr wl stt sts = Ok files -> stats_get A stt MESH_DEVICE = Some ds ->
    exists full, v1' ds sts None = Ok full /\ let num := Z.of_nat (List.length (ds_ts A ds)) in
      ((num <= thr /\ files = [FullV1 A full]) \/
       (thr < num /\ thr <> 0 /\ exists splits, files = FullV1 A full :: splits /\
          Forall2 (fun i c => exists rg doc, c = Split A (Z.of_nat i) rg doc /\ split_region A (ds_ts A ds) num thr (Z.of_nat i) = Ok rg /\ v1' ds sts (Some rg) = Ok doc)
            (seq 0 (Z.to_nat (num_splits num thr))) splits)).
  Proof.
    unfold emitSimTimelineToFile. intros H E. rewrite E in H. apply bind_ok in H as (full & HF & H). exists full. split; [assumption|]. cbv zeta in *.
    destruct (Z.ltb_spec thr (Z.of_nat (List.length (ds_ts A ds)))) as [L|L]; [|injection H as <-; left; auto]. right. split; [assumption|].
    destruct (Z.eqb_spec thr 0); [discriminate|]. split; [assumption|]. apply bind_ok in H as (sp & HS & H). injection H as <-. exists sp. split; [reflexivity|].
    apply mapM_Forall2 in HS. eapply Forall2_imp; [exact HS|]. cbn beta. intros i c Hc. apply bind_ok in Hc as (rg & HR & Hc). apply bind_ok in Hc as (doc & HD & Hc). injection Hc as <-. eauto.
  Qed.
  Lemma region_range ts num thr i rg : split_region A ts num thr i = Ok rg ->
    (rg_first rg, rg_last rg) = split_range num thr i /\
    (exists a, nth_error ts (Z.to_nat (rg_first rg)) = Some a /\ rg_start rg = ts_start A a) /\ (exists b, nth_error ts (Z.to_nat (rg_last rg - 1)) = Some b /\ rg_end rg = ts_end A b).
  Proof.
    unfold split_region. destruct (split_range num thr i) as [f l]. intros H. apply bind_ok in H as (a & Ha & H). apply bind_ok in H as (b & Hb & H). injection H as <-. cbn [rg_first rg_last rg_start rg_end].
    unfold grid_get in *. destruct (f <? 0); [discriminate|]. destruct (l - 1 <? 0); [discriminate|]. unfold vec_get in *.
    destruct (nth_error ts (Z.to_nat f)) eqn:E1; [|discriminate]. injection Ha as <-. destruct (nth_error ts (Z.to_nat (l - 1))) eqn:E2; [|discriminate]. injection Hb as <-. eauto 10.
  Qed.
  Theorem split_ranges thr stt sts files ds : emit false thr wl stt sts = Ok files -> stats_get A stt MESH_DEVICE = Some ds ->
    Z.of_nat (List.length (ds_ts A ds)) < 2 ^ 63 -> 0 < thr ->
    let num := Z.of_nat (List.length (ds_ts A ds)) in
    (num <= thr -> split_regions files = []) /\
    (thr < num -> flat_map (fun r => positions (rg_first r) (rg_last r)) (split_regions files) = positions 0 num /\
       Forall (fun r => 0 < rg_last r - rg_first r <= thr) (split_regions files)).
  Proof.
    intros H E HB HT num. destruct (emit_cases _ _ _ _ _ H E) as (full & _ & HC). fold num in HC. cbv zeta in HC. destruct HC as [(L & ->)|(L & _ & sp & -> & HS)].
    { split; [reflexivity|lia]. }
    split; [lia|]. intros _. unfold split_regions. cbn [flat_map app].
    assert (G : forall is cs, (forall i, In i is -> (i < Z.to_nat (num_splits num thr))%nat) ->
      Forall2 (fun i c => exists rg doc, c = Split A (Z.of_nat i) rg doc /\ split_region A (ds_ts A ds) num thr (Z.of_nat i) = Ok rg /\ v1' ds sts (Some rg) = Ok doc) is cs ->
      flat_map (fun r => positions (rg_first r) (rg_last r)) (flat_map (fun c => match c with Split _ _ rg _ => [rg] | _ => [] end) cs) =
      flat_map (fun i => let '(a, b) := split_range num thr (Z.of_nat i) in positions a b) is /\
      Forall (fun r => 0 < rg_last r - rg_first r <= thr) (flat_map (fun c => match c with Split _ _ rg _ => [rg] | _ => [] end) cs)).
    { intros is cs HI HF. induction HF as [|i c is cs (rg & doc & -> & HR & HD) HF IH]; [split; [reflexivity|constructor]|]. cbn [flat_map app].
      destruct IH as [IH1 IH2]; [intros j Hj; apply HI; right; assumption|]. destruct (region_range _ _ _ _ _ HR) as (RR & _). specialize (HI i (or_introl eq_refl)).
      rewrite IH1, <- RR. split; [reflexivity|]. constructor; [|assumption]. destruct (splits_bound num thr ltac:(lia) HB) as [B _].
      rewrite split_range_eq in RR by lia. injection RR as -> ->. nia. }
    destruct (G (seq 0 (Z.to_nat (num_splits num thr))) sp) as [G1 G2]; [intros i Hi; apply in_seq in Hi; lia|exact HS|]. split; [|assumption]. rewrite G1, ranges_cover by (try assumption; lia). f_equal.
    destruct (splits_bound num thr ltac:(lia) HB). lia.
  Qed.

  (** * Contents *)
  Lemma v1_inv ds sts r tl : v1' ds sts r = Ok (Some tl) -> exists gs tgs, group_transfers wl sts = Ok gs /\
    Forall2 (fun e o => group_of A d sts r e = Ok o) (gord (gs_groups gs)) tgs /\
    tl_groups A tl = flat_map (fun o => match o with Some g => [g] | None => [] end) tgs /\
    Forall2 (fun t p => step_of A d (gs_ids gs) t = Ok p) (filter (fun t => in_region r (ts_start A t) (ts_end A t)) (ds_ts A ds)) (tl_steps A tl).
  Proof.
    unfold v1. intros H. apply bind_ok in H as ([chips|] & _ & H); [|discriminate]. apply bind_ok in H as (gs & HG & H). cbv zeta in H. apply bind_ok in H as (u & _ & H). apply bind_ok in H as (tgs & HT & H).
    apply bind_ok in H as (zs & _ & H). apply bind_ok in H as (ps & HP & H). injection H as <-. exists gs, tgs. cbn [tl_groups tl_steps].
    split; [assumption|]. split; [apply mapM_Forall2; assumption|]. split; [reflexivity|apply mapM_Forall2; assumption].
  Qed.
  Lemma step_of_iv ids t p : step_of A d ids t = Ok p -> (tp_start A p, tp_end A p) = (ts_start A t, ts_end A t).
  Proof. unfold step_of. intros H. apply bind_ok in H as (dem & _ & H). injection H as <-. reflexivity. Qed.
  Lemma v1_intervals ds sts r tl : v1' ds sts r = Ok (Some tl) -> step_intervals tl = filter (fun i => in_region r (fst i) (snd i)) (intervals ds).
  Proof.
    intros H. destruct (v1_inv _ _ _ _ H) as (gs & _ & _ & _ & _ & HF). unfold step_intervals, intervals.
    assert (E : filter (fun i => in_region r (fst i) (snd i)) (map (fun t => (ts_start A t, ts_end A t)) (ds_ts A ds)) =
                map (fun t => (ts_start A t, ts_end A t)) (filter (fun t => in_region r (ts_start A t) (ts_end A t)) (ds_ts A ds))).
    { clear. induction (ds_ts A ds) as [|t l IH]; [reflexivity|]. cbn [map filter fst snd]. destruct (in_region r (ts_start A t) (ts_end A t)); cbn [map]; rewrite IH; reflexivity. }
    rewrite E. clear E. induction HF as [|t p ts ps Hp HF IH]; [reflexivity|]. cbn [map]. f_equal; [eapply step_of_iv; eassumption|exact IH].
  Qed.
End S.

(* the intervals of a region of consecutive tiles *)
Lemma tiles_split cpt n m : forall c, tiles cpt c (n + m) = tiles cpt c n ++ tiles cpt (c + Z.of_nat n * cpt) m.
Proof. induction n as [|n IH]; intros c; [cbn; f_equal; lia|]. cbn [plus tiles app]. rewrite IH. do 3 f_equal. lia. Qed.
Lemma tiles_nth cpt n : forall c k, (k < n)%nat -> nth_error (tiles cpt c n) k = Some (c + Z.of_nat k * cpt, c + Z.of_nat k * cpt + cpt).
Proof.
  induction n as [|n IH]; intros c k H; [lia|]. destruct k as [|k]; cbn [tiles nth_error]; [do 2 f_equal; lia|]. rewrite IH by lia. do 2 f_equal; lia.
Qed.
Lemma filter_none {X} (f : X -> bool) l : (forall x, In x l -> f x = false) -> filter f l = [].
Proof. induction l as [|x l IH]; intros H; [reflexivity|]. cbn [filter]. rewrite (H x (or_introl eq_refl)). apply IH. intros y Hy. apply H. right. assumption. Qed.
Lemma filter_all {X} (f : X -> bool) l : (forall x, In x l -> f x = true) -> filter f l = l.
Proof. induction l as [|x l IH]; intros H; [reflexivity|]. cbn [filter]. rewrite (H x (or_introl eq_refl)). f_equal. apply IH. intros y Hy. apply H. right. assumption. Qed.
Lemma region_tiles cpt c n f l : 0 < cpt -> (f < l <= n)%nat ->
  filter (fun i => (c + Z.of_nat f * cpt <=? fst i) && (snd i <=? c + Z.of_nat l * cpt)) (tiles cpt c n) = tiles cpt (c + Z.of_nat f * cpt) (l - f).
Proof.
  intros HC H. replace n with (f + ((l - f) + (n - l)))%nat by lia. rewrite !tiles_split, !filter_app.
  rewrite filter_none, filter_all, filter_none, app_nil_r; [reflexivity|..]; intros x Hx; apply tiles_in in Hx as (m & Hm & ->); cbn [fst snd]; nia.
Qed.

Section R.
  Context (A : arith) (ord : Z -> list Z -> list Z) (bord : list bucket -> list bucket) (bord_perm : bucket_order bord).
  Context (gord : gmap -> gmap) (zord : zone_map -> zone_map) (topo : topology).
  Context (d : device) (cpt : Z) (wl : workload (F A)).
  Context (HW : proper wl) (HC : proper_cpt cpt).
  Notation run := (runWithTimeline A ord bord gord zord topo).
  Lemma run_result legacy thr model r files : run legacy thr d model cpt wl = Ok (r, files) -> runSinglePerfSim A ord bord d model cpt wl = Ok r.
  Proof.
    unfold runWithTimeline, runSinglePerfSim. intros H. apply bind_ok in H as (x & -> & H). cbn [bind]. destruct x as [s|e]; [|injection H as <- <-; reflexivity].
    apply bind_ok in H as (stt & -> & H). cbn [bind]. apply bind_ok in H as (stt' & -> & H). cbn [bind]. apply bind_ok in H as (fs & _ & H). injection H as <- <-. reflexivity.
  Qed.
  Lemma run_emit legacy thr model stt files : run legacy thr d model cpt wl = Ok (Stats stt, files) ->
    exists s, succeeds A ord bord d (negb (String.eqb model "none")) cpt wl s /\ emitSimTimelineToFile A gord zord d topo legacy thr wl stt (sm_sts A s) = Ok files.
  Proof.
    unfold runWithTimeline. intros H. apply bind_ok in H as (x & Hx & H). destruct x as [s|e]; [|discriminate].
    apply bind_ok in H as (stt1 & _ & H). apply bind_ok in H as (stt' & _ & H). apply bind_ok in H as (fs & HE & H). injection H as <- <-. exists s. split; assumption.
  Qed.

  (* a split file holds exactly the timesteps of its range, if these were all simulated *)
  Theorem split_contents thr model stt files ds g k rg tl : 0 < thr -> run false thr d model cpt wl = Ok (Stats stt, files) ->
    stats_get A stt MESH_DEVICE = Some ds -> Z.of_nat (List.length (ds_ts A ds)) < 2 ^ 63 -> getGoldenResultCycles wl MESH_DEVICE = Ok g -> 0 <= fst g ->
    In (Split A k rg (Some tl)) files -> Forall (fun i => nonempty i = true) (slice (intervals ds) (rg_first rg) (rg_last rg)) ->
    filter nonempty (step_intervals tl) = slice (intervals ds) (rg_first rg) (rg_last rg).
  Proof.
    intros HT H E HB Hg H0 Hin HN. pose proof HC as [HC1 HC2]. pose proof (run_result _ _ _ _ _ H) as HR.
    destruct (run_emit _ _ _ _ _ H) as (s & _ & HE). destruct (emit_cases A gord zord d topo wl _ _ _ _ _ HE E) as (full & _ & HCs). cbv zeta in HCs.
    set (num := Z.of_nat (List.length (ds_ts A ds))) in *.
    assert (Q : thr < num /\ exists i, (i < Z.to_nat (num_splits num thr))%nat /\ split_region A (ds_ts A ds) num thr (Z.of_nat i) = Ok rg /\ v1 A gord zord d topo wl ds (sm_sts A s) (Some rg) = Ok (Some tl)).
    { destruct HCs as [(_ & ->)|(L & _ & sp & -> & HF)]; [destruct Hin as [C|[]]; discriminate C|]. split; [assumption|]. destruct Hin as [C|Hin]; [discriminate C|].
      clear -HF Hin. assert (B : forall i, In i (seq 0 (Z.to_nat (num_splits num thr))) -> (i < Z.to_nat (num_splits num thr))%nat) by (intros i Hi; apply in_seq in Hi; lia).
      induction HF as [|i c is cs (rg' & doc & -> & P1 & P2) HF IH]; [destruct Hin|]. destruct Hin as [C|Hin]; [injection C as _ -> ->; exists i; split; [apply B; left; reflexivity|auto]|].
      apply IH; [assumption|intros j Hj; apply B; right; assumption]. }
    destruct Q as (L & i & Hi & HRg & HV). clear HCs Hin. destruct (region_range A _ _ _ _ _ HRg) as (RR & (a & Ha & Ea) & (b & Hb & Eb)).
    rewrite split_range_eq in RR by (try assumption; lia). destruct (splits_bound num thr ltac:(lia) HB) as [B _]. set (f := rg_first rg) in *. set (l := rg_last rg) in *.
    assert (FL : 0 <= f < l /\ l <= num) by (injection RR as -> ->; nia). clear RR.
    rewrite (v1_intervals A gord zord d topo wl _ _ _ _ HV).
    destruct (timesteps_final A ord bord bord_perm d cpt wl HW HC model stt HR) as (s' & _ & TF). destruct (TF MESH_DEVICE ds g (or_intror eq_refl) E Hg H0) as [(_ & EI)|(c & kept & dm & EI & _ & _ & _ & _)].
    { exfalso. unfold num in FL. rewrite <- (map_length (fun t => (ts_start A t, ts_end A t))) in FL. fold (intervals ds) in FL. rewrite EI in FL. cbn in FL. lia. }
    assert (NA : forall j t, nth_error (ds_ts A ds) j = Some t -> nth_error (intervals ds) j = Some (ts_start A t, ts_end A t)) by (intros j t Ht; unfold intervals; apply (map_nth_error (fun t => (ts_start A t, ts_end A t))); exact Ht).
    assert (LK : l <= Z.of_nat kept).
    { destruct (Z.le_gt_cases l (Z.of_nat kept)) as [|G]; [assumption|exfalso]. pose proof (NA _ _ Hb) as Hb'. rewrite EI, nth_error_app2 in Hb' by (rewrite tiles_length; lia).
      assert (Z0 : (ts_start A b, ts_end A b) = (0, 0)) by (apply nth_error_In, repeat_spec in Hb'; exact Hb').
      rewrite Forall_forall in HN. assert (P : In (ts_start A b, ts_end A b) (slice (intervals ds) f l)).
      { unfold slice. pose proof (NA _ _ Hb) as Hb2. apply nth_error_split in Hb2 as (l1 & l2 & EE & LE). rewrite EE. apply (nth_error_In _ (Z.to_nat (l - 1) - Z.to_nat f)).
        rewrite nth_error_firstn_lt by lia. rewrite skipn_app. rewrite nth_error_app2 by (rewrite skipn_length; lia). rewrite skipn_length, LE.
        replace (Z.to_nat f - Z.to_nat (l - 1))%nat with 0%nat by lia. replace (Z.to_nat (l - 1) - Z.to_nat f - (Z.to_nat (l - 1) - Z.to_nat f))%nat with 0%nat by lia. reflexivity. }
      specialize (HN _ P). rewrite Z0 in HN. discriminate HN. }
    pose proof (NA _ _ Ha) as Ha'. pose proof (NA _ _ Hb) as Hb'. rewrite EI in Ha', Hb'. rewrite nth_error_app1, tiles_nth in Ha', Hb' by (rewrite ?tiles_length; lia).
    injection Ha' as Sa _. injection Hb' as _ Sb. rewrite <- Sa in Ea. rewrite <- Sb in Eb. clear HN. rewrite EI. rewrite !filter_app.
    assert (D : filter nonempty (filter (fun i0 => in_region (Some rg) (fst i0) (snd i0)) (repeat (0, 0) dm)) = []).
    { apply filter_none. intros x Hx. apply filter_In in Hx as [Hx _]. apply repeat_spec in Hx. subst x. reflexivity. }
    rewrite D, app_nil_r. cbn [in_region]. unfold fully_contained. rewrite Ea, Eb.
    replace (c + Z.of_nat (Z.to_nat (l - 1)) * cpt + cpt) with (c + Z.of_nat (Z.to_nat l) * cpt) by (rewrite !Z2Nat.id by lia; ring).
    rewrite region_tiles by lia. rewrite filter_all; [|intros x Hx; apply tiles_in in Hx as (m & Hm & ->); unfold nonempty; cbn [fst snd]; lia].
    unfold slice. rewrite skipn_app, tiles_length. replace (Z.to_nat f - kept)%nat with 0%nat by lia. rewrite firstn_app, skipn_length, tiles_length.
    replace (Z.to_nat (l - f) - (kept - Z.to_nat f))%nat with 0%nat by lia. cbn [firstn]. rewrite app_nil_r.
    replace kept with (Z.to_nat f + (kept - Z.to_nat f))%nat at 1 by lia. rewrite tiles_split, skipn_app, skipn_all2 by (rewrite tiles_length; lia). rewrite tiles_length, Nat.sub_diag. cbn [skipn app].
    rewrite tiles_firstn. f_equal; lia.
  Qed.
End R.
