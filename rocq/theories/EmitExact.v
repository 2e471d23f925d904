(* Exactly when the timeline files are emitted (C78). *)
From Coq Require Import ZArith Arith Lia Bool String List Sorting.Permutation ZifyBool ZifyNat.
From Verif Require Import Base Arith Util SpecUtil Json Device SpecDevice Workload SpecWorkload DepTracker Rates Stats Engine UtilProofs WorkloadProofs SpecTracker TrackerProofs DepGenProofs SpecEngine SpecRates SpecStats
  DeviceProofs FactoryProofs StepProofs EngineProofs RunProofs DepFacts EngineFacts EngineFacts2 EngineFacts3 EngineFacts4 EngineFacts5 StatsFacts EngineRates StatsRun SafeProofs SafeRun Timeline SpecTimeline TimelineProofs TimelineSplit TimelineLive
  SpecZones ZoneProofs SpecGroups GroupProofs SpecDemands DemandProofs ChipProofs SpecEmit EmitProofs.
Import ListNotations.
Local Open Scope list_scope.
Open Scope Z_scope.
Ltac Zify.zify_post_hook ::= idtac.

(** * Numbers *)
Lemma i32_range z : - 2 ^ 31 <= i32 z < 2 ^ 31.
Proof. unfold i32. change (2 ^ 31) with 2147483648. change (2 ^ 32) with 4294967296. pose proof (Z.mod_pos_bound (z + 2147483648) 4294967296 eq_refl). lia. Qed.
Lemma int_of_i32 z n : int_of z n <-> n = i32 z.
Proof.
  unfold int_of, i32. change (2 ^ 31) with 2147483648. change (2 ^ 32) with 4294967296. split.
  - intros (H & q & ->). replace (n + q * 4294967296 + 2147483648) with (n + 2147483648 + q * 4294967296) by ring. rewrite Z_mod_plus_full, Z.mod_small by lia. lia.
  - intros ->. pose proof (Z.mod_pos_bound (z + 2147483648) 4294967296 eq_refl). split; [lia|]. exists ((z + 2147483648) / 4294967296).
    pose proof (Z.div_mod (z + 2147483648) 4294967296 ltac:(lia)). lia.
Qed.
Lemma side_get a n : side a n <-> get_int a = Ok n.
Proof.
  split.
  - intros [b|z m H|x m E H]; cbn [get_int]; [reflexivity|apply int_of_i32 in H; subst; reflexivity|]. rewrite E.
    replace ((- 2 ^ 31 <=? m) && (m <? 2 ^ 31)) with true by (symmetry; apply andb_true_iff; change (2 ^ 31) with 2147483648 in *; lia). reflexivity.
  - destruct a as [|b|z|x|s|l|l]; cbn [get_int]; try discriminate.
    + intros H. injection H as <-. constructor.
    + intros H. injection H as <-. constructor. apply int_of_i32. reflexivity.
    + destruct (sf_trunc x) as [m|] eqn:E; [|discriminate]. destruct ((- 2 ^ 31 <=? m) && (m <? 2 ^ 31)) eqn:L; [|discriminate]. intros H. injection H as <-.
      apply side_float; [exact E|]. apply andb_true_iff in L. change (2 ^ 31) with 2147483648 in *. lia.
Qed.

(** * Entries *)
Lemma entry_none ew e : ~ well_formed e -> chip_entry ew e = Ok None.
Proof.
  intros H. destruct e as [k v]. unfold chip_entry. cbn [snd fst]. destruct v as [| | | | |[|[] [|[] [|]]]|]; try reflexivity.
  exfalso. apply H. exists (i32 z0), z, z0. split; [reflexivity|apply int_of_i32; reflexivity].
Qed.
Lemma entry_some ew e n : numbered e n -> chip_entry ew e = if ew =? 0 then UB "division by zero" else if (n =? - 2 ^ 31) && (ew =? -1) then UB "int overflow" else Ok (Some (fst e, [Z.rem n ew; Z.quot n ew; 0; 0])).
Proof. intros (a & z & E & H). apply int_of_i32 in H. subst n. unfold chip_entry. rewrite E. reflexivity. Qed.
Lemma numbered_fun e n n' : numbered e n -> numbered e n' -> n = n'.
Proof. intros (a & z & E & H) (a' & z' & E' & H'). rewrite E in E'. injection E' as <- <-. apply int_of_i32 in H. apply int_of_i32 in H'. congruence. Qed.
Lemma well_dec e : well_formed e \/ ~ well_formed e.
Proof.
  destruct e as [k v]. destruct v as [| | | | |[|[] [|[] [|]]]|]; try (right; intros (n & a & zz & E & _); discriminate E).
  left. exists (i32 z0), z, z0. split; [reflexivity|apply int_of_i32; reflexivity].
Qed.
Definition readable (ew : Z) (chips : list (string * json)) : Prop := forall pre e post n, chips = pre ++ e :: post -> Forall well_formed pre -> numbered e n -> divisible n ew.
Lemma readable_cons ew e chips : well_formed e -> readable ew (e :: chips) -> readable ew chips.
Proof. intros HW H pre e' post n -> HP HN. apply (H (e :: pre) e' post n eq_refl); [constructor; assumption|exact HN]. Qed.
Lemma divisible_test n ew : divisible n ew <-> (ew =? 0) = false /\ (n =? - 2 ^ 31) && (ew =? -1) = false.
Proof. unfold divisible. change (2 ^ 31) with 2147483648. split; intros [H1 H2]; split; try lia. Qed.
Lemma entries_read ew chips : (exists oc, chip_entries ew chips = Ok oc) <-> readable ew chips.
Proof.
  induction chips as [|e chips IH].
  - split; [|cbn; eauto]. intros _ [|] e post n E; discriminate E.
  - destruct (well_dec e) as [W|W].
    + destruct W as (n & HN). cbn [chip_entries]. rewrite (entry_some ew e n HN). split.
      * intros (oc & H). destruct (ew =? 0) eqn:E1; [discriminate|]. destruct ((n =? - 2 ^ 31) && (ew =? -1)) eqn:E2; [discriminate|]. cbn [bind] in H. apply bind_ok in H as (cs & Hc & _).
        pose proof (proj1 IH (ex_intro _ cs Hc)) as R. intros [|p pre] e' post n' E HP HN'.
        -- injection E as <- <-. rewrite (numbered_fun _ _ _ HN' HN). apply divisible_test. auto.
        -- injection E as <- E. apply (R pre e' post n' E); [exact (Forall_inv_tail HP)|exact HN'].
      * intros R. destruct (proj1 (divisible_test n ew) (R [] e chips n eq_refl ltac:(constructor) HN)) as [-> ->]. cbn [bind].
        destruct (proj2 IH (readable_cons _ _ _ (ex_intro _ n HN) R)) as (oc & ->). cbn [bind]. eauto.
    + cbn [chip_entries]. rewrite (entry_none ew e W). cbn [bind]. split; [|eauto]. intros _ [|p pre] e' post n' E HP HN'.
      * injection E as <- <-. exfalso. apply W. exists n'. exact HN'.
      * injection E as <- E. exfalso. apply W. exact (Forall_inv HP).
Qed.
Lemma entries_known ew chips : forall oc, chip_entries ew chips = Ok oc -> (oc <> None <-> Forall well_formed chips).
Proof.
  induction chips as [|e chips IH]; intros oc H; cbn [chip_entries] in H.
  - injection H as <-. split; [constructor|discriminate].
  - destruct (well_dec e) as [W|W].
    + destruct W as (n & HN). rewrite (entry_some ew e n HN) in H. destruct (ew =? 0); [discriminate|]. destruct ((n =? - 2 ^ 31) && (ew =? -1)); [discriminate|]. cbn [bind] in H.
      apply bind_ok in H as (cs & Hc & H). injection H as <-. specialize (IH cs Hc). destruct cs as [cs|]; cbn [option_map].
      * split; [|discriminate]. intros _. constructor; [exists n; exact HN|]. apply IH. discriminate.
      * split; [intros C; exfalso; apply C; reflexivity|]. intros HF. exfalso. apply (proj2 IH (Forall_inv_tail HF)). reflexivity.
    + rewrite (entry_none ew e W) in H. cbn [bind] in H. injection H as <-. split; [intros C; exfalso; apply C; reflexivity|]. intros HF. exfalso. apply W. exact (Forall_inv HF).
Qed.

(** * The topology *)
Lemma get_maps j k v : get_field j k = Some v -> maps_to j k v.
Proof. destruct j; intros H; try discriminate H. eexists. split; [reflexivity|exact H]. Qed.
Lemma mesh_cases j : (exists chips a b, one_mesh j chips a b) \/ ~ (exists chips a b, one_mesh j chips a b).
Proof.
  destruct (get_field j "device_id_to_fabric_node_id") as [c|] eqn:E1.
  2: { right. intros (chips & a & b & m & M1 & _). apply maps_get in M1. congruence. }
  destruct (get_field j "mesh_shapes") as [s|] eqn:E2.
  2: { right. intros (chips & a & b & m & _ & M2 & _). apply maps_get in M2. congruence. }
  destruct c as [| | | | | |chips]; try (right; intros (c1 & a1 & b1 & m1 & M1 & _); apply maps_get in M1; congruence).
  destruct s as [| | | | |[|m [|]]|]; try (right; intros (c1 & a1 & b1 & m1 & _ & M2 & _); apply maps_get in M2; congruence).
  destruct (get_field m "shape") as [sh|] eqn:E3.
  2: { right. intros (chips' & a & b & m' & _ & M2 & M3). apply maps_get in M2. apply maps_get in M3. congruence. }
  destruct sh as [| | | | |[|a [|b [|]]]|]; try (right; intros (c1 & a1 & b1 & m1 & _ & M2 & M3); apply maps_get in M2; apply maps_get in M3; congruence).
  left. exists chips, a, b, m. split; [apply get_maps; exact E1|]. split; [apply get_maps; exact E2|apply get_maps; exact E3].
Qed.
Lemma one_mesh_fun j c a b c' a' b' : one_mesh j c a b -> one_mesh j c' a' b' -> c = c' /\ a = a' /\ b = b'.
Proof.
  intros (m & M1 & M2 & M3) (m' & M1' & M2' & M3'). apply maps_get in M1, M2, M3, M1', M2', M3'. rewrite M1 in M1'. injection M1' as <-. rewrite M2 in M2'. injection M2' as <-. rewrite M3 in M3'. injection M3' as <- <-. auto.
Qed.
Lemma chips_json d j : (1 < dv_chips d)%nat ->
  (exists chips a b, one_mesh j chips a b /\ chips_of d (TopoJson j) = let! _ := get_int a in let! ew := get_int b in chip_entries ew chips) \/
  ((forall chips a b, ~ one_mesh j chips a b) /\ chips_of d (TopoJson j) = Ok (Some [])).
Proof.
  intros L. destruct (mesh_cases j) as [(chips & a & b & M)|N].
  - left. exists chips, a, b. split; [exact M|]. destruct M as (m & M1 & M2 & M3). unfold chips_of. destruct (Nat.ltb_spec 1 (dv_chips d)); [|lia].
    rewrite (maps_get _ _ _ M1), (maps_get _ _ _ M2), (maps_get _ _ _ M3). reflexivity.
  - right. split; [intros chips a b M; apply N; eauto|]. unfold chips_of. destruct (Nat.ltb_spec 1 (dv_chips d)); [|lia].
    destruct (get_field j "device_id_to_fabric_node_id") as [c|] eqn:E1; [|reflexivity]. destruct c as [| | | | | |chips]; try reflexivity.
    destruct (get_field j "mesh_shapes") as [s|] eqn:E2; [|reflexivity]. destruct s as [| | | | |[|m [|]]|]; try reflexivity.
    destruct (get_field m "shape") as [sh|] eqn:E3; [|reflexivity]. destruct sh as [| | | | |[|a [|b [|]]]|]; try reflexivity.
    exfalso. apply N. exists chips, a, b, m. split; [apply get_maps; exact E1|]. split; [apply get_maps; exact E2|apply get_maps; exact E3].
Qed.
Lemma chips_read d topo : (exists oc, chips_of d topo = Ok oc) <-> topology_read d topo.
Proof.
  unfold topology_read. destruct (Nat.leb_spec (dv_chips d) 1) as [L|L].
  - split; [auto|]. intros _. unfold chips_of. destruct (Nat.ltb_spec 1 (dv_chips d)); [lia|]. eauto.
  - destruct topo as [| | |j]; try (split; [intros _; right; intros j c a b E; discriminate E|intros _; unfold chips_of; destruct (Nat.ltb_spec 1 (dv_chips d)); [eauto|lia]]).
    destruct (chips_json d j L) as [(chips & a & b & M & ->)|(N & ->)].
    + split.
      * intros (oc & H). apply bind_ok in H as (ns & Ha & H). apply bind_ok in H as (ew & Hb & H). right. intros j' c' a' b' Ej M'. injection Ej as <-.
        destruct (one_mesh_fun _ _ _ _ _ _ _ M M') as (<- & <- & <-). exists ns, ew. split; [apply side_get; exact Ha|]. split; [apply side_get; exact Hb|].
        exact (proj1 (entries_read ew chips) (ex_intro _ oc H)).
      * intros [C|R]; [lia|]. destruct (R j chips a b eq_refl M) as (ns & ew & Ha & Hb & HR). apply side_get in Ha. apply side_get in Hb. rewrite Ha, Hb. cbn [bind].
        exact (proj2 (entries_read ew chips) HR).
    + split; [|eauto]. intros _. right. intros j' c' a' b' Ej M'. injection Ej as <-. exfalso. exact (N _ _ _ M').
Qed.
Lemma chips_document d topo oc : chips_of d topo = Ok oc -> (oc <> None <-> chips_known d topo).
Proof.
  unfold chips_known. intros H. destruct (Nat.leb_spec (dv_chips d) 1) as [L|L].
  - split; [auto|]. intros _. unfold chips_of in H. destruct (Nat.ltb_spec 1 (dv_chips d)); [lia|]. injection H as <-. discriminate.
  - destruct topo as [| | |j].
    1-3: unfold chips_of in H; destruct (Nat.ltb_spec 1 (dv_chips d)); [|lia]; injection H as <-; split; [intros C; exfalso; apply C; reflexivity|intros [C|(j & E & _)]; [lia|discriminate E]].
    destruct (chips_json d j L) as [(chips & a & b & M & E)|(N & E)]; rewrite E in H.
    + apply bind_ok in H as (ns & _ & H). apply bind_ok in H as (ew & _ & H). rewrite (entries_known _ _ _ H). split.
      * intros HF. right. exists j. split; [reflexivity|]. intros c' a' b' M'. destruct (one_mesh_fun _ _ _ _ _ _ _ M M') as (<- & _). exact HF.
      * intros [C|(j' & Ej & R)]; [lia|]. injection Ej as <-. exact (R _ _ _ M).
    + injection H as <-. split; [|discriminate]. intros _. right. exists j. split; [reflexivity|]. intros c' a' b' M'. exfalso. exact (N _ _ _ M').
Qed.

Section R.
  Context (A : arith) (ord : Z -> list Z -> list Z) (ord_perm : link_order ord) (bord : list bucket -> list bucket) (bord_perm : bucket_order bord).
  Context (gord : gmap -> gmap) (gord_perm : map_order gord) (zord : zone_map -> zone_map) (zord_perm : map_order zord).
  Context (d : device) (HD : supported d) (cpt : Z) (wl : workload (F A)) (HW : proper wl) (HC : proper_cpt cpt) (model : string).
  Context (HA : Forall (accepted d) (all_transfers wl)).
  Notation cong := (negb (String.eqb model "none")).
  Notation succ := (succeeds A ord bord d cong cpt wl).
  Notation run := (runWithTimeline A ord bord gord zord).

  Lemma emit_all topo thr stt : window_from wl -> 0 < thr -> runSinglePerfSim A ord bord d model cpt wl = Ok (Stats stt) ->
    (forall ds sf r, stats_get A stt MESH_DEVICE = Some ds -> succ sf -> exists o, v1 A gord zord d topo wl ds (sm_sts A sf) r = Ok o) ->
    exists files, run topo false thr d model cpt wl = Ok (Stats stt, files).
  Proof.
    intros HWin HT HR DK. destruct (mesh_present A ord bord bord_perm d cpt wl HW HC model stt HR) as (ds & HDS). destruct (run_split A ord bord gord zord d cpt wl model topo false thr stt HR) as (sf & HS & HE).
    pose proof (few_timesteps A ord bord bord_perm d cpt wl HW HC model stt ds HWin HR HDS) as FEW. specialize (DK ds sf).
    set (num := Z.of_nat (List.length (ds_ts A ds))) in *. unfold emitSimTimelineToFile in HE. rewrite HDS in HE. cbv zeta in HE. fold num in HE.
    destruct (DK None HDS HS) as (full & EF). rewrite EF in HE. cbn [bind] in HE. destruct (Z.ltb_spec thr num) as [L|L].
    - replace (thr =? 0) with false in HE by lia.
      destruct (mapM_ok (fun i : nat => let! rg := split_region A (ds_ts A ds) num thr (Z.of_nat i) in let! doc := v1 A gord zord d topo wl ds (sm_sts A sf) (Some rg) in Ok (Split A (Z.of_nat i) rg doc))
        (seq 0 (Z.to_nat (num_splits num thr)))) as (sp & ESP).
      { intros i Hi. apply in_seq in Hi. destruct (region_ok A (ds_ts A ds) num thr (Z.of_nat i) eq_refl (conj HT L) FEW ltac:(lia)) as (rg & ->). cbn [bind]. destruct (DK (Some rg) HDS HS) as (o & ->). cbn [bind]. eauto. }
      rewrite ESP in HE. cbn [bind] in HE. exists (FullV1 A full :: sp). apply HE. reflexivity.
    - exists [FullV1 A full]. apply HE. reflexivity.
  Qed.
  Lemma v1_chips_of topo ds sts r o : v1 A gord zord d topo wl ds sts r = Ok o -> exists oc, chips_of d topo = Ok oc /\ (oc <> None <-> o <> None).
  Proof.
    unfold v1. intros H. apply bind_ok in H as ([chips|] & E & H).
    - exists (Some chips). split; [exact E|]. apply bind_ok in H as (gs & _ & H). cbv zeta in H. apply bind_ok in H as (u & _ & H). apply bind_ok in H as (tgs & _ & H).
      apply bind_ok in H as (zs & _ & H). apply bind_ok in H as (ps & _ & H). injection H as <-. split; discriminate.
    - exists None. injection H as <-. split; [exact E|]. split; intros C; exfalso; apply C; reflexivity.
  Qed.
  Lemma files_docs topo thr stt files : run topo false thr d model cpt wl = Ok (Stats stt, files) ->
    exists ds sts full, stats_get A stt MESH_DEVICE = Some ds /\ v1 A gord zord d topo wl ds sts None = Ok full /\
      Forall (fun c => exists r o, v1 A gord zord d topo wl ds sts r = Ok o /\ (has_document c <-> o <> None)) files.
  Proof.
    intros H. destruct (run_emit A ord bord gord zord topo d cpt wl _ _ _ _ _ H) as (sf & _ & HE). destruct (stats_get A stt MESH_DEVICE) as [ds|] eqn:E; [|unfold emitSimTimelineToFile in HE; rewrite E in HE; discriminate HE].
    destruct (emit_cases _ _ _ _ _ _ _ _ _ _ _ HE E) as (full & HF & HCS). cbv zeta in HCS. exists ds, (sm_sts A sf), full. split; [reflexivity|]. split; [exact HF|].
    assert (H1 : exists r o, v1 A gord zord d topo wl ds (sm_sts A sf) r = Ok o /\ (has_document (FullV1 A full) <-> o <> None)) by (exists None, full; split; [exact HF|reflexivity]).
    destruct HCS as [(_ & ->)|(_ & _ & sp & -> & HS)]; [constructor; [exact H1|constructor]|]. constructor; [exact H1|].
    clear -HS. induction HS as [|i c is sp (rg & doc & -> & _ & HV) HS IH]; constructor; [|exact IH]. exists (Some rg), doc. split; [exact HV|reflexivity].
  Qed.
  Theorem run_exact topo thr stt : window_from wl -> registered wl -> wl_groups wl + Z.of_nat (List.length (all_transfers wl)) < 2 ^ 31 -> apart_zones wl -> 0 < thr ->
    runSinglePerfSim A ord bord d model cpt wl = Ok (Stats stt) ->
    ((exists files, run topo false thr d model cpt wl = Ok (Stats stt, files)) <-> topology_read d topo /\ (chips_known d topo -> matched_zones wl)) /\
    (forall files, run topo false thr d model cpt wl = Ok (Stats stt, files) -> Forall (fun c => has_document c <-> chips_known d topo) files).
  Proof.
    intros HWin HRG HB HZ HT HR. split; [split|].
    - intros (files & H). destruct (files_docs _ _ _ _ H) as (ds & sts & full & _ & HV & _). destruct (v1_chips_of _ _ _ _ _ HV) as (oc & EC & EO).
      split; [apply chips_read; eauto|]. intros HK. apply (chips_document d topo oc EC) in HK. apply EO in HK. destruct full as [tl|]; [|exfalso; apply HK; reflexivity].
      pose proof (v1_zones A gord zord d topo wl ds sts None tl HV) as HF. intros k zs Hin.
      assert (Hin' : In (k, zs) (zord (wl_zones wl))) by (eapply Permutation_in; [apply Permutation_sym, zord_perm|exact Hin]).
      apply In_nth_error in Hin' as (i & Hi). destruct (nth_error (tl_zones A tl) i) as [o|] eqn:Eo.
      + destruct (Forall2_nth _ _ _ HF _ _ _ Hi Eo) as (_ & HFo). cbn [snd] in HFo. apply forest_shape in HFo as (f & Hf & Ef). exists f. auto.
      + apply nth_error_None in Eo. apply Forall2_length' in HF. apply nth_some_lt in Hi. lia.
    - intros (HTR & HM). apply chips_read in HTR as (oc & EC). apply emit_all; try assumption. intros ds sf r HDS HS. destruct oc as [chips|].
      + assert (HN : nested_zones wl).
        { pose proof (HM (proj1 (chips_document d topo _ EC) ltac:(discriminate))) as HMZ. intros k zs Hin. destruct (HMZ k zs Hin) as (f & Ef & Hf). exists f. split; [exact Ef|]. split; [exact Hf|]. exact (HZ k zs f Hin Ef Hf). }
        destruct (doc_chips A ord ord_perm bord bord_perm gord gord_perm zord zord_perm d HD cpt wl HW HC model HA topo chips stt ds sf r EC HRG HB HN HR HDS HS) as (tl & E). eauto.
      + exists None. unfold v1. rewrite EC. reflexivity.
    - intros files H. destruct (files_docs _ _ _ _ H) as (ds & sts & full & _ & _ & HF). eapply Forall_impl; [|exact HF]. intros c (r & o & HV & HO). rewrite HO.
      destruct (v1_chips_of _ _ _ _ _ HV) as (oc & EC & EO). rewrite <- EO. exact (chips_document d topo oc EC).
  Qed.
End R.

(** * A criterion: no two zones of one name begin in one cycle *)
Lemma NoDup_app_remove_r {X} (a b : list X) : NoDup (a ++ b) -> NoDup a.
Proof. induction a as [|x a IH]; intros H; [constructor|]. cbn [app] in H. apply NoDup_cons_iff in H as [H1 H2]. constructor; [|auto]. intros C. apply H1. apply in_or_app. auto. Qed.
Lemma NoDup_app_remove_l {X} (a b : list X) : NoDup (a ++ b) -> NoDup b.
Proof. induction a as [|x a IH]; intros H; [exact H|]. cbn [app] in H. apply NoDup_cons_iff in H as [_ H]. auto. Qed.
Definition begun (z : zone) : list (string * Z) := match z_phase z with ZONE_START => [(z_name z, z_ts z)] | ZONE_END => [] end.
Lemma distinct_unshadowed : forall t outer, NoDup (flat_map begun (zevents t)) -> (forall x, In x (flat_map begun (zevents t)) -> ~ In x outer) -> unshadowed outer t.
Proof.
  intros t. induction t as [n a e inner IH] using ztree_nested_ind. intros outer ND DIS. cbn [zevents flat_map] in *. unfold begun at 1 in ND. unfold begun at 1 in DIS. cbn [z_phase z_name z_ts app] in *.
  rewrite flat_map_app in *. apply NoDup_cons_iff in ND as [N1 N2]. constructor; [apply DIS; left; reflexivity|].
  assert (N3 : NoDup (flat_map begun (flat_map zevents inner))) by (eapply NoDup_app_remove_r; exact N2).
  assert (D3 : forall x, In x (flat_map begun (flat_map zevents inner)) -> ~ In x ((n, a) :: outer)).
  { intros x Hx [<-|Ho]; [apply N1; apply in_or_app; left; exact Hx|]. apply (DIS x); [right; apply in_or_app; left; exact Hx|exact Ho]. }
  clear -IH N3 D3. induction IH as [|t ts Ht HF IHF]; constructor; cbn [flat_map] in *; rewrite flat_map_app in *.
  - apply Ht; [eapply NoDup_app_remove_r; exact N3|]. intros x Hx. apply D3. apply in_or_app. left. exact Hx.
  - apply IHF; [eapply NoDup_app_remove_l; exact N3|]. intros x Hx. apply D3. apply in_or_app. right. exact Hx.
Qed.
Lemma distinct_apart {Fl} (wl : workload Fl) : (forall k zs, In (k, zs) (wl_zones wl) -> NoDup (flat_map begun zs)) -> apart_zones wl.
Proof.
  intros H k zs f Hin -> _. specialize (H k _ Hin). apply Forall_forall. intros t Ht. apply distinct_unshadowed; [|intros x _ []].
  clear -H Ht. induction f as [|t' f IH]; [destruct Ht|]. cbn [flat_map] in H. rewrite flat_map_app in H. destruct Ht as [->|Ht]; [eapply NoDup_app_remove_r; exact H|].
  apply IH; [eapply NoDup_app_remove_l; exact H|exact Ht].
Qed.
