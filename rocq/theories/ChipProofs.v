(* The chips of the timeline files (C68). *)
From Coq Require Import ZArith Arith Lia Bool String List Sorting.Permutation ZifyBool ZifyNat.
From Verif Require Import Base Arith Util Json Device SpecDevice Workload SpecWorkload Rates Stats Engine UtilProofs WorkloadProofs SpecTracker TrackerProofs SpecEngine SpecRates SpecStats
  EngineFacts Timeline SpecTimeline TimelineProofs TimelineSplit SpecZones ZoneProofs SpecDemands.
Import ListNotations.
Local Open Scope list_scope.
Open Scope Z_scope.
Ltac Zify.zify_post_hook ::= idtac.

Lemma maps_get j k v : maps_to j k v -> get_field j k = Some v.
Proof. intros (fs & -> & H). exact H. Qed.
Lemma i32_id x : 0 <= x < 2 ^ 31 -> i32 x = x.
Proof. intros H. unfold i32. change (2 ^ 31) with 2147483648 in *. change (2 ^ 32) with 4294967296. rewrite Z.mod_small by lia. lia. Qed.
Lemma position ns ew k : 0 < ns -> 0 < ew -> 0 <= k < ns * ew -> 0 <= Z.rem k ew < ew /\ 0 <= Z.quot k ew < ns /\ k = Z.quot k ew * ew + Z.rem k ew.
Proof.
  intros H1 H2 H3. pose proof (Z.rem_bound_pos k ew ltac:(lia) ltac:(lia)) as R. pose proof (Z.quot_rem' k ew) as Q. pose proof (Z.quot_pos k ew ltac:(lia) ltac:(lia)) as P.
  split; [exact R|]. split; [|lia]. split; [exact P|]. nia.
Qed.
Lemma chip_list ns ew nodes : 0 < ns -> 0 < ew -> ns * ew < 2 ^ 31 -> Forall (fun e => 0 <= snd (snd e) < ns * ew) nodes ->
  exists cs, chip_entries ew (map (fun e => (fst e, JArray [JInt (fst (snd e)); JInt (snd (snd e))])) nodes) = Ok (Some cs) /\ Forall2 (placed ns ew) nodes cs.
Proof.
  intros H1 H2 H3. induction nodes as [|[n [m k]] nodes IH]; intros HF; cbn [map]; [exists []; split; [reflexivity|constructor]|].
  destruct (IH (Forall_inv_tail HF)) as (cs & E & HP). apply Forall_inv in HF. cbn [fst snd] in HF |- *. destruct (position ns ew k H1 H2 HF) as (R & Q & K).
  exists ((n, [Z.rem k ew; Z.quot k ew; 0; 0]) :: cs). split.
  - cbn [chip_entries]. unfold chip_entry at 1. cbn [fst snd]. rewrite i32_id by (change (2 ^ 31) with 2147483648 in *; lia). replace (ew =? 0) with false by lia. replace (k =? - 2 ^ 31) with false by (change (2 ^ 31) with 2147483648; lia).
    cbn [andb bind]. rewrite E. reflexivity.
  - constructor; [|exact HP]. split; [reflexivity|]. exists (Z.rem k ew), (Z.quot k ew). split; [reflexivity|]. split; [exact R|]. split; [exact Q|exact K].
Qed.
Lemma chips_mesh d ns ew nodes j : (1 < dv_chips d)%nat -> 0 < ns -> 0 < ew -> ns * ew < 2 ^ 31 -> Forall (fun e => 0 <= snd (snd e) < ns * ew) nodes -> mesh_topology ns ew nodes j ->
  exists cs, chips_of d (TopoJson j) = Ok (Some cs) /\ Forall2 (placed ns ew) nodes cs.
Proof.
  intros HD H1 H2 H3 HF (m & T1 & T2 & T3). destruct (chip_list ns ew nodes H1 H2 H3 HF) as (cs & E & HP). exists cs. split; [|exact HP].
  unfold chips_of. destruct (Nat.ltb_spec 1 (dv_chips d)) as [_|L]; [|lia]. rewrite (maps_get _ _ _ T1), (maps_get _ _ _ T2), (maps_get _ _ _ T3). cbn [get_int bind].
  rewrite i32_id; [exact E|]. change (2 ^ 31) with 2147483648 in *. nia.
Qed.
Lemma placed_inj ns ew a b ca cb : placed ns ew a ca -> placed ns ew b cb -> snd ca = snd cb -> snd (snd a) = snd (snd b).
Proof. intros (_ & x & y & E1 & _ & _ & K1) (_ & x' & y' & E2 & _ & _ & K2) E. rewrite E1, E2 in E. injection E as -> ->. congruence. Qed.
Lemma placed_nodup ns ew nodes cs : Forall2 (placed ns ew) nodes cs -> NoDup (map (fun e => snd (snd e)) nodes) -> NoDup (map snd cs).
Proof.
  intros HF. induction HF as [|e c nodes cs HP HF IH]; intros ND; [constructor|]. cbn [map] in *. apply NoDup_cons_iff in ND as [N1 N2]. constructor; [|auto].
  intros C. apply N1. clear -HP HF C. induction HF as [|e' c' nodes cs HP' HF IH]; [destruct C|]. cbn [map] in *. destruct C as [C|C]; [left; symmetry; eapply placed_inj; eauto|right; auto].
Qed.

Section R.
  Context (A : arith) (ord : Z -> list Z -> list Z) (bord : list bucket -> list bucket) (gord : gmap -> gmap) (zord : zone_map -> zone_map).
  Lemma v1_chips d topo wl ds sts r tl : v1 A gord zord d topo wl ds sts r = Ok (Some tl) -> chips_of d topo = Ok (Some (tl_chips A tl)).
  Proof.
    unfold v1. intros H. apply bind_ok in H as ([chips|] & HC & H); [|discriminate]. apply bind_ok in H as (gs & _ & H). cbv zeta in H. apply bind_ok in H as (u & _ & H). apply bind_ok in H as (tgs & _ & H).
    apply bind_ok in H as (zs & _ & H). apply bind_ok in H as (ps & _ & H). injection H as <-. exact HC.
  Qed.
  Lemma run_chips topo d cpt wl thr model stt files r tl : runWithTimeline A ord bord gord zord topo false thr d model cpt wl = Ok (Stats stt, files) -> document A files r tl -> chips_of d topo = Ok (Some (tl_chips A tl)).
  Proof.
    intros H HD. destruct (run_emit A ord bord gord zord topo d cpt wl _ _ _ _ _ H) as (sf & _ & HE). eapply emit_doc in HE as (ds & HV); [|exact HD]. eapply v1_chips; exact HV.
  Qed.
  (* a mesh: every device is listed once, at its own position *)
  Theorem run_mesh topo d cpt wl thr model stt files r tl ns ew nodes j : (1 < dv_chips d)%nat -> topo = TopoJson j -> mesh_topology ns ew nodes j ->
    0 < ns -> 0 < ew -> ns * ew < 2 ^ 31 -> Forall (fun e => 0 <= snd (snd e) < ns * ew) nodes -> NoDup (map (fun e => snd (snd e)) nodes) ->
    runWithTimeline A ord bord gord zord topo false thr d model cpt wl = Ok (Stats stt, files) -> document A files r tl ->
    Forall2 (placed ns ew) nodes (tl_chips A tl) /\ NoDup (map snd (tl_chips A tl)).
  Proof.
    intros HD -> HT H1 H2 H3 HF ND H HDc. apply (run_chips _ _ _ _ _ _ _ _ _ _ H) in HDc. destruct (chips_mesh d ns ew nodes j HD H1 H2 H3 HF HT) as (cs & E & HP). rewrite HDc in E. injection E as ->.
    split; [exact HP|]. eapply placed_nodup; eassumption.
  Qed.
  (* one chip: its position does not depend on a topology *)
  Theorem run_single topo d cpt wl thr model stt files r tl : dv_chips d = 1%nat ->
    runWithTimeline A ord bord gord zord topo false thr d model cpt wl = Ok (Stats stt, files) -> document A files r tl -> tl_chips A tl = [("0"%string, [0; 0; 0; 0])].
  Proof.
    intros HD H HDc. apply (run_chips _ _ _ _ _ _ _ _ _ _ H) in HDc. unfold chips_of in HDc. rewrite HD in HDc. cbn [Nat.ltb Nat.leb] in HDc. injection HDc as <-. reflexivity.
  Qed.
End R.
