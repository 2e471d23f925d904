(* The workload made from a workload file is one that runNPE handles (C79). *)
From Coq Require Import ZArith Arith Lia Lra Bool String List Reals Floats.SpecFloat ZifyBool ZifyNat.
From Verif Require Import Base Arith Util UtilProofs Json Device SpecDevice DeviceProofs FactoryProofs Workload SpecWorkload WorkloadProofs Rates Stats Engine SpecEngine SpecRates SpecStats SpecGroups Api SpecApi SafeRun ApiProofs
  TrackerProofs SpecTimeline Ingest SpecIngest IngestProofs IngestTrace IngestFacts TraceProofs Timeline SpecEmit Cli SpecCli CliTrace.
Import ListNotations.
Local Open Scope string_scope.
Local Open Scope list_scope.
Open Scope Z_scope.
Ltac Zify.zify_post_hook ::= idtac.

Lemma int_or_ex j k d : exists z, int_or j k d z.
Proof. exists (int_at j k d). apply int_or_iff. reflexivity. Qed.
Lemma real_or_ex j k : exists x, real_or j k x.
Proof. eexists. apply real_or_iff. reflexivity. Qed.
Lemma entry_usable d infer e t : wf_device d -> entry_on d infer e -> well_formed_entry e -> describes e t -> usable_transfer d infer t /\ t_gid t = -1.
Proof.
  intros HW [_ HE] HF (D1 & D2 & D3 & D4 & D5 & D6 & D7 & _ & _ & _ & D11 & _ & _ & D14). destruct (HE HF) as [E1 E2]. destruct HF as ((p & F1) & (n & F2) & (x & F3) & (y & F4) & F5 & _).
  specialize (D1 p F1). specialize (D2 n F2). destruct (int_or_ex e "phase_cycle_offset" 0) as (o & HO). specialize (D7 o HO). destruct (int_or_ex e "device_id" 0) as (dev & HDev). specialize (D3 dev x y HDev F3 F4).
  assert (M : forall z, 0 <= z mod 2 ^ 32 < 2 ^ 32) by (intros z; apply Z.mod_pos_bound; reflexivity).
  split; [|exact D11]. split; [unfold transfer_ranges; rewrite D7, D14, D1, D2; repeat split; apply M|]. split.
  { intros EB. rewrite D14, D1, D2 in EB. rewrite D1, D2. rewrite <- Z.mul_mod in EB by discriminate. destruct (Z.eq_dec (p mod 2 ^ 32) 0); [left; assumption|]. destruct (Z.eq_dec (n mod 2 ^ 32) 0); [right; assumption|]. exfalso. exact (E1 p n F1 F2 n0 n1 EB). }
  split. { destruct F5 as [(dx & dy & U)|(sx & sy & ex & ey & U)]; [destruct (D4 dev dx dy HDev U) as (c & -> & _); discriminate|destruct (D5 dev sx sy ex ey HDev U) as (a & b & -> & _); discriminate]. }
  split; [intros [N _]; contradiction|]. destruct infer; [exact (source_on d _ _ _ _ HW (E2 x y F3 F4) D3)|]. destruct (real_or_ex e "injection_rate") as (r & HR). rewrite (D6 r HR). exact (E2 r HR).
Qed.
Lemma loads_usable d infer es ts : wf_device d -> loads es ts -> Forall (entry_on d infer) es -> Forall (fun t => usable_transfer d infer t /\ t_gid t = -1) ts /\ (List.length ts <= List.length es)%nat.
Proof.
  intros HW. induction 1 as [|e es ts N HL IH|e es t ts W D HL IH]; intros HF; [split; [constructor|apply le_n]| |]; inversion HF as [|? ? F1 F2]; subst; destruct (IH F2) as [I1 I2].
  - split; [exact I1|cbn [List.length]; lia].
  - split; [constructor; [exact (entry_usable d infer e t HW F1 W D)|exact I1]|cbn [List.length]; lia].
Qed.
Lemma holds_unique j k v v' : holds j k v -> holds j k v' -> v = v'.
Proof. intros (f & -> & H) (f' & E & H'). injection E as <-. congruence. Qed.

(* the golden cycles of a loaded file are those of chip 0 and of the mesh *)
Lemma file_golden path accept f wl : loadJSONWorkloadFormat path accept f = Ok (Some wl) ->
  (forall id, id <> 0 -> id <> MESH_DEVICE -> getGoldenResultCycles wl id = StdThrow "out_of_range") /\
  (forall j, f = Parsed j -> golden_cycles j -> exists n, wl_golden wl = wl_golden (setGoldenResultCycles (@empty_workload spec_float) [(0, (0, u32 n))])).
Proof.
  unfold loadJSONWorkloadFormat. destruct f as [| |j]; try discriminate. destruct accept; [|discriminate]. destruct (json_workload path j) as [o| | | | | |] eqn:E; try discriminate. intros H. injection H as ->.
  unfold json_workload in E. destruct j; try discriminate E. cbn [as_object] in E. set (j := JObject l) in *. apply bind_ok in E as (w0 & H0 & E).
  destruct (at_key as_array j "phases") as [ps|] eqn:EP; [|discriminate]. apply bind_ok in E as (w1 & H1 & E). injection E as <-.
  destruct (phases_spec _ _ _ H1) as (I1 & _). assert (EG : wl_golden (setSourceFilePath w1 path) = wl_golden w0) by exact I1. split.
  - intros id N0 NM. unfold getGoldenResultCycles. rewrite EG.
    assert (K : wl_golden w0 = [] \/ exists n, wl_golden w0 = wl_golden (setGoldenResultCycles (@empty_workload spec_float) [(0, (0, u32 n))])).
    { destruct (get_field j "golden_result") as [g|]; [|injection H0 as <-; left; reflexivity]. destruct (get_field g "cycles") as [c|]; [|injection H0 as <-; left; reflexivity].
      apply bind_ok in H0 as (n & _ & H0). injection H0 as <-. right. exists n. reflexivity. }
    destruct K as [->|(n & ->)]; [reflexivity|]. unfold setGoldenResultCycles. cbn [wl_golden]. rewrite golden_get_put. destruct (Z.eqb_spec MESH_DEVICE id) as [<-|_]; [contradiction|]. cbn [golden_get]. destruct (Z.eqb_spec 0 id) as [<-|_]; [contradiction|reflexivity].
  - intros j' Ej (g & n & G1 & G2 & G3). injection Ej as <-. apply holds_iff in G1, G2. fold j in G1. rewrite G1, G2 in H0. apply bind_ok in H0 as (m & Hm & H0). cbn [as_uint] in Hm. destruct (0 <=? n); [|discriminate]. injection Hm as <-. injection H0 as <-. exists n. exact EG.
Qed.
Theorem file_usable path d accept j ps ess wl (cfg : config spec_float) : supported d -> dv_chips d = 1%nat -> loadJSONWorkloadFormat path accept (Parsed j) = Ok (Some wl) -> holds j "phases" (JArray ps) -> golden_cycles j ->
  Forall2 (fun p es => holds p "transfers" (JArray es) /\ Forall (entry_on d (cf_infer cfg)) es) ps ess -> Z.of_nat (List.length (concat ess)) < 2 ^ 31 -> Z.of_nat (List.length ps) <= 2 ^ 31 ->
  usable_scale (cf_scale cfg) wl -> usable_workload d cfg wl /\ registered wl /\ wl_groups wl + Z.of_nat (List.length (all_transfers wl)) < 2 ^ 31 /\ window_from wl /\ wl_zones wl = [].
Proof.
  intros HD H1 HL HP HG HF HN HPn HSc. pose proof (supported_wf d HD) as HW. destruct (proj2 (file_golden _ _ _ _ HL) j eq_refl HG) as (n & EG).
  destruct (workload_loaded _ _ _ _ HL) as (j' & ps' & Ej & _ & HP' & DN & _ & Z0 & G0 & _ & _ & HPh). injection Ej as <-. assert (EP : JArray ps' = JArray ps) by exact (holds_unique _ _ _ _ HP' HP). injection EP as ->. specialize (DN HPn).
  assert (U : Forall (fun t => usable_transfer d (cf_infer cfg) t /\ t_gid t = -1) (all_transfers wl) /\ (List.length (all_transfers wl) <= List.length (concat ess))%nat /\ List.length (wl_phases wl) = List.length ps).
  { unfold all_transfers. clear - HW HF HPh. revert HPh. generalize (wl_phases wl) as qs. induction HF as [|p es ps ess [K1 K2] HF IH]; intros qs HPh; inversion HPh as [|p' q ps' qs' (es' & ts & L1 & L2 & L3) HPh']; subst; [split; [constructor|split; [apply le_n|reflexivity]]|].
    assert (EE : JArray es' = JArray es) by exact (holds_unique _ _ _ _ L1 K1). injection EE as ->. destruct (loads_usable d _ es ts HW L2 K2) as [U1 U2]. destruct (IH qs' HPh') as (V1 & V2 & V3).
    assert (LT := Forall2_length' _ _ _ L3). cbn [flat_map concat List.length]. rewrite !app_length. split; [|split; [lia|lia]]. apply Forall_app. split; [|exact V1].
    eapply Forall2_transfer; [|exact U1|exact L3]. cbn beta. intros a b [(A1 & A2 & A3 & A4 & A5) A6] (E1 & E2 & E3 & E4 & E5 & E6 & E7 & E8 & E9 & E10 & E11 & E12 & E13).
    split; [|rewrite E11; exact A6]. unfold usable_transfer, transfer_ranges, waits_for_group in *. rewrite E1, E2, E3, E4, E5, E6, E9, E11, E13. intuition. }
  destruct U as (U1 & U2 & U3). pose proof DN as (_ & _ & EN). split; [|split; [|split; [|split]]].
  - split; [exact DN|]. split; [rewrite EN; lia|]. split; [rewrite U3; exact HPn|]. split; [eapply Forall_impl; [|exact U1]; cbn beta; tauto|]. split.
    + exact HSc.
    + intros id Hid. unfold getGoldenResultCycles. rewrite EG. unfold setGoldenResultCycles. cbn [wl_golden]. rewrite golden_get_put. destruct (Z.eqb_spec MESH_DEVICE id); [eauto|]. destruct Hid as [Hid|Hid]; [|congruence].
      unfold dv_device_ids in Hid. rewrite H1 in Hid. destruct Hid as [<-|[]]. eexists. reflexivity.
  - intros t Ht [N _]. rewrite Forall_forall in U1. destruct (U1 t Ht) as [_ E]. contradiction.
  - rewrite G0. lia.
  - intros x Hx. unfold getGoldenResultCycles in Hx. rewrite EG in Hx. unfold setGoldenResultCycles in Hx. cbn [wl_golden] in Hx. rewrite golden_get_put, Z.eqb_refl in Hx. injection Hx as <-. cbn [fst]. apply u32_range.
  - exact Z0.
Qed.
