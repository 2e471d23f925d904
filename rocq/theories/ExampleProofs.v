(* The example program ends in an exception (C80). *)
From Coq Require Import ZArith Arith Lia Lra Bool String List Reals Floats.SpecFloat ZifyBool ZifyNat.
From Verif Require Import Base Arith Util UtilProofs Device SpecDevice DeviceProofs FactoryProofs Workload SpecWorkload WorkloadProofs Rates Stats DepTracker Engine SpecEngine SpecRates SpecStats TrackerProofs RunProofs
  Api SpecApi SafeRun CalmProofs ApiProofs Bindings BindingsProofs Cli SpecCli NoGolden.
Import ListNotations.
Local Open Scope string_scope.
Local Open Scope list_scope.
Open Scope Z_scope.
Ltac Zify.zify_post_hook ::= idtac.

Definition example_made (x : draw) (t : transfer spec_float) : Prop :=
  t_src t = mkCoord 0 (dr_src_row x) (dr_src_col x) /\ t_dst t = Unicast (mkCoord 0 (dr_dst_row x) (dr_dst_col x)) /\ t_psize t = dr_packet x /\ t_npkts t = 1 /\ t_bytes t = dr_packet x /\ t_off t = dr_offset x /\
  t_gid t = -1 /\ t_gpar t = -1.
Lemma packet_range x : drawn x -> 1024 <= dr_packet x <= 8192.
Proof. intros (_ & _ & _ & _ & _ & H). cbn [In] in H. lia. Qed.
Lemma example_transfer_ok x : drawn x -> exists t, example_transfer x = Ok t /\ example_made x t.
Proof.
  intros HD. pose proof (packet_range x HD) as HP. destruct HD as (H1 & H2 & H3 & H4 & H5 & _). unfold example_transfer, py_Coord, py_Transfer, cast_int32, cast_uint32, py_arg. change (2 ^ 31) with 2147483648. change (2 ^ 32) with 4294967296.
  rewrite !cast_ok by lia. cbn [bind cast_float cast_double]. eexists. split; [reflexivity|].
  assert (S : forall z, 0 <= z <= 100 -> i16 z = z) by (intros z Hz; apply i16_id; change (2 ^ 15) with 32768; lia).
  unfold example_made, tr_make, Coord_make. cbn [t_src t_dst t_psize t_npkts t_bytes t_off t_gid t_gpar]. rewrite !S by lia.
  assert (U : forall z, 0 <= z <= 10000 -> u32 z = z) by (intros z Hz; apply u32_id; change (2 ^ 32) with 4294967296; lia). rewrite !U by (rewrite ?Z.mul_1_r; lia). rewrite ?Z.mul_1_r. auto 10.
Qed.
Lemma example_transfers_ok xs : Forall drawn xs -> exists ts, mapM example_transfer xs = Ok ts /\ Forall2 example_made xs ts.
Proof.
  induction 1 as [|x xs H _ (ts & E & F)]; [exists []; split; [reflexivity|constructor]|]. destruct (example_transfer_ok x H) as (t & Et & Ft). exists (t :: ts). cbn [mapM]. rewrite Et. cbn [bind]. rewrite E. split; [reflexivity|constructor; assumption].
Qed.
Lemma made_content x t t' : example_made x t -> same_content t t' -> example_made x t'.
Proof.
  unfold example_made, same_content. intros (A1 & A2 & A3 & A4 & A5 & A6 & A7 & A8) H. decompose [and] H. repeat (split; [congruence|]). congruence.
Qed.
Definition fits (t : transfer spec_float) : Prop := exists x, drawn x /\ example_made x t.
Lemma fits_usable t : fits t -> usable_transfer wormhole_b0 true t.
Proof.
  intros (x & HD & (A1 & A2 & A3 & A4 & A5 & A6 & A7 & A8)). pose proof (packet_range x HD) as HP. destruct HD as (H1 & H2 & H3 & H4 & H5 & _). unfold usable_transfer, transfer_ranges, waits_for_group, on_chip_grid. rewrite A1, A2, A3, A4, A5, A6, A7.
  change (2 ^ 32) with 4294967296. cbn [c_row c_col wormhole_b0 dv_rows dv_cols]. split; [lia|]. split; [lia|]. split; [discriminate|]. split; [intros _; eauto|lia].
Qed.
Lemma fits_accepted t : fits t -> accepted wormhole_b0 t.
Proof.
  intros (x & HD & (A1 & A2 & A3 & A4 & A5 & A6 & A7 & A8)). pose proof (packet_range x HD) as HP. destruct HD as (H1 & H2 & H3 & H4 & H5 & _). unfold accepted. rewrite A1, A2, A3, A4. unfold in_grid, on_chip_grid. cbn [c_row c_col c_dev wormhole_b0 dv_rows dv_cols dv_chips]. lia.
Qed.
Lemma fits_single t : fits t -> at_most_one_rectangle t.
Proof. intros (x & _ & (_ & A2 & _)). unfold at_most_one_rectangle. rewrite A2. exact I. Qed.
Lemma fits_rate a b : same_but_rate a b -> fits a -> fits b.
Proof. intros S (x & HD & H). exists x. split; [exact HD|]. destruct H as (A1 & A2 & A3 & A4 & A5 & A6 & A7 & A8). unfold example_made. unfold same_but_rate in S. decompose [and] S. repeat (split; [congruence|]). congruence. Qed.

Lemma one_phase {Fl} (w : workload Fl) p : [p] = wl_phases w -> all_transfers w = ph_trs p.
Proof. unfold all_transfers. intros <-. cbn [flat_map]. apply app_nil_r. Qed.
Theorem example_throws ord bord xs : link_order ord -> bucket_order bord -> List.length xs = 30%nat -> Forall drawn xs -> example_main ord bord xs = StdThrow "out_of_range".
Proof.
  intros HO HB HL HF. destruct (example_transfers_ok xs HF) as (ts & ET & FT). unfold example_main, genWorkload. rewrite ET. cbn [bind]. assert (LT : @List.length (transfer (F f32A)) ts = 30%nat) by (rewrite <- HL; symmetry; exact (Forall2_length' _ _ _ FT)).
  assert (EA : exists w id, addPhase (@empty_workload (F f32A)) ts = Ok (w, id)) by (unfold addPhase; cbn [empty_workload wl_next]; rewrite LT; eexists; eexists; reflexivity).
  destruct EA as (w & id & EA). rewrite EA. cbn [bind fst]. assert (EI : InitAPI f32A default_config = Ok (Some wormhole_b0)) by reflexivity. rewrite EI. cbn [bind].
  assert (HB1 : built w ([] ++ [ts])) by (eapply built_add; [constructor|exact EA]). destruct (built_ids _ _ HB1) as [DN FC]; [change (2 ^ 31) with 2147483648; cbn; lia|]. cbn [app] in FC.
  assert (HFit : Forall fits (all_transfers w)).
  { inversion FC as [|? p ? ps F1 F2 EQ1 EQ2]. inversion F2. subst. refine (eq_ind_r (fun l => Forall fits l) _ (one_phase w p EQ2)). clear - HF FT F1. revert F1. generalize (ph_trs p) as us. generalize (ph_id p) as i. intros i. induction FT as [|x t xs ts M FT IH]; intros us F1; inversion F1 as [|? u ? us' [E _] F1']; subst; [constructor|].
    inversion HF; subst. constructor; [exists x; split; [assumption|exact (made_content x t u M E)]|]. apply IH; assumption. }
  unfold addPhase in EA. destruct (_ <? _) in EA; [|discriminate]. injection EA as EA _.
  assert (EN : wl_next w = 30) by (rewrite <- EA; change (0 + Z.of_nat (@List.length (transfer (F f32A)) ts) = 30); rewrite LT; reflexivity). assert (EP : List.length (wl_phases w) = 1%nat) by (rewrite <- EA; reflexivity). assert (EG : wl_golden w = []) by (rewrite <- EA; reflexivity). clear EA.
  assert (HD : supported wormhole_b0) by (exists "wormhole_b0"; apply createDeviceModel_iff; reflexivity).
  assert (HN : forall x, getGoldenResultCycles w MESH_DEVICE <> Ok x) by (intros x; unfold getGoldenResultCycles; rewrite EG; discriminate).
  rewrite (missing_throws_simple ord bord wormhole_b0 default_config w [(0, (0, 0))] MESH_DEVICE HO HB HD); [reflexivity|split; [cbn; lia|right; reflexivity]|reflexivity| |right; reflexivity|exact HN|].
  - split; [exact DN|]. split; [cbn [setGoldenResultCycles wl_next]; rewrite EN; reflexivity|]. split; [exact (eq_ind_r (fun n => Z.of_nat n <= 2 ^ 31) (ltac:(discriminate) : Z.of_nat 1 <= 2 ^ 31) EP)|]. split; [eapply Forall_impl; [|exact HFit]; exact fits_usable|]. split.
    + split; [split; [reflexivity|left; reflexivity]|]. apply Forall_forall. intros t _. cbn. lra.
    + intros i [Hi|Hi]; [cbn in Hi; destruct Hi as [<-|[]]|subst i]; eexists; reflexivity.
  - intros v HV. unfold preprocessWorkload in HV. cbn [default_config cf_infer cf_scale cf_remove_local] in HV. apply bind_ok in HV as (v1 & HV1 & HV). change (scale_set f32A (f_zero f32A)) with false in HV. cbn [bind] in HV. injection HV as ->.
    apply infer_phases in HV1 as [_ HV1]. assert (HT : Forall2 (fun a b => same_but_rate a b) (all_transfers w) (all_transfers v)).
    { unfold all_transfers. eapply Forall2_flat_map; [exact HV1|]. cbn beta. intros p q [_ Q]. eapply Forall2_imp; [exact Q|]. cbn beta. tauto. }
    assert (HFv : Forall fits (all_transfers v)) by (eapply Forall2_transfer; [|exact HFit|exact HT]; cbn beta; intros a b F1 F2; exact (fits_rate a b F2 F1)).
    split; [eapply Forall_impl; [|exact HFv]; exact fits_accepted|]. split; [|discriminate]. eapply Forall_impl; [|exact HFv]. exact fits_single.
Qed.
