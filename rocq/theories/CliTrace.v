(* The workload made from a clean trace is one that runNPE handles (C79). *)
From Coq Require Import ZArith Arith Lia Lra Bool String List Reals Floats.SpecFloat ZifyBool ZifyNat.
From Verif Require Import Base Arith Util UtilProofs Json Device SpecDevice DeviceProofs FactoryProofs Workload SpecWorkload WorkloadProofs Rates Stats Engine SpecEngine SpecRates SpecStats SpecGroups Api SpecApi SafeRun ApiProofs
  TrackerProofs SpecTimeline Ingest SpecIngest IngestProofs IngestTrace IngestTotal IngestFacts TraceProofs Timeline SpecEmit Cli SpecCli.
Import ListNotations.
Local Open Scope string_scope.
Local Open Scope list_scope.
Open Scope Z_scope.
Ltac Zify.zify_post_hook ::= idtac.

(** * The transfers *)
Definition plain (g : Z) (t : trans) : Prop :=
  0 <= t_psize t < 2 ^ 32 /\ t_npkts t = 1 /\ t_bytes t = t_psize t /\ 0 <= t_off t < 2 ^ 32 /\ t_dst t <> Multicast [] /\ t_rate t = f_zero f32A /\
  (t_gid t = -1 \/ (0 <= t_gid t < g /\ exists c, t_dst t = Unicast c)).
Lemma u32_range z : 0 <= u32 z < 2 ^ 32.
Proof. unfold u32. apply Z.mod_pos_bound. reflexivity. Qed.
Lemma u32_once z : u32 (u32 z * 1) = u32 z.
Proof. rewrite Z.mul_1_r. unfold u32. apply Z.mod_small. apply (u32_range z). Qed.
Lemma plain_make g b src dst off noc ty path gid gix par : dst <> Multicast [] -> (gid = -1 \/ (0 <= gid < g /\ exists c, dst = Unicast c)) ->
  plain g (tr_make (u32 b) 1 src dst (f_zero f32A) (u32 off) noc ty path gid gix par).
Proof.
  intros H1 H2. unfold plain, tr_make. cbn [t_psize t_npkts t_bytes t_off t_dst t_rate t_gid]. split; [apply u32_range|]. split; [reflexivity|]. split; [apply u32_once|]. split; [apply u32_range|]. auto.
Qed.
Lemma plain_more g g' t : g <= g' -> plain g t -> plain g' t.
Proof. intros L (H1 & H2 & H3 & H4 & H5 & H6 & H7). unfold plain. split; [exact H1|]. split; [exact H2|]. split; [exact H3|]. split; [exact H4|]. split; [exact H5|]. split; [exact H6|]. destruct H7 as [H7|[H7 H8]]; [left; exact H7|right; split; [lia|exact H8]]. Qed.
Lemma locals_plain g dev sy sx off noc ty path gid par ws : 0 <= gid < g -> forall acc, Forall (plain g) (fst acc) ->
  Forall (plain g) (fst (fold_left (local_write dev sy sx off noc ty path gid par) ws acc)).
Proof.
  intros HG. induction ws as [|w ws IH]; intros acc H; cbn [fold_left]; [exact H|]. apply IH. unfold local_write. cbv zeta. destruct (_ && _); [|exact H]. cbn [fst]. apply Forall_app. split; [exact H|].
  constructor; [|constructor]. apply plain_make; [discriminate|]. right. split; [exact HG|eauto].
Qed.
Lemma segment_plain d ty path bytes gid trs off gix r st' g : 0 <= gid < g -> Forall (plain g) trs -> fabric_segment d ty path bytes gid (trs, off, gix) r = Ok st' -> Forall (plain g) (fst (fst st')).
Proof.
  intros HG HP H. unfold fabric_segment in H. cbv zeta in H. apply bind_ok in H as (off' & _ & H). destruct (_ || _) in H; [injection H as <-; exact HP|].
  assert (K : Forall (plain g) (fst (match at_key as_array r "local_writes" with
    | Some ws => fold_left (local_write (i16 (int_at r "device" (-1))) (int_at r "segment_start_y" (-1)) (int_at r "segment_start_x" (-1)) off' (if String.eqb (string_at r "noc") "NOC_0" then NOC0 else NOC1) ty path gid (int_at r "parent_id" (-1))) ws (trs, gix)
    | None => (trs, gix) end))).
  { destruct (at_key as_array r "local_writes"); [apply locals_plain; [exact HG|exact HP]|exact HP]. }
  injection H as <-. cbn [fst]. destruct (_ && _); [|exact K]. cbn [fst]. apply Forall_app. split; [exact K|]. constructor; [|constructor]. apply plain_make; [discriminate|]. right. split; [exact HG|eauto].
Qed.
Lemma segments_plain d ty path bytes gid g segs : 0 <= gid < g -> forall st st', Forall (plain g) (fst (fst st)) -> foldM (fabric_segment d ty path bytes gid) segs st = Ok st' -> Forall (plain g) (fst (fst st')).
Proof.
  intros HG. induction segs as [|r segs IH]; intros st st' HP H; cbn [foldM] in H; [injection H as <-; exact HP|]. apply bind_ok in H as (s1 & H1 & H). apply (IH s1 st'); [|exact H].
  destruct st as [[trs off] gix]. exact (segment_plain _ _ _ _ _ _ _ _ _ _ _ HG HP H1).
Qed.
Lemma data_plain d t0 path ev sx sy dx dy bytes g trs g' trs' : 0 <= g -> data_event d t0 path ev sx sy dx dy bytes g trs = Ok (g', trs') -> Forall (plain g) trs -> g <= g' /\ Forall (plain g') trs'.
Proof.
  intros HG H HP. unfold data_event in H. cbv zeta in H. destruct (String.eqb (string_at ev "noc") ""); [injection H as <- <-; split; [lia|exact HP]|].
  apply bind_ok in H as (o1 & _ & H). apply bind_ok in H as (o2 & _ & H). apply bind_ok in H as (dst & HD & H).
  assert (ND : forall x, dst = Some x -> x <> Multicast []).
  { intros x ->. destruct (String.eqb (string_at ev "type") "WRITE_MULTICAST"); [|injection HD as <-; discriminate]. destruct (_ || _); [discriminate|].
    destruct (String.eqb (string_at ev "noc") "NOC_0"); [apply bind_ok in HD as (m & HM & HD); injection HD as <-; apply mcast_make_inv in HM as (-> & _); discriminate|].
    destruct (String.eqb (string_at ev "noc") "NOC_1"); [apply bind_ok in HD as (m & HM & HD); injection HD as <-; apply mcast_make_inv in HM as (-> & _); discriminate|]. injection HD as <-. discriminate. }
  destruct dst as [x|]; [|injection H as <- <-; split; [lia|exact HP]]. specialize (ND x eq_refl).
  destruct (at_key as_object ev "fabric_send") as [f|].
  - destruct (_ <? _) in H; [|discriminate]. assert (HP' : Forall (plain (g + 1)) trs) by (eapply Forall_impl; [|exact HP]; intros t; apply plain_more; lia).
    destruct (at_key as_array f "path") as [segs|].
    + apply bind_ok in H as (r & HR & H). injection H as <- <-. split; [lia|]. refine (segments_plain _ _ _ _ _ (g + 1) _ _ _ _ _ HR); [lia|exact HP'].
    + injection H as <- <-. split; [lia|exact HP'].
  - injection H as <- <-. split; [lia|]. apply Forall_app. split; [exact HP|]. constructor; [|constructor]. apply plain_make; [exact ND|left; reflexivity].
Qed.
(* every event counts for its transfers and for its group *)
Lemma data_count d t0 path ev sx sy dx dy bytes g trs g' trs' : acts_b ev = true -> data_event d t0 path ev sx sy dx dy bytes g trs = Ok (g', trs') ->
  g' + Z.of_nat (List.length trs') <= g + Z.of_nat (List.length trs) + event_size ev.
Proof.
  intros HA H. apply data_event_spec in H; [|exact HA]. unfold event_size. pose proof segs_size_length as SL. destruct (moves_b ev).
  2:{ destruct H as [-> ->]. destruct (fabric_b ev) as [f|]; [destruct (at_key as_array f "path") as [segs|]; [specialize (SL segs)|]|]; lia. }
  destruct H as (lat & _ & H). destruct (fabric_b ev) as [f|].
  - destruct H as [-> H]. destruct (at_key as_array f "path") as [segs|]; [|subst trs'; lia].
    destruct H as (r & H & ->). apply fabric_spec in H; [|lia]. destruct H as (tss & -> & HF & _). rewrite app_length.
    assert (L : Z.of_nat (List.length (concat tss)) <= segs_size segs).
    { clear - HF. induction HF as [|r ts segs tss H HF IH]; [cbn; lia|]. cbn [concat segs_size fold_right]. fold (segs_size segs). rewrite app_length. apply yields_length in H. lia. }
    lia.
  - destruct H as [-> (dst & _ & ->)]. rewrite app_length. cbn [List.length]. lia.
Qed.
Definition counted (st : istate) (n : Z) : Prop := 0 <= is_groups st /\ is_groups st + Z.of_nat (List.length (is_trs st)) <= n /\ Forall (plain (is_groups st)) (is_trs st).
Lemma event_counted d zones t0 st ev st' n : counted st n -> convert_event d zones t0 st ev = Ok st' -> counted st' (n + event_size ev).
Proof.
  intros (C1 & C2 & C3) H. apply convert_event_spec in H as (_ & _ & H). pose proof (event_size_pos ev) as EP. destruct (acts_b ev) eqn:EA.
  - destruct H as (path & H). cbv zeta in H. pose proof (data_count _ _ _ _ _ _ _ _ _ _ _ _ _ EA H). destruct (data_plain _ _ _ _ _ _ _ _ _ _ _ _ _ C1 H C3) as [G P]. split; [lia|]. split; [lia|exact P].
  - destruct H as [E1 E2]. unfold counted. rewrite E1, E2. split; [lia|]. split; [lia|exact C3].
Qed.
Lemma events_counted d zones t0 evs : forall st st' n, counted st n -> foldM (convert_event d zones t0) evs st = Ok st' -> counted st' (n + events_size evs).
Proof.
  induction evs as [|ev evs IH]; intros st st' n C H; cbn [foldM] in H.
  - injection H as <-. cbn [events_size fold_right]. rewrite Z.add_0_r. exact C.
  - apply bind_ok in H as (s1 & H1 & H). cbn [events_size fold_right]. fold (events_size evs). rewrite Z.add_assoc. exact (IH s1 st' _ (event_counted _ _ _ _ _ _ _ C H1) H).
Qed.

(** * The sources *)
Lemma source_on d c dev x y : wf_device d -> core_on d x y -> coord_is c dev y x -> on_chip_grid d c.
Proof.
  intros HW [[X1 X2] [Y1 Y2]] (_ & N1 & N2). assert (B : Z.of_nat (dv_cols d) <= 2 ^ 15 /\ Z.of_nat (dv_rows d) <= 2 ^ 15) by (destruct HW; lia). destruct B as [B1 B2].
  assert (K : forall z k, 0 <= z < 2 ^ 15 -> narrow16 z k -> k = z).
  { intros z k Hz [R M]. change (2 ^ 15) with 32768 in *. change (2 ^ 16) with 65536 in M. apply Z.mod_divide in M; [|lia]. destruct M as (q & M). lia. }
  apply K in N1; [|lia]. apply K in N2; [|lia]. unfold on_chip_grid. lia.
Qed.
Lemma locals_source ty g s ws ts : locals ty g s ws ts -> forall t, In t ts -> coord_is (t_src t) (sg_dev s) (sg_sy s) (sg_sx s).
Proof. induction 1 as [|w ws ts _ _ IH|w ws t ts x y b _ L _ IH]; intros u Hu; [destruct Hu|apply IH; exact Hu|]. destruct Hu as [<-|Hu]; [apply L|apply IH; exact Hu]. Qed.
Lemma segment_source bytes ty g r ts t : segment_yields bytes ty g r ts -> In t ts -> complete r (seg_of r) /\ coord_is (t_src t) (sg_dev (seg_of r)) (sg_sy (seg_of r)) (sg_sx (seg_of r)).
Proof.
  intros H Ht. destruct (H _ (proj2 (segment_iff r _) eq_refl)) as [H1 H2].
  assert (DW : (exists ws, writes r ws) \/ forall ws, ~ writes r ws).
  { unfold writes. setoid_rewrite array_iff. destruct (at_key as_array r "local_writes") as [ws|]; [left; eauto|right; discriminate]. }
  assert (DF : has_forward (seg_of r) \/ ~ has_forward (seg_of r)) by (unfold has_forward; lia).
  assert (C : complete r (seg_of r)).
  { assert (DC : complete r (seg_of r) \/ ~ complete r (seg_of r)); [|destruct DC as [DC|DC]; [exact DC|rewrite (H1 DC) in Ht; destruct Ht]].
    unfold complete. pose proof (proj2 (segment_iff r _) eq_refl) as SG. destruct (Z.eq_dec (sg_dev (seg_of r)) (-1)); [right; tauto|]. destruct (Z.eq_dec (sg_sx (seg_of r)) (-1)); [right; tauto|]. destruct (Z.eq_dec (sg_sy (seg_of r)) (-1)); [right; tauto|].
    destruct DF as [DF|DF]; [left; auto 10|]. destruct DW as [DW|DW]; [left; auto 10|]. right. intros (_ & _ & _ & _ & [K|(ws & K)]); [contradiction|exact (DW ws K)]. }
  split; [exact C|]. destruct (H2 C) as (ls & fs & -> & L1 & L2 & F1 & F2). apply in_app_or in Ht. destruct Ht as [Ht|Ht].
  - destruct DW as [(ws & DW)|DW]; [exact (locals_source _ _ _ _ _ (L1 ws DW) t Ht)|rewrite (L2 DW) in Ht; destruct Ht].
  - destruct DF as [DF|DF]; [|rewrite (F1 DF) in Ht; destruct Ht]. destruct (F2 DF) as (u & -> & L). destruct Ht as [<-|[]]. apply L.
Qed.
Lemma event_source d evs before ev rest ts t : wf_device d -> sources_on d evs -> evs = before ++ ev :: rest -> yields d evs before ev ts -> In t ts -> on_chip_grid d (t_src t).
Proof.
  intros HW HS HE (Y1 & Y2 & Y3) Ht. destruct (moves_b ev) eqn:EM.
  2:{ rewrite Y1 in Ht; [destruct Ht|]. intros M. apply moves_b_iff in M. congruence. }
  apply moves_b_iff in EM. destruct (HS before ev rest HE EM) as [S1 S2]. destruct (fabric_b ev) as [j|] eqn:EF.
  - pose proof EF as EF'. apply fabric_some in EF' as (f & -> & F). destruct (Y3 f EM F) as (ty & noc & q & g & _ & _ & _ & _ & _ & _ & P1 & P2).
    destruct (at_key as_array (JObject f) "path") as [segs|] eqn:EP.
    + pose proof (proj2 (path_of_some ev _ segs EF) EP) as PO. destruct (P2 segs PO) as (tss & -> & HF & _). apply in_concat in Ht as (us & Hus & Ht).
      assert (K : exists r, In r segs /\ segment_yields (rq_bytes q) ty g r us).
      { clear - HF Hus. induction HF as [|r x segs tss H HF IH]; [destruct Hus|]. destruct Hus as [<-|Hus]; [exists r; split; [left; reflexivity|exact H]|]. destruct (IH Hus) as (r' & R1 & R2). exists r'. split; [right; exact R1|exact R2]. }
      destruct K as (r & Hr & HY). destruct (segment_source _ _ _ _ _ _ HY Ht) as [C CI]. exact (source_on d _ _ _ _ HW (S2 segs r _ PO Hr C) CI).
    + rewrite P1 in Ht; [destruct Ht|]. intros segs PO. apply (path_of_some ev _ segs EF) in PO. congruence.
  - pose proof (proj1 (fabric_none ev) EF) as NF. destruct (Y2 EM NF) as (u & -> & T). destruct Ht as [<-|[]].
    destruct T as (ty & noc & q & dev & dst_dev & sx & sy & dx & dy & T1 & _ & T3 & _ & _ & T6 & _ & _ & _ & _ & T10 & _). exact (source_on d _ _ _ _ HW (S1 NF ty q sx sy T1 T3 T6) T10).
Qed.
Lemma all_sources d evs tss t : wf_device d -> sources_on d evs -> converts d evs evs tss -> In t (concat tss) -> on_chip_grid d (t_src t).
Proof.
  intros HW HS [L HC] Ht. apply in_concat in Ht as (ts & Hts & Ht). destruct (In_nth_error _ _ Hts) as (i & Hi).
  assert (Hlt : (i < List.length evs)%nat) by (rewrite <- L; apply nth_error_Some; congruence). destruct (nth_error evs i) as [ev|] eqn:EE; [|apply nth_error_None in EE; lia].
  destruct (nth_error_split _ _ EE) as (l1 & l2 & E & E1). specialize (HC i ev ts EE Hi). rewrite E, <- E1, firstn_app, firstn_all, Nat.sub_diag, app_nil_r in HC. rewrite <- E in HC.
  exact (event_source d evs l1 ev l2 ts t HW HS E HC Ht).
Qed.

(** * The workload *)
Lemma zero_number : number (f_zero f32A).
Proof. split; [reflexivity|left; reflexivity]. Qed.
Theorem trace_usable path d evs wl (cfg : config spec_float) : supported d -> convert_trace d path (JArray evs) = Ok (Some wl) -> clean d evs -> (cf_infer cfg = true -> sources_on d evs) ->
  usable_scale (cf_scale cfg) wl -> usable_workload d cfg wl /\ registered wl /\ wl_groups wl + Z.of_nat (List.length (all_transfers wl)) < 2 ^ 31 /\ window_from wl.
Proof.
  intros HD H HC HI HSc. pose proof (supported_wf d HD) as HW. destruct (trace_converted d path _ wl H) as (evs' & tss & p & EJ & P1 & P2 & P3 & P4 & P5 & _). injection EJ as <-.
  unfold convert_trace in H. cbn [as_array or_throw bind] in H. apply bind_ok in H as ([gm t0] & HG & H). cbn [fst snd] in H. apply bind_ok in H as (zones & HZ & H). apply bind_ok in H as (st & HS & H).
  apply bind_ok in H as ([w id] & HA & H). injection H as <-. cbn [fst] in *.
  assert (C0 : counted init_state 0) by (split; [cbn; lia|split; [cbn; lia|constructor]]).
  apply (events_counted _ _ _ _ _ _ _ C0) in HS. destruct HS as (C1 & C2 & C3). destruct HC as (_ & _ & _ & _ & _ & _ & n & T1 & T2). apply trace_size_le in T1.
  unfold addPhase in HA. cbn [wl_next wl_phases wl_groups wl_golden wl_zones wl_path setZones setGoldenResultCycles empty_workload List.length app] in HA.
  destruct (Z.ltb_spec (0 + Z.of_nat (List.length (is_trs st))) (2 ^ 31)) as [LT|]; [|discriminate]. injection HA as <- _.
  cbn [setSourceFilePath wl_phases wl_next wl_groups wl_golden wl_zones wl_path] in *. injection P1 as <-. cbn [ph_trs ph_id] in *.
  assert (AT : forall wl' : workload spec_float, wl_phases wl' = [mkPhase (i32 (Z.of_nat 0)) (number_transfers (i32 (Z.of_nat 0)) 0 (is_trs st))] -> all_transfers wl' = number_transfers (i32 (Z.of_nat 0)) 0 (is_trs st)).
  { intros wl' E. unfold all_transfers. rewrite E. cbn [flat_map ph_trs]. apply app_nil_r. }
  set (W := setSourceFilePath _ path). specialize (AT W eq_refl).
  assert (LN : List.length (number_transfers (i32 (Z.of_nat 0)) 0 (is_trs st)) = List.length (is_trs st)).
  { symmetry. exact (Forall2_length' _ _ _ (number_content (is_trs st) (i32 (Z.of_nat 0)) 0)). }
  assert (PL : Forall (fun t => plain (is_groups st) t) (all_transfers W)).
  { rewrite AT. eapply Forall2_transfer; [|exact C3|apply number_content]. cbn beta. intros a b HP (E1 & E2 & E3 & E4 & E5 & E6 & E7 & E8 & E9 & E10 & E11 & E12 & E13). unfold plain in *. rewrite E1, E2, E4, E5, E6, E9, E11. exact HP. }
  assert (SR : cf_infer cfg = true -> Forall (fun t => on_chip_grid d (t_src t)) (all_transfers W)).
  { intros EI. rewrite AT. assert (K : Forall (fun t => on_chip_grid d (t_src t)) (concat tss)) by (apply Forall_forall; intros t Ht; exact (all_sources d evs tss t HW (HI EI) P5 Ht)).
    eapply Forall2_transfer; [|exact K|exact P3]. cbn beta. intros a b HP [(E1 & E2 & E3 & _) _]. rewrite E3. exact HP. }
  assert (GK : forall id, has_stats d id -> exists x, getGoldenResultCycles W id = Ok x).
  { intros k Hk. unfold getGoldenResultCycles. change (wl_golden W) with (wl_golden (setGoldenResultCycles (@empty_workload spec_float) gm)). unfold setGoldenResultCycles. cbn [wl_golden]. rewrite golden_get_put.
    destruct (Z.eqb_spec MESH_DEVICE k) as [<-|NE]; [eauto|]. destruct Hk as [Hk|Hk]; [|congruence].
    unfold computeGoldenCyclesAndT0 in HG. cbv zeta in HG. apply bind_ok in HG as (m & HM & HG). injection HG as <- _. apply mapM_fst in HM. rewrite <- HM in Hk. clear - Hk.
    induction m as [|[k' v] m IH]; [destruct Hk|]. cbn [golden_get]. destruct (Z.eqb_spec k' k) as [->|NE]; [eauto|]. apply IH. destruct Hk as [Hk|Hk]; [cbn [fst] in Hk; congruence|exact Hk]. }
  split; [|split; [|split]].
  - split. { split; [reflexivity|]. split; [|cbn [W setSourceFilePath wl_next]; rewrite AT, LN; lia]. rewrite AT. exact P4. }
    split; [cbn [W setSourceFilePath wl_next]; lia|]. split; [cbn [W setSourceFilePath wl_phases List.length]; lia|]. split; [|split].
    + apply Forall_forall. intros t Ht. rewrite Forall_forall in PL. destruct (PL t Ht) as (A1 & A2 & A3 & A4 & A5 & A6 & A7). split.
      { unfold transfer_ranges. rewrite A2, A3. lia. } split; [rewrite A3; auto|]. split; [exact A5|]. split.
      { intros [N _]. destruct A7 as [A7|[_ A7]]; [contradiction|exact A7]. }
      destruct (cf_infer cfg); [specialize (SR eq_refl); rewrite Forall_forall in SR; exact (SR t Ht)|]. rewrite A6. exact zero_number.
    + exact HSc.
    + exact GK.
  - intros t Ht HGr. rewrite Forall_forall in PL. destruct (PL t Ht) as (_ & _ & _ & _ & _ & _ & [A7|[A7 _]]); [|exact (proj2 A7)]. exfalso. unfold grouped in HGr. lia.
  - cbn [W setSourceFilePath wl_groups]. rewrite AT, LN. lia.
  - intros x Hx. unfold getGoldenResultCycles in Hx. change (wl_golden W) with (wl_golden (setGoldenResultCycles (@empty_workload spec_float) gm)) in Hx. unfold setGoldenResultCycles in Hx. cbn [wl_golden] in Hx. rewrite golden_get_put, Z.eqb_refl in Hx. injection Hx as <-. cbn [fst]. apply u32_range.
Qed.
