(* End cycles and start cycles in binary32 (C26, C33): no wrap-around, and how far an end can lie before the start. *)
From Coq Require Import ZArith Arith Reals String List Bool Lia Lra ZifyBool ZifyNat Sorting.Permutation Sorting.Sorted Floats.SpecFloat.
From Flocq Require Import Core IEEE754.BinarySingleNaN.
From Verif Require Import Base Arith Util Device SpecDevice Workload SpecWorkload DepTracker Rates Stats Engine UtilProofs
  WorkloadProofs SpecTracker TrackerProofs DepGenProofs StepProofs SpecEngine SpecRates EngineProofs RunProofs DepFacts EngineFacts EngineFacts2 EngineFacts3 EngineFacts4 EngineFacts5
  FloatProofs FloatProofs2 RateFloat RateFloat4 EngineRates EndFloat IngestTotal.
Import ListNotations.
Local Open Scope list_scope.
Open Scope Z_scope.
Ltac Zify.zify_post_hook ::= idtac.

Section Run.
  Context (A : arith) (ord : Z -> list Z -> list Z) (bord : list bucket -> list bucket) (bord_perm : bucket_order bord).
  Context (d : device) (congestion : bool) (cpt : Z) (wl : workload (F A)).
  Context (HW : proper wl) (HC : proper_cpt cpt).
  Notation reach := (reach A ord bord d congestion cpt wl).
  Notation visited := (visited A ord bord d congestion cpt wl).
  Notation step := (timestep A d congestion cpt wl).

  (* a timestep leaves a finished transfer alone *)
  Lemma finished_same s s' i x : reach s -> step s = Ok s' -> is_finished A s i -> nth_error (sm_sts A s) i = Some x -> nth_error (sm_sts A s') i = Some x.
  Proof.
    intros HR HT HF Hx. destruct (reach_setup A ord bord bord_perm d congestion cpt wl HW s HR) as (sts0 & E & HS).
    destruct (step_inv A ord bord bord_perm d congestion cpt wl HW HC _ _ _ _ HS HR HT) as (fin & act & sts1 & sts2 & stt & I & SR & I').
    destruct SR as [S1 S2 S3 [S4 S4'] S5 [S6 S6'] S7 S8 S9]. apply rates_frame in S5. destruct S5 as [F1 F2].
    pose proof (S4' _ _ Hx) as Hx1. destruct (F2 _ _ Hx1) as (b & Hx2 & Fb). destruct (S6' _ _ Hx2) as [_ L2]. destruct HF as (_ & NQ & NL).
    assert (Hn : ~ In i (sm_live A s ++ act)).
    { intros Hn. apply in_app_or in Hn as [Hn|Hn]; [exact (NL Hn)|]. apply S2 in Hn as [Hq _]. exact (NQ Hq). }
    rewrite (L2 Hn). f_equal. rewrite (Fb Hn). rewrite if_not_in by (intros Hn'; apply Hn, in_or_app; auto). destruct x; reflexivity.
  Qed.
  Lemma started_cases s s' i : reach s -> step s = Ok s' -> has_started A s' i -> takes_part s s' i \/ is_finished A s i.
  Proof.
    intros HR HT HS. assert (V' : visited s') by (right; exists s; auto). destruct (places A ord bord bord_perm d congestion cpt wl HW HC s (or_introl HR)) as (_ & _ & _ & P).
    destruct (places A ord bord bord_perm d congestion cpt wl HW HC s' V') as (_ & _ & L' & P').
    assert (Hi : (i < List.length (all_transfers wl))%nat). { apply P'. destruct HS as [H|H]; [|destruct H as [H _]; apply P'; rewrite <- L'; exact H]. 
      destruct (visited_facts A ord bord bord_perm d congestion cpt wl HW HC s' V') as (sts0 & E & h & fin & HSU & _ & I & _). destruct (part_ids _ _ _ _ _ _ I) as [_ IDS]. apply P'. rewrite <- L'. apply IDS. rewrite !in_app_iff. right. left. exact H. }
    assert (NQ' : ~ is_queued A s' i) by (apply P' in Hi; destruct HS as [H|H]; tauto).
    apply P in Hi. unfold takes_part. tauto.
  Qed.
  (* something that depends on another transfer has started: more than one timestep was needed *)
  Lemma started_reach s : reach s -> sim_init A ord bord d cpt wl = Ok s \/ cpt <= MAX_CYCLE_LIMIT.
  Proof.
    intros HR. destruct HR as [s H|s s' HR HT HF HM]; [left; assumption|right]. pose proof (step_curr A d congestion cpt wl _ _ HT) as EC.
    destruct (reach_clock A ord bord bord_perm d congestion cpt wl HW HC s HR) as (_ & _ & K3). lia.
  Qed.
  Lemma init_fresh s i : sim_init A ord bord d cpt wl = Ok s -> (i < List.length (sm_sts A s))%nat -> is_queued A s i /\ ~ is_live A s i.
  Proof.
    intros H Hi. destruct (reach_setup A ord bord bord_perm d congestion cpt wl HW s (reach_init _ _ _ _ _ _ _ _ H)) as (sts0 & E & HS).
    destruct (init_inv A ord bord bord_perm d cpt wl HW _ _ _ HS H) as [I1 _]. destruct (part_ids _ _ _ _ _ _ I1) as [_ IDS1].
    apply IDS1 in Hi. destruct (sim_init_eq A ord bord bord_perm d cpt wl HW _ H) as (sts0' & E' & [K1 K2] & EQ). rewrite EQ in *. unfold is_queued, is_live. cbn [sm_live sm_queue] in *.
    rewrite !in_app_iff in Hi. cbn [In] in *. tauto.
  Qed.
  Lemma dependent_cpt s i j dl : visited s -> has_started A s i -> depends A (sm_sts A s) (sm_trk A s) i j dl -> cpt <= MAX_CYCLE_LIMIT.
  Proof.
    intros V HS HD. assert (NI : forall s0, reach s0 -> sim_init A ord bord d cpt wl = Ok s0 -> (i < List.length (sm_sts A s0))%nat -> ~ is_finished A s0 i /\ ~ is_live A s0 i).
    { intros s0 _ H0 Hi. destruct (init_fresh s0 i H0 Hi) as [Q L]. split; [intros (_ & N & _); exact (N Q)|exact L]. }
    assert (Hx : exists x, nth_error (sm_sts A s) i = Some x) by (destruct HD as (x & _ & _ & _ & Hx & _); eauto). destruct Hx as [x Hx].
    destruct V as [HR|(s0 & HR & HT)].
    - destruct (started_reach s HR) as [H0|]; [|assumption]. exfalso. destruct (NI s HR H0 (nth_some_lt _ _ _ Hx)) as [N1 N2]. destruct HS; auto.
    - destruct (started_reach s0 HR) as [H0|]; [|assumption]. exfalso. assert (V' : visited s) by (right; exists s0; auto).
      pose proof (visited_transfer A ord bord bord_perm d congestion cpt wl HW HC s i x V' Hx) as Ht. destruct (visited_state A ord bord bord_perm d congestion cpt wl HW HC s0 i _ (or_introl HR) Ht) as (x0 & Hx0 & _).
      destruct (NI s0 HR H0 (nth_some_lt _ _ _ Hx0)) as [N1 N2]. destruct (started_cases s0 s i HR HT HS) as [[HL|HQ]|HF]; try contradiction.
      apply (activation_exact A ord bord bord_perm d congestion cpt wl HW HC _ _ HR HT) in HQ as (_ & x1 & _ & _ & FU).
      assert (D0 : depends A (sm_sts A s0) (sm_trk A s0) i j dl).
      { destruct (reach_setup A ord bord bord_perm d congestion cpt wl HW s0 HR) as (sts0 & E & HSU).
        destruct (step_inv A ord bord bord_perm d congestion cpt wl HW HC _ _ _ _ HSU HR HT) as (fin & act & sts1 & sts2 & stt & I & SR & I').
        destruct (setup_ok A ord bord bord_perm d wl HW _ _ HSU) as [HE HRa].
        apply (depends_iff A _ _ _ _ _ I HE). apply (depends_iff A _ _ _ _ _ I' HE). exact HD. }
      destruct (FU _ _ D0) as [(Hj & NQ & _) _]. apply NQ. apply (init_fresh s0 j H0 Hj).
  Qed.
End Run.

Section Float.
  Context (ord : Z -> list Z -> list Z) (bord : list bucket -> list bucket) (bord_perm : bucket_order bord).
  Context (d : device) (congestion : bool) (cpt : Z) (wl : workload (F f32A)).
  Context (HW : proper wl) (HC : proper_cpt cpt) (HF : Forall sound_transfer (all_transfers wl)).
  Notation reach := (reach f32A ord bord d congestion cpt wl).
  Notation visited := (visited f32A ord bord d congestion cpt wl).

  (* the bandwidth of a transfer that has started is a number *)
  Lemma started_number : forall s, visited s -> forall i x, has_started f32A s i -> nth_error (sm_sts f32A s) i = Some x -> number (s_bw x).
  Proof.
    assert (STEP : forall s s', reach s -> timestep f32A d congestion cpt wl s = Ok s' ->
      (forall i x, has_started f32A s i -> nth_error (sm_sts f32A s) i = Some x -> number (s_bw x)) ->
      forall i x, has_started f32A s' i -> nth_error (sm_sts f32A s') i = Some x -> number (s_bw x)).
    { intros s s' HR HT IH i x' HS Hx'. destruct (started_cases f32A ord bord bord_perm d congestion cpt wl HW HC s s' i HR HT HS) as [TP|FI].
      - exact (proj1 (run_rates ord bord bord_perm d congestion cpt wl HW HC HF s s' HR HT i x' TP Hx')).
      - pose proof FI as [Hi _]. destruct (nth_lt_some _ _ Hi) as [x Hx]. pose proof (finished_same f32A ord bord bord_perm d congestion cpt wl HW HC s s' i x HR HT FI Hx) as E. rewrite Hx' in E. injection E as ->.
        apply (IH i x); [right; exact FI|exact Hx]. }
    assert (R : forall s, reach s -> forall i x, has_started f32A s i -> nth_error (sm_sts f32A s) i = Some x -> number (s_bw x)).
    { intros s HR. induction HR as [s H|s s' HR IH HT HFI HM].
      - intros i x HS Hx. destruct (init_fresh f32A ord bord bord_perm d congestion cpt wl HW s i H (nth_some_lt _ _ _ Hx)) as [Q L]. exfalso. destruct HS as [HS|(_ & N & _)]; auto.
      - exact (STEP s s' HR HT IH). }
    intros s [HR|(s0 & HR & HT)]; [exact (R s HR)|exact (STEP s0 s HR HT (R s0 HR))].
  Qed.

  (* the end cycle of a finished transfer *)
  Lemma end_range s i x : visited s -> is_finished f32A s i -> nth_error (sm_sts f32A s) i = Some x ->
    exists first e, s_start x <= first <= sm_curr f32A s /\ s_end x = u32 e /\ (rnd32 (IZR first) <= IZR e)%R /\ 0 <= s_start x /\ e <= sm_curr f32A s + cpt + 8192.
  Proof.
    intros V FI Hx. destruct (finished_ended f32A ord bord bord_perm d congestion cpt wl HW HC s i x V FI Hx) as (first & c & m & b & e & E1 & E2 & E3 & E4 & E5 & E6 & E7 & E8).
    pose proof (started_number s V i x (or_intror FI) Hx) as N. apply number_nf in N.
    pose proof (visited_transfer f32A ord bord bord_perm d congestion cpt wl HW HC s i x V Hx) as Ht. destruct HW as [_ HRG]. rewrite Forall_forall in HRG. destruct (HRG _ (nth_error_In _ _ Ht)) as (T1 & T2 & _).
    destruct (start_after_dependency f32A ord bord bord_perm d congestion cpt wl (conj (proj1 HW) (proj2 HW)) HC s V i x Hx (or_intror FI)) as [S _].
    destruct (visited_facts f32A ord bord bord_perm d congestion cpt wl HW HC s V) as (_ & _ & _ & _ & _ & _ & _ & _ & K & _). pose proof HC as [C1 C2].
    change (2 ^ 32) with 4294967296 in *. 
    assert (H34 : first + c < 2 ^ 34) by (change (2 ^ 34) with 17179869184; lia). assert (B34 : b < 2 ^ 34) by (change (2 ^ 34) with 17179869184; lia).
    destruct (end32 (s_bw x) first c m b e N ltac:(lia) ltac:(lia) H34 E4 E5 B34 E7) as [L U].
    exists first, e. repeat split; try lia; try assumption.
  Qed.

  Lemma clock_range s : visited s -> sm_curr f32A s <= MAX_CYCLE_LIMIT + cpt.
  Proof.
    intros [HR|(s0 & HR & HT)]; [|rewrite (step_curr f32A d congestion cpt wl _ _ HT); revert HR; generalize s0; clear s0 HT; intros s0 HR];
      (destruct (reach_clock f32A ord bord bord_perm d congestion cpt wl HW HC _ HR) as (_ & K2 & _); lia).
  Qed.

  (** * C33 *)
  Theorem end_after_start s i x : cpt <= 2 ^ 30 -> visited s -> is_finished f32A s i -> nth_error (sm_sts f32A s) i = Some x ->
    s_start x - s_start x / 2 ^ 24 <= s_end x <= sm_curr f32A s + cpt + 8192 /\ (s_start x <= 2 ^ 24 -> s_start x <= s_end x).
  Proof.
    intros HL V FI Hx. destruct (end_range s i x V FI Hx) as (first & e & E1 & E2 & E3 & E4 & E5). pose proof (clock_range s V) as K. unfold MAX_CYCLE_LIMIT in K. change (2 ^ 30) with 1073741824 in HL.
    assert (M : (rnd32 (IZR (s_start x)) <= IZR e)%R) by (apply Rle_trans with (2 := E3); apply (rnd_le prec32 emax32 _); apply IZR_le; lia).
    assert (E0 : 0 <= e). { apply le_IZR. apply Rle_trans with (2 := M). rewrite <- (rnd_0 prec32 emax32). apply (rnd_le prec32 emax32 _). apply IZR_le. lia. }
    destruct (rnd32_low (s_start x) E4) as [L1 L2]. rewrite E2, u32_id by (change (2 ^ 32) with 4294967296; lia). split; [split|].
    - apply le_IZR. apply Rle_trans with (1 := L1). exact M.
    - assumption.
    - intros H. apply le_IZR. rewrite <- (L2 H). exact M.
  Qed.

  (** * C26 *)
  Ltac okv := match goal with |- Ok ?v = Ok ?l -> _ => let H := fresh in intros H; assert (v = l) as <- by congruence; clear H end.
  Lemma latency_range sx sy dx dy noc l : wf_device d -> write_latency d sx sy dx dy noc = Ok l -> 0 <= l <= 2 ^ 20.
  Proof.
    intros (W1 & W2 & W3 & W4 & _). change (2 ^ 15) with 32768 in W4. assert (R : 0 < Z.of_nat (dv_rows d) <= 32768 /\ 0 < Z.of_nat (dv_cols d) <= 32768) by nia. destruct R as [R1 R2].
    unfold write_latency, route_hops. cbv zeta. change (2 ^ 20) with 1048576. destruct (String.eqb noc "NOC_0").
    - destruct (modulo_range (dx - sx) (Z.of_nat (dv_cols d)) ltac:(lia)) as (a & -> & B1). destruct (modulo_range (dy - sy) (Z.of_nat (dv_rows d)) ltac:(lia)) as (b & -> & B2). cbn [bind]. okv. destruct (dv_arch d); lia.
    - destruct (String.eqb noc "NOC_1").
      + destruct (modulo_range (sx - dx) (Z.of_nat (dv_cols d)) ltac:(lia)) as (a & -> & B1). destruct (modulo_range (sy - dy) (Z.of_nat (dv_rows d)) ltac:(lia)) as (b & -> & B2). cbn [bind]. okv. destruct (dv_arch d); lia.
      + cbn [bind]. okv. destruct (dv_arch d); lia.
  Qed.
  Lemma rnd_pow k r : 0 <= k <= 24 \/ 24 <= k <= 120 -> (r <= IZR (2 ^ k))%R -> (rnd32 r <= IZR (2 ^ k))%R.
  Proof.
    intros K H. assert (E : IZR (2 ^ k) = bpow radix2 k) by (change 2 with (radix_val radix2); rewrite <- (IZR_Zpower radix2) by lia; reflexivity). rewrite E in *.
    apply Rle_trans with (rnd32 (bpow radix2 k)); [apply (rnd_le prec32 emax32 _); exact H|]. right. apply round_generic; [apply valid_rnd_N|]. apply generic_format_bpow. unfold SpecFloat.fexp, SpecFloat.emin, prec32, emax32. lia.
  Qed.
  Lemma packet_delay lat psize dl : 0 <= lat <= 2 ^ 20 -> 0 <= psize < 2 ^ 32 ->
    f_to_uint f32A 32 (f_add f32A (f_ofZ f32A lat) (f_add f32A (f_ofZ f32A 600) (f_mul f32A (f_lit f32A 1055 10000) (f_ofZ f32A psize)))) = Ok dl -> 0 <= dl <= 2 ^ 31.
  Proof.
    intros HL HP H. cbn [f32A f_add f_ofZ f_mul f_lit] in H. set (l := sf_lit prec32 emax32 1055 10000) in H.
    assert (NL : nnf prec32 emax32 l /\ (0 <= vl l <= / 8)%R).
    { assert (E : l = S754_finite false 14159970 (-27)) by reflexivity. split; [apply nnfb_ok; reflexivity|]. rewrite E. unfold vl, SF2R, F2R. cbn. lra. }
    destruct NL as [NL VL]. change (2 ^ 20) with 1048576 in HL. change (2 ^ 32) with 4294967296 in HP.
    assert (OF : forall z k, 0 <= z <= 2 ^ k -> 0 <= k <= 32 -> nnf prec32 emax32 (ofz z) /\ (0 <= vl (ofz z) <= IZR (2 ^ k))%R).
    { intros z k Hz Hk. destruct (ofz_up z) as (N & E & _); [change (2 ^ 34) with 17179869184; assert (2 ^ k <= 2 ^ 32) by (apply Z.pow_le_mono_r; lia); change (2 ^ 32) with 4294967296 in *; lia|].
      split; [exact N|]. split; [apply (nnf_lt prec32 emax32 _ N)|]. rewrite E. apply rnd_pow; [lia|]. apply IZR_le. lia. }
    destruct (OF psize 32 ltac:(change (2 ^ 32) with 4294967296; lia) ltac:(lia)) as [NP VP]. destruct (OF lat 20 ltac:(change (2 ^ 20) with 1048576; lia) ltac:(lia)) as [NA VA]. destruct (OF 600 10 ltac:(change (2 ^ 10) with 1024; lia) ltac:(lia)) as [N6 V6].
    change (2 ^ 32) with 4294967296 in VP. change (2 ^ 20) with 1048576 in VA. change (2 ^ 10) with 1024 in V6.
    assert (TOP : (4294967296 < bpow radix2 emax32)%R). { apply Rlt_trans with (bpow radix2 100); [|apply bpow_lt; reflexivity]. cbn. lra. }
    assert (FIN : forall x r k, nneg prec32 emax32 x -> cl emax32 x = Rmin (rnd32 r) (bpow radix2 emax32) -> (r <= IZR (2 ^ k))%R -> 0 <= k <= 32 -> nnf prec32 emax32 x /\ (0 <= vl x <= IZR (2 ^ k))%R).
    { intros x r k N E R1 K. assert (P := rnd_pow k r ltac:(lia) R1). assert (B : (IZR (2 ^ k) <= 4294967296)%R) by (change 4294967296%R with (IZR (2 ^ 32)); apply IZR_le; apply Z.pow_le_mono_r; lia).
      assert (N1 : nnf prec32 emax32 x) by (apply nneg_fin; [exact N|rewrite E; apply Rle_lt_trans with (1 := Rmin_l _ _); lra]).
      split; [exact N1|]. split; [apply (nnf_lt prec32 emax32 _ N1)|]. rewrite <- (nnf_cl prec32 emax32 _ N1), E. apply Rle_trans with (1 := Rmin_l _ _). exact P. }
    destruct (mul_nneg prec32 emax32 _ _ _ _ NL NP) as [NM EM]. destruct (FIN _ _ 29 NM EM) as [N1 V1]; [change (2 ^ 29) with 536870912; nra|lia|].
    destruct (add_nneg prec32 emax32 _ _ _ _ N6 N1) as [NM2 EM2]. change (2 ^ 29) with 536870912 in V1. destruct (FIN _ _ 30 NM2 EM2) as [N2 V2]; [change (2 ^ 30) with 1073741824; lra|lia|].
    destruct (add_nneg prec32 emax32 _ _ _ _ NA N2) as [NM3 EM3]. change (2 ^ 30) with 1073741824 in V2. destruct (FIN _ _ 31 NM3 EM3) as [N3 V3]; [change (2 ^ 31) with 2147483648; lra|lia|].
    destruct (to_uint_ok _ _ _ NM3 H) as [-> _]. split.
    - apply Zfloor_lub. apply V3.
    - apply le_IZR. apply Rle_trans with (1 := Zfloor_lb _). apply V3.
  Qed.
  Theorem start_no_wrap s : wf_device d -> visited s -> forall i x, nth_error (sm_sts f32A s) i = Some x -> has_started f32A s i ->
    forall j dl, depends f32A (sm_sts f32A s) (sm_trk f32A s) i j dl -> is_finished f32A s j /\
    exists y, nth_error (sm_sts f32A s) j = Some y /\ 0 <= s_end y /\ 0 <= dl /\ s_end y + dl < 2 ^ 32 /\ s_start x = Z.max (t_off (s_tr x)) (s_end y + dl).
  Proof.
    intros WF V i x Hx HS j dl HD. destruct (start_after_dependency f32A ord bord bord_perm d congestion cpt wl HW HC s V i x Hx HS) as [_ SD].
    destruct (SD j dl HD) as (FI & y & Hy & EQ). split; [exact FI|]. exists y. split; [exact Hy|].
    pose proof (dependent_cpt f32A ord bord bord_perm d congestion cpt wl HW HC s i j dl V HS HD) as CP. unfold MAX_CYCLE_LIMIT in CP.
    pose proof (clock_range s V) as K. unfold MAX_CYCLE_LIMIT in K.
    destruct (end_after_start s j y) as [[_ EU] _]; try assumption; [change (2 ^ 30) with 1073741824; lia|].
    assert (E0 : 0 <= s_end y). { destruct (end_range s j y V FI Hy) as (first & e & _ & -> & _). apply u32_range. }
    assert (DL : 0 <= dl <= 2 ^ 31).
    { destruct (depends_rule f32A ord bord bord_perm d congestion cpt wl HW HC s V i x Hx j dl HD) as [(HG & _)|(_ & _ & ->)]; [|change (2 ^ 31) with 2147483648; lia].
      destruct (group_rule f32A ord bord bord_perm d congestion cpt wl HW HC s V i x Hx HG) as (_ & j' & dl' & p & HD' & _ & HDL & _).
      destruct (depends_unique f32A ord bord bord_perm d congestion cpt wl HW HC s V _ _ _ _ _ HD HD') as [_ ->].
      destruct HDL as (c & lat & _ & HLat & H1 & H2). pose proof (latency_range _ _ _ _ _ _ WF HLat) as LR. change (2 ^ 20) with 1048576 in LR.
      assert (U : u32 lat = lat) by (apply u32_id; change (2 ^ 32) with 4294967296; lia). rewrite U in *.
      destruct (Z.eq_dec (c_dev (t_src (s_tr x))) (c_dev (t_src (s_tr p)))) as [E|E].
      - rewrite (H1 E). change (2 ^ 31) with 2147483648. lia.
      - pose proof (visited_transfer f32A ord bord bord_perm d congestion cpt wl HW HC s i x V Hx) as Ht. pose proof HW as [_ HRG]. rewrite Forall_forall in HRG. destruct (HRG _ (nth_error_In _ _ Ht)) as (_ & _ & T3 & _).
        apply (packet_delay lat (t_psize (s_tr x))); [change (2 ^ 20) with 1048576; lia|exact T3|]. apply H2. exact E. }
    change (2 ^ 31) with 2147483648 in DL. assert (SM : s_end y + dl < 2 ^ 32) by (change (2 ^ 32) with 4294967296; lia).
    split; [exact E0|]. split; [lia|]. split; [exact SM|]. rewrite u32_id in EQ by (split; [lia|exact SM]). exact EQ.
  Qed.
End Float.
