(* A workload that starts a whole number of timesteps later (C87): the timesteps of the two runs correspond. *)
From Coq Require Import ZArith Arith String List Bool Lia ZifyBool ZifyNat Sorting.Permutation Floats.SpecFloat.
From Verif Require Import Base Arith Util Device SpecDevice Workload SpecWorkload DepTracker Rates Stats Engine UtilProofs
  WorkloadProofs SpecTracker TrackerProofs DepGenProofs StepProofs SpecEngine SpecRates EngineProofs RunProofs EngineFacts EngineFacts2 EngineFacts3 EngineFacts4 EngineFacts5
  FloatProofs FloatProofs2 RateFacts RateFloat4 EngineFloat OrderProofs SpecLater LaterProofs LaterFloat.
Import ListNotations.
Local Open Scope list_scope.
Open Scope Z_scope.
Ltac Zify.zify_post_hook ::= idtac.

Lemma upd_map {X Y} (f : X -> Y) l n a : upd (map f l) n (f a) = map f (upd l n a).
Proof. revert n. induction l as [|x l IH]; intros [|n]; cbn [map upd]; f_equal; auto. Qed.
Lemma vec_get_map {X Y} (f : X -> Y) l n : vec_get (map f l) n = let! x := vec_get l n in Ok (f x).
Proof. unfold vec_get. rewrite nth_error_map. destruct (nth_error l n); reflexivity. Qed.

Section Rel.
  Context (K : Z) (HK : 0 <= K).
  Notation A := f32A.
  Notation state := (tstate (F A)).

  Definition srel (x x' : state) : Prop :=
    s_tr x' = later_transfer K (s_tr x) /\ s_req x' = s_req x /\ s_dep x' = s_dep x /\ s_route x' = s_route x /\
    s_start x' = s_start x + K /\ s_end x' = (if s_done x =? t_bytes (s_tr x) then s_end x + K else s_end x) /\ s_bw x' = s_bw x /\ s_done x' = s_done x /\
    0 < t_bytes (s_tr x) < 2 ^ 32 /\ 0 <= s_done x <= t_bytes (s_tr x) /\ 0 < s_start x.
  Definition cprel (c c' : checkpoint) : Prop :=
    cp_total c = 1 /\ cp_total c' = 1 /\ cp_completed c' = cp_completed c /\ cp_delay c' = cp_delay c /\ 0 <= cp_delay c <= 2 ^ 31 /\ 0 <= cp_end c <= 2 ^ 24 /\
    (cp_end c' = cp_end c + K \/ (cp_end c = 0 /\ cp_end c' = 0 /\ cp_completed c = 0)).
  Notation sts_rel := (Forall2 srel).
  Notation trel := (Forall2 cprel).

  Lemma bw_rel x x' b : srel x x' -> srel (with_bw x b) (with_bw x' b).
  Proof. unfold srel. cbn [with_bw s_tr s_dep s_req s_route s_start s_end s_bw s_done]. intuition. Qed.
  Lemma start_rel x x' c : srel x x' -> srel (with_start A x (Z.max (s_start x) c)) (with_start A x' (Z.max (s_start x') (c + K))).
  Proof.
    unfold srel. cbn [with_start s_tr s_dep s_req s_route s_start s_end s_bw s_done]. intros (E1 & E2 & E3 & E4 & E5 & E6 & E7 & E8 & E9 & E10 & E11). rewrite E5.
    split; [exact E1|]. split; [exact E2|]. split; [exact E3|]. split; [exact E4|]. split; [lia|]. split; [exact E6|]. split; [exact E7|]. split; [exact E8|]. split; [exact E9|]. split; [exact E10|lia].
  Qed.

  Lemma start_pos sts sts' j y : sts_rel sts sts' -> nth_error sts j = Some y -> 0 < s_start y.
  Proof. intros H Hy. apply (Forall2_nth_error _ _ _ j) in H. rewrite Hy in H. destruct (nth_error sts' j); [|contradiction]. apply H. Qed.

  (** * Rates *)
  Lemma bandwidth_later d live : forall sts sts', sts_rel sts sts' -> follows sts_rel (updateTransferBandwidth A d sts live) (updateTransferBandwidth A d sts' live).
  Proof.
    apply follows_fold. intros s s' i H _. apply (follows_bind srel); [apply follows_get; exact H|]. intros x x' _ Hx.
    apply follows_same; [destruct Hx as (-> & _); reflexivity|]. intros b _. apply follows_ok. apply Forall2_upd; [exact H|]. apply bw_rel. exact Hx.
  Qed.
  Lemma demand_later st en x x' : srel x x' -> effective_demand A (st + K) (en + K) x' = effective_demand A st en x.
  Proof.
    intros (_ & _ & _ & _ & E5 & _ & E7 & _). unfold effective_demand. rewrite E5, E7. cbv zeta. replace (en + K - Z.max (st + K) (s_start x + K)) with (en - Z.max st (s_start x)) by lia.
    replace (en + K - (st + K)) with (en - st) by lia. reflexivity.
  Qed.
  Lemma demands_later d st en sts sts' live g : sts_rel sts sts' -> follows eq (foldM (add_demand A d st en sts) live g) (foldM (add_demand A d (st + K) (en + K) sts') live g).
  Proof.
    intros H. apply follows_fold; [|reflexivity]. intros g1 g1' i <- _. unfold add_demand. apply (follows_bind srel); [apply follows_get; exact H|].
    intros x x' _ Hx. rewrite (demand_later _ _ _ _ Hx). destruct Hx as (E1 & _ & _ & E4 & _). rewrite E4. unfold add_niu_demand. rewrite E1. cbn [later_transfer t_src t_dst t_noc t_event]. intros r Hr. exists r. split; [exact Hr|reflexivity].
  Qed.
  Lemma derate_later d g live : forall sts sts', sts_rel sts sts' -> follows sts_rel (foldM (derate A d g) live sts) (foldM (derate A d g) live sts').
  Proof.
    apply follows_fold. intros s s' i H _. unfold derate. apply (follows_bind srel); [apply follows_get; exact H|]. intros x x' _ Hx. pose proof Hx as (E1 & _ & _ & E4 & _ & _ & E7 & _).
    rewrite E1, E4, E7. apply follows_same; [reflexivity|]. intros m _. apply follows_same; [reflexivity|]. intros sid _. apply follows_same; [reflexivity|]. intros sdem _.
    apply follows_same; [reflexivity|]. intros snk _. cbn [later_transfer t_rate]. destruct (_ || _); apply follows_ok; [|exact H]. apply Forall2_upd; [exact H|]. apply bw_rel. exact Hx.
  Qed.
  Definition rrel (p p' : list state * grids (F A)) : Prop := sts_rel (fst p) (fst p') /\ snd p = snd p'.
  Lemma rates_later d st en sts sts' live g c : sts_rel sts sts' ->
    follows rrel (computeCurrentTransferRate A d st en sts live g c) (computeCurrentTransferRate A d (st + K) (en + K) sts' live g c).
  Proof.
    intros H. unfold computeCurrentTransferRate. apply (follows_bind sts_rel); [apply bandwidth_later; exact H|]. intros s1 s1' _ H1. destruct c; [|apply follows_ok; split; [exact H1|reflexivity]].
    unfold modelCongestion. apply (follows_bind eq); [apply demands_later; exact H1|]. intros g1 g1' _ <-. apply (follows_bind sts_rel); [apply derate_later; exact H1|]. intros s2 s2' _ H2. apply follows_ok. split; [exact H2|reflexivity].
  Qed.

  (** * Checkpoints *)
  Lemma u32_small z : 0 <= z < 4294967296 -> u32 z = z.
  Proof. intros H. apply u32_id. change (2 ^ 32) with 4294967296. exact H. Qed.
  Lemma cp_later tk tk' k : trel tk tk' -> follows cprel (cp_at tk k) (cp_at tk' k).
  Proof. intros H c Hc. apply (Forall2_nth_error _ _ _ k) in H. unfold cp_at in *. destruct (nth_error tk k), (nth_error tk' k); try discriminate; try contradiction. injection Hc as <-. eauto. Qed.
  Lemma cp_done_later c c' cycle : K <= 2 ^ 24 -> cprel c c' -> cp_done c' (cycle + K) = cp_done c cycle.
  Proof.
    intros HKB (T1 & T2 & C & D & DB & EB & E). unfold cp_done. rewrite T1, T2, C, D. change (2 ^ 31) with 2147483648 in DB. change (2 ^ 24) with 16777216 in *.
    destruct E as [E|(E1 & E2 & E3)]; [|rewrite E3; reflexivity]. rewrite E. rewrite !u32_small by lia. f_equal. lia.
  Qed.
  Lemma done_later tk tk' dep cycle : K <= 2 ^ 24 -> trel tk tk' -> follows eq (done tk dep cycle) (done tk' dep (cycle + K)).
  Proof.
    intros HKB H. destruct dep as [k|]; cbn [done]; [|apply follows_ok; reflexivity]. apply (follows_bind cprel); [apply cp_later; exact H|]. intros c c' _ HC. apply follows_ok. symmetry. apply cp_done_later; assumption.
  Qed.
  (* the checkpoint of a transfer that is ready *)
  Lemma ready_later tk tk' k cycle : trel tk tk' -> done tk (Some k) cycle = Ok true -> exists c c', nth_error tk k = Some c /\ nth_error tk' k = Some c' /\ cprel c c' /\ cp_end c' = cp_end c + K.
  Proof.
    intros H HD. cbn [done] in HD. apply bind_ok in HD as (c & Hc & HD). injection HD as HD. destruct (cp_later _ _ _ H _ Hc) as (c' & Hc' & HR). unfold cp_at in *. destruct (nth_error tk k), (nth_error tk' k); try discriminate.
    injection Hc as ->. injection Hc' as ->. exists c, c'. repeat split; try reflexivity; try apply HR. destruct HR as (T1 & _ & _ & _ & _ & _ & [E|(_ & _ & E)]); [exact E|]. unfold cp_done in HD. rewrite T1, E in HD. discriminate.
  Qed.
  Lemma updates_later ks e tk tk' : 0 <= e <= 2 ^ 24 -> trel tk tk' ->
    follows trel (foldM (fun tk k => updateCheckpoint tk (Some k) e) ks tk) (foldM (fun tk k => updateCheckpoint tk (Some k) (e + K)) ks tk').
  Proof.
    intros He. apply follows_fold. intros t t' k H _. cbn [updateCheckpoint]. apply (follows_bind cprel); [apply cp_later; exact H|]. intros c c' _ (T1 & T2 & C & D & DB & EB & E). apply follows_ok.
    apply Forall2_upd; [exact H|]. unfold cprel. cbn [cp_total cp_completed cp_delay cp_end]. rewrite C. repeat split; try assumption; try lia.
  Qed.

  (** * Activation *)
  Definition qlater (p : qpair) : qpair := (fst p + K, snd p).
  Lemma swap_later q i j : follows (fun r r' => r' = map qlater r) (swap q i j) (swap (map qlater q) i j).
  Proof.
    unfold swap. rewrite !vec_get_map. destruct (vec_get q i) as [a| | | | | |]; cbn [bind]; try (intros ? ?; discriminate). destruct (vec_get q j) as [b| | | | | |]; cbn [bind]; try (intros ? ?; discriminate).
    apply follows_ok. rewrite upd_map, upd_map. reflexivity.
  Qed.
  Definition arel (p p' : list state * list nat * list qpair * nat) : Prop :=
    sts_rel (fst (fst (fst p))) (fst (fst (fst p'))) /\ snd (fst (fst p')) = snd (fst (fst p)) /\ snd (fst p') = map qlater (snd (fst p)) /\ snd p' = snd p.
  Lemma activate_later n curr tk tk' : K <= 2 ^ 24 -> trel tk tk' -> forall sp acts sts sts' live q, sts_rel sts sts' ->
    follows arel (activate A n curr tk sp acts sts live q) (activate A n (curr + K) tk' sp acts sts' live (map qlater q)).
  Proof.
    intros HKB HT. induction n as [|n IH]; intros sp acts sts sts' live q H; cbn [activate]; [apply follows_ok; repeat split; exact H|].
    apply (follows_bind (fun p p' => p' = qlater p)).
    { intros p Hp. rewrite vec_get_map, Hp. cbn [bind]. eauto. }
    intros p p' _ ->. cbn [qlater fst snd]. replace (fst p + K <=? curr + K) with (fst p <=? curr) by lia. destruct (_ <=? _); [|apply follows_ok; repeat split; exact H].
    apply (follows_bind srel); [apply follows_get; exact H|].
    intros x x' _ Hx. pose proof Hx as (_ & _ & E3 & _). rewrite E3. apply (follows_bind eq); [apply done_later; assumption|]. intros r r' Hr <-. destruct r; [|apply IH; exact H].
    apply (follows_bind sts_rel).
    - destruct (s_dep x) as [k|] eqn:Ek; [|apply follows_ok; exact H]. destruct (ready_later _ _ _ _ HT Hr) as (c & c' & Hc & Hc' & HR & EC). unfold end_cycle_plus_delay, cp_at. rewrite Hc, Hc'. cbn [bind]. apply follows_ok.
      apply Forall2_upd; [exact H|]. destruct HR as (_ & _ & _ & D & DB & EB & _). rewrite EC, D. change (2 ^ 31) with 2147483648 in DB. change (2 ^ 24) with 16777216 in *. rewrite !u32_small by lia.
      replace (cp_end c + K + cp_delay c) with (cp_end c + cp_delay c + K) by lia. apply start_rel. exact Hx.
    - intros s1 s1' _ H1. apply (follows_bind (fun r r' => r' = map qlater r)); [apply swap_later|]. intros q1 q1' _ ->. apply IH. exact H1.
  Qed.

  (** * One live transfer *)
  Lemma credited_later cpt curr tk tk' x x' : K <= 2 ^ 24 -> trel tk tk' -> srel x x' -> done tk (s_dep x) curr = Ok true -> 0 < cpt < 2 ^ 32 -> (curr = cpt \/ 2 * cpt <= curr) -> curr < 2 ^ 32 ->
    credited_cycles A cpt (curr + K) (curr - cpt + K) tk' x' = credited_cycles A cpt curr (curr - cpt) tk x.
  Proof.
    intros HKB HT (_ & _ & E3 & _ & E5 & _) HD HC HT1 HR. unfold credited_cycles. rewrite E3, E5. replace (curr + K - (s_start x + K)) with (curr - s_start x) by lia.
    destruct (s_dep x) as [k|]; [|reflexivity]. destruct (ready_later _ _ _ _ HT HD) as (c & c' & Hc & Hc' & HCR & EC). unfold end_cycle, cp_at. rewrite Hc, Hc'. cbn [bind]. rewrite EC.
    destruct HCR as (_ & _ & _ & _ & _ & EB & _). change (2 ^ 32) with 4294967296 in *. change (2 ^ 24) with 16777216 in *.
    assert (U : forall z, 0 <= z < 18446744073709551616 -> u64 z = z) by (intros z Hz; unfold u64; apply Z.mod_small; change (2 ^ 64) with 18446744073709551616; lia).
    assert (EQ : ((s_start x + K <? curr - cpt + K) && ((u64 (curr - cpt + K - cpt) <=? cp_end c + K) && (cp_end c + K <? curr - cpt + K))) =
                 ((s_start x <? curr - cpt) && ((u64 (curr - cpt - cpt) <=? cp_end c) && (cp_end c <? curr - cpt)))).
    { destruct HT1 as [->|L].
      - replace (cp_end c + K <? cpt - cpt + K) with false by lia. replace (cp_end c <? cpt - cpt) with false by lia. rewrite !andb_false_r. reflexivity.
      - rewrite (U (curr - cpt + K - cpt)), (U (curr - cpt - cpt)) by lia. f_equal; [lia|]. f_equal; lia. }
    cbv zeta. rewrite EQ. clear EQ. match goal with |- (if ?b then _ else _) = _ => destruct b end; [|reflexivity]. replace (curr + K - Z.max (s_start x + K) (cp_end c + K)) with (curr - Z.max (s_start x) (cp_end c)) by lia. reflexivity.
  Qed.
  Definition lrel (p p' : list state * tracker * stats A) : Prop := sts_rel (fst (fst p)) (fst (fst p')) /\ trel (snd (fst p)) (snd (fst p')) /\ strel A K (snd p) (snd p').
  (* what holds of the live transfers of the first run *)
  Definition running (curr : Z) (live : list nat) (sts : list state) : Prop :=
    forall i x, In i live -> nth_error sts i = Some x -> number (s_bw x) /\ s_start x <= curr.
  Lemma running_upd curr live sts i x y : running curr live sts -> nth_error sts i = Some x -> s_bw y = s_bw x -> s_start y = s_start x -> running curr live (upd sts i y).
  Proof.
    intros H Hx E1 E2 j z Hj Hz. rewrite upd_nth in Hz. destruct (Nat.eqb_spec i j) as [->|]; [|apply (H j z Hj Hz)]. rewrite Hx in Hz. injection Hz as <-. rewrite E1, E2. apply (H j x Hj Hx).
  Qed.
  Lemma live_later (wl : workload (F A)) cpt curr live : 0 < cpt < 2 ^ 32 -> (curr = cpt \/ 2 * cpt <= curr) -> curr + cpt + 8192 + K < 2 ^ 24 ->
    forall p p', lrel p p' /\ running curr live (fst (fst p)) ->
    follows (fun p p' => lrel p p' /\ running curr live (fst (fst p))) (foldM (live_step A wl cpt curr (curr - cpt)) live p) (foldM (live_step A (later_workload K wl) cpt (curr + K) (curr - cpt + K)) live p').
  Proof.
    intros HC HT1 HB. assert (HKB : K <= 2 ^ 24) by (destruct HT1; lia). apply follows_fold. intros [[sts tk] stt] [[sts' tk'] stt'] i [(H & HT & HS) HRUN] Hi. cbn [fst snd] in *. unfold live_step.
    apply (follows_bind srel); [apply follows_get; exact H|]. intros x x' Hx HX. apply vec_get_ok in Hx. pose proof HX as (E1 & E2 & E3 & E4 & E5 & E6 & E7 & E8 & E9 & E10 & E11). destruct (HRUN i x Hi Hx) as [NB SB]. apply number_nf in NB.
    rewrite E1, E3, E8, E7. cbn [later_transfer t_bytes t_off t_src]. apply (follows_bind eq); [apply done_later; assumption|]. intros dn dn' HD <-. apply follows_same; [reflexivity|]. intros u Hu. destruct dn; [|discriminate].
    change (2 ^ 32) with 4294967296 in *. change (2 ^ 24) with 16777216 in *.
    rewrite (credited_later cpt curr tk tk' x x') by (try assumption; change (2 ^ 32) with 4294967296; change (2 ^ 24) with 16777216; lia).
    apply follows_same; [reflexivity|]. intros c Hc. apply follows_same; [reflexivity|]. intros m Hm. cbn [with_done with_end s_tr s_done s_start s_end s_req s_bw]. rewrite E1, E5, ?E7, E2. cbn [later_transfer t_bytes t_off t_src].
    assert (M0 : 0 <= m). { unfold f_to_uint in Hm. destruct (f_trunc A _); [|discriminate]. destruct (_ && _) eqn:EB; [|discriminate]. injection Hm as <-. lia. }
    assert (U : forall z, 0 <= z < 4294967296 -> u64 z = z) by (intros z Hz; unfold u64; apply Z.mod_small; change (2 ^ 64) with 18446744073709551616; lia).
    rewrite !(U (t_bytes (s_tr x) - s_done x)) by lia. set (b := Z.min (t_bytes (s_tr x) - s_done x) m) in *. rewrite !(U (s_done x + b)) by lia.
    destruct (Z.eqb_spec (t_bytes (s_tr x)) (s_done x + b)) as [EF|EF].
    - assert (CB : 0 <= c /\ Z.max (s_start x) (curr - cpt) + c <= curr + cpt).
      { destruct (credited_bounds A cpt curr tk x) as (c1 & Hc1 & Hr & HCs); try (change (2 ^ 32) with 4294967296; lia).
        { intros k Hk. rewrite Hk in HD. destruct (ready_later _ _ _ _ HT HD) as (cp & cp' & Hcp & _ & HCR & _). exists cp. split; [exact Hcp|]. destruct HCR as (_ & _ & _ & _ & _ & EB & _). change (2 ^ 32) with 4294967296. change (2 ^ 24) with 16777216 in EB. lia. }
        rewrite Hc in Hc1. injection Hc1 as <-. split; [lia|]. destruct HCs as [L|(k & cp & _ & _ & B1 & B2 & B3 & ->)]; lia. }
      destruct CB as [C0 CB].
      apply (follows_bind (fun e e' => e' = e + K /\ Z.max (s_start x) (curr - cpt) <= e <= curr + cpt + 8192)).
      { intros e He. replace (Z.max (s_start x + K) (curr - cpt + K)) with (Z.max (s_start x) (curr - cpt) + K) by lia.
        destruct (later_end32 (s_bw x) (Z.max (s_start x) (curr - cpt)) c m b e K NB ltac:(lia) C0 HK ltac:(change (2 ^ 24) with 16777216; lia) Hm ltac:(lia) ltac:(change (2 ^ 34) with 17179869184; lia) He) as [G1 G2].
        exists (e + K). split; [exact G1|]. lia. }
      intros e e' _ [-> EB]. rewrite !u32_small by lia.
      apply (follows_bind trel); [apply updates_later; [change (2 ^ 24) with 16777216; lia|exact HT]|]. intros tk1 tk1' _ HT1'.
      apply (follows_bind (fun g g' => g' = later_window K g)).
      { intros g Hg. rewrite golden_later. exists (later_window K g). rewrite Hg. auto. }
      intros g g' _ ->. apply (follows_bind (fun g g' => g' = later_window K g)).
      { intros gm Hg. rewrite golden_later. exists (later_window K gm). rewrite Hg. auto. }
      intros gm gm' _ ->. apply follows_ok. split.
      + split; [|split; [exact HT1'|]]; cbn [fst snd].
        * apply Forall2_upd; [exact H|]. unfold srel. cbn [with_done with_end s_tr s_req s_dep s_route s_start s_end s_bw s_done]. change (2 ^ 32) with 4294967296. replace (s_done x + b =? t_bytes (s_tr x)) with true by lia. repeat split; try assumption; try lia.
        * apply worst_later; [exact HK|change (2 ^ 24) with 16777216; lia|]. apply worst_later; [exact HK|change (2 ^ 24) with 16777216; lia|]. exact HS.
      + cbn [fst snd]. eapply running_upd; [exact HRUN|exact Hx|reflexivity|reflexivity].
    - apply follows_ok. split.
      + split; [|split; [exact HT|exact HS]]. cbn [fst snd]. apply Forall2_upd; [exact H|]. unfold srel. cbn [with_done with_end s_tr s_req s_dep s_route s_start s_end s_bw s_done]. change (2 ^ 32) with 4294967296.
        replace (s_done x + b =? t_bytes (s_tr x)) with false by lia. assert (EE : s_end x' = s_end x) by (rewrite E6; replace (s_done x =? t_bytes (s_tr x)) with false by lia; reflexivity).
        repeat split; try assumption; try lia.
      + cbn [fst snd]. eapply running_upd; [exact HRUN|exact Hx|reflexivity|reflexivity].
  Qed.

  (** * One timestep *)
  Definition simrel (s s' : sim A) : Prop :=
    sm_curr A s' = sm_curr A s + K /\ sts_rel (sm_sts A s) (sm_sts A s') /\ sm_queue A s' = map qlater (sm_queue A s) /\ sm_live A s' = sm_live A s /\
    trel (sm_trk A s) (sm_trk A s') /\ sm_grids A s' = sm_grids A s /\ strel A K (sm_stats A s) (sm_stats A s').
  Lemma complete_later sts sts' i : sts_rel sts sts' -> complete A sts' i = complete A sts i.
  Proof.
    intros H. apply (Forall2_nth_error _ _ _ i) in H. unfold complete. destruct (nth_error sts i) as [x|], (nth_error sts' i) as [x'|]; try contradiction; [|reflexivity]. destruct H as (-> & _ & _ & _ & _ & _ & _ & -> & _). reflexivity.
  Qed.

  Context (ord : Z -> list Z -> list Z) (bord : list bucket -> list bucket) (bord_perm : bucket_order bord).
  Context (d : device) (congestion : bool) (cpt : Z) (wl : workload (F A)).
  Context (HW : proper wl) (HC : proper_cpt cpt) (HF : Forall sound_transfer (all_transfers wl)).
  Notation reach := (reach A ord bord d congestion cpt wl).
  Notation wl' := (later_workload K wl).

  Lemma step_later s s' : reach s -> simrel s s' -> sm_curr A s + cpt + 8192 + K < 2 ^ 24 -> follows simrel (timestep A d congestion cpt wl s) (timestep A d congestion cpt wl' s').
  Proof.
    intros HR (E1 & H & E3 & E4 & HT & E6 & HS) HB. destruct (reach_clock A ord bord bord_perm d congestion cpt wl HW HC s HR) as (K1 & K2 & K3). pose proof HC as [HC1 HC2].
    pose proof (reach_time A ord bord bord_perm d congestion cpt wl HW HC s HR) as (kk & T1 & T2 & _).
    assert (HT1 : sm_curr A s = cpt \/ 2 * cpt <= sm_curr A s) by (assert (kk = 1 \/ 2 <= kk) as [->|] by lia; [left; lia|right; nia]). clear T1 T2.
    change (2 ^ 32) with 4294967296 in *. change (2 ^ 24) with 16777216 in *.
    assert (HKB : K <= 2 ^ 24) by (change (2 ^ 24) with 16777216; lia).
    unfold timestep. rewrite E1, E3, E4, E6, map_length. replace (u32 (sm_curr A s + K - cpt)) with (sm_curr A s - cpt + K) by (rewrite u32_small; lia). rewrite K1.
    apply (follows_bind (strel A K)); [apply insert_later; exact HS|]. intros stt stt' _ HS1.
    apply (follows_bind arel); [apply activate_later; assumption|]. intros [[[sts live] q] acts] [[[sts' live'] q'] acts'] HACT (H1 & EL & EQ & EA). cbn [fst snd] in *. subst live' q' acts'.
    apply (follows_bind rrel); [apply rates_later; assumption|]. intros [sts1 g] [sts1' g'] HRT [H2 EG]. cbn [fst snd] in *. subst g'.
    assert (RUN : running (sm_curr A s) live sts1).
    { destruct (reach_setup A ord bord bord_perm d congestion cpt wl HW s HR) as (sts0 & E & HSU). destruct (setup_ok A ord bord bord_perm d wl HW _ _ HSU) as [HE HRa].
      destruct (reach_inv A ord bord bord_perm d congestion cpt wl HW HC _ _ _ HSU HR) as [fin I].
      rewrite <- K1 in HRT. destruct (middle A sts0 E d congestion cpt s fin sts live q acts sts1 g I ltac:(lia) HACT HRT) as (ND & HDF & HPAR & HAS & HTK & HST).
      destruct (rates_frame _ _ _ _ _ _ _ _ _ _ HRT) as [L2 N2].
      assert (HTR : forall i x, nth_error sts1 i = Some x -> nth_error (all_transfers wl) i = Some (s_tr x)).
      { intros i x Hx. destruct HAS as [_ HAS]. destruct (HAS _ _ Hx) as (x0 & Hx0 & EX & _). rewrite EX. destruct HSU as [HSU _]. destruct (init_states A ord d wl HW _ HSU) as (_ & _ & G). apply (G _ _ Hx0). }
      intros i x Hi Hx. split; [|apply (HST _ _ Hi Hx)]. rewrite K1 in HRT. refine (proj1 (rates_bounded d _ _ sts live _ _ sts1 g _ _ HRT i x Hi Hx)); [split; change (2 ^ 32) with 4294967296; lia|].
      split; [exact ND|]. intros j y Hj Hy. destruct (N2 _ _ Hy) as (b & Hb & _). pose proof (HTR _ _ Hb) as Ht. cbn [with_bw s_tr] in Ht. destruct (HST _ _ Hj Hb) as [_ Hle]. cbn [with_bw s_start] in Hle.
      split; [rewrite Forall_forall in HF; apply HF; eapply nth_error_In; exact Ht|]. split; [|exact Hle].
      apply Z.lt_le_incl. exact (start_pos _ _ _ _ H1 Hy). }
    apply (follows_bind (fun p p' => lrel p p' /\ running (sm_curr A s) live (fst (fst p)))).
    { apply live_later; [change (2 ^ 32) with 4294967296; lia|exact HT1|change (2 ^ 24) with 16777216; lia|]. split; [|exact RUN]. split; [exact H2|]. split; [exact HT|]. apply update_later. exact HS1. }
    intros [[sts2 tk] st2] [[sts2' tk'] st2'] _ [(H3 & HT3 & HS3) _]. cbn [fst snd] in *. apply follows_ok.
    unfold simrel. cbn [sm_curr sm_sts sm_queue sm_live sm_trk sm_grids sm_stats]. rewrite map_length, firstn_map'.
    split; [reflexivity|]. split; [exact H3|]. split; [reflexivity|]. split; [|split; [exact HT3|split; [reflexivity|exact HS3]]]. apply filter_ext. intros i. rewrite (complete_later _ _ i H3). reflexivity.
  Qed.
End Rel.
