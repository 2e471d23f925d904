(* Facts on the recorded timesteps (C41). *)
From Coq Require Import ZArith Arith String List Bool Lia ZifyBool ZifyNat.
From Verif Require Import Base Arith Util Device Workload SpecWorkload DepTracker Rates Stats Engine UtilProofs WorkloadProofs SpecTracker TrackerProofs DepGenProofs SpecEngine SpecStats
  StepProofs EngineProofs RunProofs DepFacts EngineFacts EngineFacts2 EngineFacts3 EngineFacts4.
Import ListNotations.
Open Scope Z_scope.
Ltac Zify.zify_post_hook ::= idtac.

Section S.
  Context (A : arith).
  Notation state := (tstate (F A)).
  Definition iv (stt : stats A) (id : Z) : option (list (Z * Z)) := option_map intervals (stats_get A stt id).

  Lemma iv_map f g stt stt' : stats_map A f stt = Ok stt' ->
    (forall k ds ds', f k ds = Ok ds' -> intervals ds' = g k (intervals ds)) -> forall k, iv stt' k = option_map (g k) (iv stt k).
  Proof.
    unfold stats_map, iv. revert stt'. induction stt as [|[j ds] stt IH]; intros stt' H HF k; cbn [mapM] in H; [injection H as <-; reflexivity|].
    apply bind_ok in H as ([j' ds1] & H1 & H). apply bind_ok in H as (r & H2 & H). injection H as <-. cbn [fst snd] in H1.
    apply bind_ok in H1 as (ds2 & H1 & H3). injection H3 as <- <-. cbn [stats_get]. destruct (Z.eqb_spec j k) as [->|]; [cbn; f_equal; apply HF; assumption|apply IH; assumption].
  Qed.
  Lemma insert_iv {Fl} (wl : workload Fl) s e stt stt' : insertTimestep A wl s e stt = Ok stt' -> forall id g, getGoldenResultCycles wl id = Ok g ->
    iv stt' id = option_map (fun l => if fst g <=? e then l ++ [(s, e)] else l) (iv stt id).
  Proof.
    intros H id g Hg.
    rewrite (iv_map _ (fun k l => match getGoldenResultCycles wl k with Ok g => if fst g <=? e then l ++ [(s, e)] else l | _ => l end) _ _ H).
    - rewrite Hg. reflexivity.
    - intros k ds ds' HH. apply bind_ok in HH as (g' & Hg' & HH). rewrite Hg'. injection HH as <-. destruct (fst g' <=? e); [|reflexivity].
      unfold intervals. cbn [ds_ts with_ts]. rewrite map_app. reflexivity.
  Qed.
  Lemma link_acc_iv id m t x : (ts_start A (link_acc A id m t x), ts_end A (link_acc A id m t x)) = (ts_start A t, ts_end A t).
  Proof. destruct x as [a [? ?]]. cbn. destruct (on_device _ _); reflexivity. Qed.
  Lemma niu_acc_iv id t x : (ts_start A (niu_acc A id t x), ts_end A (niu_acc A id t x)) = (ts_start A t, ts_end A t).
  Proof. destruct x as [a ?]. cbn. destruct (on_device _ _); reflexivity. Qed.
  Lemma fold_iv {X} (f : tstats A -> X -> tstats A) : (forall t x, (ts_start A (f t x), ts_end A (f t x)) = (ts_start A t, ts_end A t)) ->
    forall l t, (ts_start A (fold_left f l t), ts_end A (fold_left f l t)) = (ts_start A t, ts_end A t).
  Proof. intros H. induction l as [|x l IH]; intros t; cbn [fold_left]; [reflexivity|]. rewrite IH. apply H. Qed.
  Lemma device_timestep_iv d g live id t : (ts_start A (device_timestep A d g live id t), ts_end A (device_timestep A d g live id t)) = (ts_start A t, ts_end A t).
  Proof.
    unfold device_timestep. cbn [ts_start ts_end]. rewrite (fold_iv _ (niu_acc_iv id)). cbn [ts_start ts_end]. apply fold_iv. apply link_acc_iv.
  Qed.
  Lemma update_iv d g live stt id : iv (updateSimulationStats A d g live stt) id = iv stt id.
  Proof.
    unfold updateSimulationStats, iv. induction stt as [|[j ds] stt IH]; cbn [map stats_get]; [reflexivity|]. cbn [fst snd].
    destruct (rev (ds_ts A ds)) as [|t before] eqn:ER; cbn [stats_get]; destruct (j =? id); try exact IH; [reflexivity|].
    cbn [option_map]. f_equal. unfold intervals. cbn [ds_ts with_ts]. rewrite map_app. cbn [map].
    rewrite (device_timestep_iv d g live j t).
    rewrite <- (rev_involutive (ds_ts A ds)), ER. cbn [rev]. rewrite map_app. reflexivity.
  Qed.
  Lemma worst_iv id off e g stt k l : iv stt k = Some l -> iv (updateWorstCase A id off e g stt) k = Some l.
  Proof.
    unfold updateWorstCase. destruct (_ && _); [|trivial]. unfold iv. rewrite stats_get_mod. destruct (Z.eqb_spec k id) as [->|]; [|trivial].
    destruct (stats_get A stt id); [|discriminate]. cbn. trivial.
  Qed.
  Lemma note_iv (wl : workload (F A)) x stt stt' k l : note A wl x stt = Ok stt' -> iv stt k = Some l -> iv stt' k = Some l.
  Proof.
    unfold note. intros H HI. apply bind_ok in H as (g & _ & H). apply bind_ok in H as (gm & _ & H). injection H as <-. apply worst_iv, worst_iv, HI.
  Qed.
  Lemma note_all_iv (wl : workload (F A)) sts ids stt stt' k l : note_all A wl sts ids stt = Ok stt' -> iv stt k = Some l -> iv stt' k = Some l.
  Proof.
    unfold note_all. revert stt. induction ids as [|i ids IH]; intros stt H HI; cbn [foldM] in H; [injection H as <-; exact HI|].
    apply bind_ok in H as (st1 & H1 & H). apply (IH _ H). apply bind_ok in H1 as (x & _ & H1). eapply note_iv; eassumption.
  Qed.
End S.

Lemma tiles_app cpt n : forall c, tiles cpt c (S n) = tiles cpt c n ++ [(c + Z.of_nat n * cpt, c + Z.of_nat n * cpt + cpt)].
Proof.
  induction n as [|n IH]; intros c; [cbn; do 2 f_equal; f_equal; lia|]. change (tiles cpt c (S (S n))) with ((c, c + cpt) :: tiles cpt (c + cpt) (S n)).
  rewrite IH. cbn [tiles app]. do 3 f_equal. f_equal; lia.
Qed.
Lemma tiles_firstn cpt n m : forall c, firstn m (tiles cpt c n) = tiles cpt c (Nat.min m n).
Proof. revert m. induction n as [|n IH]; intros [|m] c; cbn; try reflexivity. f_equal. apply IH. Qed.
Lemma tiles_in cpt n : forall c i, In i (tiles cpt c n) -> exists m, 0 <= m < Z.of_nat n /\ i = (c + m * cpt, c + m * cpt + cpt).
Proof.
  induction n as [|n IH]; intros c i H; [destruct H|]. destruct H as [<-|H]; [exists 0; split; [lia|f_equal; lia]|].
  apply IH in H as (m & Hm & ->). exists (m + 1). split; [lia|f_equal; lia].
Qed.
Lemma tiles_length cpt n : forall c, List.length (tiles cpt c n) = n.
Proof. induction n as [|n IH]; intros c; cbn; [reflexivity|f_equal; apply IH]. Qed.

Section R.
  Context (A : arith) (ord : Z -> list Z -> list Z) (bord : list bucket -> list bucket) (bord_perm : bucket_order bord).
  Context (d : device) (congestion : bool) (cpt : Z) (wl : workload (F A)).
  Context (HW : proper wl) (HC : proper_cpt cpt).
  Notation reach := (reach A ord bord d congestion cpt wl).
  Notation begins := (begins A ord bord d congestion cpt wl).
  Notation step_end := (step_end A ord bord d congestion cpt wl).

  Definition recorded (gs curr : Z) (l : list (Z * Z)) : Prop :=
    exists k n, 0 <= k /\ l = tiles cpt (k * cpt) n /\ (k + Z.of_nat n) * cpt = curr /\ (k = 0 \/ k * cpt < gs) /\
      ((0 < n)%nat -> gs <= (k + 1) * cpt) /\ (n = 0%nat -> curr < gs \/ curr = 0).
  Lemma recorded_next gs curr l : 0 <= curr -> recorded gs curr l ->
    recorded gs (curr + cpt) (if gs <=? curr + cpt then l ++ [(curr, curr + cpt)] else l).
  Proof.
    pose proof HC as [HC1 HC2]. intros H0 (k & n & Hk & -> & HE & H1 & H2 & H3). destruct (Z.leb_spec gs (curr + cpt)) as [L|L].
    - exists k, (S n). split; [assumption|]. split.
      { rewrite tiles_app. do 2 f_equal. f_equal; nia. }
      split; [nia|]. split; [assumption|]. split; [|discriminate]. intros _. destruct n as [|n]; [|apply H2; lia]. nia.
    - destruct n as [|n]; [|exfalso; assert (gs <= (k + 1) * cpt) by (apply H2; lia); nia].
      exists (k + 1), 0%nat. split; [lia|]. split; [reflexivity|]. split; [nia|]. split; [nia|]. split; [intros X; inversion X|]. intros _. lia.
  Qed.

  Lemma recorded_step s s' id g l : reach s -> timestep A d congestion cpt wl s = Ok s' -> getGoldenResultCycles wl id = Ok g ->
    iv A (sm_stats A s) id = Some l -> recorded (fst g) (sm_curr A s - cpt) l ->
    exists l', iv A (sm_stats A s') id = Some l' /\ recorded (fst g) (sm_curr A s') l' /\ sm_curr A s' = sm_curr A s.
  Proof.
    intros HR HT Hg HI HREC. destruct (reach_setup A ord bord bord_perm d congestion cpt wl HW s HR) as (sts0 & E & HS).
    destruct (step_inv A ord bord bord_perm d congestion cpt wl HW HC _ _ _ _ HS HR HT) as (fin & act & sts1 & sts2 & stt & _ & SR & _).
    destruct (sr_stats0 _ _ _ _ _ _ _ _ _ _ _ SR) as (stt1 & S1 & S2). pose proof (sr_stats _ _ _ _ _ _ _ _ _ _ _ SR) as S3.
    destruct (reach_clock A ord bord bord_perm d congestion cpt wl HW HC _ HR) as (K1 & K2 & K3).
    pose proof (insert_iv A wl _ _ _ _ S1 id g Hg) as I1. rewrite HI in I1. cbn [option_map] in I1.
    rewrite K1 in I1. rewrite <- (update_iv A d (sm_grids A s') (sm_live A s ++ act)) in I1. rewrite <- S2 in I1.
    apply (note_all_iv A wl _ _ _ _ _ _ S3) in I1. eexists. split; [exact I1|]. rewrite (sr_curr _ _ _ _ _ _ _ _ _ _ _ SR). split; [|reflexivity].
    pose proof (recorded_next (fst g) (sm_curr A s - cpt) l ltac:(lia) HREC) as Q. replace (sm_curr A s - cpt + cpt) with (sm_curr A s) in Q by lia. exact Q.
  Qed.
  Lemma init_iv s id : sim_init A ord bord d cpt wl = Ok s -> has_stats d id -> iv A (sm_stats A s) id = Some [].
  Proof.
    intros H HI. destruct (sim_init_eq A ord bord bord_perm d cpt wl HW _ H) as (sts0 & E & _ & ->). cbn [sm_stats]. unfold iv, stats_make.
    assert (G : stats_get A (map (fun id => (id, empty_ds A)) (dv_device_ids d) ++ [(MESH_DEVICE, empty_ds A)]) id = Some (empty_ds A)).
    { destruct HI as [HI| ->].
      - induction (dv_device_ids d) as [|j l IH]; [destruct HI|]. cbn [map app stats_get]. destruct (Z.eqb_spec j id); [reflexivity|]. destruct HI; [congruence|]. apply IH; assumption.
      - induction (dv_device_ids d) as [|j l IH]; cbn [map app stats_get]; [rewrite Z.eqb_refl; reflexivity|]. destruct (j =? MESH_DEVICE); [reflexivity|exact IH]. }
    rewrite G. reflexivity.
  Qed.
  Lemma recorded_reach s id g : has_stats d id -> getGoldenResultCycles wl id = Ok g -> reach s ->
    exists l, iv A (sm_stats A s) id = Some l /\ recorded (fst g) (sm_curr A s - cpt) l.
  Proof.
    intros HI Hg HR. induction HR as [s H|s s' HR (l & IHl & IHr) HT HF HM].
    - exists []. split; [apply init_iv; assumption|]. destruct (sim_init_eq A ord bord bord_perm d cpt wl HW _ H) as (sts0 & E & _ & ->). cbn [sm_curr].
      exists 0, 0%nat. cbn. repeat (split; [lia || reflexivity|]). intros _. right. lia.
    - destruct (recorded_step _ _ _ _ _ HR HT Hg IHl IHr) as (l' & I' & R' & EC). exists l'. split; [exact I'|]. cbn [advance sm_curr].
      pose proof (reach_time A ord bord bord_perm d congestion cpt wl HW HC s HR) as T. rewrite EC in *. destruct (time_next ord cpt HC _ T HM) as [-> _].
      replace (sm_curr A s + cpt - cpt) with (sm_curr A s) by lia. exact R'.
  Qed.

  Lemma reach_begins s : reach s -> exists n, begins n s.
  Proof. induction 1 as [s H|s s' HR (n & IH) HT HF HM]; [exists 1%nat; apply begins_first; assumption|exists (S n); eapply begins_next; eassumption]. Qed.
  Lemma begins_before n s : begins n s -> forall m, (1 <= m <= n)%nat -> exists s0, begins m s0.
  Proof.
    induction 1 as [s H|n s s' HB IH HT HF HM]; intros m Hm; [assert (m = 1%nat) as -> by lia; exists s; apply begins_first; assumption|].
    destruct (Nat.eq_dec m (S n)) as [->|]; [eexists; eapply begins_next; eassumption|apply IH; lia].
  Qed.
  Lemma all_simulated s s' : reach s -> timestep A d congestion cpt wl s = Ok s' ->
    forall m, 0 <= m -> (m + 1) * cpt <= sm_curr A s' -> simulated A ord bord d congestion cpt wl (m * cpt, m * cpt + cpt).
  Proof.
    intros HR HT m Hm HL. destruct (reach_begins _ HR) as (n & HB). pose proof HC as [HC1 HC2].
    destruct (begins_time A ord bord bord_perm d congestion cpt wl HW HC _ _ HB) as (T1 & _). rewrite (step_curr A d congestion cpt wl _ _ HT), T1 in HL.
    destruct (begins_before _ _ HB (Z.to_nat (m + 1)) ltac:(nia)) as (s0 & HB0).
    destruct (begins_time A ord bord bord_perm d congestion cpt wl HW HC _ _ HB0) as (T2 & _). exists (Z.to_nat (m + 1)), s0. split; [exact HB0|].
    rewrite T2, Z2Nat.id by lia. f_equal; lia.
  Qed.

  (* the timesteps recorded by the end of a timestep *)
  Theorem timesteps_recorded s id ds g : step_end s -> has_stats d id -> stats_get A (sm_stats A s) id = Some ds -> getGoldenResultCycles wl id = Ok g ->
    (sm_curr A s < fst g /\ intervals ds = []) \/
    exists c n, first_from cpt (fst g) c /\ intervals ds = tiles cpt c n /\ c + Z.of_nat n * cpt = sm_curr A s /\
      Forall (simulated A ord bord d congestion cpt wl) (intervals ds).
  Proof.
    intros (s0 & HR & HT) HI HS Hg. pose proof HC as [HC1 HC2]. destruct (recorded_reach _ _ _ HI Hg HR) as (l & Hl & HREC).
    destruct (recorded_step _ _ _ _ _ HR HT Hg Hl HREC) as (l' & Hl' & (k & n & Hk & EL & HE & H1 & H2 & H3) & EC).
    unfold iv in Hl'. rewrite HS in Hl'. injection Hl' as Hl'. rewrite Hl'.
    destruct (reach_clock A ord bord bord_perm d congestion cpt wl HW HC _ HR) as (K1 & K2 & K3).
    destruct n as [|n]; [left; split; [destruct (H3 eq_refl); lia|assumption]|]. right. exists (k * cpt), (S n).
    split; [split; [exists k; auto|]; split; [assert (fst g <= (k + 1) * cpt) by (apply H2; lia); lia|nia]|]. split; [assumption|]. split; [nia|].
    rewrite EL. apply Forall_forall. intros i Hi. apply tiles_in in Hi as (m & Hm & ->). replace (k * cpt + m * cpt) with ((k + m) * cpt) by lia.
    apply (all_simulated _ _ HR HT); [lia|]. nia.
  Qed.
End R.

Section F.
  Context (A : arith) (ord : Z -> list Z -> list Z) (bord : list bucket -> list bucket) (bord_perm : bucket_order bord).
  Context (d : device) (cpt : Z) (wl : workload (F A)).
  Context (HW : proper wl) (HC : proper_cpt cpt).
  Lemma finish_ts stt stt' : finishSimulation A wl cpt stt = Ok stt' -> forall id ds', stats_get A stt' id = Some ds' ->
    exists ds g, stats_get A stt id = Some ds /\ getGoldenResultCycles wl id = Ok g /\
      ((ds_worst A ds <= fst g /\ ds_est A ds' = 0 /\ ds_ts A ds' = []) \/
       (fst g < ds_worst A ds /\ ds_est A ds' = u64 (ds_worst A ds - fst g) /\
        ds_ts A ds' = resize (Z.to_nat (u64 (u64 (u64 (u64 (ds_worst A ds + cpt) - 1) / cpt - fst g / cpt) + 1))) (fresh_ts A 0 0) (ds_ts A ds))).
  Proof.
    unfold finishSimulation, stats_map. revert stt'. induction stt as [|[j ds] stt IH]; intros stt' H id ds' HG; cbn [mapM] in H; [injection H as <-; discriminate|].
    apply bind_ok in H as ([j' ds1] & H1 & H). apply bind_ok in H as (r & H2 & H). injection H as <-. cbn [fst snd] in H1.
    apply bind_ok in H1 as (ds2 & H1 & H3). injection H3 as <- <-. cbn [stats_get] in HG |- *. destruct (Z.eqb_spec j id) as [->|N]; [|apply (IH _ H2 _ _ HG)].
    injection HG as <-. unfold finish_device in H1. apply bind_ok in H1 as (g & Hg & H1). exists ds, g. split; [reflexivity|]. split; [assumption|].
    cbv zeta in H1. destruct (Z.leb_spec (ds_worst A ds) (fst g)); [injection H1 as <-; left; auto|]. destruct (cpt =? 0); [discriminate|]. injection H1 as <-. right. auto.
  Qed.

  (* the timesteps of the result *)
  Theorem timesteps_final model stt : runSinglePerfSim A ord bord d model cpt wl = Ok (Stats stt) ->
    exists s, succeeds A ord bord d (negb (String.eqb model "none")) cpt wl s /\
      forall id ds g, has_stats d id -> stats_get A stt id = Some ds -> getGoldenResultCycles wl id = Ok g -> 0 <= fst g ->
        (ds_est A ds = 0 /\ intervals ds = []) \/
        exists c kept dummies, intervals ds = tiles cpt c kept ++ repeat (0, 0) dummies /\
          Forall (simulated A ord bord d (negb (String.eqb model "none")) cpt wl) (tiles cpt c kept) /\
          ((0 < kept)%nat -> first_from cpt (fst g) c) /\
          Z.of_nat (kept + dummies) = (fst g + ds_est A ds + cpt - 1) / cpt - fst g / cpt + 1 /\
          ((0 < dummies)%nat -> sm_curr A s < fst g \/ c + Z.of_nat kept * cpt = sm_curr A s).
  Proof.
    unfold runSinglePerfSim. intros H. apply bind_ok in H as (r & Hr & H). destruct r as [s|e]; [|discriminate].
    apply bind_ok in H as (stt1 & H1 & H). apply bind_ok in H as (stt2 & H2 & H). injection H as <-. exists s. split; [exact Hr|].
    intros id ds g HI Hds Hg P. destruct (summary_get A d wl _ _ H2 _ _ Hds) as (ds1 & G1 & EQ & _ & _ & ET).
    destruct (finish_ts _ _ H1 _ _ G1) as (ds0 & g' & G0 & Hg' & [(W & EE & ETS)|(W & EE & ETS)]); rewrite Hg in Hg'; injection Hg' as <-.
    { left. split; [congruence|]. unfold intervals. rewrite ET, ETS. reflexivity. }
    right. destruct (worst_end A ord bord bord_perm d _ cpt wl HW HC s Hr) as [WO WE]. specialize (WO id). rewrite G0 in WO.
    destruct (worst_estimate A ord wl (sm_sts A s) id g Hg P WE) as [WR _]. rewrite <- WO in WR.
    destruct (succeeds_end A ord bord d _ cpt wl s Hr) as [HE _]. pose proof HC as [HC1 HC2].
    set (w := ds_worst A ds0) in *. clearbody w. change (2 ^ 32) with 4294967296 in *.
    assert (U1 : u64 (u64 (w + cpt) - 1) = w + cpt - 1) by (rewrite (u64_id (w + cpt)), u64_id; change (2 ^ 64) with 18446744073709551616; lia).
    assert (U2 : fst g / cpt <= (w + cpt - 1) / cpt) by (apply Z.div_le_mono; lia).
    assert (U3 : 0 <= fst g / cpt) by (apply Z.div_pos; lia).
    assert (U4 : (w + cpt - 1) / cpt <= w + cpt - 1) by (apply Z.div_le_upper_bound; nia).
    rewrite U1 in ETS. rewrite (u64_id ((w + cpt - 1) / cpt - fst g / cpt)), u64_id in ETS by (change (2 ^ 64) with 18446744073709551616; lia).
    rewrite u64_id in EE by (change (2 ^ 64) with 18446744073709551616; lia).
    set (N := (w + cpt - 1) / cpt - fst g / cpt + 1) in *.
    assert (EI : intervals ds = firstn (Z.to_nat N) (intervals ds0) ++ repeat (0, 0) (Z.to_nat N - List.length (intervals ds0))).
    { unfold intervals. rewrite ET, ETS. unfold resize. rewrite map_app, firstn_map, map_length. f_equal.
      induction (Z.to_nat N - List.length (ds_ts A ds0))%nat as [|n IH]; cbn; [reflexivity|f_equal; exact IH]. }
    assert (EN : (fst g + ds_est A ds + cpt - 1) / cpt - fst g / cpt + 1 = N) by (rewrite EQ, EE; unfold N; do 3 f_equal; lia).
    rewrite EN.
    destruct (timesteps_recorded A ord bord bord_perm d _ cpt wl HW HC s id ds0 g HE HI G0 Hg) as [(L & EM)|(c & n & FF & EM & EC & SIM)].
    - exists 0, 0%nat, (Z.to_nat N). rewrite EI, EM. rewrite firstn_nil. cbn [List.length app tiles]. rewrite Nat.sub_0_r. split; [reflexivity|]. split; [constructor|].
      split; [lia|]. split; [lia|]. auto.
    - exists c, (Nat.min (Z.to_nat N) n), (Z.to_nat N - n)%nat. rewrite EI, EM, tiles_firstn, tiles_length. split; [reflexivity|]. split.
      { rewrite <- tiles_firstn, <- EM. apply Forall_forall. intros i Hi. rewrite Forall_forall in SIM. apply SIM. rewrite <- (firstn_skipn (Z.to_nat N) (intervals ds0)). apply in_or_app. left. exact Hi. }
      split; [auto|]. split; [lia|]. intros Hd. right. rewrite Nat.min_r by lia. exact EC.
  Qed.
End F.
