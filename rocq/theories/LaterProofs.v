(* A workload that starts a whole number of timesteps later (C87): one timestep and the statistics. *)
From Coq Require Import ZArith Arith String List Bool Lia ZifyBool ZifyNat Sorting.Permutation Floats.SpecFloat.
From Verif Require Import Base Arith Util Device SpecDevice Workload SpecWorkload DepTracker Rates Stats Engine UtilProofs
  WorkloadProofs SpecTracker TrackerProofs DepGenProofs StepProofs SpecEngine EngineProofs RunProofs OrderProofs SpecLater.
Import ListNotations.
Local Open Scope list_scope.
Open Scope Z_scope.
Ltac Zify.zify_post_hook ::= idtac.

(** * If the first computation succeeds, so does the second *)
Definition follows {X Y} (R : X -> Y -> Prop) (m : outcome X) (m' : outcome Y) : Prop := forall x, m = Ok x -> exists y, m' = Ok y /\ R x y.
Lemma follows_ok {X Y} (R : X -> Y -> Prop) x y : R x y -> follows R (Ok x) (Ok y).
Proof. intros H z E. injection E as <-. eauto. Qed.
Lemma follows_bind {X Y X' Y'} (R : X -> X' -> Prop) (S : Y -> Y' -> Prop) m m' f f' :
  follows R m m' -> (forall x x', m = Ok x -> R x x' -> follows S (f x) (f' x')) -> follows S (bind m f) (bind m' f').
Proof. intros H HF z E. apply bind_ok in E as (x & Ex & E). destruct (H x Ex) as (x' & Ex' & HR). rewrite Ex'. cbn [bind]. exact (HF x x' Ex HR z E). Qed.
Lemma follows_same {X Y Y'} (S : Y -> Y' -> Prop) (m m' : outcome X) f f' : m' = m -> (forall x, m = Ok x -> follows S (f x) (f' x)) -> follows S (bind m f) (bind m' f').
Proof. intros -> HF z E. apply bind_ok in E as (x & Ex & E). rewrite Ex. cbn [bind]. exact (HF x Ex z E). Qed.
Lemma follows_fold {X S S'} (R : S -> S' -> Prop) (f : S -> X -> outcome S) (f' : S' -> X -> outcome S') l :
  (forall s s' x, R s s' -> In x l -> follows R (f s x) (f' s' x)) -> forall s s', R s s' -> follows R (foldM f l s) (foldM f' l s').
Proof.
  induction l as [|x l IH]; intros H s s' HR; cbn [foldM]; [apply follows_ok; exact HR|]. apply (follows_bind R); [apply H; [exact HR|left; reflexivity]|].
  intros s1 s1' _ H1. apply IH; [|exact H1]. intros. apply H; [assumption|right; assumption].
Qed.
Lemma follows_imp {X Y} (R S : X -> Y -> Prop) m m' : follows R m m' -> (forall x y, R x y -> S x y) -> follows S m m'.
Proof. intros H HI x E. destruct (H x E) as (y & E' & HR). eauto. Qed.
Lemma follows_get {X Y} (R : X -> Y -> Prop) l l' n : Forall2 R l l' -> follows R (vec_get l n) (vec_get l' n).
Proof. intros H x E. apply (Forall2_nth_error _ _ _ n) in H. unfold vec_get in *. destruct (nth_error l n), (nth_error l' n); try discriminate; try contradiction. injection E as <-. eauto. Qed.
Lemma follows_mapM {X Y X' Y'} (P : X -> X' -> Prop) (R : Y -> Y' -> Prop) (f : X -> outcome Y) (f' : X' -> outcome Y') l l' : Forall2 P l l' ->
  (forall x x', P x x' -> follows R (f x) (f' x')) -> follows (Forall2 R) (mapM f l) (mapM f' l').
Proof.
  intros H HF. induction H as [|x x' l l' Hx HL IH]; cbn [mapM]; [apply follows_ok; constructor|]. apply (follows_bind R); [apply HF; exact Hx|]. intros y y' _ HR.
  apply (follows_bind (Forall2 R)); [exact IH|]. intros r r' _ HRR. apply follows_ok. constructor; assumption.
Qed.

Section Later.
  Context (A : arith) (K : Z) (HK : 0 <= K).
  Notation state := (tstate (F A)).

  (** * Statistics *)
  (* during the run there is no padding *)
  Definition dsrel (ds ds' : dstats A) : Prop :=
    ds' = with_ts A (with_worst A ds (if ds_worst A ds =? 0 then 0 else ds_worst A ds + K)) (map (later_ts A K) (ds_ts A ds)) /\ 0 <= ds_worst A ds <= 2 ^ 24.
  Definition strel : stats A -> stats A -> Prop := Forall2 (fun e e' => fst e' = fst e /\ dsrel (snd e) (snd e')).
  Lemma stats_map_follows (R R' : dstats A -> dstats A -> Prop) f f' st st' : Forall2 (fun e e' => fst e' = fst e /\ R (snd e) (snd e')) st st' ->
    (forall id ds ds', R ds ds' -> follows R' (f id ds) (f' id ds')) ->
    follows (Forall2 (fun e e' => fst e' = fst e /\ R' (snd e) (snd e'))) (stats_map A f st) (stats_map A f' st').
  Proof.
    intros H HF. unfold stats_map. eapply follows_mapM; [exact H|]. intros [k ds] [k' ds'] [E HR]. cbn [fst snd] in *. subst k'.
    apply (follows_bind R'); [apply HF; exact HR|]. intros x x' _ HX. apply follows_ok. cbn [fst snd]. auto.
  Qed.
  Context {Fl : Type} (wl : workload Fl).
  Notation wl' := (later_workload K wl).
  Lemma golden_later id : getGoldenResultCycles wl' id = let! g := getGoldenResultCycles wl id in Ok (later_window K g).
  Proof.
    unfold getGoldenResultCycles. cbn [later_workload wl_golden]. induction (wl_golden wl) as [|[i w] m IH]; cbn [map golden_get fst snd]; [reflexivity|].
    destruct (i =? id); [reflexivity|exact IH].
  Qed.
  Lemma insert_later s e st st' : strel st st' -> follows strel (insertTimestep A wl s e st) (insertTimestep A wl' (s + K) (e + K) st').
  Proof.
    intros H. apply (stats_map_follows dsrel dsrel _ _ _ _ H). intros id ds ds' [-> HW]. rewrite golden_later. destruct (getGoldenResultCycles wl id) as [g| | | | | |]; cbn [bind]; try (intros ? ?; discriminate).
    apply follows_ok. cbn [later_window fst]. replace (fst g + K <=? e + K) with (fst g <=? e) by lia. destruct (fst g <=? e); split; try exact HW; [|reflexivity].
    unfold with_ts, with_worst. cbn. rewrite map_app. reflexivity.
  Qed.
  Lemma mod_later id f f' st st' : strel st st' -> (forall ds ds', dsrel ds ds' -> dsrel (f ds) (f' ds')) -> strel (stats_mod A st id f) (stats_mod A st' id f').
  Proof.
    intros H HF. induction H as [|[k ds] [k' ds'] st st' [E HR] HS IH]; cbn [stats_mod].
    - constructor; [|constructor]. cbn [fst snd]. split; [reflexivity|]. apply HF. split; [reflexivity|]. cbn [empty_ds ds_worst]. lia.
    - cbn [fst snd] in E, HR. subst k'. destruct (k =? id); constructor; cbn [fst snd]; auto.
  Qed.
  Lemma worst_later id off e g st st' : 0 < e <= 2 ^ 24 -> strel st st' -> strel (updateWorstCase A id off e g st) (updateWorstCase A id (off + K) (e + K) (later_window K g) st').
  Proof.
    intros He H. unfold updateWorstCase. cbn [later_window fst snd]. replace ((fst g + K <=? off + K) && (off + K <=? snd g + K)) with ((fst g <=? off) && (off <=? snd g)) by lia.
    destruct (_ && _); [|exact H]. apply mod_later; [exact H|]. intros ds ds' [-> HW]. split; [|cbn [with_worst ds_worst]; lia]. unfold with_worst, with_ts. cbn.
    destruct (Z.eqb_spec (ds_worst A ds) 0), (Z.eqb_spec (Z.max (ds_worst A ds) e) 0); try lia; f_equal; lia.
  Qed.
  Lemma link_acc_later id m x : forall t, later_ts A K (link_acc A id m t x) = link_acc A id m (later_ts A K t) x.
  Proof. intros t. destruct x as [a [dem mc]]. unfold link_acc. destruct (on_device id (l_coord a)); [|reflexivity]. reflexivity. Qed.
  Lemma niu_acc_later id x : forall t, later_ts A K (niu_acc A id t x) = niu_acc A id (later_ts A K t) x.
  Proof. intros t. destruct x as [a dem]. unfold niu_acc. destruct (on_device id (n_coord a)); reflexivity. Qed.
  Lemma fold_later {X} (f : tstats A -> X -> tstats A) l : (forall t x, later_ts A K (f t x) = f (later_ts A K t) x) -> forall t, later_ts A K (fold_left f l t) = fold_left f l (later_ts A K t).
  Proof. intros H. induction l as [|x l IH]; intros t; cbn [fold_left]; [reflexivity|]. rewrite IH, H. reflexivity. Qed.
  Lemma device_later d g live id t : later_ts A K (device_timestep A d g live id t) = device_timestep A d g live id (later_ts A K t).
  Proof.
    unfold device_timestep. cbv zeta. 
    rewrite <- (fold_later (link_acc A id (link_bandwidth A d))) by (intros; apply link_acc_later).
    set (t1 := fold_left (link_acc A id (link_bandwidth A d)) _ t).
    match goal with |- _ = mkTst A (ts_start A (fold_left _ _ ?x)) _ _ _ _ _ _ _ _ _ _ _ _ _ _ _ _ => match goal with |- later_ts A K (mkTst A (ts_start A (fold_left _ _ ?y)) _ _ _ _ _ _ _ _ _ _ _ _ _ _ _ _) = _ => change x with (later_ts A K y) end end.
    rewrite <- (fold_later (niu_acc A id)) by (intros; apply niu_acc_later). reflexivity.
  Qed.
  Lemma update_later d g live st st' : strel st st' -> strel (updateSimulationStats A d g live st) (updateSimulationStats A d g live st').
  Proof.
    intros H. unfold updateSimulationStats. induction H as [|[k ds] [k' ds'] st st' [E HR] HS IH]; cbn [map]; constructor; [|exact IH]. cbn [fst snd] in *. subst k'. destruct HR as [-> HW].
    cbn [with_ts ds_ts]. rewrite <- map_rev. destruct (rev (ds_ts A ds)) as [|t r] eqn:ER; cbn [map]; [split; [reflexivity|split; [reflexivity|exact HW]]|].
    cbn [fst snd]. split; [reflexivity|]. split; [|exact HW]. unfold with_ts, with_worst. cbn. rewrite map_app. cbn [map]. rewrite device_later, map_rev. reflexivity.
  Qed.

  (* the end of the run *)
  Lemma firstn_map' {X Y} (f : X -> Y) n l : firstn n (map f l) = map f (firstn n l).
  Proof. revert n. induction l as [|x l IH]; intros [|n]; cbn; f_equal; auto. Qed.
  Lemma finish_later cpt j id ds ds' : K = j * cpt -> 1 <= cpt < 2 ^ 32 -> 0 <= j -> (forall g, getGoldenResultCycles wl id = Ok g -> 0 < fst g) -> K < 2 ^ 62 -> dsrel ds ds' ->
    follows (later_device A K) (finish_device A wl cpt id ds) (finish_device A wl' cpt id ds').
  Proof.
    intros EK HC Hj HG HB [-> HW]. unfold finish_device. rewrite golden_later. destruct (getGoldenResultCycles wl id) as [g| | | | | |] eqn:Eg; cbn [bind]; try (intros ? ?; discriminate). specialize (HG _ eq_refl).
    cbn [later_window fst snd with_ts with_worst ds_worst ds_completed ds_est ds_congfree ds_golden ds_err ds_avg_ld ds_max_ld ds_avg_lu ds_max_lu ds_avg_nd ds_max_nd ds_avg_ld0 ds_avg_lu0 ds_max_ld0 ds_avg_ld1 ds_avg_lu1 ds_max_ld1 ds_avg_mc ds_dram ds_dram_sim ds_eth ds_ts].
    replace (snd g + K - (fst g + K)) with (snd g - fst g) by lia. set (w := ds_worst A ds) in *.
    replace ((if w =? 0 then 0 else w + K) <=? fst g + K) with (w <=? fst g) by (destruct (Z.eqb_spec w 0); lia).
    destruct (Z.leb_spec w (fst g)) as [L|L].
    - apply follows_ok. eexists [], _. split; [|split; [constructor|reflexivity]]. unfold with_ts, with_worst. reflexivity.
    - replace (cpt =? 0) with false by lia. assert (EW : (if w =? 0 then 0 else w + K) = w + K) by (destruct (Z.eqb_spec w 0); lia). rewrite EW.
      apply follows_ok. assert (C : 0 < cpt) by lia. change (2 ^ 62) with 4611686018427387904 in HB. change (2 ^ 24) with 16777216 in HW. fold w in HW. change (2 ^ 32) with 4294967296 in HC.
      assert (U : forall z, 0 <= z < 18446744073709551616 -> u64 z = z) by (intros z Hz; unfold u64; apply Z.mod_small; change (2 ^ 64) with 18446744073709551616; lia).
      assert (N : u64 (u64 (u64 (u64 (w + K + cpt) - 1) / cpt - (fst g + K) / cpt) + 1) = u64 (u64 (u64 (u64 (w + cpt) - 1) / cpt - fst g / cpt) + 1)).
      { rewrite (U (w + K + cpt)), (U (w + cpt)) by lia. rewrite (U (w + K + cpt - 1)), (U (w + cpt - 1)) by lia. replace (w + K + cpt - 1) with (w + cpt - 1 + j * cpt) by lia. rewrite EK, !Z.div_add by lia. f_equal. f_equal. f_equal. lia. }
      rewrite N. replace (w + K - (fst g + K)) with (w - fst g) by lia. set (n := Z.to_nat _).
      eexists (resize n (fresh_ts A 0 0) (map (later_ts A K) (ds_ts A ds))), (w + K). split; [|split].
      + unfold with_ts, with_worst. reflexivity.
      + cbn [ds_ts]. unfold resize. rewrite firstn_map', map_length. apply Forall2_app.
        * induction (firstn n (ds_ts A ds)); cbn [map]; constructor; [left; reflexivity|assumption].
        * induction (n - _)%nat; cbn [repeat]; constructor; [right; auto|assumption].
      + cbn [ds_worst]. fold w. rewrite EW. reflexivity.
  Qed.
End Later.

Lemma later_transfers {Fl} K (wl : workload Fl) : all_transfers (later_workload K wl) = map (later_transfer K) (all_transfers wl).
Proof.
  unfold all_transfers. cbn [later_workload wl_phases]. induction (wl_phases wl) as [|p l IH]; cbn [map flat_map]; [reflexivity|]. rewrite map_app, IH. reflexivity.
Qed.

Section Summary.
  Context (A : arith) (K : Z) (d : device) (wl : workload (F A)).
  Lemma sum_later f l l' : (forall t, f (later_ts A K t) = f t) -> Forall2 (later_timestep A K) l l' -> forall x,
    fold_left (fun x t => d_add A x (f t)) l' x = fold_left (fun x t => d_add A x (f t)) l x.
  Proof. intros HF H. induction H as [|t t' l l' [->|[-> ->]] HL IH]; intros x; cbn [fold_left]; rewrite ?HF; auto. Qed.
  Lemma max_later f l l' : (forall t, f (later_ts A K t) = f t) -> Forall2 (later_timestep A K) l l' -> forall x,
    fold_left (fun x t => d_max A x (f t)) l' x = fold_left (fun x t => d_max A x (f t)) l x.
  Proof. intros HF H. induction H as [|t t' l l' [->|[-> ->]] HL IH]; intros x; cbn [fold_left]; rewrite ?HF; auto. Qed.
  Lemma foldM_map_related {X Y S} (g : X -> Y) (f : S -> X -> outcome S) (f' : S -> Y -> outcome S) l : (forall s x, f' s (g x) = f s x) -> forall s, foldM f' (map g l) s = foldM f l s.
  Proof. intros H. induction l as [|x l IH]; intros s; cbn [map foldM]; [reflexivity|]. rewrite H. destruct (f s x); cbn [bind]; auto. Qed.
  Lemma summary_later id ds ds' : later_device A K ds ds' -> follows (later_device A K) (summary_device A d wl id ds) (summary_device A d (later_workload K wl) id ds').
  Proof.
    intros (l & w & -> & HL & EW). unfold summary_device. cbv zeta. pose proof (later_transfers K wl) as ET. unfold all_transfers in ET. rewrite ET.
    assert (E1 : dram_bytes A d id (map (later_transfer K) (flat_map ph_trs (wl_phases wl))) = dram_bytes A d id (flat_map ph_trs (wl_phases wl))) by (unfold dram_bytes; apply foldM_map_related; reflexivity).
    assert (E2 : eth_bytes A d id (map (later_transfer K) (flat_map ph_trs (wl_phases wl))) = eth_bytes A d id (flat_map ph_trs (wl_phases wl))) by (unfold eth_bytes; apply foldM_map_related; reflexivity).
    rewrite E1, E2. clear E1 E2 ET. apply follows_same; [reflexivity|]. intros rw _. apply follows_same; [reflexivity|]. intros eth _. apply follows_ok.
    assert (LEN : List.length l = List.length (ds_ts A ds)) by (clear EW; induction HL; cbn; congruence).
    eexists l, w. split; [|split; [exact HL|exact EW]].
    assert (S : forall f x, (forall t, f (later_ts A K t) = f t) -> sum_ts A f (with_ts A (with_worst A ds w) l) x = sum_ts A f ds x) by (intros f x HF; unfold sum_ts; cbn [with_ts ds_ts]; apply sum_later; assumption).
    assert (M : forall f x, (forall t, f (later_ts A K t) = f t) -> max_ts A f (with_ts A (with_worst A ds w) l) x = max_ts A f ds x) by (intros f x HF; unfold max_ts; cbn [with_ts ds_ts]; apply max_later; assumption).
    rewrite !S, !M by reflexivity. unfold with_ts at 4. unfold with_ts, with_worst.
    cbn [ds_worst ds_completed ds_est ds_congfree ds_golden ds_err ds_avg_ld ds_max_ld ds_avg_lu ds_max_lu ds_avg_nd ds_max_nd ds_avg_ld0 ds_avg_lu0 ds_max_ld0 ds_avg_ld1 ds_avg_lu1 ds_max_ld1 ds_avg_mc ds_dram ds_dram_sim ds_eth ds_ts].
    rewrite LEN. reflexivity.
  Qed.
End Summary.
