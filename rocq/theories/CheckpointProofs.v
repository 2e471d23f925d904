(* What a tracker of dependencies answers after calls and resets (C99). *)
From Coq Require Import ZArith Lia ZifyBool ZifyNat List Bool.
From Verif Require Import Base DepTracker SpecTracker TrackerProofs SpecCheckpoint.
Import ListNotations.
Open Scope Z_scope.
Ltac Zify.zify_post_hook ::= idtac.

Lemma calls_app h h' : calls (h ++ h') = calls h ++ calls h'. Proof. induction h as [|[o|] h IH]; cbn; [reflexivity|rewrite IH; reflexivity|assumption]. Qed.
Lemma recent_told h o : recent (h ++ [Told o]) = recent h ++ [o]. Proof. unfold recent. rewrite fold_left_app. reflexivity. Qed.
Lemma recent_reset h : recent (h ++ [Reset]) = []. Proof. unfold recent. rewrite fold_left_app. reflexivity. Qed.
Lemma played_snoc h e : played (h ++ [e]) = bind (played h) (fun tk => event_step tk e). Proof. apply foldM_snoc. Qed.

(* a checkpoint records its creation, how often it was updated since the last reset and the largest cycle of all its updates *)
Definition records (h : list event) (tk : tracker) : Prop :=
  List.length tk = List.length (creations (calls h)) /\
  (forall n, (List.length tk <= n)%nat -> updates n (calls h) = [] /\ updates n (recent h) = []) /\
  forall n c, nth_error tk n = Some c ->
    nth_error (creations (calls h)) n = Some (cp_total c, cp_delay c) /\ cp_completed c = count n h /\ cp_end c = latest (updates n (calls h)).
Lemma count_step n h o : count n (h ++ [Told o]) = u32 (count n h + Z.of_nat (List.length (updates n [o]))).
Proof. unfold count, u32. rewrite recent_told, updates_app, app_length, Nat2Z.inj_add, Zplus_mod_idemp_l. reflexivity. Qed.
Lemma count_same n h o : updates n [o] = [] -> count n (h ++ [Told o]) = count n h.
Proof. intros E. unfold count. rewrite recent_told, updates_app, E, app_nil_r. reflexivity. Qed.
Lemma records_create h tk total delay : records h tk -> records (h ++ [Told (Create total delay)]) (tk ++ [mkCp 0 total 0 delay]).
Proof.
  intros (HL & HU & HN). unfold records. rewrite calls_app, creations_app, recent_told, !app_length. cbn [calls creations List.length]. split; [lia|]. split.
  { intros n Hn. rewrite !updates_app. cbn [updates]. rewrite !app_nil_r. apply HU. lia. }
  intros n c Hc. rewrite count_same by reflexivity. rewrite updates_app. cbn [updates]. rewrite app_nil_r. destruct (Nat.lt_ge_cases n (List.length tk)) as [K|K].
  - rewrite nth_error_app1 in Hc by exact K. destruct (HN _ _ Hc) as (? & ? & ?). rewrite nth_error_app1 by lia. auto.
  - rewrite nth_error_app2 in Hc by exact K. destruct (n - List.length tk)%nat as [|k] eqn:E; cbn in Hc; [|destruct k; discriminate]. injection Hc as <-. cbn.
    assert (n = List.length tk) as -> by (clear - K E; lia). destruct (HU _ (le_n _)) as [U1 U2]. unfold count. rewrite U1, U2, nth_error_app2, HL, Nat.sub_diag by lia. auto.
Qed.
Lemma records_none h tk e : records h tk -> records (h ++ [Told (Update None e)]) tk.
Proof.
  intros (HL & HU & HN). unfold records. rewrite calls_app, creations_app, recent_told. cbn [calls creations]. rewrite app_nil_r. split; [exact HL|]. split.
  { intros n Hn. rewrite !updates_app. cbn [updates]. rewrite !app_nil_r. apply HU. exact Hn. }
  intros n c Hc. rewrite count_same by reflexivity. rewrite updates_app. cbn [updates]. rewrite app_nil_r. apply HN. exact Hc.
Qed.
Lemma updates_one m n e : updates n [Update (Some m) e] = if Nat.eqb m n then [e] else []. Proof. reflexivity. Qed.
Lemma records_update h tk m e c : records h tk -> 0 <= e -> nth_error tk m = Some c ->
  records (h ++ [Told (Update (Some m) e)]) (upd tk m (mkCp (u32 (cp_completed c + 1)) (cp_total c) (Z.max (cp_end c) e) (cp_delay c))).
Proof.
  intros (HL & HU & HN) He Hm. unfold records. rewrite calls_app, creations_app, recent_told, upd_length. cbn [calls creations]. rewrite app_nil_r. split; [exact HL|].
  assert (Lm : (m < List.length tk)%nat) by (apply nth_error_Some; congruence). split.
  { intros n Hn. rewrite !updates_app, updates_one. destruct (Nat.eqb_spec m n) as [->|_]; [exfalso; clear - Lm Hn; lia|]. rewrite !app_nil_r. apply HU. exact Hn. }
  intros n c' Hc. rewrite updates_app, updates_one, count_step, updates_one. rewrite upd_nth in Hc. destruct (Nat.eqb_spec m n) as [<-|_].
  - rewrite Hm in Hc. injection Hc as <-. cbn [cp_total cp_delay cp_completed cp_end]. destruct (HN _ _ Hm) as (H1 & H2 & H3). split; [exact H1|]. rewrite H2, H3, latest_snoc by exact He. split; reflexivity.
  - destruct (HN _ _ Hc) as (H1 & H2 & H3). rewrite app_nil_r. split; [exact H1|]. split; [|exact H3]. rewrite H2, Z.add_0_r. unfold count, u32. rewrite Zmod_mod. reflexivity.
Qed.
Lemma reset_nth tk n : nth_error (reset tk) n = option_map (fun c => mkCp 0 (cp_total c) (cp_end c) (cp_delay c)) (nth_error tk n). Proof. apply nth_error_map. Qed.
Lemma records_reset h tk : records h tk -> records (h ++ [Reset]) (reset tk).
Proof.
  intros (HL & HU & HN). unfold records. rewrite calls_app, recent_reset. cbn [calls]. rewrite app_nil_r. unfold reset at 1 2. rewrite map_length. split; [exact HL|]. split.
  { intros n Hn. split; [apply HU; exact Hn|reflexivity]. }
  intros n c Hc. rewrite reset_nth in Hc. destruct (nth_error tk n) as [c0|] eqn:E; [|discriminate]. cbn in Hc. injection Hc as <-. cbn. destruct (HN _ _ E) as (H1 & _ & H3).
  split; [exact H1|]. split; [|exact H3]. unfold count. rewrite recent_reset. reflexivity.
Qed.
Lemma played_records h : Forall u32_op (calls h) -> forall tk, played h = Ok tk -> records h tk.
Proof.
  induction h as [|e h IH] using rev_ind; intros HF tk H.
  { cbn in H. injection H as <-. split; [reflexivity|]. split; [intros; split; reflexivity|]. intros n c Hc. destruct n; discriminate. }
  rewrite played_snoc in H. apply bind_ok in H as (tk0 & H0 & H1). rewrite calls_app in HF. apply Forall_app in HF as [HF HO]. specialize (IH HF _ H0).
  destruct e as [[total delay|[m|] c]|]; cbn in H1.
  - injection H1 as <-. apply records_create. exact IH.
  - unfold cp_at in H1. destruct (nth_error tk0 m) as [c0|] eqn:E; cbn in H1; [|discriminate]. injection H1 as <-. apply records_update; [exact IH| |exact E].
    cbn in HO. apply Forall_inv in HO. cbn in HO. apply HO.
  - injection H1 as <-. apply records_none. exact IH.
  - injection H1 as <-. apply records_reset. exact IH.
Qed.
Lemma created h tk n total delay : records h tk -> nth_error (creations (calls h)) n = Some (total, delay) ->
  exists c, nth_error tk n = Some c /\ cp_total c = total /\ cp_delay c = delay /\ cp_completed c = count n h /\ cp_end c = latest (updates n (calls h)).
Proof.
  intros (HL & _ & HN) H. destruct (nth_error tk n) as [c|] eqn:E.
  - exists c. destruct (HN _ _ E) as (H1 & H2 & H3). rewrite H in H1. injection H1 as -> ->. auto.
  - exfalso. apply nth_error_None in E. assert (n < List.length (creations (calls h)))%nat by (apply nth_error_Some; congruence). lia.
Qed.

Theorem checkpoint_answers h tk n total delay : Forall u32_op (calls h) -> played h = Ok tk -> nth_error (creations (calls h)) n = Some (total, delay) ->
  end_cycle tk (Some n) = Ok (latest (updates n (calls h))) /\
  end_cycle_plus_delay tk (Some n) = Ok ((latest (updates n (calls h)) + delay) mod 2 ^ 32) /\
  forall cycle, exists b, done tk (Some n) cycle = Ok b /\ (b = true <-> count n h = total /\ (latest (updates n (calls h)) + delay) mod 2 ^ 32 <= cycle).
Proof.
  intros HF H Hn. destruct (created _ _ _ _ _ (played_records h HF tk H) Hn) as (c & E & <- & <- & H2 & H3). unfold end_cycle, end_cycle_plus_delay, done, cp_at. rewrite E. cbn. rewrite H3.
  split; [reflexivity|]. split; [reflexivity|]. intros cycle. eexists. split; [reflexivity|]. unfold cp_done. rewrite H2, H3, andb_true_iff, Z.eqb_eq, Z.leb_le. reflexivity.
Qed.
Theorem checkpoint_unknown h tk n e cycle : Forall u32_op (calls h) -> played h = Ok tk -> nth_error (creations (calls h)) n = None ->
  updateCheckpoint tk (Some n) e = Throw UNDEF_ERR /\ end_cycle tk (Some n) = Throw UNDEF_ERR /\ end_cycle_plus_delay tk (Some n) = Throw UNDEF_ERR /\ done tk (Some n) cycle = Throw UNDEF_ERR.
Proof.
  intros HF H Hn. destruct (played_records h HF tk H) as (HL & _). apply nth_error_None in Hn. rewrite <- HL in Hn. apply nth_error_None in Hn.
  unfold updateCheckpoint, end_cycle, end_cycle_plus_delay, done, cp_at. rewrite Hn. auto.
Qed.
(* the identifier that is returned is that of the checkpoint created: it was unknown and not updated before *)
Theorem checkpoint_identifier h tk total delay : Forall u32_op (calls h) -> played h = Ok tk ->
  let '(tk', n) := createCheckpoint tk total delay in
  played (h ++ [Told (Create total delay)]) = Ok tk' /\ nth_error (creations (calls h)) n = None /\
  nth_error (creations (calls (h ++ [Told (Create total delay)]))) n = Some (total, delay) /\ updates n (calls h) = [].
Proof.
  intros HF H. destruct (played_records h HF tk H) as (HL & HU & _). cbn. rewrite played_snoc, H, calls_app, creations_app, HL. split; [reflexivity|]. cbn [calls creations].
  split; [apply nth_error_None; lia|]. split; [|apply HU; lia]. rewrite nth_error_app2, Nat.sub_diag by lia. reflexivity.
Qed.
Theorem checkpoint_checks h tk : Forall u32_op (calls h) -> played h = Ok tk ->
  (sanityCheck tk = true <-> forall n total delay, nth_error (creations (calls h)) n = Some (total, delay) -> count n h <= total) /\
  (allComplete tk = true <-> forall n total delay, nth_error (creations (calls h)) n = Some (total, delay) -> count n h = total).
Proof.
  intros HF H. pose proof (played_records h HF tk H) as R. destruct R as (HL & HU & HN). unfold sanityCheck, allComplete. rewrite !forallb_forall. split; split; intros K.
  - intros n total delay Hn. destruct (created _ _ _ _ _ (played_records h HF tk H) Hn) as (c & E & <- & _ & <- & _). specialize (K c (nth_error_In _ _ E)). lia.
  - intros c Hc. apply In_nth_error in Hc as [n Hc]. destruct (HN _ _ Hc) as (H1 & H2 & _). specialize (K _ _ _ H1). rewrite H2. lia.
  - intros n total delay Hn. destruct (created _ _ _ _ _ (played_records h HF tk H) Hn) as (c & E & <- & _ & <- & _). specialize (K c (nth_error_In _ _ E)). lia.
  - intros c Hc. apply In_nth_error in Hc as [n Hc]. destruct (HN _ _ Hc) as (H1 & H2 & _). specialize (K _ _ _ H1). rewrite H2. lia.
Qed.

(** * Which histories succeed *)
Lemma snoc_cases {X} (h h1 h2 : list X) e x : h ++ [e] = h1 ++ x :: h2 -> (h2 = [] /\ h = h1 /\ e = x) \/ exists h3, h = h1 ++ x :: h3.
Proof.
  destruct h2 as [|y h2 _] using rev_ind.
  - intros E. apply app_inj_tail in E as [-> ->]. auto.
  - intros E. right. exists h2. rewrite app_comm_cons, app_assoc in E. apply app_inj_tail in E as [-> _]. reflexivity.
Qed.
Theorem played_known h : Forall u32_op (calls h) -> (exists tk, played h = Ok tk) <-> known h.
Proof.
  induction h as [|e h IH] using rev_ind; intros HF.
  { split; [|intros _; exists []; reflexivity]. intros _ h1 n c h2 E. destruct h1; discriminate. }
  rewrite calls_app in HF. apply Forall_app in HF as [HF _]. specialize (IH HF). split.
  - intros [tk H]. rewrite played_snoc in H. apply bind_ok in H as (tk0 & H0 & H1). intros h1 n c h2 E. apply snoc_cases in E as [(_ & -> & ->)|[h3 E]].
    + cbn in H1. unfold cp_at in H1. destruct (nth_error tk0 n) as [c0|] eqn:E; [|discriminate]. destruct (played_records h1 HF _ H0) as (HL & _). rewrite <- HL. apply nth_error_Some. congruence.
    + apply (proj1 IH (ex_intro _ _ H0) _ _ _ _ E).
  - intros K. assert (K0 : known h) by (intros h1 n c h2 ->; apply (K h1 n c (h2 ++ [e])); rewrite <- app_assoc; reflexivity).
    destruct (proj2 IH K0) as [tk H]. rewrite played_snoc, H. cbn [bind]. destruct e as [[total delay|[m|] c]|]; try (eexists; reflexivity).
    specialize (K h m c [] eq_refl). destruct (played_records h HF _ H) as (HL & _). rewrite <- HL in K. apply nth_error_Some in K. cbn. unfold cp_at.
    destruct (nth_error tk m); [eexists; reflexivity|contradiction].
Qed.

(** * Resets *)
Lemma played_creations cs : played (map (fun p => Told (Create (fst p) (snd p))) cs) = Ok (map (fun p => mkCp 0 (fst p) 0 (snd p)) cs).
Proof. induction cs as [|p cs IH] using rev_ind; [reflexivity|]. rewrite !map_app. cbn [map]. rewrite played_snoc, IH. reflexivity. Qed.
Lemma latest_zero es : (forall e, In e es -> e = 0) -> latest es = 0. Proof. induction es as [|e es IH]; intros H; [reflexivity|]. cbn. fold (latest es). rewrite IH by (intros; apply H; right; assumption). rewrite (H e (or_introl eq_refl)). reflexivity. Qed.
Lemma updates_in n h e : In e (updates n h) -> In (Update (Some n) e) h.
Proof. induction h as [|[t d|[m|] c] h IH]; cbn; [tauto|auto| |auto]. destruct (Nat.eqb_spec m n) as [->|_]; [intros [->|K]|intros K]; auto. Qed.
Lemma same_elements {X} (a : list X) : forall b, (forall n, nth_error a n = nth_error b n) -> a = b.
Proof.
  induction a as [|x a IH]; intros [|y b] H; [reflexivity|discriminate (H O)|discriminate (H O)|]. pose proof (H O) as K. cbn in K. injection K as ->. f_equal. apply IH. intros n. exact (H (S n)).
Qed.
Theorem reset_creations h : Forall u32_op (calls h) -> known h -> (forall n e, In (Update (Some n) e) (calls h) -> e = 0) -> played (h ++ [Reset]) = played (only_creations h).
Proof.
  intros HF HK HZ. destruct (proj2 (played_known h HF) HK) as [tk H]. unfold only_creations. rewrite played_snoc, H, played_creations. cbn [bind event_step]. f_equal.
  destruct (played_records h HF tk H) as (HL & _ & HN). apply same_elements. intros n. rewrite reset_nth, nth_error_map. destruct (nth_error tk n) as [c|] eqn:E.
  - destruct (HN _ _ E) as (H1 & _ & H3). rewrite H1. cbn. rewrite H3, latest_zero; [reflexivity|]. intros e He. apply (HZ n). apply updates_in. exact He.
  - apply nth_error_None in E. rewrite HL in E. apply nth_error_None in E. rewrite E. reflexivity.
Qed.
(* a checkpoint of one update: updated at cycle 100, reset and updated at cycle 50 it is not done at cycle 60 *)
Theorem reset_remembers : exists h u a b, Forall u32_op (calls (h ++ [Reset] ++ u)) /\ played (h ++ [Reset] ++ u) = Ok a /\ played (only_creations h ++ u) = Ok b /\
  done a (Some O) 60 = Ok false /\ done b (Some O) 60 = Ok true.
Proof.
  exists [Told (Create 1 0); Told (Update (Some O) 100)], [Told (Update (Some O) 50)], [mkCp 1 1 100 0], [mkCp 1 1 50 0].
  split; [repeat constructor; cbn; discriminate|]. repeat split; reflexivity.
Qed.
