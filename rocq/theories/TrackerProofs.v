(* Proofs about the dependency tracker (C51), and helpers for folds that may fail. *)
From Coq Require Import ZArith Arith List Bool Lia ZifyBool ZifyNat.
From Verif Require Import Base DepTracker SpecTracker UtilProofs WorkloadProofs.
Import ListNotations.
Open Scope Z_scope.
Ltac Zify.zify_post_hook ::= idtac.

Lemma bind_ok {X Y} (m : outcome X) (f : X -> outcome Y) y : bind m f = Ok y -> exists x, m = Ok x /\ f x = Ok y.
Proof. destruct m; cbn; intros; try discriminate. eauto. Qed.

Lemma upd_length {X} (l : list X) n a : List.length (upd l n a) = List.length l.
Proof. revert n. induction l; destruct n; cbn; auto. Qed.
Lemma upd_nth {X} (l : list X) n a m : nth_error (upd l n a) m =
  if Nat.eqb n m then match nth_error l n with Some _ => Some a | None => None end else nth_error l m.
Proof.
  revert n m. induction l as [|x l IH]; intros n m; cbn.
  - destruct n, m; cbn; try reflexivity; destruct (Nat.eqb _ _); reflexivity.
  - destruct n, m; cbn; try reflexivity. apply IH.
Qed.
Lemma upd_nth_same {X} (l : list X) n a x : nth_error l n = Some x -> nth_error (upd l n a) n = Some a.
Proof. intros H. rewrite upd_nth, Nat.eqb_refl, H. reflexivity. Qed.
Lemma upd_nth_other {X} (l : list X) n a m : n <> m -> nth_error (upd l n a) m = nth_error l m.
Proof. intros H. rewrite upd_nth. destruct (Nat.eqb_spec n m); [contradiction|reflexivity]. Qed.

Lemma foldM_snoc {X S} (f : S -> X -> outcome S) l x s :
  foldM f (l ++ [x]) s = bind (foldM f l s) (fun s' => f s' x).
Proof. rewrite foldM_app. destruct (foldM f l s); cbn; try reflexivity. destruct (f s0 x); reflexivity. Qed.

Lemma creations_app h h' : creations (h ++ h') = creations h ++ creations h'.
Proof. induction h as [|[]]; cbn; try reflexivity; rewrite IHh; reflexivity. Qed.
Lemma updates_app n h h' : updates n (h ++ h') = updates n h ++ updates n h'.
Proof. induction h as [|[|[m|] e] h IH]; cbn; try assumption; try reflexivity. destruct (Nat.eqb m n); cbn; rewrite IH; reflexivity. Qed.
Lemma latest_snoc es e : 0 <= e -> latest (es ++ [e]) = Z.max (latest es) e.
Proof. unfold latest. intros. induction es; cbn in *; lia. Qed.
Lemma latest_nonneg es : 0 <= latest es.
Proof. unfold latest. induction es; cbn in *; lia. Qed.
Lemma latest_lub es : (forall e, In e es -> e <= latest es) /\ (latest es = 0 \/ In (latest es) es).
Proof.
  unfold latest. induction es as [|e es [IH1 IH2]]; cbn; split; auto; try tauto.
  - intros x [->|Hx]; [lia|]. specialize (IH1 _ Hx). lia.
  - destruct (Z.max_spec e (fold_right Z.max 0 es)) as [[_ ->]|[_ ->]]; tauto.
Qed.

(* state of checkpoint [n] after a history *)
Lemma replay_inv h tk : Forall u32_op h -> replay h = Ok tk ->
  List.length tk = List.length (creations h) /\
  (forall n, (List.length (creations h) <= n)%nat -> updates n h = []) /\
  forall n c, nth_error tk n = Some c ->
    nth_error (creations h) n = Some (cp_total c, cp_delay c) /\
    cp_completed c = u32 (Z.of_nat (List.length (updates n h))) /\ cp_end c = latest (updates n h).
Proof.
  unfold replay. revert tk. induction h as [|o h IH] using rev_ind; intros tk HF H.
  - cbn in H. injection H as <-. repeat split; cbn; auto; destruct n; discriminate.
  - apply Forall_app in HF as [HF Ho]. apply Forall_inv in Ho.
    rewrite foldM_snoc in H. apply bind_ok in H as (tk0 & H0 & H1). destruct (IH _ HF H0) as (HL & HU & HN).
    rewrite creations_app. destruct o as [tot dl|id e]; cbn in H1.
    + injection H1 as <-. rewrite !app_length, HL. cbn. split; [reflexivity|]. split.
      { intros n Hn. rewrite updates_app. cbn. rewrite app_nil_r. apply HU. lia. }
      intros n c Hc. rewrite updates_app. cbn. rewrite app_nil_r.
      destruct (Nat.lt_ge_cases n (List.length tk0)).
      * rewrite nth_error_app1 in Hc by lia. destruct (HN _ _ Hc) as (? & ? & ?).
        rewrite nth_error_app1 by lia. auto.
      * assert (n = List.length tk0) as ->.
        { assert (n < List.length (tk0 ++ [mkCp 0 tot 0 dl]))%nat by (apply nth_error_Some; congruence).
          rewrite app_length in H1. cbn in H1. lia. }
        rewrite nth_error_app2, Nat.sub_diag in Hc by lia. cbn in Hc. injection Hc as <-. cbn.
        rewrite HL, nth_error_app2, Nat.sub_diag, HU by lia. cbn. auto.
    + unfold updateCheckpoint, cp_at in H1. destruct id as [m|].
      2:{ injection H1 as <-. cbn. rewrite !app_nil_r. split; [assumption|]. split.
          - intros. rewrite updates_app. cbn. rewrite app_nil_r. auto.
          - intros n c Hc. rewrite updates_app. cbn. rewrite app_nil_r. auto. }
      destruct (nth_error tk0 m) as [c0|] eqn:E; cbn in H1; [|discriminate]. injection H1 as <-.
      cbn. rewrite app_nil_r, upd_length. split; [assumption|]. split.
      { intros n Hn. rewrite updates_app. cbn. assert (m < List.length tk0)%nat by (apply nth_error_Some; congruence).
        destruct (Nat.eqb_spec m n); [lia|]. rewrite app_nil_r. apply HU. lia. }
      intros n c Hc. rewrite updates_app. cbn. rewrite upd_nth in Hc. destruct (Nat.eqb_spec m n).
      * subst n. rewrite E in Hc. injection Hc as <-. cbn. destruct (HN _ _ E) as (? & HC & HE).
        split; [assumption|]. rewrite app_length. cbn in Ho |- *. rewrite latest_snoc, <- HE by lia. split; [|reflexivity].
        rewrite HC. unfold u32. rewrite Zplus_mod_idemp_l. f_equal. lia.
      * rewrite app_nil_r. auto.
Qed.

Theorem checkpoint_done_wrapping h tk n total delay cycle : Forall u32_op h -> replay h = Ok tk ->
  nth_error (creations h) n = Some (total, delay) ->
  exists b, done tk (Some n) cycle = Ok b /\
    (b = true <-> Z.of_nat (List.length (updates n h)) mod 2 ^ 32 = total /\ (latest (updates n h) + delay) mod 2 ^ 32 <= cycle).
Proof.
  intros HF H Hn. destruct (replay_inv _ _ HF H) as (HL & _ & HN).
  destruct (nth_error tk n) as [c|] eqn:E.
  2:{ apply nth_error_None in E. assert (n < List.length (creations h))%nat by (apply nth_error_Some; congruence). lia. }
  destruct (HN _ _ E) as (H1 & H2 & H3). rewrite Hn in H1. injection H1 as -> ->.
  unfold done, cp_at. rewrite E. cbn. eexists. split; [reflexivity|]. unfold cp_done.
  rewrite H2, H3. unfold u32. rewrite andb_true_iff, Z.eqb_eq, Z.leb_le. reflexivity.
Qed.

Theorem checkpoint_done h tk n total delay cycle : Forall u32_op h -> replay h = Ok tk ->
  nth_error (creations h) n = Some (total, delay) ->
  Z.of_nat (List.length (updates n h)) < 2 ^ 32 -> latest (updates n h) + delay < 2 ^ 32 ->
  exists b, done tk (Some n) cycle = Ok b /\
    (b = true <-> Z.of_nat (List.length (updates n h)) = total /\
                  delay <= cycle /\ (forall e, In e (updates n h) -> e + delay <= cycle)).
Proof.
  intros HF H Hn H1 H2. destruct (checkpoint_done_wrapping _ _ _ _ _ cycle HF H Hn) as (b & Hb & Hiff).
  exists b. split; [assumption|]. rewrite Hiff.
  assert (0 <= delay < 2 ^ 32).
  { assert (G : forall h, Forall u32_op h -> forall p, In p (creations h) -> 0 <= snd p < 2 ^ 32).
    { clear. induction h as [|[] h IH]; cbn; intros HF p; try tauto.
      - intros [<-|Hp]; [apply Forall_inv in HF; cbn in *; lia|]. apply IH; [eapply Forall_inv_tail; eassumption|assumption].
      - apply IH. eapply Forall_inv_tail; eassumption. }
    apply (G h HF (total, delay)). eapply nth_error_In; eassumption. }
  destruct (latest_lub (updates n h)) as [L1 L2]. pose proof (latest_nonneg (updates n h)).
  rewrite !Z.mod_small by lia. split; intros [? ?]; (split; [assumption|]).
  - split; [lia|]. intros e He. specialize (L1 _ He). lia.
  - destruct L2 as [->|L2]; [lia|]. destruct H5 as [_ H5]. apply (H5 _ L2).
Qed.

Theorem checkpoint_stays_done tk id c c' : done tk id c = Ok true -> c <= c' -> done tk id c' = Ok true.
Proof.
  unfold done. destruct id as [n|]; [|reflexivity]. unfold cp_at. destruct (nth_error tk n); cbn; [|discriminate].
  unfold cp_done. intros H Hc. injection H as H. f_equal. lia.
Qed.

Theorem checkpoint_undefined_done tk c : done tk None c = Ok true.
Proof. reflexivity. Qed.

Lemma delay_wrap_witness : exists h tk, Forall u32_op h /\ replay h = Ok tk /\
  nth_error (creations h) 0 = Some (1, 10) /\ updates 0 h = [4294967290] /\
  done tk (Some O) 4 = Ok true.
Proof.
  exists [Create 1 10; Update (Some O) 4294967290]. eexists. split.
  - repeat constructor; cbn; lia.
  - split; [reflexivity|]. split; [reflexivity|]. split; [reflexivity|]. vm_compute. reflexivity.
Qed.
