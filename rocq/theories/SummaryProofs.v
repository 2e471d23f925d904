(* Bytes counted by the summary statistics (C59). *)
From Coq Require Import ZArith Arith Lia Bool String List ZifyBool ZifyNat.
From Verif Require Import Base Arith Util Device SpecDevice Workload SpecWorkload Rates Stats Engine SpecEngine SpecStats SpecSummary UtilProofs WorkloadProofs TrackerProofs DepGenProofs FactoryProofs StatsRun.
Import ListNotations.
Local Open Scope list_scope.
Open Scope Z_scope.
Ltac Zify.zify_post_hook ::= idtac.

(** * Sums *)
Section Sums.
  Context {X : Type} (w : X -> Z).
  Lemma sum_unique (P : X -> Prop) l n : sum_over P w l n -> forall m, sum_over P w l m -> n = m.
  Proof. induction 1 as [|x l n N H IH|x l n p H IH]; intros m HM; inversion HM; subst; try contradiction; auto; f_equal; auto. Qed.
  Lemma sum_snoc (P : X -> Prop) l n x : sum_over P w l n -> (P x -> sum_over P w (l ++ [x]) (n + w x)) /\ (~ P x -> sum_over P w (l ++ [x]) n).
  Proof.
    induction 1 as [|y l n N H [I1 I2]|y l n p H [I1 I2]]; cbn [app].
    - split; intros H; [rewrite Z.add_0_l, <- (Z.add_0_r (w x)); apply sum_take; [exact H|constructor]|apply sum_skip; [exact H|constructor]].
    - split; intros K; apply sum_skip; auto.
    - split; intros K; [rewrite <- Z.add_assoc|]; apply sum_take; auto.
  Qed.
  Lemma sum_ext (P Q : X -> Prop) l n : (forall x, In x l -> P x <-> Q x) -> sum_over P w l n -> sum_over Q w l n.
  Proof.
    intros H S. induction S as [|y l n N S IH|y l n p S IH]; [constructor|apply sum_skip|apply sum_take]; try (apply IH; intros x Hx; apply H; right; exact Hx).
    - rewrite <- H; [exact N|left; reflexivity].
    - rewrite <- H; [exact p|left; reflexivity].
  Qed.
  Lemma sum_le (P : X -> Prop) l n b : (forall x, In x l -> 0 <= w x < b) -> sum_over P w l n -> 0 <= n <= Z.of_nat (List.length l) * b.
  Proof.
    intros H S. induction S as [|y l n N S IH|y l n p S IH]; cbn [List.length]; [lia| |];
      specialize (IH ltac:(intros x Hx; apply H; right; exact Hx)); specialize (H y (or_introl eq_refl)); nia.
  Qed.
End Sums.

(** * Core types *)
Lemma core_type_at d c k : supported d -> getCoreType d c = Ok k -> forall k', core_at d c k' <-> k' = k.
Proof.
  intros HS H k'. assert (G : on_chip_grid d c).
  { unfold on_chip_grid. destruct (Z_le_dec 0 (c_row c)) as [A1|A1]; [destruct (Z_lt_dec (c_row c) (Z.of_nat (dv_rows d))) as [A2|A2]; [destruct (Z_le_dec 0 (c_col c)) as [A3|A3]; [destruct (Z_lt_dec (c_col c) (Z.of_nat (dv_cols d))) as [A4|A4]|]|]|]; try (split; lia);
      exfalso; rewrite (core_type_out_of_grid d c HS) in H by lia; discriminate. }
  assert (K : getCoreType d c = Ok (layout (dv_arch d) (c_row c) (c_col c))).
  { assert (K := core_type_in_grid d (mkCoord 0 (c_row c) (c_col c)) HS). unfold getCoreType in *. cbn [c_row c_col] in K. apply K. pose proof (supported_wf d HS) as (W & _). destruct G. unfold in_grid. cbn [c_dev c_row c_col]. lia. }
  rewrite K in H. injection H as <-. unfold core_at. split; [intros [_ <-]; reflexivity|intros ->; split; [exact G|reflexivity]].
Qed.

Lemma made_supported d : made d -> supported d.
Proof. intros [name H]. exists name. apply createDeviceModel_iff. exact H. Qed.

Section Bytes.
  Context (A : arith) (d : device) (HS : supported d) (id : Z).
  Notation tr := (transfer (F A)).
  Lemma counts_iff (t : tr) : counts_for A id t = true <-> issued id t.
  Proof. unfold counts_for, issued. lia. Qed.
  Lemma dram_counted ts : forall rw, dram_bytes A d id ts = Ok rw -> exists r w, sum_over (fun t => issued id t /\ uses_dram d t) t_bytes ts (r + w) /\ rw = (u64 r, u64 w).
  Proof.
    unfold dram_bytes. induction ts as [|t ts IH] using rev_ind; intros rw H.
    - injection H as <-. exists 0, 0. split; [constructor|reflexivity].
    - rewrite foldM_snoc in H. apply bind_ok in H as (rw1 & H1 & H). destruct (IH _ H1) as (r & w & S & ->). destruct (sum_snoc t_bytes _ _ _ t S) as [TK SK]. cbn [fst snd] in H.
      assert (U : forall a b, u64 (u64 a + b) = u64 (a + b)) by (intros a b; unfold u64; apply Zplus_mod_idemp_l).
      destruct (counts_for A id t) eqn:EC; [|injection H as <-; exists r, w; split; [apply SK; intros [K _]; apply counts_iff in K; congruence|reflexivity]].
      apply counts_iff in EC. apply bind_ok in H as (k & HK & H). pose proof (core_type_at d _ _ HS HK) as CA.
      assert (ND : k <> DRAM -> match t_dst t with
            | Unicast c => let! ty' := getCoreType d c in match ty' with DRAM => Ok (u64 r, u64 (u64 w + t_bytes t)) | _ => Ok (u64 r, u64 w) end
            | Multicast _ => Ok (u64 r, u64 w) end = Ok rw -> exists r w, sum_over (fun t => issued id t /\ uses_dram d t) t_bytes (ts ++ [t]) (r + w) /\ rw = (u64 r, u64 w)).
      { intros NK HD. destruct (t_dst t) as [c|m] eqn:ED.
        - apply bind_ok in HD as (k' & HK' & HD). pose proof (core_type_at d _ _ HS HK') as CA'.
          assert (N : k' <> DRAM -> ~ (issued id t /\ uses_dram d t)).
          { intros NK' [_ [K|(c' & E & K)]]; [apply CA in K; congruence|]. rewrite ED in E. injection E as <-. apply CA' in K. congruence. }
          destruct k'; try (injection HD as <-; exists r, w; split; [apply SK, N; discriminate|reflexivity]).
          injection HD as <-. rewrite U. exists r, (w + t_bytes t). split; [rewrite Z.add_assoc; apply TK; split; [exact EC|]; right; exists c; split; [exact ED|]; apply CA'; reflexivity|reflexivity].
        - injection HD as <-. exists r, w. split; [apply SK; intros [_ [K|(c' & E & _)]]; [apply CA in K; congruence|congruence]|reflexivity]. }
      destruct k; try (apply ND; [discriminate|exact H]). injection H as <-. rewrite U. exists (r + t_bytes t), w. split; [|reflexivity].
      replace (r + t_bytes t + w) with (r + w + t_bytes t) by lia. apply TK. split; [exact EC|]. left. apply CA. reflexivity.
  Qed.
  Lemma coord_eqb_iff a b : coord_eqb a b = true <-> a = b.
  Proof. destruct a as [a1 a2 a3], b as [b1 b2 b3]. unfold coord_eqb. cbn. split; [intros H; f_equal; lia|intros E; injection E; lia]. Qed.
  Lemma eth_put_spec m c b : NoDup (map fst m) -> NoDup (map fst (eth_put m c b)) /\
    (forall c', In c' (map fst (eth_put m c b)) <-> c' = c \/ In c' (map fst m)) /\
    forall c' v, In (c', v) (eth_put m c b) -> (c' <> c /\ In (c', v) m) \/ (c' = c /\ ((~ In c (map fst m) /\ v = u64 b) \/ exists v0, In (c, v0) m /\ v = u64 (v0 + b))).
  Proof.
    induction m as [|[c0 v0] m IH]; intros ND; cbn [eth_put map fst].
    - split; [constructor; [intros []|constructor]|]. split; [intros c'; cbn; intuition congruence|]. intros c' v [E|[]]. injection E as <- <-. right. split; [reflexivity|]. left. split; [intros []|reflexivity].
    - cbn [map fst] in ND. apply NoDup_cons_iff in ND as [N1 N2]. destruct (coord_eqb c0 c) eqn:E.
      + apply coord_eqb_iff in E. subst c0. cbn [map fst]. split; [constructor; assumption|]. split; [intros c'; cbn [In]; intuition congruence|].
        intros c' v [K|K]; [injection K as <- <-; right; split; [reflexivity|]; right; exists v0; split; [left; reflexivity|reflexivity]|].
        left. split; [|right; exact K]. intros ->. apply N1. exact (in_map fst _ _ K).
      + assert (NE : c0 <> c) by (intros ->; rewrite (proj2 (coord_eqb_iff c c) eq_refl) in E; discriminate). destruct (IH N2) as (I1 & I2 & I3). cbn [map fst]. split; [constructor; [rewrite I2; intros [K|K]; congruence|exact I1]|].
        split; [intros c'; cbn [In]; rewrite I2; tauto|]. intros c' v [K|K]; [injection K as <- <-; left; split; [exact NE|left; reflexivity]|].
        destruct (I3 c' v K) as [[K1 K2]|[-> [[K1 K2]|(v1 & K1 & K2)]]]; [left; split; [exact K1|right; exact K2]| |].
        * right. split; [reflexivity|]. left. split; [cbn [In]; tauto|exact K2].
        * right. split; [reflexivity|]. right. exists v1. split; [right; exact K1|exact K2].
  Qed.
  Lemma eth_counted ts : forall m, eth_bytes A d id ts = Ok m -> NoDup (map fst m) /\
    (forall c, In c (map fst m) <-> exists t, In t ts /\ issued id t /\ to_eth d c t) /\
    (forall c v, In (c, v) m -> exists n, sum_over (fun t => issued id t /\ to_eth d c t) t_bytes ts n /\ v = u64 n).
  Proof.
    unfold eth_bytes. induction ts as [|t ts IH] using rev_ind; intros m H.
    - injection H as <-. split; [constructor|]. split; [intros c; split; [intros []|intros (t & [] & _)]|intros c v []].
    - rewrite foldM_snoc in H. apply bind_ok in H as (m1 & H1 & H). destruct (IH _ H1) as (I1 & I2 & I3).
      assert (SKIP : (forall c, ~ (issued id t /\ to_eth d c t)) -> m = m1 -> NoDup (map fst m) /\
        (forall c, In c (map fst m) <-> exists t0, In t0 (ts ++ [t]) /\ issued id t0 /\ to_eth d c t0) /\
        (forall c v, In (c, v) m -> exists n, sum_over (fun t => issued id t /\ to_eth d c t) t_bytes (ts ++ [t]) n /\ v = u64 n)).
      { intros N ->. split; [exact I1|]. split.
        - intros c. rewrite I2. split; intros (t0 & K & K'); exists t0; (split; [|exact K']); [apply in_or_app; auto|]. apply in_app_or in K as [K|[<-|[]]]; [exact K|]. destruct (N c K').
        - intros c v K. destruct (I3 c v K) as (n & S & E). exists n. split; [|exact E]. apply (sum_snoc t_bytes _ _ _ t S). apply N. }
      destruct (counts_for A id t) eqn:EC; [|injection H as <-; apply SKIP; [intros c [K _]; apply counts_iff in K; congruence|reflexivity]]. apply counts_iff in EC.
      destruct (t_dst t) as [c|mc] eqn:ED; [|injection H as <-; apply SKIP; [intros c [_ [K _]]; congruence|reflexivity]].
      apply bind_ok in H as (k & HK & H). pose proof (core_type_at d _ _ HS HK) as CA.
      assert (NK : k <> ETH -> forall c, ~ (issued id t /\ to_eth d c t)). { intros N c' [_ [K1 K2]]. rewrite ED in K1. injection K1 as <-. apply CA in K2. congruence. }
      destruct k; try (injection H as <-; apply SKIP; [apply NK; discriminate|reflexivity]). injection H as <-. destruct (eth_put_spec m1 c (t_bytes t) I1) as (P1 & P2 & P3).
      assert (TE : issued id t /\ to_eth d c t) by (split; [exact EC|split; [exact ED|apply CA; reflexivity]]).
      assert (ONLY : forall c', issued id t /\ to_eth d c' t -> c' = c) by (intros c' [_ [K _]]; congruence).
      split; [exact P1|]. split.
      + intros c'. rewrite P2, I2. split.
        * intros [->|(t0 & K & K')]; [exists t; split; [apply in_or_app; right; left; reflexivity|exact TE]|exists t0; split; [apply in_or_app; auto|exact K']].
        * intros (t0 & K & K'). apply in_app_or in K as [K|[<-|[]]]; [right; exists t0; auto|left; auto].
      + intros c' v K. destruct (P3 c' v K) as [[N K1]|[-> [[N ->]|(v0 & K1 & ->)]]].
        * destruct (I3 c' v K1) as (n & S & E). exists n. split; [|exact E]. apply (sum_snoc t_bytes _ _ _ t S). intros K2. apply N, ONLY, K2.
        * exists (t_bytes t). split; [|reflexivity]. rewrite <- (Z.add_0_l (t_bytes t)). assert (S0 : sum_over (fun t => issued id t /\ to_eth d c t) t_bytes ts 0).
          { assert (NN : forall t0, In t0 ts -> ~ (issued id t0 /\ to_eth d c t0)) by (intros t0 K1 K2; apply N; apply I2; exists t0; auto). clear - NN. induction ts as [|t0 ts IH]; [constructor|]. apply sum_skip; [apply NN; left; reflexivity|]. apply IH. intros t1 K. apply NN. right. exact K. }
          apply (sum_snoc t_bytes _ _ _ t S0). exact TE.
        * destruct (I3 c v0 K1) as (n & S & ->). exists (n + t_bytes t). split; [apply (sum_snoc t_bytes _ _ _ t S); exact TE|]. unfold u64. apply Zplus_mod_idemp_l.
  Qed.
End Bytes.
