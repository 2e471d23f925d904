(* Lemmas: statistics over the runs of a directory (C76). *)
From Coq Require Import ZArith QArith Qabs Lia Lqa Bool String Ascii List Permutation Sorting.Sorted ZifyBool.
From Verif Require Import Util UtilProofs Files SpecFiles Fabric SpecFabric FabricTraces Analyze SpecAnalyze FabricProofs AnalyzeNames AnalyzeGroups.
Import ListNotations.
Local Open Scope list_scope.
Open Scope Z_scope.
Ltac Zify.zify_post_hook ::= idtac.

(** * Lookup *)
Lemma point_eqb_spec a b : point_eqb a b = true <-> a = b.
Proof. destruct a as [u d], b as [v e]. unfold point_eqb. cbn [fst snd]. rewrite andb_true_iff, uid_eqb_spec, Z.eqb_eq. split; [intros [-> ->]; reflexivity|]. intros E. injection E. auto. Qed.
Lemma lor_add32 a d : 0 <= d < 2 ^ 32 -> Z.lor (Z.shiftl a 32) d = a * 2 ^ 32 + d.
Proof.
  intros H. assert (L : Z.land (Z.shiftl a 32) d = 0).
  { apply Z.bits_inj'. intros n Hn. rewrite Z.land_spec, Z.bits_0. destruct (Z.ltb_spec n 32).
    - rewrite Z.shiftl_spec_low by lia. reflexivity.
    - destruct (Z.eq_dec d 0) as [->|]; [rewrite Z.bits_0; apply andb_false_r|]. rewrite (Z.bits_above_log2 d n); [apply andb_false_r|lia|].
      apply Z.log2_lt_pow2; [lia|]. apply Z.lt_le_trans with (2 ^ 32); [lia|]. apply Z.pow_le_mono_r; lia. }
  rewrite <- Z.lxor_lor by exact L. rewrite <- Z.add_nocarry_lxor by exact L. rewrite Z.shiftl_mul_pow2 by lia. lia.
Qed.
Theorem lookup m p trace session op s : NoDup (map fst m) -> 0 <= session < 2 ^ 32 ->
  (getDatapointByID m p trace session = Some (op, s) <->
   in_points m (mkUid (p / 1024) (match trace with Some t => Some (t * 2 ^ 32 + session) | None => None end)) (p mod 1024) op s).
Proof.
  intros ND S. unfold getDatapointByID, in_points. rewrite (dict_get_iff point_eqb point_eqb_spec m _ _ ND). rewrite ttnn_div.
  assert (L : get_device_id p = p mod 1024) by (unfold get_device_id; change 1023 with (Z.ones 10); rewrite Z.land_ones by lia; reflexivity). rewrite L.
  destruct trace as [t|]; [rewrite (lor_add32 _ _ S)|]; reflexivity.
Qed.
(** * Sums *)
Lemma qsum_acc l : forall a, (fold_left Qplus l a == a + fold_right Qplus 0 l)%Q.
Proof. induction l as [|x l IH]; intros a; cbn [fold_left fold_right]; [lra|]. rewrite IH. lra. Qed.
Lemma qsum_eq l : (qsum l == fold_right Qplus 0 l)%Q. Proof. unfold qsum. rewrite qsum_acc. lra. Qed.
Lemma qsum_perm {X} (f : X -> Q) l l' : Permutation l l' -> (qsum (map f l) == qsum (map f l'))%Q.
Proof. rewrite !qsum_eq. induction 1; cbn [map fold_right] in *; lra. Qed.
Lemma cycles_acc l : forall a, fold_left (fun n d => n + golden d) l a = a + fold_right Z.add 0 (map golden l).
Proof. induction l as [|x l IH]; intros a; cbn [fold_left fold_right map]; [lia|]. rewrite IH. lia. Qed.
Lemma cycles_eq m : getCycles m = fold_right Z.add 0 (map golden m). Proof. unfold getCycles. rewrite cycles_acc. lia. Qed.
Lemma cycles_perm m m' : Permutation m m' -> getCycles m = getCycles m'.
Proof. rewrite !cycles_eq. induction 1; cbn [map fold_right] in *; lia. Qed.
Lemma cycles_nonneg m : (forall d, In d m -> 0 <= golden d) -> 0 <= getCycles m.
Proof. rewrite cycles_eq. induction m as [|d m IH]; cbn [map fold_right]; intros H; [lia|]. specialize (IH (fun x I => H x (or_intror I))). specialize (H d (or_introl eq_refl)). lia. Qed.
Lemma py_div_val a n v : py_div a n = Val v <-> n <> 0 /\ v = Qdiv a (inject_Z n).
Proof. unfold py_div. destruct (Z.eqb_spec n 0); split; [discriminate|intros [? ?]; congruence| |intros [_ ->]; reflexivity]. intros H. injection H as <-. auto. Qed.
Lemma injZ n : 0 < n -> (0 < inject_Z n)%Q. Proof. intros H. unfold Qlt. cbn. lia. Qed.
Lemma injZ0 n : 0 <= n -> (0 <= inject_Z n)%Q. Proof. intros H. unfold Qle. cbn. lia. Qed.
Lemma weighted_bounds f m lo hi : (forall d, In d m -> 0 <= golden d /\ (lo <= f (point_stats d) <= hi)%Q) ->
  (lo * inject_Z (getCycles m) <= qsum (map (fun d => f (point_stats d) * inject_Z (golden d)) m) <= hi * inject_Z (getCycles m))%Q.
Proof.
  rewrite qsum_eq, cycles_eq. induction m as [|d m IH]; intros H; cbn [map fold_right]; [change (inject_Z 0) with 0%Q; split; lra|].
  specialize (IH (fun x I => H x (or_intror I))). destruct (H d (or_introl eq_refl)) as [G B]. rewrite inject_Z_plus. pose proof (injZ0 _ G) as P.
  set (w := inject_Z (golden d)) in *. set (x := f (point_stats d)) in *. set (T := inject_Z (fold_right Z.add 0 (map golden m))) in *.
  assert (lo * w <= x * w)%Q by (apply Qmult_le_compat_r; lra). assert (x * w <= hi * w)%Q by (apply Qmult_le_compat_r; lra). split; lra.
Qed.
Theorem weighted_spec f m v : weighted f m = Val v -> (forall d, In d m -> 0 <= golden d) ->
  (forall lo hi, (forall d, In d m -> (lo <= f (point_stats d) <= hi)%Q) -> (lo <= v <= hi)%Q) /\
  (v * inject_Z (getCycles m) == qsum (map (fun d => f (point_stats d) * inject_Z (golden d)) m))%Q /\
  (forall m', Permutation m m' -> exists v', weighted f m' = Val v' /\ (v' == v)%Q).
Proof.
  unfold weighted. intros H G. apply py_div_val in H. destruct H as [N ->]. pose proof (cycles_nonneg m G) as C. assert (P : (0 < inject_Z (getCycles m))%Q) by (apply injZ; lia).
  split; [|split].
  - intros lo hi B. destruct (weighted_bounds f m lo hi (fun d I => conj (G d I) (B d I))) as [L U]. split; [apply Qle_shift_div_l|apply Qle_shift_div_r]; assumption.
  - rewrite Qmult_comm. apply Qmult_div_r. lra.
  - intros m' PM. rewrite <- (cycles_perm _ _ PM). exists (qsum (map (fun d => f (point_stats d) * inject_Z (golden d)) m') / inject_Z (getCycles m))%Q. split; [apply py_div_val; auto|].
    rewrite (qsum_perm _ _ _ PM). reflexivity.
Qed.
(** * Sorting *)
Lemma Qlt_bool_iff a b : Qlt_bool a b = true <-> (a < b)%Q.
Proof. unfold Qlt_bool. rewrite negb_true_iff. rewrite <- not_true_iff_false, Qle_bool_iff. split; [apply Qnot_le_lt|apply Qlt_not_le]. Qed.
Lemma qsort_sorted l : StronglySorted Qle (sort Qlt_bool l).
Proof.
  assert (S : stably_sorted Qlt l (sort Qlt_bool l)).
  { apply sort_stable; [apply Qlt_bool_iff| |]; intros a b; [lra|]. intros c. intros A B. lra. }
  destruct S as (_ & S & _). eapply StronglySorted_ind with (P := fun l => StronglySorted Qle l); [constructor| |exact S]. intros a l' H IH F. constructor; [exact IH|].
  eapply Forall_impl; [|exact F]. intros b. cbn. lra.
Qed.
Lemma key_order a b : 0 < golden a -> 0 < golden b -> ((cycle_key a < cycle_key b)%Q <-> golden b < golden a).
Proof.
  intros A B. unfold cycle_key. destruct (golden a) as [|p|p]; try lia. destruct (golden b) as [|q|q]; try lia. unfold Qlt, Qdiv, Qinv, Qmult, inject_Z. cbn. lia.
Qed.
Theorem sorted_events m : (forall d, In d m -> 0 <= golden d) ->
  (getSortedEvents m = Raised "ZeroDivisionError" <-> exists d, In d m /\ golden d = 0) /\
  (forall r, getSortedEvents m = Val r -> stably_sorted (fun a b => golden b < golden a) m r).
Proof.
  intros G. unfold getSortedEvents. destruct (existsb (fun d => golden d =? 0) m) eqn:E.
  - split; [|discriminate]. split; [|reflexivity]. intros _. apply existsb_exists in E. destruct E as (d & I & Z0). exists d. split; [exact I|lia].
  - assert (P : forall d, In d m -> 0 < golden d).
    { intros d I. specialize (G d I). destruct (Z.eq_dec (golden d) 0) as [Z0|]; [|lia]. exfalso. assert (X : existsb (fun d => golden d =? 0) m = true) by (apply existsb_exists; exists d; split; [exact I|lia]). congruence. }
    split; [split; [discriminate|]; intros (d & I & Z0); specialize (P d I); lia|]. intros r H. injection H as <-.
    assert (S : stably_sorted (fun a b => (cycle_key a < cycle_key b)%Q) m (sort (fun a b => Qlt_bool (cycle_key a) (cycle_key b)) m)).
    { apply sort_stable; [intros; apply Qlt_bool_iff| |]; intros a b; [lra|]. intros c A B. lra. }
    destruct S as (S1 & S2 & S3). split; [exact S1|].
    assert (P' : Forall (fun d => 0 < golden d) (sort (fun a b => Qlt_bool (cycle_key a) (cycle_key b)) m)).
    { apply Forall_forall. intros d I. apply P. eapply Permutation_in; [symmetry; exact S1|exact I]. }
    assert (S2' : StronglySorted (fun a b => ~ golden a < golden b) (sort (fun a b => Qlt_bool (cycle_key a) (cycle_key b)) m)).
    { clear S1 S3. induction S2 as [|a l S2 IH F]; [constructor|]. apply Forall_cons_iff in P'. destruct P' as [PA PL]. constructor; [exact (IH PL)|]. rewrite Forall_forall in *. intros b I. specialize (F b I). cbn in F. rewrite key_order in F; auto. }
    split; [exact S2'|]. intros x Pf HP. clear S2 S2'.
    set (n := golden x) in *. assert (E1 : forall l, Forall (fun d => 0 < golden d) l -> filter Pf l = filter (fun y => golden y =? n) l).
    { intros l _. apply filter_ext. intros y. specialize (HP y). destruct (Pf y), (Z.eqb_spec (golden y) n); try reflexivity; [destruct (proj1 HP eq_refl); lia|]. exfalso. assert (X : false = true) by (apply HP; lia). discriminate. }
    assert (FM : Forall (fun d => 0 < golden d) m) by (apply Forall_forall; exact P).
    rewrite (E1 _ FM), (E1 _ P'). destruct (Z.ltb_spec 0 n).
    + assert (E2 : forall l, Forall (fun d => 0 < golden d) l -> filter (fun y => golden y =? n) l = filter (fun y => Qeq_bool (cycle_key x) (cycle_key y)) l).
      { intros l F. induction F as [|y l Y F IH]; [reflexivity|]. cbn [filter]. rewrite IH. pose proof (key_order x y ltac:(lia) Y) as K1. pose proof (key_order y x Y ltac:(lia)) as K2.
        destruct (Z.eqb_spec (golden y) n) as [e|e]; destruct (Qeq_bool (cycle_key x) (cycle_key y)) eqn:Q; try reflexivity; exfalso.
        - assert (X : ~ (cycle_key x == cycle_key y)%Q) by (intros X; apply Qeq_bool_iff in X; congruence). apply X. assert (~ (cycle_key x < cycle_key y)%Q) by (rewrite K1; lia). assert (~ (cycle_key y < cycle_key x)%Q) by (rewrite K2; lia). lra.
        - apply Qeq_bool_iff in Q. assert (~ (cycle_key x < cycle_key y)%Q) by lra. assert (~ (cycle_key y < cycle_key x)%Q) by lra. rewrite K1 in *. rewrite K2 in *. lia. }
      rewrite (E2 _ FM), (E2 _ P'). apply (S3 x). intros y. rewrite Qeq_bool_iff. split; [intros; split; lra|intros [A B]; lra].
    + assert (E3 : forall l, Forall (fun d => 0 < golden d) l -> filter (fun y => golden y =? n) l = []).
      { intros l F. induction F as [|y l Y F IH]; [reflexivity|]. cbn [filter]. rewrite IH. destruct (Z.eqb_spec (golden y) n); [lia|reflexivity]. }
      rewrite (E3 _ FM), (E3 _ P'). reflexivity.
Qed.
(** * Percentiles *)
Lemma count_app {X} (f : X -> bool) a b : count f (a ++ b) = (count f a + count f b)%nat.
Proof. induction a as [|x a IH]; [reflexivity|]. cbn [app count]. rewrite IH. lia. Qed.
Lemma count_perm {X} (f : X -> bool) a b : Permutation a b -> count f a = count f b.
Proof. induction 1; cbn [count] in *; lia. Qed.
Lemma count_le {X} (f : X -> bool) l : (count f l <= List.length l)%nat.
Proof. induction l as [|x l IH]; cbn [count List.length]; [lia|]. destruct (f x); lia. Qed.
Lemma count_all {X} (f : X -> bool) l : (forall x, In x l -> f x = true) -> count f l = List.length l.
Proof. induction l as [|x l IH]; intros H; [reflexivity|]. cbn [count List.length]. rewrite (H x) by (left; reflexivity). rewrite IH by (intros; apply H; right; assumption). lia. Qed.
Lemma count_none {X} (f : X -> bool) l : (forall x, In x l -> f x = false) -> count f l = O.
Proof. induction l as [|x l IH]; intros H; [reflexivity|]. cbn [count]. rewrite (H x) by (left; reflexivity). rewrite IH by (intros; apply H; right; assumption). lia. Qed.
Lemma sorted_split l : StronglySorted Qle l -> forall a v b, l = a ++ v :: b -> (forall x, In x a -> (x <= v)%Q) /\ (forall x, In x b -> (v <= x)%Q).
Proof.
  induction 1 as [|y l S IH F]; intros a v b E; [destruct a; discriminate|]. rewrite Forall_forall in F. destruct a as [|z a]; cbn [app] in E; injection E as -> ->.
  - split; [intros ? []|exact F].
  - destruct (IH _ _ _ eq_refl) as [A B]. split; [|exact B]. intros x [<-|I]; [apply F; apply in_or_app; right; left; reflexivity|exact (A _ I)].
Qed.
Lemma nth_quantile l k v : nth_error (sort Qlt_bool l) k = Some v -> quantile l k v.
Proof.
  intros H. destruct (nth_error_split _ _ H) as (a & b & E & L). destruct (sorted_split _ (qsort_sorted l) _ _ _ E) as [A B].
  assert (P : Permutation l (a ++ v :: b)) by (rewrite <- E; apply sort_perm). split.
  - exists v. split; [|reflexivity]. eapply Permutation_in; [symmetry; exact P|]. apply in_or_app. right. left. reflexivity.
  - rewrite !(count_perm _ _ _ P), !count_app. cbn [count]. assert (VV : Qle_bool v v = true) by (apply Qle_bool_iff; lra). rewrite VV. cbn [negb].
    rewrite (count_none (fun x => negb (Qle_bool v x)) b) by (intros x I; apply negb_false_iff, Qle_bool_iff; auto). rewrite (count_all (fun x => Qle_bool x v) a) by (intros x I; apply Qle_bool_iff; auto).
    pose proof (count_le (fun x => negb (Qle_bool v x)) a). lia.
Qed.
Lemma rev_last {X} (l : list X) d r : rev l = d :: r -> nth_error l (List.length l - 1) = Some d.
Proof.
  intros H. assert (E : l = rev r ++ [d]) by (rewrite <- (rev_involutive l), H; reflexivity). rewrite E, app_length. cbn [List.length]. replace (List.length (rev r) + 1 - 1)%nat with (List.length (rev r)) by lia.
  rewrite nth_error_app2, Nat.sub_diag by lia. reflexivity.
Qed.
Theorem percentiles m : m <> [] -> exists a b c d, getErrorPercentiles m = Val (a, b, c, d) /\
  let n := List.length m in
  quantile (errors m) (n / 4) a /\ quantile (errors m) (n / 2) b /\ quantile (errors m) (3 * n / 4) c /\ (forall e, In e (errors m) -> (e <= d)%Q) /\ (exists e, In e (errors m) /\ (e == d)%Q) /\
  (a <= b <= c)%Q /\ (c <= d)%Q.
Proof.
  intros N. unfold getErrorPercentiles. change (map abs_error m) with (errors m). set (s := sort Qlt_bool (errors m)). set (n := List.length m).
  assert (P : Permutation (errors m) s) by apply sort_perm. assert (L : List.length s = n) by (rewrite <- (Permutation_length P); unfold errors; apply map_length). rewrite L.
  assert (NZ : (0 < n)%nat) by (destruct m; [congruence|cbn [List.length] in n; subst n; cbn; lia]).
  assert (B1 : (n / 4 <= n / 2)%nat) by (apply Nat.div_le_lower_bound; [lia|]; pose proof (Nat.div_mod n 4 ltac:(lia)); lia).
  assert (B2 : (n / 2 <= 3 * n / 4)%nat) by (apply Nat.div_le_lower_bound; [lia|]; pose proof (Nat.div_mod n 2 ltac:(lia)); lia).
  assert (B3 : (3 * n / 4 <= n - 1)%nat) by (assert (3 * n / 4 < n)%nat by (apply Nat.div_lt_upper_bound; lia); lia).
  assert (G : forall k, (k <= n - 1)%nat -> exists v, nth_error s k = Some v) by (intros k K; destruct (nth_error s k) eqn:E; [eauto|]; apply nth_error_None in E; lia).
  assert (M : forall i j x y, (i <= j)%nat -> nth_error s i = Some x -> nth_error s j = Some y -> (x <= y)%Q).
  { intros i j x y I X Y. destruct (nth_error_split _ _ X) as (p & q & E & LP). destruct (sorted_split _ (qsort_sorted _) _ _ _ E) as [_ B].
    destruct (Nat.eq_dec i j) as [->|]; [assert (x = y) by congruence; subst; lra|]. apply B. fold s in E. rewrite E in Y. rewrite nth_error_app2 in Y by lia. destruct (j - List.length p)%nat as [|k] eqn:K; [lia|]. cbn in Y. exact (nth_error_In _ _ Y). }
  destruct (G (n / 4)%nat ltac:(lia)) as (a & A). destruct (G (n / 2)%nat ltac:(lia)) as (b & B). destruct (G (3 * n / 4)%nat ltac:(lia)) as (c & C).
  destruct (rev s) as [|d r] eqn:R; [exfalso; apply (f_equal (@List.length _)) in R; rewrite rev_length in R; cbn in R; lia|]. pose proof (rev_last _ _ _ R) as D. rewrite L in D.
  exists a, b, c, d. unfold list_item. rewrite A, B, C. cbn [pbind]. split; [reflexivity|]. cbn zeta.
  split; [apply nth_quantile; exact A|]. split; [apply nth_quantile; exact B|]. split; [apply nth_quantile; exact C|]. split; [|split; [|split]].
  - intros e I. apply (Permutation_in _ P) in I. destruct (In_nth_error _ _ I) as (k & K). assert (k < n)%nat by (rewrite <- L; apply nth_error_Some; congruence). apply (M k (n - 1)%nat); [lia|exact K|exact D].
  - exists d. split; [|reflexivity]. eapply Permutation_in; [symmetry; exact P|]. exact (nth_error_In _ _ D).
  - split; [exact (M _ _ _ _ B1 A B)|exact (M _ _ _ _ B2 B C)].
  - exact (M _ _ _ _ B3 C D).
Qed.
(** * The table *)
Lemma rows_spec total l rows : rows_of total l = Val rows -> l = [] \/ total <> 0 ->
  map (fun r => fst r) rows = map (fun d => (fst (snd d), fst (fst d), snd (fst d))) l /\
  (total <> 0 -> (qsum (map snd rows) * inject_Z total == 100 * inject_Z (getCycles l))%Q) /\
  Forall2 (fun d (r : string * op_uid * Z * Q) => (snd r * inject_Z total == 100 * inject_Z (golden d))%Q) l rows.
Proof.
  revert rows. induction l as [|d l IH]; intros rows H T; cbn [rows_of] in H.
  - injection H as <-. split; [reflexivity|]. split; [intros _; reflexivity|constructor].
  - apply (proj1 (pbind_val _ _ _)) in H. destruct H as (p & P & H). apply (proj1 (pbind_val _ _ _)) in H. destruct H as (r & R & H). injection H as <-.
    apply py_div_val in P. destruct P as [NZ ->]. destruct (IH _ R (or_intror NZ)) as (I1 & I2 & I3).
    assert (Q0 : ~ (inject_Z total == 0)%Q) by (intros E; apply NZ; unfold Qeq in E; cbn in E; lia).
    assert (E : (100 * (inject_Z (golden d) / inject_Z total) * inject_Z total == 100 * inject_Z (golden d))%Q) by (field; exact Q0).
    split; [cbn [map fst]; rewrite I1; reflexivity|]. split.
    + intros _. specialize (I2 NZ). rewrite qsum_eq, cycles_eq in *. cbn [map fold_right snd]. rewrite inject_Z_plus, Qmult_plus_distr_l, I2, E. ring.
    + constructor; [exact E|exact I3].
Qed.
Theorem table m show k s : print_stats_summary_table m show k = Val s -> (forall d, In d m -> 0 <= golden d) ->
  m <> [] /\ (exists r, stably_sorted (fun a b => golden b < golden a) m r /\
    Forall2 (fun d (row : string * op_uid * Z * Q) => fst row = (fst (snd d), fst (fst d), snd (fst d)) /\ (snd row * inject_Z (getCycles m) == 100 * inject_Z (golden d))%Q) (firstn k r) (sm_rows s)) /\
  (List.length (sm_rows s) + sm_omitted s = List.length m)%nat /\ ((List.length m <= k)%nat -> (qsum (map snd (sm_rows s)) == 100)%Q).
Proof.
  unfold print_stats_summary_table. intros H G. apply (proj1 (pbind_val _ _ _)) in H. destruct H as (r & R & H). apply (proj1 (pbind_val _ _ _)) in H. destruct H as (rows & RW & H).
  apply (proj1 (pbind_val _ _ _)) in H. destruct H as (acc & _ & H). apply (proj1 (pbind_val _ _ _)) in H. destruct H as (a & A & H). apply (proj1 (pbind_val _ _ _)) in H. destruct H as (b & B & H).
  apply (proj1 (pbind_val _ _ _)) in H. destruct H as (c & _ & H). apply (proj1 (pbind_val _ _ _)) in H. destruct H as (e & _ & H). injection H as <-. cbn [sm_rows sm_omitted].
  apply py_div_val in A. destruct A as [NL _]. unfold getWeightedAvgLinkUtil, weighted in B. apply py_div_val in B. destruct B as [NC _].
  pose proof (proj2 (sorted_events m G) r R) as S. pose proof (Permutation_length (proj1 S)) as LP.
  destruct (rows_spec _ _ _ RW (or_intror NC)) as (R1 & R2 & R3). assert (LR : List.length rows = List.length (firstn k r)) by (rewrite <- (map_length (fun x => fst x) rows), R1; apply map_length).
  split; [destruct m; [cbn in NL; lia|discriminate]|]. split; [exists r; split; [exact S|]|split].
  - clear - R1 R3. revert R1. induction R3 as [|d row l rows E F IH]; intros R1; [constructor|]. cbn [map] in R1. injection R1 as R1 R1'. constructor; [split; [rewrite <- R1; reflexivity|exact E]|exact (IH R1')].
  - rewrite LR, firstn_length. lia.
  - intros K. rewrite firstn_all2 in R2 by lia. specialize (R2 NC). rewrite <- (cycles_perm _ _ (proj1 S)) in R2.
    assert (Q0 : ~ (inject_Z (getCycles m) == 0)%Q) by (intros E; apply NC; unfold Qeq in E; cbn in E; lia).
    apply (Qmult_inj_r _ _ (inject_Z (getCycles m)) Q0). exact R2.
Qed.
Theorem table_empty show k : print_stats_summary_table [] show k = Raised "ZeroDivisionError".
Proof. destruct show, k; reflexivity. Qed.
Theorem table_zero m show k d : In d m -> golden d = 0 -> print_stats_summary_table m show k = Raised "ZeroDivisionError".
Proof. intros I Z0. unfold print_stats_summary_table, getSortedEvents. assert (E : existsb (fun d => golden d =? 0) m = true) by (apply existsb_exists; exists d; split; [exact I|lia]). rewrite E. reflexivity. Qed.
