(* Proofs about Grid.v (C97). *)
From Coq Require Import ZArith Arith String List Bool Lia ZifyBool ZifyNat Sorting.Permutation.
From Verif Require Import Base Util Device Rates Grid SpecGrid UtilProofs TrackerProofs.
Import ListNotations.
Local Open Scope list_scope.
Open Scope Z_scope.
Ltac Zify.zify_post_hook ::= idtac.

(** * Positions *)
Lemma row_major cols r c r' c' : 0 <= c < cols -> 0 <= c' < cols -> r * cols + c = r' * cols + c' -> r = r' /\ c = c'.
Proof. intros H H' E. assert (r = r') by nia. subst r'. split; [reflexivity|lia]. Qed.
Lemma row_bound rows cols r c : 0 <= r < rows -> 0 <= c < cols -> 0 <= r * cols + c < rows * cols.
Proof. intros. nia. Qed.
Lemma row_bound3 rows cols items r c i : 0 <= r < rows -> 0 <= c < cols -> 0 <= i < items -> 0 <= r * (cols * items) + c * items + i < rows * cols * items.
Proof.
  intros H1 H2 H3. pose proof (row_bound cols items c i H2 H3) as B. pose proof (row_bound rows (cols * items) r (c * items + i) H1 B) as B2.
  replace (rows * cols * items) with (rows * (cols * items)) by ring. lia.
Qed.
Lemma same2_spec p q : same2 p q = true <-> p = q.
Proof. destruct p, q. unfold same2. cbn. split; [intros; f_equal; lia|intros H; injection H as <- <-; lia]. Qed.
Lemma same3_spec p q : same3 p q = true <-> p = q.
Proof. destruct p as [[? ?] ?], q as [[? ?] ?]. unfold same3. cbn. split; [intros; f_equal; [f_equal|]; lia|intros H; injection H as <- <- <-; lia]. Qed.

Lemma upd_len {X} (l : list X) n a : List.length (upd l n a) = List.length l.
Proof. revert n. induction l as [|x l IH]; intros [|n]; cbn; auto. Qed.
Lemma nth_repeat_lt {X} (v : X) n k : (k < n)%nat -> nth_error (repeat v n) k = Some v.
Proof. revert k. induction n as [|n IH]; intros [|k] H; cbn; try lia; [reflexivity|]. apply IH. lia. Qed.

(** * Two dimensions *)
Section Two.
  Context {T : Type} (rows cols : Z) (H0 : 0 <= rows) (H1 : 0 <= cols) (HB : rows * cols < 2 ^ 64).
  Definition holds2 (g : grid2 T) (f : pos2 -> T) : Prop :=
    g2_rows g = rows /\ g2_cols g = cols /\ List.length (g2_data g) = Z.to_nat (rows * cols) /\
    forall r c, inside2 rows cols (r, c) -> nth_error (g2_data g) (Z.to_nat (r * cols + c)) = Some (f (r, c)).

  Lemma new_holds v : holds2 (g2_new rows cols v) (fun _ => v).
  Proof.
    unfold g2_new, holds2. cbn [g2_rows g2_cols g2_data]. rewrite u64_id by nia. rewrite repeat_length. repeat split. intros r c [Hr Hc]. cbn [fst snd] in *.
    apply nth_repeat_lt. pose proof (row_bound rows cols r c Hr Hc). lia.
  Qed.
  Lemma in_holds g f r c : holds2 g f -> 0 <= r -> 0 <= c -> (g2_in g r c = true /\ inside2 rows cols (r, c)) \/ (g2_in g r c = false /\ ~ inside2 rows cols (r, c)).
  Proof. intros (E1 & E2 & _) Hr Hc. unfold g2_in, inside2. rewrite E1, E2. cbn [fst snd]. lia. Qed.
  Lemma index_holds g f r c : holds2 g f -> inside2 rows cols (r, c) -> g2_index g r c = r * cols + c /\ 0 <= r * cols + c < rows * cols.
  Proof.
    intros (_ & E2 & _) [Hr Hc]. cbn [fst snd] in *. pose proof (row_bound rows cols r c Hr Hc) as B. unfold g2_index. rewrite E2. split; [|exact B]. apply u64_id. lia.
  Qed.
  Lemma get_holds g f r c : holds2 g f -> inside2 rows cols (r, c) -> g2_get g r c = Ok (f (r, c)).
  Proof.
    intros H I. assert (P : 0 <= r /\ 0 <= c) by (unfold inside2 in I; cbn [fst snd] in I; lia). destruct (in_holds g f r c H (proj1 P) (proj2 P)) as [[E _]|[_ N]]; [|contradiction].
    destruct (index_holds g f r c H I) as [EI B]. unfold g2_get, grid_get, vec_get. rewrite E, EI. destruct (Z.ltb_spec (r * cols + c) 0); [lia|]. destruct H as (_ & _ & _ & N). rewrite (N r c I). reflexivity.
  Qed.
  Lemma set_holds g f r c v : holds2 g f -> inside2 rows cols (r, c) -> exists g', g2_set g r c v = Ok g' /\ holds2 g' (fun q => if same2 q (r, c) then v else f q).
  Proof.
    intros H I. assert (P : 0 <= r /\ 0 <= c) by (unfold inside2 in I; cbn [fst snd] in I; lia). destruct (in_holds g f r c H (proj1 P) (proj2 P)) as [[E _]|[_ N]]; [|contradiction].
    destruct (index_holds g f r c H I) as [EI B]. unfold g2_set, grid_mod, vec_mod. rewrite E, EI. destruct (Z.ltb_spec (r * cols + c) 0); [lia|]. pose proof H as (R1 & R2 & L & N). rewrite (N r c I). cbn [bind].
    eexists. split; [reflexivity|]. unfold holds2. cbn [g2_rows g2_cols g2_data]. split; [exact R1|]. split; [exact R2|]. split; [rewrite upd_len; exact L|]. intros r' c' I'.
    destruct (index_holds g f r' c' H I') as [_ B']. rewrite upd_nth. destruct (same2 (r', c') (r, c)) eqn:ES.
    - apply same2_spec in ES. injection ES as -> ->. rewrite Nat.eqb_refl, (N r c I). reflexivity.
    - destruct (Nat.eqb_spec (Z.to_nat (r * cols + c)) (Z.to_nat (r' * cols + c'))) as [EQ|_]; [|apply N; exact I']. exfalso.
      assert (EQ' : r * cols + c = r' * cols + c') by lia. destruct I as [_ IC], I' as [_ IC']. cbn [snd] in *. destruct (row_major _ _ _ _ _ IC IC' EQ') as [-> ->].
      assert (same2 (r', c') (r', c') = true) by (apply same2_spec; reflexivity). congruence.
  Qed.
  Lemma reset_holds g f v : holds2 g f -> holds2 (g2_reset g v) (fun _ => v).
  Proof.
    intros (R1 & R2 & L & N). unfold holds2, g2_reset. cbn [g2_rows g2_cols g2_data]. split; [exact R1|]. split; [exact R2|]. split; [rewrite map_length; exact L|]. intros r c I.
    rewrite nth_error_map, (N r c I). reflexivity.
  Qed.
  Lemma holds_ext g f f' : (forall p, f p = f' p) -> holds2 g f -> holds2 g f'.
  Proof. intros E (R1 & R2 & L & N). split; [exact R1|]. split; [exact R2|]. split; [exact L|]. intros r c I. rewrite <- E. exact (N r c I). Qed.
  Lemma run_holds ops : (forall p v, In (Put p v) ops -> inside2 rows cols p) -> forall g f, holds2 g f ->
    exists g', foldM apply2 ops g = Ok g' /\ holds2 g' (fun p => value same2 ops (f p) p).
  Proof.
    induction ops as [|o ops IH]; intros HI g f H; cbn [foldM value]; [eauto|]. destruct o as [[r c] v|v]; cbn [apply2 fst snd].
    - destruct (set_holds g f r c v H (HI _ v (or_introl eq_refl))) as (g1 & -> & H'). cbn [bind]. apply (IH (fun p w Hw => HI p w (or_intror Hw)) g1 _ H').
    - cbn [bind]. apply (IH (fun p w Hw => HI p w (or_intror Hw)) _ _ (reset_holds g f v H)).
  Qed.
End Two.

Theorem grid2_stores {T} rows cols (v0 : T) ops : 0 <= rows -> 0 <= cols -> rows * cols < 2 ^ 64 -> (forall p v, In (Put p v) ops -> inside2 rows cols p) ->
  exists g, foldM apply2 ops (g2_new rows cols v0) = Ok g /\ g2_size g = rows * cols /\
    (forall r c, inside2 rows cols (r, c) -> g2_get g r c = Ok (value same2 ops v0 (r, c))) /\
    (forall r c v, 0 <= r -> 0 <= c -> ~ inside2 rows cols (r, c) -> g2_get g r c = Abort /\ g2_set g r c v = Abort).
Proof.
  intros H0 H1 HB HI. destruct (run_holds rows cols HB ops HI _ _ (new_holds rows cols H0 H1 HB v0)) as (g & HR & HG). exists g. split; [exact HR|]. split; [|split].
  - destruct HG as (R1 & R2 & _). unfold g2_size. rewrite R1, R2. apply u64_id. nia.
  - intros r c I. apply (get_holds rows cols HB g _ r c HG I).
  - intros r c v Hr Hc N. destruct (in_holds rows cols g _ r c HG Hr Hc) as [[_ I]|[E _]]; [contradiction|]. unfold g2_get, g2_set. rewrite E. split; reflexivity.
Qed.

(** * Three dimensions *)
Section Three.
  Context {T : Type} (rows cols items : Z) (H0 : 0 <= rows) (H1 : 0 <= cols) (H2 : 0 <= items) (HB : rows * cols * items < 2 ^ 64) (HB2 : cols * items < 2 ^ 64).
  Definition at3 (r c i : Z) : Z := r * (cols * items) + c * items + i.
  Definition holds3 (g : grid3 T) (f : pos3 -> T) : Prop :=
    g3_rows g = rows /\ g3_cols g = cols /\ g3_items g = items /\ g3_rowsize g = cols * items /\ List.length (g3_data g) = Z.to_nat (rows * cols * items) /\
    forall r c i, inside3 rows cols items (r, c, i) -> nth_error (g3_data g) (Z.to_nat (at3 r c i)) = Some (f (r, c, i)).

  Lemma at3_bound r c i : inside3 rows cols items (r, c, i) -> 0 <= at3 r c i < rows * cols * items.
  Proof. intros (Hr & Hc & Hi). cbn [fst snd] in *. apply row_bound3; assumption. Qed.
  Lemma at3_inj r c i r' c' i' : inside3 rows cols items (r, c, i) -> inside3 rows cols items (r', c', i') -> at3 r c i = at3 r' c' i' -> (r, c, i) = (r', c', i').
  Proof.
    intros (Hr & Hc & Hi) (Hr' & Hc' & Hi') E. cbn [fst snd] in *. unfold at3 in E. pose proof (row_bound cols items c i Hc Hi) as B. pose proof (row_bound cols items c' i' Hc' Hi') as B'.
    destruct (row_major (cols * items) r (c * items + i) r' (c' * items + i') B B' ltac:(lia)) as [-> E2]. destruct (row_major items c i c' i' Hi Hi' E2) as [-> ->]. reflexivity.
  Qed.
  Lemma new_holds3 v : holds3 (g3_new rows cols items v) (fun _ => v).
  Proof.
    unfold g3_new, holds3. cbn [g3_rows g3_cols g3_items g3_rowsize g3_data]. assert (P : 0 <= rows * cols) by nia. rewrite (u64_id (rows * cols * items)) by nia. rewrite (u64_id (cols * items)) by nia. rewrite repeat_length. repeat split. intros r c i I.
    apply nth_repeat_lt. pose proof (at3_bound r c i I). lia.
  Qed.
  Lemma in_holds3 g f r c i : holds3 g f -> 0 <= r -> 0 <= c -> 0 <= i -> (g3_in g r c i = true /\ inside3 rows cols items (r, c, i)) \/ (g3_in g r c i = false /\ ~ inside3 rows cols items (r, c, i)).
  Proof. intros (E1 & E2 & E3 & _) Hr Hc Hi. unfold g3_in, inside3. rewrite E1, E2, E3. cbn [fst snd]. lia. Qed.
  Lemma index_holds3 g f r c i : holds3 g f -> inside3 rows cols items (r, c, i) -> g3_index g r c i = at3 r c i.
  Proof. intros (_ & _ & E3 & E4 & _) I. pose proof (at3_bound r c i I) as B. unfold g3_index. rewrite E3, E4. fold (at3 r c i). apply u64_id. lia. Qed.
  Lemma nonneg3 r c i : inside3 rows cols items (r, c, i) -> 0 <= r /\ 0 <= c /\ 0 <= i.
  Proof. unfold inside3. cbn [fst snd]. lia. Qed.
  Lemma get_holds3 g f r c i : holds3 g f -> inside3 rows cols items (r, c, i) -> g3_get g r c i = Ok (f (r, c, i)).
  Proof.
    intros H I. destruct (nonneg3 _ _ _ I) as (P1 & P2 & P3). destruct (in_holds3 g f r c i H P1 P2 P3) as [[E _]|[_ N]]; [|contradiction].
    pose proof (index_holds3 g f r c i H I) as EI. pose proof (at3_bound r c i I) as B. unfold g3_get, grid_get, vec_get. rewrite E, EI. destruct (Z.ltb_spec (at3 r c i) 0); [lia|]. destruct H as (_ & _ & _ & _ & _ & N). rewrite (N r c i I). reflexivity.
  Qed.
  Lemma set_holds3 g f r c i v : holds3 g f -> inside3 rows cols items (r, c, i) -> exists g', g3_set g r c i v = Ok g' /\ holds3 g' (fun q => if same3 q (r, c, i) then v else f q).
  Proof.
    intros H I. destruct (nonneg3 _ _ _ I) as (P1 & P2 & P3). destruct (in_holds3 g f r c i H P1 P2 P3) as [[E _]|[_ N]]; [|contradiction].
    pose proof (index_holds3 g f r c i H I) as EI. pose proof (at3_bound r c i I) as B. unfold g3_set, grid_mod, vec_mod. rewrite E, EI. destruct (Z.ltb_spec (at3 r c i) 0); [lia|]. pose proof H as (R1 & R2 & R3 & R4 & L & N). rewrite (N r c i I). cbn [bind].
    eexists. split; [reflexivity|]. unfold holds3. cbn [g3_rows g3_cols g3_items g3_rowsize g3_data]. do 4 (split; [assumption|]). split; [rewrite upd_len; exact L|]. intros r' c' i' I'.
    pose proof (at3_bound r' c' i' I') as B'. rewrite upd_nth. destruct (same3 (r', c', i') (r, c, i)) eqn:ES.
    - apply same3_spec in ES. injection ES as -> -> ->. rewrite Nat.eqb_refl, (N r c i I). reflexivity.
    - destruct (Nat.eqb_spec (Z.to_nat (at3 r c i)) (Z.to_nat (at3 r' c' i'))) as [EQ|_]; [|apply N; exact I']. exfalso.
      assert (EQ' : at3 r c i = at3 r' c' i') by lia. pose proof (at3_inj _ _ _ _ _ _ I I' EQ') as Q. assert (same3 (r', c', i') (r, c, i) = true) by (apply same3_spec; congruence). congruence.
  Qed.
  Lemma reset_holds3 g f v : holds3 g f -> holds3 (g3_reset g v) (fun _ => v).
  Proof.
    intros (R1 & R2 & R3 & R4 & L & N). unfold holds3, g3_reset. cbn [g3_rows g3_cols g3_items g3_rowsize g3_data]. do 4 (split; [assumption|]). split; [rewrite map_length; exact L|]. intros r c i I.
    rewrite nth_error_map, (N r c i I). reflexivity.
  Qed.
  Lemma run_holds3 ops : (forall p v, In (Put p v) ops -> inside3 rows cols items p) -> forall g f, holds3 g f ->
    exists g', foldM apply3 ops g = Ok g' /\ holds3 g' (fun p => value same3 ops (f p) p).
  Proof.
    induction ops as [|o ops IH]; intros HI g f H; cbn [foldM value]; [eauto|]. destruct o as [[[r c] i] v|v]; cbn [apply3 fst snd].
    - destruct (set_holds3 g f r c i v H (HI _ v (or_introl eq_refl))) as (g1 & -> & H'). cbn [bind]. apply (IH (fun p w Hw => HI p w (or_intror Hw)) g1 _ H').
    - cbn [bind]. apply (IH (fun p w Hw => HI p w (or_intror Hw)) _ _ (reset_holds3 g f v H)).
  Qed.
End Three.

Theorem grid3_stores {T} rows cols items (v0 : T) ops : 0 <= rows -> 0 <= cols -> 0 <= items -> rows * cols * items < 2 ^ 64 -> cols * items < 2 ^ 64 -> (forall p v, In (Put p v) ops -> inside3 rows cols items p) ->
  exists g, foldM apply3 ops (g3_new rows cols items v0) = Ok g /\ g3_size g = rows * cols * items /\
    (forall r c i, inside3 rows cols items (r, c, i) -> g3_get g r c i = Ok (value same3 ops v0 (r, c, i))) /\
    (forall r c i v, 0 <= r -> 0 <= c -> 0 <= i -> ~ inside3 rows cols items (r, c, i) -> g3_get g r c i = Abort /\ g3_set g r c i v = Abort).
Proof.
  intros H0 H1 H2 HB HB2 HI. destruct (run_holds3 rows cols items HB ops HI _ _ (new_holds3 rows cols items H0 H1 H2 HB HB2 v0)) as (g & HR & HG). exists g. split; [exact HR|]. split; [|split].
  - destruct HG as (R1 & R2 & R3 & _). unfold g3_size. rewrite R1, R2, R3. apply u64_id. assert (0 <= rows * cols) by nia. nia.
  - intros r c i I. apply (get_holds3 rows cols items HB g _ r c i HG I).
  - intros r c i v Hr Hc Hi N. destruct (in_holds3 rows cols items g _ r c i HG Hr Hc Hi) as [[_ I]|[E _]]; [contradiction|]. unfold g3_get, g3_set. rewrite E. split; reflexivity.
Qed.

(** * The grid of core types *)
Lemma value_unique {T} ops p (w : T) : (forall q u, In (Put q u) ops -> same2 p q = true -> u = w) -> (forall u, ~ In (Clear u) ops) ->
  forall v, v = w \/ (exists q, In (Put q w) ops /\ same2 p q = true) -> value same2 ops v p = w.
Proof.
  induction ops as [|o ops IH]; intros HU HN v HV; cbn [value].
  - destruct HV as [->|(q & [] & _)]; reflexivity.
  - destruct o as [q u|u]; [|exfalso; apply (HN u); left; reflexivity].
    apply IH; [intros q' u' H'; apply HU; right; exact H'|intros u' H'; apply (HN u'); right; exact H'|]. destruct (same2 p q) eqn:E; [left; apply (HU q u); [left; reflexivity|exact E]|].
    destruct HV as [->|(q' & [EQ|HQ] & ES)]; [left; reflexivity|injection EQ as -> ->; congruence|right; eauto].
Qed.

Definition puts (l : list (coord * core_type)) : list (gop pos2 core_type) := map (fun e => Put (u64 (c_row (fst e)), u64 (c_col (fst e))) (snd e)) l.
Lemma core_grid_puts d l : core_grid d l = foldM apply2 (puts l) (g2_new 12 (match dv_class d with ClsBlackhole => 17 | _ => 10 end) UNDEF).
Proof.
  unfold core_grid. generalize (g2_new 12 (match dv_class d with ClsBlackhole => 17 | _ => 10 end) UNDEF). induction l as [|e l IH]; intros g; cbn [puts map foldM]; [reflexivity|].
  cbn [apply2 fst snd]. destruct (g2_set _ _ _ _); cbn [bind]; [apply IH|reflexivity..].
Qed.
Lemma puts_in l o : In o (puts l) <-> exists e, In e l /\ o = Put (u64 (c_row (fst e)), u64 (c_col (fst e))) (snd e).
Proof. unfold puts. rewrite in_map_iff. split; intros (e & H1 & H2); exists e; auto. Qed.

Definition is_type (o : outcome core_type) (t : core_type) : bool := match o with Ok t' => core_type_eqb t' t | _ => false end.
Lemma is_type_spec o t : is_type o t = true -> o = Ok t.
Proof. destruct o as [t'| | | | | |]; try discriminate. destruct t', t; try discriminate; reflexivity. Qed.
(* the entries agree with the rows of the table, and there is one for every position *)
Definition entries_ok (d : device) (cols : Z) (l : list (coord * core_type)) : bool :=
  forallb (fun e => (0 <=? c_row (fst e)) && (c_row (fst e) <? 12) && (0 <=? c_col (fst e)) && (c_col (fst e) <? cols) && is_type (getCoreType d (fst e)) (snd e)) l.
Definition covers (l : list (coord * core_type)) (r c : Z) : bool := existsb (fun e => (c_row (fst e) =? r) && (c_col (fst e) =? c)) l.
Definition all_covered (cols : Z) (l : list (coord * core_type)) : bool := forallb (fun r => forallb (covers l r) (zrange 0 (cols - 1))) (zrange 0 11).
Lemma zseq_in z n x : In x (zseq z n) <-> z <= x < z + Z.of_nat n.
Proof. revert z. induction n as [|n IH]; intros z; cbn [zseq In]; [lia|]. rewrite IH. lia. Qed.
Lemma covered cols l r c : all_covered cols l = true -> 0 <= r < 12 -> 0 <= c < cols -> exists e, In e l /\ c_row (fst e) = r /\ c_col (fst e) = c.
Proof.
  intros H Hr Hc. unfold all_covered in H. rewrite forallb_forall in H. specialize (H r). rewrite forallb_forall in H. assert (E : covers l r c = true).
  { apply H; apply zseq_in; lia. }
  unfold covers in E. apply existsb_exists in E as (e & He & E). exists e. split; [exact He|]. lia.
Qed.
Lemma map_ok d : entries_ok d (match dv_class d with ClsBlackhole => 17 | _ => 10 end) (core_map d) = true /\ all_covered (match dv_class d with ClsBlackhole => 17 | _ => 10 end) (core_map d) = true.
Proof. destruct d as [[] r c n b]; split; vm_compute; reflexivity. Qed.
Lemma type_row_col d c c' : c_row c = c_row c' -> c_col c = c_col c' -> getCoreType d c = getCoreType d c'.
Proof. intros E1 E2. unfold getCoreType. rewrite E1, E2. reflexivity. Qed.
Lemma rows_length d row : In row (core_rows d) -> List.length row = Z.to_nat (match dv_class d with ClsBlackhole => 17 | _ => 10 end).
Proof. destruct d as [[] r c n b]; cbn; intuition (subst; reflexivity). Qed.
Lemma type_outside d c : ~ inside2 12 (match dv_class d with ClsBlackhole => 17 | _ => 10 end) (c_row c, c_col c) -> getCoreType d c = Abort.
Proof.
  unfold inside2, getCoreType. cbn [fst snd]. intros N. destruct ((c_row c <? 0) || (c_col c <? 0)) eqn:E0; [reflexivity|]. destruct (nth_error (core_rows d) (Z.to_nat (c_row c))) as [row|] eqn:ER; [|reflexivity].
  assert (L : List.length (core_rows d) = 12%nat) by (destruct d as [[] r c' n b]; reflexivity). assert (LT : (Z.to_nat (c_row c) < 12)%nat) by (rewrite <- L; apply nth_error_Some; congruence).
  pose proof (rows_length d row (nth_error_In _ _ ER)) as LR. destruct (nth_error row (Z.to_nat (c_col c))) as [t|] eqn:EC; [|reflexivity]. exfalso.
  assert (LC : (Z.to_nat (c_col c) < List.length row)%nat) by (apply nth_error_Some; congruence). rewrite LR in LC. apply N. destruct (dv_class d); lia.
Qed.
Lemma u64_neg z : - 2 ^ 15 <= z < 0 -> u64 z = z + 2 ^ 64.
Proof. intros H. unfold u64. symmetry. apply Z.mod_unique with (-1); [left; change (2 ^ 64) with 18446744073709551616; change (2 ^ 15) with 32768 in H; lia|ring]. Qed.

Theorem core_grid_table d entries : Permutation entries (core_map d) -> exists g, core_grid d entries = Ok g /\
  forall c, - 2 ^ 15 <= c_row c < 2 ^ 15 -> - 2 ^ 15 <= c_col c < 2 ^ 15 -> grid_core_type g c = getCoreType d c.
Proof.
  intros HP. set (cols := match dv_class d with ClsBlackhole => 17 | _ => 10 end). destruct (map_ok d) as [EO AC]. fold cols in EO, AC. assert (HC : 10 <= cols <= 17) by (unfold cols; destruct (dv_class d); lia).
  assert (EN : forall e, In e entries -> 0 <= c_row (fst e) < 12 /\ 0 <= c_col (fst e) < cols /\ getCoreType d (fst e) = Ok (snd e)).
  { intros e He. apply (Permutation_in _ HP) in He. unfold entries_ok in EO. rewrite forallb_forall in EO. specialize (EO e He). repeat (apply andb_true_iff in EO as [EO ?]). split; [lia|]. split; [lia|]. apply is_type_spec. assumption. }
  assert (U : forall z, 0 <= z < 32768 -> u64 z = z) by (intros z Hz; apply u64_id; change (2 ^ 64) with 18446744073709551616; lia).
  destruct (grid2_stores 12 cols UNDEF (puts entries)) as (g & HR & _ & HI & HO); try lia.
  { intros p v Hp. apply puts_in in Hp as (e & He & EQ). injection EQ as -> ->. destruct (EN e He) as (R & C & _). unfold inside2. cbn [fst snd]. rewrite !U by lia. lia. }
  exists g. split; [rewrite core_grid_puts; exact HR|]. intros c Rr Rc. change (2 ^ 15) with 32768 in Rr, Rc. unfold grid_core_type.
  assert (D : inside2 12 cols (c_row c, c_col c) \/ ~ inside2 12 cols (c_row c, c_col c)) by (unfold inside2; cbn [fst snd]; lia). destruct D as [I|N].
  - pose proof I as [Ir Ic]. cbn [fst snd] in Ir, Ic. rewrite !U by lia. rewrite (HI _ _ I). destruct (covered cols (core_map d) (c_row c) (c_col c) AC Ir Ic) as (e & He & Er & Ec).
    apply (Permutation_in _ (Permutation_sym HP)) in He. destruct (EN e He) as (_ & _ & Et). rewrite (type_row_col d c (fst e)) by congruence. rewrite Et. f_equal. apply value_unique.
    + intros q u Hq ES. apply puts_in in Hq as (e' & He' & EQ). injection EQ as -> ->. destruct (EN e' He') as (R' & C' & Et'). apply same2_spec in ES. rewrite !U in ES by lia. injection ES as E1 E2.
      rewrite (type_row_col d (fst e') (fst e)) in Et' by congruence. rewrite Et in Et'. injection Et' as ->. reflexivity.
    + intros u Hu. apply puts_in in Hu as (e' & _ & EQ). discriminate.
    + right. exists (c_row c, c_col c). split; [|apply same2_spec; reflexivity]. apply puts_in. exists e. split; [exact He|]. rewrite Er, Ec, !U by lia. reflexivity.
  - rewrite (type_outside d c N). apply (HO _ _ UNDEF); [apply u64_range|apply u64_range|]. intros [Jr Jc]. cbn [fst snd] in *. apply N. unfold inside2. cbn [fst snd].
    change (2 ^ 64) with 18446744073709551616 in *. assert (c_row c >= 0 /\ c_col c >= 0).
    { split; apply Z.le_ge; apply Z.nlt_ge; intros L; [rewrite (u64_neg (c_row c)) in Jr by (change (2 ^ 15) with 32768; lia); change (2 ^ 64) with 18446744073709551616 in Jr; lia|rewrite (u64_neg (c_col c)) in Jc by (change (2 ^ 15) with 32768; lia); change (2 ^ 64) with 18446744073709551616 in Jc; lia]. }
    rewrite !U in * by lia. lia.
Qed.

(* the number of elements wraps, the bounds do not *)
Lemma huge_grid : exists rows cols, 0 <= rows < 2 ^ 64 /\ 0 <= cols < 2 ^ 64 /\ inside2 rows cols (0, 0) /\ g2_size (g2_new rows cols 0) = 0 /\ exists m, g2_get (g2_new rows cols 0) 0 0 = UB m.
Proof.
  exists (2 ^ 32), (2 ^ 32). split; [split; vm_compute; congruence|]. split; [split; vm_compute; congruence|]. split; [unfold inside2; cbn [fst snd]; lia|]. split; [reflexivity|].
  eexists. unfold g2_get, g2_new, g2_in, g2_index. cbn [g2_data g2_rows g2_cols]. replace (u64 (2 ^ 32 * 2 ^ 32)) with 0 by reflexivity. cbn [Z.to_nat repeat]. reflexivity.
Qed.
