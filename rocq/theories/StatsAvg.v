(* Facts on the per-timestep statistics (C42, C43): formulas for any arithmetic, and the number of links and NIUs of a chip. *)
From Coq Require Import ZArith Arith String List Bool Lia ZifyBool ZifyNat.
From Verif Require Import Base Arith Util Device SpecDevice Workload Rates Stats Engine SpecEngine SpecStats UtilProofs DeviceProofs.
Import ListNotations.
Open Scope Z_scope.
Ltac Zify.zify_post_hook ::= idtac.

(** * Formulas *)
Section A.
  Context (A : arith).
  Definition dsum (l : list (D A)) (x : D A) : D A := fold_left (d_add A) l x.
  Definition lrow : Type := (link_attr * (F A * F A))%type.
  Definition lsel (p : link_attr -> bool) (l : list lrow) : list lrow := filter (fun x => p (fst x)) l.
  Definition dem (x : lrow) : D A := d_of_f A (fst (snd x)).
  Definition utl (m : F A) (x : lrow) : D A := d_of_f A (f_fmin A (fst (snd x)) m).
  Definition mct (m : F A) (x : lrow) : D A := d_of_f A (f_fmin A (snd (snd x)) m).
  Definition on0 id (a : link_attr) : bool := link_on id a && on_noc0 a.
  Definition on1 id (a : link_attr) : bool := link_on id a && negb (on_noc0 a).
  Lemma link_fold id m l : forall t, let t' := fold_left (link_acc A id m) l t in
    ts_avg_ld A t' = dsum (map dem (lsel (link_on id) l)) (ts_avg_ld A t) /\
    ts_avg_lu A t' = dsum (map (utl m) (lsel (link_on id) l)) (ts_avg_lu A t) /\
    ts_avg_ld0 A t' = dsum (map dem (lsel (on0 id) l)) (ts_avg_ld0 A t) /\
    ts_avg_lu0 A t' = dsum (map (utl m) (lsel (on0 id) l)) (ts_avg_lu0 A t) /\
    ts_avg_ld1 A t' = dsum (map dem (lsel (on1 id) l)) (ts_avg_ld1 A t) /\
    ts_avg_lu1 A t' = dsum (map (utl m) (lsel (on1 id) l)) (ts_avg_lu1 A t) /\
    ts_avg_mc A t' = dsum (map (mct m) (lsel (link_on id) l)) (ts_avg_mc A t) /\
    ts_avg_nd A t' = ts_avg_nd A t.
  Proof.
    induction l as [|[a [x y]] l IH]; intros t; [cbn; auto 10|]. cbn [fold_left]. cbv zeta in *. specialize (IH (link_acc A id m t (a, (x, y)))).
    destruct IH as (I1 & I2 & I3 & I4 & I5 & I6 & I7 & I8). rewrite I1, I2, I3, I4, I5, I6, I7, I8.
    unfold lsel. cbn [filter fst]. unfold on0, on1. change (link_on id a) with (on_device id (l_coord a)). change (on_noc0 a) with (noc0_link (l_type a)). cbn [link_acc].
    destruct (on_device id (l_coord a)), (noc0_link (l_type a)); cbn [andb negb]; auto 10.
  Qed.
  Lemma niu_fold id l : forall t, let t' := fold_left (niu_acc A id) l t in
    ts_avg_nd A t' = dsum (map (fun x => d_of_f A (snd x)) (filter (fun x => niu_on id (fst x)) l)) (ts_avg_nd A t) /\
    ts_avg_ld A t' = ts_avg_ld A t /\ ts_avg_lu A t' = ts_avg_lu A t /\ ts_avg_ld0 A t' = ts_avg_ld0 A t /\ ts_avg_lu0 A t' = ts_avg_lu0 A t /\
    ts_avg_ld1 A t' = ts_avg_ld1 A t /\ ts_avg_lu1 A t' = ts_avg_lu1 A t /\ ts_avg_mc A t' = ts_avg_mc A t.
  Proof.
    induction l as [|[a x] l IH]; intros t; [cbn; auto 10|]. cbn [fold_left]. cbv zeta in *. specialize (IH (niu_acc A id t (a, x))).
    destruct IH as (I1 & I2 & I3 & I4 & I5 & I6 & I7 & I8). rewrite I1, I2, I3, I4, I5, I6, I7, I8. cbn [filter fst].
    change (niu_on id a) with (on_device id (n_coord a)). cbn [niu_acc]. destruct (on_device id (n_coord a)); auto 10.
  Qed.
  Definition lrows (d : device) (g : grids (F A)) : list lrow := combine (link_table d) (combine (g_link g) (g_mc g)).
  Definition gsize (d : device) (g : grids (F A)) (id : Z) : Z :=
    let nl := Z.of_nat (List.length (g_link g)) in if id =? MESH_DEVICE then nl else nl / Z.of_nat (dv_chips d).
  Lemma timestep_fields d g live id s e : let t := device_timestep A d g live id (fresh_ts A s e) in
    let m := link_bandwidth A d in let n := gsize d g id in
    ts_avg_ld A t = d_mul A (dsum (map dem (lsel (link_on id) (lrows d g))) (dz A)) (pct_over A m n) /\
    ts_avg_lu A t = d_mul A (dsum (map (utl m) (lsel (link_on id) (lrows d g))) (dz A)) (pct_over A m n) /\
    ts_avg_ld0 A t = d_mul A (dsum (map dem (lsel (on0 id) (lrows d g))) (dz A)) (pct_over A m (n / 2)) /\
    ts_avg_lu0 A t = d_mul A (dsum (map (utl m) (lsel (on0 id) (lrows d g))) (dz A)) (pct_over A m (n / 2)) /\
    ts_avg_ld1 A t = d_mul A (dsum (map dem (lsel (on1 id) (lrows d g))) (dz A)) (pct_over A m (n / 2)) /\
    ts_avg_lu1 A t = d_mul A (dsum (map (utl m) (lsel (on1 id) (lrows d g))) (dz A)) (pct_over A m (n / 2)) /\
    ts_avg_mc A t = d_mul A (dsum (map (mct m) (lsel (link_on id) (lrows d g))) (dz A)) (pct_over A m n) /\
    ts_avg_nd A t = d_mul A (dsum (map (fun x => d_of_f A (snd x)) (filter (fun x => niu_on id (fst x)) (combine (niu_table d) (g_niu g)))) (dz A))
                            (pct_over A m (Z.of_nat (List.length (g_niu g)))).
  Proof.
    cbv zeta. unfold device_timestep. cbn [ts_avg_ld ts_avg_lu ts_avg_ld0 ts_avg_lu0 ts_avg_ld1 ts_avg_lu1 ts_avg_mc ts_avg_nd].
    fold (lrows d g). fold (gsize d g id).
    set (t0 := fold_left (link_acc A id (link_bandwidth A d)) (lrows d g) (fresh_ts A s e)).
    match goal with |- context [fold_left (niu_acc A id) ?l ?t] => set (t1 := t); destruct (niu_fold id l t1) as (N1 & N2 & N3 & N4 & N5 & N6 & N7 & N8) end.
    rewrite N1, N2, N3, N4, N5, N6, N7, N8. unfold t1. cbn [ts_avg_ld ts_avg_lu ts_avg_ld0 ts_avg_lu0 ts_avg_ld1 ts_avg_lu1 ts_avg_mc ts_avg_nd].
    destruct (link_fold id (link_bandwidth A d) (lrows d g) (fresh_ts A s e)) as (I1 & I2 & I3 & I4 & I5 & I6 & I7 & I8). fold t0 in I1, I2, I3, I4, I5, I6, I7, I8.
    rewrite I1, I2, I3, I4, I5, I6, I7, I8. auto 10.
  Qed.
End A.

(** * Links of a chip *)
Lemma filter_flat_map {X Y} (p : Y -> bool) (f : X -> list Y) l : filter p (flat_map f l) = flat_map (fun x => filter p (f x)) l.
Proof. induction l as [|x l IH]; cbn; [reflexivity|]. rewrite filter_app, IH. reflexivity. Qed.
Lemma flat_map_sum {X Y} (f : X -> list Y) k l : (forall x, In x l -> List.length (f x) = k) -> List.length (flat_map f l) = (List.length l * k)%nat.
Proof. induction l as [|x l IH]; intros H; cbn; [reflexivity|]. rewrite app_length, (H x), IH; [reflexivity|intros; apply H; right; assumption|left; reflexivity]. Qed.
Lemma seq_one {X} (f : nat -> list X) i k : forall m a, (forall j, (a <= j < a + m)%nat -> List.length (f j) = if Nat.eqb j i then k else O) ->
  List.length (flat_map f (seq a m)) = if (Nat.leb a i && Nat.ltb i (a + m))%bool then k else O.
Proof.
  induction m as [|m IH]; intros a H; cbn [seq flat_map].
  - replace (Nat.leb a i && Nat.ltb i (a + 0)) with false; [reflexivity|]. symmetry. apply andb_false_iff. rewrite Nat.leb_gt, Nat.ltb_ge. lia.
  - rewrite app_length, IH by (intros; apply H; lia). rewrite (H a) by lia.
    destruct (Nat.eqb_spec a i) as [->|N].
    + replace (Nat.leb (S i) i && Nat.ltb i (S i + m)) with false by (symmetry; apply andb_false_iff; left; apply Nat.leb_gt; lia).
      replace (Nat.leb i i && Nat.ltb i (i + S m)) with true by (symmetry; rewrite andb_true_iff, Nat.leb_le, Nat.ltb_lt; lia). lia.
    + replace (Nat.leb (S a) i && Nat.ltb i (S a + m)) with (Nat.leb a i && Nat.ltb i (a + S m)); [reflexivity|].
      apply eq_true_iff_eq. rewrite !andb_true_iff, !Nat.leb_le, !Nat.ltb_lt. lia.
Qed.

Section Count.
  Context (d : device) (HD : small d).
  Definition chip_positions (dev : nat) : list coord :=
    flat_map (fun r => map (fun c => Coord_make (Z.of_nat dev) (Z.of_nat r) (Z.of_nat c)) (seq 0 (dv_cols d))) (seq 0 (dv_rows d)).
  Lemma chip_dev dev c : (dev < dv_chips d)%nat -> In c (chip_positions dev) -> c_dev c = Z.of_nat dev.
  Proof.
    intros Hd H. apply in_flat_map in H as (r & Hr & H). apply in_map_iff in H as (k & <- & Hk). cbn [Coord_make c_dev].
    destruct HD as (H1 & _). apply i16_id. lia.
  Qed.
  Lemma chip_length dev : List.length (chip_positions dev) = (dv_rows d * dv_cols d)%nat.
  Proof.
    unfold chip_positions. rewrite (flat_map_sum _ (dv_cols d)), seq_length; [reflexivity|]. intros. rewrite map_length, seq_length. reflexivity.
  Qed.
  Lemma table_count {X T} (mk : coord -> T -> X) (types : list T) (p : X -> bool) (q : Z -> bool) (r : T -> bool) k :
    (forall c t, p (mk c t) = q (c_dev c) && r t) -> List.length (filter r types) = k ->
    forall dev, (dev < dv_chips d)%nat -> List.length (filter p (flat_map (fun c => map (mk c) types) (chip_positions dev))) =
      if q (Z.of_nat dev) then (dv_rows d * dv_cols d * k)%nat else O.
  Proof.
    intros HP HK dev Hd. rewrite filter_flat_map, (flat_map_sum _ (if q (Z.of_nat dev) then k else O)).
    - rewrite chip_length. destruct (q (Z.of_nat dev)); lia.
    - intros c Hc. rewrite <- HK. rewrite <- (chip_dev _ _ Hd Hc). clear HK. induction types as [|t ts IH]; cbn [map filter]; [destruct (q _); reflexivity|].
      rewrite HP. destruct (q (c_dev c)), (r t); cbn [andb List.length]; try rewrite IH; reflexivity.
  Qed.
  Lemma tables_count {X T} (mk : coord -> T -> X) (types : list T) (p : X -> bool) (r : T -> bool) k id :
    (forall c t, p (mk c t) = ((id =? MESH_DEVICE) || (id =? c_dev c)) && r t) -> List.length (filter r types) = k -> has_stats d id ->
    List.length (filter p (flat_map (fun c => map (mk c) types) (positions d))) =
      if id =? MESH_DEVICE then (dv_chips d * (dv_rows d * dv_cols d * k))%nat else (dv_rows d * dv_cols d * k)%nat.
  Proof.
    intros HP HK HI.
    assert (E : filter p (flat_map (fun c => map (mk c) types) (positions d)) =
                flat_map (fun dev => filter p (flat_map (fun c => map (mk c) types) (chip_positions dev))) (seq 0 (dv_chips d))).
    { unfold positions. fold chip_positions. generalize (seq 0 (dv_chips d)). intros l. induction l as [|x l IH]; [reflexivity|]. cbn [flat_map].
      rewrite flat_map_app, filter_app. f_equal. exact IH. }
    rewrite E. clear E. destruct (Z.eqb_spec id MESH_DEVICE) as [EM|N].
    - rewrite (flat_map_sum _ (dv_rows d * dv_cols d * k)), seq_length; [reflexivity|]. intros dev Hd. apply in_seq in Hd.
      rewrite (table_count mk types p (fun _ => true) r k); [reflexivity|intros; rewrite HP; reflexivity|assumption|lia].
    - destruct HI as [HI|]; [|contradiction]. unfold dv_device_ids in HI. apply in_map_iff in HI as (i & EI & Hi). apply in_seq in Hi.
      rewrite (seq_one _ i (dv_rows d * dv_cols d * k)%nat).
      + replace (Nat.leb 0 i && Nat.ltb i (0 + dv_chips d)) with true; [reflexivity|]. symmetry. rewrite andb_true_iff, Nat.leb_le, Nat.ltb_lt. lia.
      + intros j Hj. rewrite (table_count mk types p (fun c => Z.of_nat i =? c) r k); [|intros; rewrite HP, EI; reflexivity|assumption|lia].
        replace (Z.of_nat i =? Z.of_nat j) with (Nat.eqb j i); [reflexivity|]. destruct (Nat.eqb_spec j i); lia.
  Qed.
  Definition per (id : Z) : nat := if id =? MESH_DEVICE then (dv_chips d * (dv_rows d * dv_cols d))%nat else (dv_rows d * dv_cols d)%nat.
  Lemma count_links id : has_stats d id ->
    List.length (filter (link_on id) (link_table d)) = (per id * 4)%nat /\
    List.length (filter (on0 id) (link_table d)) = (per id * 2)%nat /\
    List.length (filter (on1 id) (link_table d)) = (per id * 2)%nat /\
    List.length (filter (niu_on id) (niu_table d)) = (per id * 4)%nat.
  Proof.
    intros HI. unfold per, link_table, niu_table.
    rewrite (tables_count mkLink link_types (link_on id) (fun _ => true) 4 id); [|intros; rewrite andb_true_r; reflexivity|reflexivity|assumption].
    rewrite (tables_count mkLink link_types (on0 id) (fun t => on_noc0 (mkLink (mkCoord 0 0 0) t)) 2 id); [|reflexivity|reflexivity|assumption].
    rewrite (tables_count mkLink link_types (on1 id) (fun t => negb (on_noc0 (mkLink (mkCoord 0 0 0) t))) 2 id); [|reflexivity|reflexivity|assumption].
    rewrite (tables_count mkNiu niu_types (niu_on id) (fun _ => true) 4 id); [|intros; rewrite andb_true_r; reflexivity|reflexivity|assumption].
    destruct (id =? MESH_DEVICE); lia.
  Qed.
  Lemma size_eq {V} (g : list V) id : (0 < dv_chips d)%nat -> List.length g = List.length (link_table d) ->
    (if id =? MESH_DEVICE then Z.of_nat (List.length g) else Z.of_nat (List.length g) / Z.of_nat (dv_chips d)) = Z.of_nat (per id) * 4.
  Proof.
    intros HC ->. rewrite link_table_length. unfold per. destruct (id =? MESH_DEVICE); [lia|].
    replace (Z.of_nat (dv_chips d * (dv_rows d * dv_cols d) * 4)) with (Z.of_nat (dv_rows d * dv_cols d) * 4 * Z.of_nat (dv_chips d)) by lia.
    apply Z.div_mul. lia.
  Qed.
End Count.
