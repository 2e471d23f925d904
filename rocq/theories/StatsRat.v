(* Averages of the per-timestep statistics in exact arithmetic (C43). *)
From Coq Require Import ZArith Arith QArith Qfield String List Bool Lia ZifyBool ZifyNat.
From Verif Require Import Base Arith Util Device SpecDevice Workload Rates Stats Engine SpecEngine SpecRates SpecStats UtilProofs DeviceProofs StatsAvg.
Import ListNotations.
Open Scope Z_scope.
Ltac Zify.zify_post_hook ::= idtac.

Lemma sel_fst {T V W} (p : T -> bool) (t : list T) (x : list V) (y : list W) : List.length x = List.length y ->
  map (fun r => fst (snd r)) (filter (fun r => p (fst r)) (combine t (combine x y))) = select p t x /\
  map (fun r => snd (snd r)) (filter (fun r => p (fst r)) (combine t (combine x y))) = select p t y.
Proof.
  unfold select. revert x y. induction t as [|a t IH]; intros [|v x] [|w y] H; try discriminate; try (split; reflexivity).
  injection H as H. destruct (IH x y H) as [I1 I2]. cbn [combine filter fst]. destruct (p a); cbn [map fst snd]; rewrite ?I1, ?I2; split; reflexivity.
Qed.
Lemma select_map {T V W} (p : T -> bool) (t : list T) (f : V -> W) (x : list V) : select p t (map f x) = map f (select p t x).
Proof.
  unfold select. revert x. induction t as [|a t IH]; intros [|v x]; try reflexivity. cbn [map combine filter fst]. destruct (p a); cbn [map snd]; rewrite IH; reflexivity.
Qed.
Lemma select_length {T V} (p : T -> bool) (t : list T) (x : list V) : List.length x = List.length t -> List.length (select p t x) = List.length (filter p t).
Proof.
  unfold select. revert x. induction t as [|a t IH]; intros [|v x] H; try discriminate; [reflexivity|]. injection H as H. cbn [combine filter fst].
  destruct (p a); cbn [map List.length]; rewrite IH; auto.
Qed.

Lemma dsum_q l : forall x, exists q, dsum ratA (map (@Some Q) l) (Some x) = Some q /\ (q == x + qsum l)%Q.
Proof.
  induction l as [|y l IH]; intros x; [exists x; split; [reflexivity|]; unfold qsum; cbn [fold_right]; ring|].
  change (dsum ratA (map Some (y :: l)) (Some x)) with (dsum ratA (map (@Some Q) l) (Some (Qred (x + y)))).
  destruct (IH (Qred (x + y))) as (q & H & E). exists q. split; [exact H|]. rewrite E, Qred_correct. unfold qsum. cbn [fold_right]. ring.
Qed.
Lemma bw_q d : exists b, link_bandwidth ratA d = Some b /\ (0 < b)%Q.
Proof. unfold link_bandwidth. destruct (dv_class d); eexists; (split; [reflexivity|reflexivity]). Qed.
Lemma pct_q b n : (0 < b)%Q -> 0 < n -> exists q, pct_over ratA (Some b) n = Some q /\ (q == 100 / (b * inject_Z n))%Q.
Proof.
  intros Hb Hn. change (pct_over ratA (Some b) n) with (qx_div (Some (100 # 1)) (Some (Qred (b * inject_Z n)))). unfold qx_div. assert (N : ~ (Qred (b * inject_Z n) == 0)%Q).
  { rewrite Qred_correct. intros E. apply Qmult_integral in E as [E|E]; [rewrite E in Hb; discriminate|]. unfold Qeq, inject_Z in E. cbn in E. lia. }
  destruct (Qeq_bool (Qred (b * inject_Z n)) 0) eqn:EB; [apply Qeq_bool_iff in EB; contradiction|]. eexists. split; [reflexivity|].
  rewrite !Qred_correct. reflexivity.
Qed.
Lemma avg_q b l n : (0 < b)%Q -> 0 < n -> exists q, d_mul ratA (dsum ratA (map (@Some Q) l) (dz ratA)) (pct_over ratA (Some b) n) = Some q /\
  (q == 100 * qsum l / (b * inject_Z n))%Q.
Proof.
  intros Hb Hn. destruct (dsum_q l 0%Q) as (s & Hs & Es). destruct (pct_q b n Hb Hn) as (p & Hp & Ep).
  change (dz ratA) with (Some 0%Q). rewrite Hs. rewrite Hp. eexists. split; [reflexivity|]. rewrite Qred_correct, Es, Ep. field.
  split; intros E; [unfold Qeq, inject_Z in E; cbn in E; lia|rewrite E in Hb; discriminate].
Qed.

Lemma fmin_q a b : f_fmin ratA (Some a) (Some b) = Some (qmin a b).
Proof. unfold f_fmin, qmin. cbn. destruct (Qle_bool a b); reflexivity. Qed.

Section D.
  Context (d : device) (HD : wf_device d) (g : grids (F ratA)) (link mc niu : list Q) (HG : exact_grids d g link mc niu).
  Context (live : list nat) (id : Z) (HI : has_stats d id) (s e : Z).
  Let t := device_timestep ratA d g live id (fresh_ts ratA s e).
  Let bw := qval (link_bandwidth ratA d).

  Lemma row_maps p : map (dem ratA) (lsel ratA p (lrows ratA d g)) = map (@Some Q) (select p (link_table d) link) /\
    map (utl ratA (link_bandwidth ratA d)) (lsel ratA p (lrows ratA d g)) = map (@Some Q) (map (fun x => qmin x bw) (select p (link_table d) link)) /\
    map (mct ratA (link_bandwidth ratA d)) (lsel ratA p (lrows ratA d g)) = map (@Some Q) (map (fun x => qmin x bw) (select p (link_table d) mc)).
  Proof.
    destruct HG as (E1 & E2 & E3 & L1 & L2 & L3). unfold lrows, lsel. rewrite E1, E2.
    destruct (sel_fst p (link_table d) (map (@Some Q) link) (map (@Some Q) mc) ltac:(rewrite !map_length; congruence)) as [S1 S2]. rewrite select_map in S1, S2.
    destruct (bw_q d) as (b & Hb & _). unfold bw. rewrite Hb. cbn [qval].
    split; [exact S1|]. split.
    - transitivity (map (fun x => f_fmin ratA x (Some b)) (map (fun r : link_attr * (option Q * option Q) => fst (snd r)) (filter (fun r => p (fst r)) (combine (link_table d) (combine (map Some link) (map Some mc)))))).
      { rewrite map_map. reflexivity. }
      rewrite S1, !map_map. apply map_ext. intros a. apply fmin_q.
    - transitivity (map (fun x => f_fmin ratA x (Some b)) (map (fun r : link_attr * (option Q * option Q) => snd (snd r)) (filter (fun r => p (fst r)) (combine (link_table d) (combine (map Some link) (map Some mc)))))).
      { rewrite map_map. reflexivity. }
      rewrite S2, !map_map. apply map_ext. intros a. apply fmin_q.
  Qed.
  Lemma per_pos : (0 < per d id)%nat.
  Proof. destruct HD as (H1 & H2 & H3 & _). unfold per. destruct (id =? MESH_DEVICE); nia. Qed.

  Theorem link_averages :
    (qval (ts_avg_ld ratA t) == percent bw (select (link_on id) (link_table d) link))%Q /\
    (qval (ts_avg_lu ratA t) == percent bw (map (fun x => qmin x bw) (select (link_on id) (link_table d) link)))%Q /\
    (qval (ts_avg_mc ratA t) == percent bw (map (fun x => qmin x bw) (select (link_on id) (link_table d) mc)))%Q /\
    (qval (ts_avg_ld0 ratA t) == percent bw (select (fun a => link_on id a && on_noc0 a) (link_table d) link))%Q /\
    (qval (ts_avg_lu0 ratA t) == percent bw (map (fun x => qmin x bw) (select (fun a => link_on id a && on_noc0 a) (link_table d) link)))%Q /\
    (qval (ts_avg_ld1 ratA t) == percent bw (select (fun a => link_on id a && negb (on_noc0 a)) (link_table d) link))%Q /\
    (qval (ts_avg_lu1 ratA t) == percent bw (map (fun x => qmin x bw) (select (fun a => link_on id a && negb (on_noc0 a)) (link_table d) link)))%Q.
  Proof.
    destruct (timestep_fields ratA d g live id s e) as (F1 & F2 & F3 & F4 & F5 & F6 & F7 & _). fold t in F1, F2, F3, F4, F5, F6, F7.
    destruct (row_maps (link_on id)) as (R1 & R2 & R3). destruct (row_maps (on0 id)) as (R4 & R5 & _). destruct (row_maps (on1 id)) as (R6 & R7 & _).
    rewrite R1 in F1. rewrite R2 in F2. rewrite R3 in F7. rewrite R4 in F3. rewrite R5 in F4. rewrite R6 in F5. rewrite R7 in F6.
    destruct (count_links d (wf_small d HD) id HI) as (C1 & C2 & C3 & _). destruct HG as (E1 & E2 & E3 & L1 & L2 & L3).
    assert (SZ : gsize ratA d g id = Z.of_nat (per d id) * 4).
    { unfold gsize. apply size_eq; [apply HD|]. rewrite E1, map_length. assumption. }
    rewrite SZ in *. pose proof per_pos as PP.
    assert (H2 : Z.of_nat (per d id) * 4 / 2 = Z.of_nat (per d id) * 2) by (replace (Z.of_nat (per d id) * 4) with (Z.of_nat (per d id) * 2 * 2) by lia; apply Z.div_mul; discriminate).
    rewrite H2 in *. destruct (bw_q d) as (b & Hb & B0). unfold bw in *. rewrite Hb in *. cbn [qval] in *.
    pose proof (fun l => avg_q b l (Z.of_nat (per d id) * 4) B0 ltac:(lia)) as A4. pose proof (fun l => avg_q b l (Z.of_nat (per d id) * 2) B0 ltac:(lia)) as A2.
    assert (FIN : forall x l k n, (exists q, d_mul ratA (dsum ratA (map (@Some Q) l) (dz ratA)) (pct_over ratA (Some b) k) = Some q /\ (q == 100 * qsum l / (b * inject_Z k))%Q) ->
      x = d_mul ratA (dsum ratA (map (@Some Q) l) (dz ratA)) (pct_over ratA (Some b) k) -> k = Z.of_nat n -> List.length l = n -> (qval x == percent b l)%Q).
    { intros x l k n (q & Hq & EQ) -> -> HL. rewrite Hq. cbn [qval]. rewrite EQ. unfold percent. rewrite HL. reflexivity. }
    split; [eapply FIN; [apply A4|exact F1| |rewrite select_length by assumption; exact C1]; lia|].
    split; [eapply FIN; [apply A4|exact F2| |rewrite map_length, select_length by assumption; exact C1]; lia|].
    split; [eapply FIN; [apply A4|exact F7| |rewrite map_length, select_length by assumption; exact C1]; lia|].
    split; [eapply FIN; [apply A2|exact F3| |rewrite select_length by assumption; exact C2]; lia|].
    split; [eapply FIN; [apply A2|exact F4| |rewrite map_length, select_length by assumption; exact C2]; lia|].
    split; [eapply FIN; [apply A2|exact F5| |rewrite select_length by assumption; exact C3]; lia|].
    eapply FIN; [apply A2|exact F6| |rewrite map_length, select_length by assumption; exact C3]; lia.
  Qed.
  (* the NIU demand of a chip is divided by the number of NIUs of all chips *)
  Theorem niu_average :
    (qval (ts_avg_nd ratA t) == percent bw (select (niu_on id) (niu_table d) niu) / inject_Z (if id =? MESH_DEVICE then 1 else Z.of_nat (dv_chips d)))%Q.
  Proof.
    destruct (timestep_fields ratA d g live id s e) as (_ & _ & _ & _ & _ & _ & _ & F8). fold t in F8. destruct HG as (E1 & E2 & E3 & L1 & L2 & L3).
    destruct (count_links d (wf_small d HD) id HI) as (_ & _ & _ & C4). destruct (bw_q d) as (b & Hb & B0). unfold bw. rewrite Hb in *. cbn [qval].
    rewrite E3 in F8. assert (EM : map (fun x : niu_attr * option Q => snd x) (filter (fun x => niu_on id (fst x)) (combine (niu_table d) (map Some niu))) = map (@Some Q) (select (niu_on id) (niu_table d) niu)).
    { change (map (fun x : niu_attr * option Q => snd x) ?l) with (map snd l). apply (select_map (niu_on id) (niu_table d) (@Some Q) niu). }
    change (ts_avg_nd ratA t = d_mul ratA (dsum ratA (map (fun x : niu_attr * option Q => snd x) (filter (fun x => niu_on id (fst x)) (combine (niu_table d) (map Some niu)))) (dz ratA))
      (pct_over ratA (Some b) (Z.of_nat (List.length (map (@Some Q) niu))))) in F8. rewrite EM, map_length, L3, niu_table_length in F8.
    destruct HD as (H1 & H2 & H3 & _). destruct (avg_q b (select (niu_on id) (niu_table d) niu) (Z.of_nat (dv_chips d * (dv_rows d * dv_cols d) * 4)) B0 ltac:(nia)) as (q & Hq & EQ).
    rewrite F8, Hq. cbn [qval]. rewrite EQ. unfold percent. rewrite select_length by assumption. rewrite C4. unfold per.
    assert (Nb : ~ (b == 0)%Q) by (intros E; rewrite E in B0; discriminate).
    assert (NZ : forall n, (0 < n)%nat -> ~ (inject_Z (Z.of_nat n) == 0)%Q) by (intros n Hn E; unfold Qeq, inject_Z in E; cbn in E; lia).
    destruct (id =? MESH_DEVICE).
    - change (inject_Z 1) with 1%Q. field. repeat split; try exact Nb; apply NZ; nia.
    - replace (Z.of_nat (dv_chips d * (dv_rows d * dv_cols d) * 4)) with (Z.of_nat (dv_chips d) * Z.of_nat (dv_rows d * dv_cols d * 4)) by lia. rewrite inject_Z_mult.
      field. repeat split; try exact Nb; apply NZ; nia.
  Qed.
End D.
