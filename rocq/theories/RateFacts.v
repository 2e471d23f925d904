(* The rate computation read as pointwise equations, for every arithmetic. *)
From Coq Require Import ZArith Arith String List Bool Lia ZifyBool ZifyNat.
From Verif Require Import Base Arith Util Device Workload Rates UtilProofs WorkloadProofs TrackerProofs DepGenProofs StepProofs.
Import ListNotations.
Local Open Scope string_scope.
Local Open Scope list_scope.
Open Scope Z_scope.
Ltac Zify.zify_post_hook ::= idtac.

Section Facts.
  Context (A : arith).
  Notation state := (tstate (F A)).
  Notation add := (f_add A).

  (** * Sequences of additions to a grid *)
  Definition amounts (ops : list (Z * F A)) (l : nat) : list (F A) := map snd (filter (fun p => fst p =? Z.of_nat l) ops).
  Definition bumped (ops : list (Z * F A)) (g g' : list (F A)) : Prop :=
    List.length g' = List.length g /\ Forall (fun p => 0 <= fst p < Z.of_nat (List.length g)) ops /\
    forall l x, nth_error g l = Some x -> nth_error g' l = Some (fold_left add (amounts ops l) x).
  Lemma amounts_app a b l : amounts (a ++ b) l = amounts a l ++ amounts b l.
  Proof. unfold amounts. rewrite filter_app, map_app. reflexivity. Qed.
  Lemma bumped_nil g : bumped [] g g.
  Proof. split; [reflexivity|]. split; [constructor|]. intros l x H. exact H. Qed.
  Lemma bumped_app a b g g1 g2 : bumped a g g1 -> bumped b g1 g2 -> bumped (a ++ b) g g2.
  Proof.
    intros (L1 & F1 & H1) (L2 & F2 & H2). split; [congruence|]. split.
    - apply Forall_app. split; [assumption|]. rewrite L1 in F2. assumption.
    - intros l x Hx. rewrite amounts_app, fold_left_app. apply H2, H1, Hx.
  Qed.
  Lemma grid_mod_bumped g g' id eff : grid_mod g id (fun x => add x eff) = Ok g' -> bumped [(id, eff)] g g'.
  Proof.
    unfold grid_mod. destruct (Z.ltb_spec id 0); [discriminate|]. intros H1. apply vec_mod_ok in H1 as (a & Ha & ->).
    split; [apply upd_length|]. split.
    - constructor; [|constructor]. cbn [fst]. pose proof (nth_error_Some g (Z.to_nat id)) as N. rewrite Ha in N. destruct N as [N _]. specialize (N ltac:(discriminate)). lia.
    - intros l x Hx. rewrite upd_nth. unfold amounts. cbn [filter fst]. destruct (Nat.eqb_spec (Z.to_nat id) l) as [<-|N].
      + rewrite Ha in Hx |- *. injection Hx as <-. destruct (Z.eqb_spec id (Z.of_nat (Z.to_nat id))); [reflexivity|lia].
      + destruct (Z.eqb_spec id (Z.of_nat l)); [lia|]. exact Hx.
  Qed.
  Lemma links_bumped eff route : forall g g', add_link_demand A eff route g = Ok g' -> bumped (map (fun id => (id, eff)) route) g g'.
  Proof.
    unfold add_link_demand. induction route as [|r route IH]; intros g g' H; cbn [foldM] in H.
    - injection H as <-. apply bumped_nil.
    - apply bind_ok in H as (g1 & H1 & H). apply grid_mod_bumped in H1. exact (bumped_app [(r, eff)] _ _ _ _ H1 (IH _ _ H)).
  Qed.

  (** * The NIUs of a transfer *)
  Definition sink_ids (d : device) (t : transfer (F A)) : outcome (list Z) :=
    match t_dst t with
    | Unicast c => let! b := niu_of d c (sink_niu_type (t_noc t)) in Ok [b]
    | Multicast m => let! cs := mcast_coords m in
        foldM (fun acc c => let! ty := getCoreType d c in
          match ty with WORKER => let! b := niu_of d c (sink_niu_type (t_noc t)) in Ok (acc ++ [b]) | _ => Ok acc end) cs []
    end.
  Definition niu_ids (d : device) (t : transfer (F A)) : outcome (list Z) :=
    let! a := niu_of d (t_src t) (src_niu_type (t_noc t)) in let! bs := sink_ids d t in Ok (a :: bs).
  Lemma nius_bumped d eff s g g' : add_niu_demand A d eff s g = Ok g' ->
    exists ids, niu_ids d (s_tr s) = Ok ids /\ bumped (map (fun id => (id, eff)) ids) g g'.
  Proof.
    unfold add_niu_demand, niu_ids, sink_ids. intros H. apply bind_ok in H as (g1 & H1 & H). apply bind_ok in H1 as (a & Ha & H1).
    apply grid_mod_bumped in H1. rewrite Ha. cbn [bind]. destruct (t_dst (s_tr s)) as [c|m].
    - apply bind_ok in H as (b & Hb & H). apply grid_mod_bumped in H. rewrite Hb. cbn [bind]. exists [a; b]. split; [reflexivity|].
      exact (bumped_app [(a, eff)] [(b, eff)] _ _ _ H1 H).
    - apply bind_ok in H as (cs & Hcs & H). rewrite Hcs. cbn [bind].
      assert (G : forall cs g1 g' acc, foldM (fun g c => let! ty := getCoreType d c in
          match ty with WORKER => let! id := niu_of d c (sink_niu_type (t_noc (s_tr s))) in grid_mod g id (fun x => add x eff) | _ => Ok g end) cs g1 = Ok g' ->
        exists bs, foldM (fun acc c => let! ty := getCoreType d c in
          match ty with WORKER => let! b := niu_of d c (sink_niu_type (t_noc (s_tr s))) in Ok (acc ++ [b]) | _ => Ok acc end) cs acc = Ok (acc ++ bs) /\
          bumped (map (fun id => (id, eff)) bs) g1 g').
      { clear. induction cs as [|c cs IH]; intros g1 g' acc H; cbn [foldM] in H |- *.
        - injection H as <-. exists []. rewrite app_nil_r. split; [reflexivity|apply bumped_nil].
        - apply bind_ok in H as (g2 & H2 & H). apply bind_ok in H2 as (ty & Hty & H2). rewrite Hty. cbn [bind]. destruct ty.
          1,3,4: injection H2 as <-; cbn [bind]; exact (IH _ _ _ H).
          apply bind_ok in H2 as (b & Hb & H2). apply grid_mod_bumped in H2. rewrite Hb. cbn [bind]. destruct (IH _ _ (acc ++ [b]) H) as (bs & E & HB).
          exists (b :: bs). rewrite E, <- app_assoc. split; [reflexivity|]. exact (bumped_app [(b, eff)] _ _ _ _ H2 HB). }
      destruct (G cs g1 g' [] H) as (bs & E & HB). rewrite E. cbn [bind app]. exists (a :: bs). split; [reflexivity|]. exact (bumped_app [(a, eff)] _ _ _ _ H1 HB).
  Qed.

  (** * Demand *)
  Definition nius (d : device) (x : state) : list Z := match niu_ids d (s_tr x) with Ok ids => ids | _ => [] end.
  Definition ops_of (st en : Z) (f : state -> list Z) (sts : list state) (live : list nat) : list (Z * F A) :=
    flat_map (fun i => match nth_error sts i with Some x => map (fun id => (id, effective_demand A st en x)) (f x) | None => [] end) live.
  Lemma demand_spec d st en sts live : forall g0 g, foldM (add_demand A d st en sts) live g0 = Ok g ->
    bumped (ops_of st en (nius d) sts live) (g_niu g0) (g_niu g) /\ bumped (ops_of st en s_route sts live) (g_link g0) (g_link g) /\
    forall i, In i live -> exists x ids, nth_error sts i = Some x /\ niu_ids d (s_tr x) = Ok ids.
  Proof.
    induction live as [|i live IH]; intros g0 g H; cbn [foldM] in H.
    - injection H as <-. split; [apply bumped_nil|]. split; [apply bumped_nil|]. intros i [].
    - apply bind_ok in H as (g1 & H1 & H). destruct (IH _ _ H) as (B1 & B2 & B3). unfold add_demand in H1.
      apply bind_ok in H1 as (x & Hx & H1). apply vec_get_ok in Hx. apply bind_ok in H1 as (niu & Hn & H1). apply bind_ok in H1 as (lk & Hl & H1). apply bind_ok in H1 as (mc & _ & H1). injection H1 as <-.
      cbn [g_niu g_link] in *. apply nius_bumped in Hn as (ids & Hi & Hn). apply links_bumped in Hl. cbn [ops_of flat_map]. rewrite Hx.
      split; [|split].
      + eapply bumped_app; [|exact B1]. unfold nius. rewrite Hi. exact Hn.
      + eapply bumped_app; [exact Hl|exact B2].
      + intros j [<-|Hj]; [eauto|auto].
  Qed.
  Lemma zero_get d l : (nth_error (g_link (zero_grids A d)) l = if (l <? List.length (link_table d))%nat then Some (f_zero A) else None) /\
    (nth_error (g_niu (zero_grids A d)) l = if (l <? List.length (niu_table d))%nat then Some (f_zero A) else None).
  Proof.
    assert (G : forall X (t : list X), nth_error (map (fun _ => f_zero A) t) l = if (l <? List.length t)%nat then Some (f_zero A) else None).
    { intros X t. rewrite nth_error_map. destruct (Nat.ltb_spec l (List.length t)).
      - apply nth_error_Some in H. destruct (nth_error t l); [reflexivity|congruence].
      - apply nth_error_None in H. rewrite H. reflexivity. }
    split; apply G.
  Qed.

  (** * Derating *)
  Definition new_bw (d : device) (g : grids (F A)) (s : state) : outcome (F A) :=
    let t := s_tr s in
    let! m := max_link_demand A (g_link g) (s_route s) in
    let link_derate := f_div A (link_bandwidth A d) m in
    let! sid := niu_of d (t_src t) (src_niu_type (t_noc t)) in
    let! sdem := grid_get (g_niu g) sid in
    let src_derate := f_div A (t_rate t) sdem in
    let! snk_derate := sink_derate A d t (g_niu g) in
    let niu_derate := f_min A src_derate snk_derate in
    Ok (if f_lt A link_derate (f_one A) || f_lt A niu_derate (f_one A)
        then apply_derate A d (s_bw s) (f_min A link_derate niu_derate) else s_bw s).
  Lemma with_bw_same (s : state) : with_bw s (s_bw s) = s.
  Proof. destruct s; reflexivity. Qed.
  Lemma upd_same {X} (l : list X) n x : nth_error l n = Some x -> upd l n x = l.
  Proof. revert n. induction l as [|y l IH]; intros [|n] H; cbn in *; try discriminate; [injection H as ->; reflexivity|]. rewrite IH by assumption. reflexivity. Qed.
  Lemma derate_eq d g sts id : derate A d g sts id = let! s := vec_get sts id in let! b := new_bw d g s in Ok (upd sts id (with_bw s b)).
  Proof.
    unfold derate, new_bw. destruct (vec_get sts id) as [s| | | | | |] eqn:E; cbn [bind]; try reflexivity. apply vec_get_ok in E.
    destruct (max_link_demand _ _ _); cbn [bind]; try reflexivity. destruct (niu_of _ _ _); cbn [bind]; try reflexivity.
    destruct (grid_get _ _); cbn [bind]; try reflexivity. destruct (sink_derate _ _ _ _); cbn [bind]; try reflexivity.
    destruct (_ || _); [reflexivity|]. rewrite with_bw_same, upd_same by assumption. reflexivity.
  Qed.
  Lemma derate_spec d g live : NoDup live -> forall sts sts', foldM (derate A d g) live sts = Ok sts' ->
    List.length sts' = List.length sts /\
    (forall i, ~ In i live -> nth_error sts' i = nth_error sts i) /\
    forall i, In i live -> exists x b, nth_error sts i = Some x /\ new_bw d g x = Ok b /\ nth_error sts' i = Some (with_bw x b).
  Proof.
    intros ND. induction ND as [|i live NI ND IH]; intros sts sts' H; cbn [foldM] in H.
    - injection H as <-. split; [reflexivity|]. split; [reflexivity|]. intros i [].
    - apply bind_ok in H as (s1 & H1 & H). rewrite derate_eq in H1. apply bind_ok in H1 as (x & Hx & H1). apply vec_get_ok in Hx. apply bind_ok in H1 as (b & Hb & H1). injection H1 as <-.
      destruct (IH _ _ H) as (L & HN & HI). split; [rewrite L; apply upd_length|]. split.
      + intros j Hj. rewrite HN by (intros C; apply Hj; right; exact C). apply upd_nth_other. intros ->. apply Hj. left; reflexivity.
      + intros j [<-|Hj].
        * exists x, b. split; [assumption|]. split; [assumption|]. rewrite HN by assumption. eapply upd_nth_same; eassumption.
        * destruct (HI j Hj) as (y & b' & H1 & H2 & H3). rewrite upd_nth_other in H1 by (intros ->; contradiction). eauto.
  Qed.

  (** * Uncongested bandwidth *)
  Lemma update_spec d live : forall sts sts', updateTransferBandwidth A d sts live = Ok sts' ->
    List.length sts' = List.length sts /\
    (forall i, ~ In i live -> nth_error sts' i = nth_error sts i) /\
    forall i, In i live -> exists x b, nth_error sts i = Some x /\ uncongested_bw A d (s_tr x) = Ok b /\ nth_error sts' i = Some (with_bw x b).
  Proof.
    unfold updateTransferBandwidth. induction live as [|i live IH]; intros sts sts' H; cbn [foldM] in H.
    - injection H as <-. split; [reflexivity|]. split; [reflexivity|]. intros i [].
    - apply bind_ok in H as (s1 & H1 & H). apply bind_ok in H1 as (x & Hx & H1). apply vec_get_ok in Hx. apply bind_ok in H1 as (b & Hb & H1). injection H1 as <-.
      destruct (IH _ _ H) as (L & HN & HI). split; [rewrite L; apply upd_length|]. split.
      + intros j Hj. rewrite HN by (intros C; apply Hj; right; exact C). apply upd_nth_other. intros ->. apply Hj. left; reflexivity.
      + intros j Hj. destruct (in_dec Nat.eq_dec j live) as [HL|HL].
        * destruct (HI j HL) as (y & b' & H1 & H2 & H3). rewrite upd_nth in H1. destruct (Nat.eqb_spec i j) as [<-|N].
          -- rewrite Hx in H1. injection H1 as <-. exists x, b'. cbn in H2. split; [assumption|]. split; assumption.
          -- eauto.
        * destruct Hj as [<-|Hj]; [|contradiction]. exists x, b. split; [assumption|]. split; [assumption|]. rewrite HN by assumption. eapply upd_nth_same; eassumption.
  Qed.
  Lemma congestion_spec d st en sts live sts' g : NoDup live -> modelCongestion A d st en sts live = Ok (sts', g) ->
    foldM (add_demand A d st en sts) live (zero_grids A d) = Ok g /\ List.length sts' = List.length sts /\
    (forall i, ~ In i live -> nth_error sts' i = nth_error sts i) /\
    forall i, In i live -> exists x b, nth_error sts i = Some x /\ new_bw d g x = Ok b /\ nth_error sts' i = Some (with_bw x b).
  Proof.
    intros ND H. unfold modelCongestion in H. apply bind_ok in H as (g1 & H1 & H). apply bind_ok in H as (s1 & H2 & H). injection H as <- <-.
    split; [assumption|]. apply derate_spec; assumption.
  Qed.
  Theorem rate_spec d st en sts live g0 c sts' g : NoDup live -> computeCurrentTransferRate A d st en sts live g0 c = Ok (sts', g) ->
    List.length sts' = List.length sts /\
    (forall i, ~ In i live -> nth_error sts' i = nth_error sts i) /\
    forall i, In i live -> exists x b0 b, nth_error sts i = Some x /\ uncongested_bw A d (s_tr x) = Ok b0 /\ nth_error sts' i = Some (with_bw x b) /\
      if c then new_bw d g (with_bw x b0) = Ok b else b = b0.
  Proof.
    intros ND H. unfold computeCurrentTransferRate in H. apply bind_ok in H as (s1 & H1 & H). apply update_spec in H1 as (L1 & N1 & I1). destruct c.
    - apply congestion_spec in H as (_ & L2 & N2 & I2); [|assumption]. split; [congruence|]. split; [intros i Hi; rewrite N2, N1 by assumption; reflexivity|].
      intros i Hi. destruct (I1 i Hi) as (x & b0 & X1 & X2 & X3). destruct (I2 i Hi) as (y & b & Y1 & Y2 & Y3). rewrite X3 in Y1. injection Y1 as <-. exists x, b0, b. auto.
    - injection H as <- <-. split; [assumption|]. split; [assumption|]. intros i Hi. destruct (I1 i Hi) as (x & b0 & X1 & X2 & X3). exists x, b0, b0. auto.
  Qed.
End Facts.
