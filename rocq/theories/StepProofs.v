(* One timestep: the activation scan, the rate computation as a frame, and the live transfers. *)
From Coq Require Import ZArith Arith String List Bool Lia ZifyBool ZifyNat Sorting.Permutation Sorting.Sorted.
From Verif Require Import Base Arith Util Device Workload SpecWorkload DepTracker Rates Stats Engine UtilProofs
  WorkloadProofs SpecTracker TrackerProofs DepGenProofs.
Import ListNotations.
Open Scope Z_scope.
Ltac Zify.zify_post_hook ::= idtac.

Lemma upd_app_l {X} (a b : list X) n x : (n < List.length a)%nat -> upd (a ++ b) n x = upd a n x ++ b.
Proof. revert n. induction a; intros [|n] H; cbn in *; try lia; [reflexivity|]. f_equal. apply IHa. lia. Qed.
Lemma nth_error_mid {X} (a b : list X) x : nth_error (a ++ x :: b) (List.length a) = Some x.
Proof. rewrite nth_error_app2, Nat.sub_diag by lia. reflexivity. Qed.
Lemma upd_mid {X} (a b : list X) x y : upd (a ++ x :: b) (List.length a) y = a ++ y :: b.
Proof. rewrite <- (Nat.add_0_r (List.length a)), upd_app_r. reflexivity. Qed.

Lemma swap_self {X} (a c : list X) x : swap (a ++ x :: c) (List.length a) (List.length a) = Ok (a ++ x :: c).
Proof. unfold swap, vec_get. rewrite nth_error_mid. cbn [bind]. rewrite !upd_mid. reflexivity. Qed.
Lemma swap_ends {X} (a b c : list X) x y :
  swap (a ++ x :: b ++ y :: c) (S (List.length a + List.length b)) (List.length a) = Ok (a ++ y :: b ++ x :: c).
Proof.
  unfold swap, vec_get.
  assert (E : forall z, a ++ z :: b ++ y :: c = (a ++ z :: b) ++ y :: c) by (intros; rewrite <- app_assoc; reflexivity).
  assert (E' : forall z w, a ++ z :: b ++ w :: c = (a ++ z :: b) ++ w :: c) by (intros; rewrite <- app_assoc; reflexivity).
  assert (L : forall z, S (List.length a + List.length b) = List.length (a ++ z :: b)) by (intros; rewrite app_length; cbn; lia).
  rewrite nth_error_mid. rewrite (E x), (L x), nth_error_mid. cbn [bind]. rewrite upd_mid.
  rewrite <- (E' x x), upd_mid. reflexivity.
Qed.

Lemma if_in {X} i l (a b : X) : In i l -> (if in_dec Nat.eq_dec i l then a else b) = a.
Proof. intros H. destruct (in_dec _ _ _); [reflexivity|contradiction]. Qed.
Lemma if_not_in {X} i l (a b : X) : ~ In i l -> (if in_dec Nat.eq_dec i l then a else b) = b.
Proof. intros H. destruct (in_dec _ _ _); [contradiction|reflexivity]. Qed.
Lemma if_in_ext {X} i l l' (a b : X) : (In i l <-> In i l') ->
  (if in_dec Nat.eq_dec i l then a else b) = (if in_dec Nat.eq_dec i l' then a else b).
Proof. intros H. destruct (in_dec _ _ l), (in_dec _ _ l'); tauto. Qed.

Section Step.
  Context (A : arith).
  Notation state := (tstate (F A)).

  (** * Activation *)
  Definition ready (tk : tracker) (curr : Z) (s : state) : bool :=
    match done tk (s_dep s) curr with Ok b => b | _ => false end.
  Definition ready_at (tk : tracker) (curr : Z) (sts : list state) (p : qpair) : bool :=
    match nth_error sts (snd p) with Some s => ready tk curr s | None => false end.
  (* the start cycle set when a transfer is activated *)
  Definition activated (tk : tracker) (s : state) : state :=
    match s_dep s with
    | None => s
    | Some k => match nth_error tk k with
                | Some c => with_start A s (Z.max (s_start s) (u32 (cp_end c + cp_delay c)))
                | None => s
                end
    end.
  Definition dep_ok (tk : tracker) (s : state) : Prop := forall k, s_dep s = Some k -> (k < List.length tk)%nat.

  Lemma done_ready tk curr s : dep_ok tk s -> done tk (s_dep s) curr = Ok (ready tk curr s).
  Proof.
    intros H. unfold ready, done. destruct (s_dep s) as [k|] eqn:E; [|reflexivity].
    destruct (nth_lt_some tk k (H _ E)) as [c Hc]. unfold cp_at. rewrite Hc. reflexivity.
  Qed.
  Lemma activated_dep tk s : s_dep (activated tk s) = s_dep s.
  Proof. unfold activated. destruct (s_dep s) as [k|] eqn:E; [|assumption]. destruct (nth_error tk k); cbn; assumption. Qed.

  Lemma activated_fields tk s : s_tr (activated tk s) = s_tr s /\ s_req (activated tk s) = s_req s /\
    s_dep (activated tk s) = s_dep s /\ s_route (activated tk s) = s_route s /\ s_end (activated tk s) = s_end s /\
    s_bw (activated tk s) = s_bw s /\ s_done (activated tk s) = s_done s.
  Proof.
    unfold activated. destruct (s_dep s) as [k|] eqn:Ek; [|rewrite Ek; tauto].
    destruct (nth_error tk k); cbn; rewrite ?Ek; tauto.
  Qed.

  Lemma activate_spec tk curr : forall P B C sts live acts,
    NoDup (map snd P) ->
    (forall p, In p P -> exists s, nth_error sts (snd p) = Some s /\ dep_ok tk s) ->
    exists P1 P2 B' C' sts', P = P1 ++ P2 /\
      activate A (List.length P) curr tk (Nat.pred (List.length P + List.length B)) acts sts live (P ++ B ++ C) =
        Ok (sts', live ++ map snd (filter (ready_at tk curr sts) (rev P2)), P1 ++ B' ++ C',
            (acts + List.length (filter (ready_at tk curr sts) P2))%nat) /\
      List.length C' = (List.length C + List.length (filter (ready_at tk curr sts) P2))%nat /\
      Permutation B' (B ++ filter (fun p => negb (ready_at tk curr sts p)) P2) /\
      Forall (fun p => fst p <= curr) P2 /\
      (P1 = [] \/ exists P0 x, P1 = P0 ++ [x] /\ curr < fst x) /\
      List.length sts' = List.length sts /\
      forall i s, nth_error sts i = Some s ->
        nth_error sts' i = Some (if in_dec Nat.eq_dec i (map snd (filter (ready_at tk curr sts) P2)) then activated tk s else s).
  Proof.
    induction P as [|x P IH] using rev_ind; intros B C sts live acts ND HV.
    - exists [], [], B, C, sts. cbn. rewrite !app_nil_r, !Nat.add_0_r. repeat split; auto.
    - rewrite map_app in ND. cbn [map] in ND. apply NoDup_remove in ND as [ND Hx]. rewrite app_nil_r in ND, Hx.
      destruct (HV x) as (s & Hs & Hdep). { apply in_or_app; right; left; reflexivity. }
      rewrite app_length. cbn [List.length]. replace (List.length P + 1)%nat with (S (List.length P)) by lia. cbn [activate].
      rewrite <- app_assoc. cbn [app]. unfold vec_get at 1. rewrite nth_error_mid. cbn [bind].
      destruct (Z.leb_spec (fst x) curr) as [Hle|Hgt].
      2:{ exists (P ++ [x]), [], B, C, sts. cbn [rev filter map app List.length]. rewrite !app_nil_r, !Nat.add_0_r.
          rewrite <- app_assoc. cbn [app].
          split; [reflexivity|]. split; [reflexivity|]. split; [reflexivity|]. split; [reflexivity|].
          split; [constructor|]. split; [right; eauto|]. split; [reflexivity|]. intros i si Hi. destruct (in_dec _ _ _) as [[]|]. assumption. }
      unfold vec_get. rewrite Hs. cbn [bind]. rewrite done_ready by assumption. cbn [bind].
      assert (Hrx : ready_at tk curr sts x = ready tk curr s) by (unfold ready_at; rewrite Hs; reflexivity).
      destruct (ready tk curr s) eqn:ER.
      + (* activated *)
        set (sts1 := upd sts (snd x) (activated tk s)).
        assert (EU : (let! sts2 := match s_dep s with
                 | None => Ok sts
                 | Some _ => let! e := end_cycle_plus_delay tk (s_dep s) in Ok (upd sts (snd x) (with_start A s (Z.max (s_start s) e)))
                 end in Ok sts2) = Ok sts1).
        { unfold sts1, activated. destruct (s_dep s) as [k|] eqn:E.
          - destruct (nth_lt_some tk k (Hdep _ E)) as [c Hc]. unfold end_cycle_plus_delay, cp_at. rewrite Hc. reflexivity.
          - cbn. f_equal. symmetry. apply list_ext. intros i. rewrite upd_nth, Hs. destruct (Nat.eqb_spec (snd x) i); congruence. }
        apply bind_ok in EU as (sts2 & EU & E2). injection E2 as ->. rewrite EU. cbn [bind].
        assert (HR1 : forall p, ready_at tk curr sts1 p = ready_at tk curr sts p).
        { intros p. unfold ready_at, sts1. rewrite upd_nth. destruct (Nat.eqb_spec (snd x) (snd p)) as [e|]; [|reflexivity].
          rewrite <- e, Hs. unfold ready. rewrite activated_dep. reflexivity. }
        assert (HF1 : forall l, filter (ready_at tk curr sts1) l = filter (ready_at tk curr sts) l) by (intros; apply filter_ext; exact HR1).
        assert (HF2 : forall l, filter (fun p => negb (ready_at tk curr sts1 p)) l = filter (fun p => negb (ready_at tk curr sts p)) l)
          by (intros; apply filter_ext; intros; rewrite HR1; reflexivity).
        assert (HV1 : forall p, In p P -> exists s, nth_error sts1 (snd p) = Some s /\ dep_ok tk s).
        { intros p Hp. destruct (HV p) as (s' & Hs' & Hd'). { apply in_or_app; auto. } unfold sts1. rewrite upd_nth.
          destruct (Nat.eqb_spec (snd x) (snd p)) as [e|].
          - rewrite Hs. exists (activated tk s). split; [reflexivity|]. intros k. rewrite activated_dep. apply Hdep.
          - eauto. }
        (* the swap *)
        assert (SW : exists B1, Permutation B1 B /\ List.length B1 = List.length B /\
           swap (P ++ x :: B ++ C) (Nat.pred (S (List.length P) + List.length B)) (List.length P) = Ok (P ++ B1 ++ x :: C)).
        { destruct B as [|b B _] using rev_ind.
          - exists []. split; [constructor|]. split; [reflexivity|]. cbn [List.length app]. rewrite Nat.add_0_r. apply swap_self.
          - exists (b :: B). split; [apply Permutation_cons_append|]. split; [rewrite app_length; cbn; lia|].
            rewrite app_length. cbn [List.length]. rewrite <- app_assoc. cbn [app].
            replace (Nat.pred (S (List.length P) + (List.length B + 1))) with (S (List.length P + List.length B)) by lia.
            apply swap_ends. }
        destruct SW as (B1 & HB1 & HLB & SW). unfold qpair in *. rewrite SW. cbn [bind].
        replace (Nat.pred (Nat.pred (S (List.length P) + List.length B))) with (Nat.pred (List.length P + List.length B1)) by lia.
        destruct (IH B1 (x :: C) sts1 (live ++ [snd x]) (S acts) ND HV1) as (P1 & P2 & B' & C' & sts' & E1 & E2 & E3 & E4 & E5 & E6 & E7 & E8).
        exists P1, (P2 ++ [x]), B', C', sts'. rewrite E2. split; [rewrite E1, app_assoc; reflexivity|].
        rewrite !HF1, ?HF2 in *. rewrite rev_app_distr, !filter_app, !app_length. cbn [rev app filter]. rewrite Hrx. cbn [negb List.length map].
        rewrite app_nil_r. split; [do 2 f_equal; [rewrite <- app_assoc; reflexivity|lia]|]. split; [cbn in E3; lia|].
        split; [rewrite E4, HB1; reflexivity|]. split; [apply Forall_app; auto|]. split; [assumption|].
        split; [rewrite E7; unfold sts1; apply upd_length|].
        intros i si Hi. rewrite map_app. cbn [map].
        destruct (Nat.eq_dec (snd x) i) as [e|e].
        * subst i. rewrite Hs in Hi. injection Hi as <-. rewrite (E8 (snd x) (activated tk s)) by (unfold sts1; eapply upd_nth_same; eassumption).
          rewrite if_not_in; [symmetry; rewrite if_in; [reflexivity|]|].
          { apply in_or_app; right; left; reflexivity. }
          { intros I. apply Hx. rewrite E1, map_app. apply in_or_app; right. apply in_map_iff in I as (p & Hp & Hin). apply filter_In in Hin as [Hin _].
            rewrite <- Hp. apply in_map. assumption. }
        * rewrite (E8 i si) by (unfold sts1; rewrite upd_nth_other by auto; assumption).
          f_equal. apply if_in_ext. rewrite in_app_iff. cbn [In]. intuition congruence.
      + (* rejected *)
        assert (HV1 : forall p, In p P -> exists s, nth_error sts (snd p) = Some s /\ dep_ok tk s).
        { intros p Hp. apply HV. apply in_or_app; auto. }
        destruct (IH (x :: B) C sts live acts ND HV1) as (P1 & P2 & B' & C' & sts' & E1 & E2 & E3 & E4 & E5 & E6 & E7 & E8).
        cbn [List.length app] in E2. replace (Nat.pred (S (List.length P) + List.length B)) with (Nat.pred (List.length P + S (List.length B))) by lia.
        exists P1, (P2 ++ [x]), B', C', sts'. split; [rewrite E1, app_assoc; reflexivity|].
        rewrite E2, rev_app_distr, !filter_app, !app_length. cbn [rev app filter]. rewrite Hrx. cbn [negb List.length map app].
        rewrite !app_nil_r, !Nat.add_0_r. split; [reflexivity|]. split; [assumption|]. split.
        * rewrite E4. rewrite Permutation_app_comm. cbn. rewrite Permutation_app_comm. rewrite app_assoc, <- Permutation_cons_append. reflexivity.
        * split; [apply Forall_app; auto|]. split; [assumption|]. split; assumption.
  Qed.

  (** * Rates only change the bandwidth of live transfers *)
  Definition frame_bw (live : list nat) (sts sts' : list state) : Prop :=
    List.length sts' = List.length sts /\
    forall i s, nth_error sts i = Some s -> exists b, nth_error sts' i = Some (with_bw s b) /\ (~ In i live -> b = s_bw s).
  Lemma frame_bw_refl live sts : frame_bw live sts sts.
  Proof. split; [reflexivity|]. intros i s Hs. exists (s_bw s). split; [|auto]. rewrite Hs. destruct s; reflexivity. Qed.
  Lemma frame_bw_trans live a b c : frame_bw live a b -> frame_bw live b c -> frame_bw live a c.
  Proof.
    intros [L1 H1] [L2 H2]. split; [congruence|]. intros i s Hs. destruct (H1 _ _ Hs) as (b1 & Hb1 & N1).
    destruct (H2 _ _ Hb1) as (b2 & Hb2 & N2). exists b2. split; [exact Hb2|]. intros HN. rewrite (N2 HN). cbn. auto.
  Qed.
  Lemma frame_bw_upd live sts i s b : In i live -> nth_error sts i = Some s -> frame_bw live sts (upd sts i (with_bw s b)).
  Proof.
    intros Hi Hs. split; [apply upd_length|]. intros j sj Hj. rewrite upd_nth. destruct (Nat.eqb_spec i j) as [<-|N].
    - rewrite Hs in Hj |- *. injection Hj as <-. exists b. split; [reflexivity|]. tauto.
    - exists (s_bw sj). split; [|auto]. rewrite Hj. destruct sj; reflexivity.
  Qed.
  Lemma foldM_frame live f l : (forall i, In i l -> In i live) ->
    (forall sts i sts', In i live -> f sts i = Ok sts' -> frame_bw live sts sts') ->
    forall sts sts', foldM f l sts = Ok sts' -> frame_bw live sts sts'.
  Proof.
    intros HL Hf sts sts' H. eapply foldM_inv with (P := fun x => frame_bw live sts x); [apply frame_bw_refl|exact H|].
    intros s i s' Hs Hi Hfs. eapply frame_bw_trans; [exact Hs|]. eapply Hf; [|exact Hfs]. auto.
  Qed.
  Lemma rates_frame d s e sts live g c sts' g' :
    computeCurrentTransferRate A d s e sts live g c = Ok (sts', g') -> frame_bw live sts sts'.
  Proof.
    unfold computeCurrentTransferRate. intros H. apply bind_ok in H as (sts1 & H1 & H).
    assert (F1 : frame_bw live sts sts1).
    { unfold updateTransferBandwidth in H1. eapply foldM_frame in H1; [exact H1|auto|].
      cbn. intros sa i sb Hi Hf. apply bind_ok in Hf as (x & Hx & Hf). apply vec_get_ok in Hx. apply bind_ok in Hf as (b & _ & Hf).
      injection Hf as <-. apply frame_bw_upd; assumption. }
    destruct c; [|injection H as <- <-; assumption].
    unfold modelCongestion in H. apply bind_ok in H as (g1 & _ & H). apply bind_ok in H as (sts2 & H2 & H). injection H as <- <-.
    eapply frame_bw_trans; [exact F1|]. eapply foldM_frame in H2; [exact H2|auto|].
    intros sa i sb Hi Hf. unfold derate in Hf. apply bind_ok in Hf as (x & Hx & Hf). apply vec_get_ok in Hx.
    repeat (let v := fresh "v" in let Hv := fresh "Hv" in apply bind_ok in Hf as (v & Hv & Hf)).
    destruct (_ || _); injection Hf as <-; [apply frame_bw_upd; assumption|apply frame_bw_refl].
  Qed.

  (** * One live transfer *)
  Definition adv (cpt curr sot : Z) (tk : tracker) (s : state) : outcome state :=
    let! cycles := credited_cycles A cpt curr sot tk s in
    let! mb := f_to_uint A 64 (f_mul A (f_ofZ A cycles) (s_bw s)) in
    let bytes := Z.min (u64 (t_bytes (s_tr s) - s_done s)) mb in
    let s1 := with_done A s (u64 (s_done s + bytes)) in
    if t_bytes (s_tr s) =? u64 (s_done s + bytes) then
      let! e := f_to_uint A 64 (f_add A (f_ofZ A (Z.max (s_start s) sot)) (f_ceil A (f_div A (f_ofZ A bytes) (s_bw s)))) in
      Ok (with_end A s1 (u32 e))
    else Ok s1.
  Definition is_complete (s : state) : bool := s_done s =? t_bytes (s_tr s).
  (* statistics kept for a completed transfer *)
  Definition note (wl : workload (F A)) (s : state) (stt : stats A) : outcome (stats A) :=
    let dev := c_dev (t_src (s_tr s)) in
    let! g := getGoldenResultCycles wl dev in
    let! gm := getGoldenResultCycles wl MESH_DEVICE in
    Ok (updateWorstCase A MESH_DEVICE (t_off (s_tr s)) (s_end s) gm
          (updateWorstCase A dev (t_off (s_tr s)) (s_end s) g stt)).

  Lemma live_step_eq wl cpt curr sot sts tk stt id :
    live_step A wl cpt curr sot (sts, tk, stt) id =
    let! s := vec_get sts id in
    let! dn := done tk (s_dep s) curr in
    let! _ := tt_assert dn in
    let! s' := adv cpt curr sot tk s in
    if is_complete s' then
      let! tk' := foldM (fun tk k => updateCheckpoint tk (Some k) (s_end s')) (s_req s') tk in
      let! stt' := note wl s' stt in
      Ok (upd sts id s', tk', stt')
    else Ok (upd sts id s', tk, stt).
  Proof.
    unfold live_step, adv, is_complete. destruct (vec_get sts id) as [s| | | | | |]; cbn [bind]; try reflexivity.
    destruct (done tk (s_dep s) curr) as [dn| | | | | |]; cbn [bind]; try reflexivity.
    destruct (tt_assert dn); cbn [bind]; try reflexivity.
    destruct (credited_cycles A cpt curr sot tk s) as [c| | | | | |]; cbn [bind]; try reflexivity.
    destruct (f_to_uint A 64 (f_mul A (f_ofZ A c) (s_bw s))) as [mb| | | | | |]; cbn [bind]; try reflexivity.
    set (bytes := Z.min _ _). cbn [with_done s_tr s_done s_start s_bw s_req].
    destruct (Z.eqb_spec (t_bytes (s_tr s)) (u64 (s_done s + bytes))) as [E|E]; cbn [bind].
    - destruct (f_to_uint A 64 _) as [e| | | | | |]; cbn [bind]; try reflexivity.
      cbn [with_end with_done s_tr s_done s_end s_req]. rewrite E, Z.eqb_refl.
      destruct (foldM _ (s_req s) tk); cbn [bind]; try reflexivity. unfold note. cbn [with_end with_done s_tr s_end].
      destruct (getGoldenResultCycles wl (c_dev (t_src (s_tr s)))); cbn [bind]; try reflexivity.
      destruct (getGoldenResultCycles wl MESH_DEVICE); cbn [bind]; reflexivity.
    - cbn [with_done s_done s_tr]. destruct (Z.eqb_spec (u64 (s_done s + bytes)) (t_bytes (s_tr s))); [congruence|reflexivity].
  Qed.

  Lemma credited_ext cpt curr sot tk tk' s : end_cycle tk' (s_dep s) = end_cycle tk (s_dep s) ->
    credited_cycles A cpt curr sot tk' s = credited_cycles A cpt curr sot tk s.
  Proof. intros H. unfold credited_cycles. rewrite H. reflexivity. Qed.
  Lemma adv_ext cpt curr sot tk tk' s : end_cycle tk' (s_dep s) = end_cycle tk (s_dep s) ->
    adv cpt curr sot tk' s = adv cpt curr sot tk s.
  Proof. intros H. unfold adv. rewrite (credited_ext _ _ _ _ _ _ H). reflexivity. Qed.
  (* parts not changed by [adv] *)
  Definition same_static (s s' : state) : Prop :=
    s_tr s' = s_tr s /\ s_req s' = s_req s /\ s_dep s' = s_dep s /\ s_route s' = s_route s.
  Lemma adv_static cpt curr sot tk s s' : adv cpt curr sot tk s = Ok s' ->
    same_static s s' /\ s_start s' = s_start s /\ s_bw s' = s_bw s.
  Proof.
    unfold adv. intros H. apply bind_ok in H as (c & _ & H). apply bind_ok in H as (mb & _ & H).
    destruct (_ =? _); [apply bind_ok in H as (e & _ & H)|]; injection H as <-; unfold same_static; cbn; tauto.
  Qed.
  (* the bytes and the end cycle *)
  Lemma adv_bytes cpt curr sot tk s s' : adv cpt curr sot tk s = Ok s' ->
    0 <= s_done s <= t_bytes (s_tr s) -> t_bytes (s_tr s) < 2 ^ 32 ->
    s_done s <= s_done s' <= t_bytes (s_tr s) /\
    exists c mb, credited_cycles A cpt curr sot tk s = Ok c /\ f_to_uint A 64 (f_mul A (f_ofZ A c) (s_bw s)) = Ok mb /\
      s_done s' = s_done s + Z.min (t_bytes (s_tr s) - s_done s) mb /\
      ((is_complete s' = false /\ s_end s' = s_end s) \/
       (is_complete s' = true /\ exists e,
          f_to_uint A 64 (f_add A (f_ofZ A (Z.max (s_start s) sot))
             (f_ceil A (f_div A (f_ofZ A (Z.min (t_bytes (s_tr s) - s_done s) mb)) (s_bw s)))) = Ok e /\ s_end s' = u32 e)).
  Proof.
    unfold adv, is_complete. intros H HB HT. apply bind_ok in H as (c & Hc & H). apply bind_ok in H as (mb & Hmb & H).
    assert (0 <= mb). { unfold f_to_uint in Hmb. destruct (f_trunc _ _); [|discriminate]. destruct (_ && _) eqn:E; [|discriminate]. injection Hmb as <-. lia. }
    rewrite (u64_id (t_bytes (s_tr s) - s_done s)) in H by lia.
    rewrite u64_id in H by lia.
    destruct (Z.eqb_spec (t_bytes (s_tr s)) (s_done s + Z.min (t_bytes (s_tr s) - s_done s) mb)) as [E|E].
    - apply bind_ok in H as (e & He & H). injection H as <-. cbn [with_end with_done s_done s_tr s_end].
      split; [lia|]. exists c, mb. split; [assumption|]. split; [assumption|]. split; [reflexivity|]. right. split; [lia|]. eauto.
    - injection H as <-. cbn [with_done s_done s_tr s_end]. split; [lia|]. exists c, mb. split; [assumption|]. split; [assumption|].
      split; [reflexivity|]. left. split; [lia|reflexivity].
  Qed.
End Step.
