(* The invariant of the simulation loop and its preservation by a timestep. *)
From Coq Require Import ZArith Arith String List Bool Lia ZifyBool ZifyNat Sorting.Permutation Sorting.Sorted.
From Verif Require Import Base Arith Util Device Workload SpecWorkload DepTracker Rates Stats Engine UtilProofs
  WorkloadProofs SpecTracker TrackerProofs DepGenProofs StepProofs SpecEngine.
Import ListNotations.
Open Scope Z_scope.
Ltac Zify.zify_post_hook ::= idtac.

Lemma filter_length_split {X} (p : X -> bool) l :
  List.length l = (List.length (filter p l) + List.length (filter (fun x => negb (p x)) l))%nat.
Proof. induction l as [|x l IH]; cbn; [reflexivity|]. destruct (p x); cbn; lia. Qed.
Lemma filter_perm_split {X} (p : X -> bool) l : Permutation l (filter p l ++ filter (fun x => negb (p x)) l).
Proof.
  induction l as [|x l IH]; cbn; [constructor|]. destruct (p x); cbn; [constructor; assumption|].
  rewrite <- Permutation_middle. constructor. assumption.
Qed.
Lemma filter_rev {X} (p : X -> bool) l : filter p (rev l) = rev (filter p l).
Proof. induction l as [|x l IH]; cbn; [reflexivity|]. rewrite filter_app, IH. cbn. destruct (p x); [reflexivity|]. rewrite app_nil_r. reflexivity. Qed.
Lemma perm_step {X} (q a r l f : list X) : Permutation q (a ++ r) -> Permutation (q ++ l ++ f) ((l ++ a) ++ f ++ r).
Proof.
  intros ->. rewrite (Permutation_app_comm (a ++ r) (l ++ f)), <- !app_assoc. apply Permutation_app_head. apply Permutation_app_swap_app.
Qed.
Lemma perm_step2 {X} (q a r l f c nc : list X) : Permutation q (a ++ r) -> Permutation (l ++ a) (c ++ nc) ->
  Permutation (r ++ nc ++ f ++ c) (q ++ l ++ f).
Proof.
  intros H1 H2. rewrite (perm_step _ _ _ l f H1), H2. rewrite (Permutation_app_comm r). rewrite !app_assoc. apply Permutation_app_tail.
  rewrite (Permutation_app_comm (nc ++ f) c), app_assoc. reflexivity.
Qed.
Lemma NoDup_app_l {X} (a b : list X) : NoDup (a ++ b) -> NoDup a.
Proof. induction a; cbn; intros H; [constructor|]. inversion H; subst. constructor; auto. rewrite in_app_iff in H2. tauto. Qed.
Lemma NoDup_app_r {X} (a b : list X) : NoDup (a ++ b) -> NoDup b.
Proof. induction a; cbn; intros H; [assumption|]. inversion H; auto. Qed.
Lemma NoDup_app_not {X} (a b : list X) x : NoDup (a ++ b) -> In x a -> In x b -> False.
Proof.
  induction a as [|y a IH]; cbn; intros H Ha Hb; [destruct Ha|]. inversion H; subst. destruct Ha as [<-|Ha]; auto.
  apply H2. apply in_or_app; auto.
Qed.

Section Engine.
  Context (A : arith).
  Notation state := (tstate (F A)).
  (* the states before dependency generation and the dependencies *)
  Context (sts0 : list state) (E : list edge).
  Context (HE : Forall (edge_ok (List.length sts0)) E).
  Context (HR : Forall (fun s => transfer_ranges (s_tr s)) sts0).

  Definition end_at (sts : list state) (i : nat) : Z := match nth_error sts i with Some s => s_end s | None => 0 end.
  Definition cp_of (fin : list nat) (sts : list state) (e : edge) : checkpoint :=
    if in_dec Nat.eq_dec (e_parent e) fin then mkCp 1 1 (end_at sts (e_parent e)) (e_delay e) else mkCp 0 1 0 (e_delay e).
  Definition trk_of (fin : list nat) (sts : list state) : tracker := map (cp_of fin sts) E.
  Definition static_ok (i : nat) (x : state) : Prop := exists x0, nth_error sts0 i = Some x0 /\
    s_tr x = s_tr x0 /\ s_route x = s_route x0 /\ s_req x = reqs_of E i /\ s_dep x = dep_of E i.
  Definition all_static (sts : list state) : Prop := List.length sts = List.length sts0 /\ forall i x, nth_error sts i = Some x -> static_ok i x.
  (* the start cycle of a transfer that has been activated *)
  Definition start_ok (sts : list state) (i : nat) (x : state) : Prop :=
    s_start x = match dep_of E i with
                | None => t_off (s_tr x)
                | Some k => match nth_error E k with
                            | Some e => Z.max (t_off (s_tr x)) (u32 (end_at sts (e_parent e) + e_delay e))
                            | None => t_off (s_tr x)
                            end
                end.
  Definition parent_in (fin : list nat) (i : nat) : Prop :=
    forall k e, dep_of E i = Some k -> nth_error E k = Some e -> In (e_parent e) fin.

  Lemma static_ranges i x : static_ok i x -> transfer_ranges (s_tr x).
  Proof.
    intros (x0 & H0 & -> & _). rewrite Forall_forall in HR. apply HR. eapply nth_error_In; eassumption.
  Qed.
  Lemma dep_edge i k : dep_of E i = Some k -> exists e, nth_error E k = Some e /\ e_child e = i.
  Proof. intros H. apply dep_of_some in H as (e & H1 & H2 & _). eauto. Qed.
  Lemma trk_length fin sts : List.length (trk_of fin sts) = List.length E.
  Proof. apply map_length. Qed.
  Lemma trk_nth fin sts k e : nth_error E k = Some e -> nth_error (trk_of fin sts) k = Some (cp_of fin sts e).
  Proof. intros H. apply map_nth_error. assumption. Qed.
  Lemma static_dep_ok fin sts i x : static_ok i x -> dep_ok A (trk_of fin sts) x.
  Proof.
    intros (x0 & _ & _ & _ & _ & Hd) k Hk. rewrite Hd in Hk. apply dep_edge in Hk as (e & He & _). rewrite trk_length. eapply nth_some_lt; eassumption.
  Qed.

  (** * The live transfers of one timestep *)
  Section Live.
    Context (wl : workload (F A)) (cpt curr sot : Z) (fin : list nat) (sts2 : list state) (stt0 : stats A).
    Context (HS : all_static sts2).
    Let tk0 := trk_of fin sts2.

    Definition note_all (sts : list state) (ids : list nat) (stt : stats A) : outcome (stats A) :=
      foldM (fun stt id => let! s := vec_get sts id in note A wl s stt) ids stt.
    Record live_inv (p : list nat) (st : live_state A) : Prop := {
      li_len : List.length (fst (fst st)) = List.length sts2;
      li_done : forall i x2, nth_error sts2 i = Some x2 -> In i p ->
                  exists x', adv A cpt curr sot tk0 x2 = Ok x' /\ nth_error (fst (fst st)) i = Some x';
      li_rest : forall i x2, nth_error sts2 i = Some x2 -> ~ In i p -> nth_error (fst (fst st)) i = Some x2;
      li_trk : snd (fst st) = trk_of (fin ++ filter (complete A (fst (fst st))) p) (fst (fst st));
      li_note : note_all (fst (fst st)) (filter (complete A (fst (fst st))) p) stt0 = Ok (snd st) }.

    Lemma note_all_ext sts sts' ids stt : (forall i, In i ids -> nth_error sts' i = nth_error sts i) ->
      note_all sts' ids stt = note_all sts ids stt.
    Proof. intros H. apply foldM_ext. intros s x Hx. unfold vec_get. rewrite H by assumption. reflexivity. Qed.

    Lemma live_trk_end p st id x2 : live_inv p st -> (forall i, In i p -> ~ In i fin) -> ~ In id p ->
      nth_error sts2 id = Some x2 -> parent_in fin id ->
      end_cycle (snd (fst st)) (s_dep x2) = end_cycle tk0 (s_dep x2) /\
      forall c, done (snd (fst st)) (s_dep x2) c = done tk0 (s_dep x2) c.
    Proof.
      intros LI HD Hid Hx HP. destruct LI as [L1 L2 L3 L4 L5]. destruct HS as [_ HS']. destruct (HS' _ _ Hx) as (x0 & _ & _ & _ & _ & Hdep).
      rewrite Hdep, L4. unfold tk0. destruct (dep_of E id) as [k|] eqn:Ed; [|split; reflexivity].
      destruct (dep_edge _ _ Ed) as (e & He & _). unfold end_cycle, done, cp_at. rewrite !(trk_nth _ _ _ _ He). cbn [bind].
      pose proof (HP _ _ Ed He) as Hp. unfold cp_of.
      rewrite !if_in by (try apply in_or_app; auto). unfold end_at.
      assert (Hn : ~ In (e_parent e) p) by (intros Hin; exact (HD _ Hin Hp)).
      assert (nth_error (fst (fst st)) (e_parent e) = nth_error sts2 (e_parent e)) as ->; [|split; reflexivity].
      destruct (nth_error sts2 (e_parent e)) as [y|] eqn:Ey; [apply L3; assumption|]. apply nth_error_None in Ey. apply nth_error_None. lia.
    Qed.

    Lemma live_step_inv p st id st' : live_inv p st -> NoDup (p ++ [id]) -> (forall i, In i (p ++ [id]) -> ~ In i fin) ->
      parent_in fin id -> live_step A wl cpt curr sot st id = Ok st' -> live_inv (p ++ [id]) st'.
    Proof.
      intros LI ND HD HP H. destruct st as [[sts tk] stt].
      assert (Hid : ~ In id p) by (intros Hin; eapply NoDup_app_not; [exact ND|exact Hin|left; reflexivity]).
      assert (HDp : forall i, In i p -> ~ In i fin) by (intros; apply HD; apply in_or_app; auto).
      pose proof LI as LI'. destruct LI as [L1 L2 L3 L4 L5]. cbn [fst snd] in *.
      rewrite live_step_eq in H. apply bind_ok in H as (x & Hx & H). apply vec_get_ok in Hx.
      assert (Hx2 : nth_error sts2 id = Some x).
      { destruct (nth_error sts2 id) as [y|] eqn:Ey; [rewrite (L3 _ _ Ey Hid) in Hx; congruence|].
        apply nth_error_None in Ey. apply nth_some_lt in Hx. lia. }
      destruct (live_trk_end _ _ _ _ LI' HDp Hid Hx2 HP) as [Hend _]. cbn [fst snd] in Hend.
      apply bind_ok in H as (dn & _ & H). apply bind_ok in H as (u & _ & H). apply bind_ok in H as (x' & Hadv & H).
      rewrite (adv_ext _ _ _ _ _ _ _ Hend) in Hadv.
      pose proof (adv_static _ _ _ _ _ _ _ Hadv) as ((S1 & S2 & S3 & S4) & _ & _).
      pose proof HS as [HS1 HS2]. destruct (HS2 _ _ Hx2) as (x0 & Hx0 & _ & _ & Hreq & _).
      (* facts about the new list of states *)
      set (sts' := upd sts id x') in *.
      assert (N1 : nth_error sts' id = Some x') by (eapply upd_nth_same; eassumption).
      assert (N2 : forall i, i <> id -> nth_error sts' i = nth_error sts i) by (intros; unfold sts'; rewrite upd_nth_other; auto).
      assert (C1 : forall i, i <> id -> complete A sts' i = complete A sts i) by (intros; unfold complete; rewrite N2 by assumption; reflexivity).
      assert (C2 : complete A sts' id = is_complete A x') by (unfold complete; rewrite N1; reflexivity).
      assert (FP : filter (complete A sts') p = filter (complete A sts) p).
      { apply filter_ext_in. intros i Hi. apply C1. intros ->. contradiction. }
      assert (EA : forall i, i <> id -> end_at sts' i = end_at sts i) by (intros; unfold end_at; rewrite N2 by assumption; reflexivity).
      assert (G : forall tk' stt',
        tk' = trk_of (fin ++ filter (complete A sts') (p ++ [id])) sts' ->
        note_all sts' (filter (complete A sts') (p ++ [id])) stt0 = Ok stt' ->
        live_inv (p ++ [id]) (sts', tk', stt')).
      { intros tk' stt' HT HN. split; cbn [fst snd]; auto.
        - unfold sts'. rewrite upd_length. assumption.
        - intros i y Hy Hi. apply in_app_or in Hi as [Hi|[<-|[]]].
          + destruct (L2 _ _ Hy Hi) as (y' & Y1 & Y2). exists y'. split; [assumption|]. rewrite N2; [assumption|]. intros ->. contradiction.
          + exists x'. rewrite Hx2 in Hy. injection Hy as <-. auto.
        - intros i y Hy Hi. rewrite N2; [apply L3; [assumption|]|]; intros Hn; apply Hi; apply in_or_app; subst; cbn; auto. }
      rewrite filter_app, FP in G. cbn [filter] in G. rewrite C2 in G.
      assert (NA : note_all sts' (filter (complete A sts) p) stt0 = Ok stt).
      { rewrite <- L5. apply note_all_ext. intros i Hi. apply N2. intros ->. apply filter_In in Hi. tauto. }
      destruct (is_complete A x') eqn:EC.
      - apply bind_ok in H as (tk' & Htk & H). apply bind_ok in H as (stt' & Hnote & H). injection H as <-. apply G.
        + destruct (update_all_spec (s_req x') (s_end x') tk) as (tk1 & T1 & T2 & T3).
          { rewrite S2, Hreq. apply reqs_from_NoDup. }
          { intros k Hk. rewrite S2, Hreq in Hk. apply reqs_of_in in Hk as (e & He & _). rewrite L4, trk_length. eapply nth_some_lt; eassumption. }
          rewrite T1 in Htk. injection Htk as ->. apply list_ext. intros k.
          destruct (nth_error E k) as [e|] eqn:He.
          2:{ apply nth_error_None in He. transitivity (@None checkpoint); [|symmetry]; apply nth_error_None; rewrite ?T2, ?L4, ?trk_length; lia. }
          rewrite (trk_nth _ _ _ _ He). rewrite (T3 k (cp_of (fin ++ filter (complete A sts) p) sts e)) by (rewrite L4; apply trk_nth; assumption).
          f_equal. rewrite S2, Hreq. unfold cp_of. destruct (Nat.eq_dec (e_parent e) id) as [Ep|Ep].
          * rewrite if_in by (apply reqs_of_in; eauto).
            rewrite if_not_in. 2:{ rewrite Ep, in_app_iff, filter_In. intros [Hin|[Hin _]]; [|contradiction]. apply (HD id); [apply in_or_app; right; left; reflexivity|assumption]. }
            rewrite if_in by (rewrite Ep, app_assoc; apply in_or_app; right; left; reflexivity).
            unfold bump. cbn [cp_completed cp_total cp_end cp_delay]. rewrite Ep. unfold end_at. rewrite N1. f_equal.
            assert (0 <= s_end x'); [|lia].
            clear - EC Hadv. unfold adv in Hadv. apply bind_ok in Hadv as (c & _ & H). apply bind_ok in H as (mb & _ & H).
            destruct (_ =? _) eqn:Eq; [apply bind_ok in H as (e & _ & H)|]; injection H as <-.
            { cbn. apply u32_range. }
            { exfalso. unfold is_complete in EC. cbn in EC. lia. }
          * rewrite if_not_in by (rewrite reqs_of_in; intros (e' & He' & Hp'); congruence).
            rewrite EA by assumption. apply if_in_ext. rewrite app_assoc, (in_app_iff _ [id]). cbn. intuition congruence.
        + unfold note_all in *. rewrite foldM_app. replace (foldM _ (filter (complete A sts) p) stt0) with (Ok stt) by (symmetry; exact NA). cbn [bind foldM].
          unfold vec_get. rewrite N1. cbn [bind]. rewrite Hnote. reflexivity.
      - injection H as <-. apply G.
        + rewrite app_nil_r, L4. unfold trk_of. apply map_ext_in. intros e He. unfold cp_of. destruct (Nat.eq_dec (e_parent e) id) as [Ep|Ep].
          * assert (~ In (e_parent e) (fin ++ filter (complete A sts) p)).
            { rewrite Ep, in_app_iff, filter_In. intros [Hin|[Hin _]]; [|contradiction]. apply (HD id); [apply in_or_app; right; left; reflexivity|assumption]. }
            rewrite !if_not_in by assumption. reflexivity.
          * rewrite EA by assumption. reflexivity.
        + rewrite app_nil_r. exact NA.
    Qed.

    Lemma live_fold_inv r : forall p st st', live_inv p st -> NoDup (p ++ r) -> (forall i, In i (p ++ r) -> ~ In i fin) ->
      (forall i, In i r -> parent_in fin i) -> foldM (live_step A wl cpt curr sot) r st = Ok st' -> live_inv (p ++ r) st'.
    Proof.
      induction r as [|id r IH]; intros p st st' LI ND HD HP H; cbn [foldM] in H.
      - injection H as <-. rewrite app_nil_r. assumption.
      - apply bind_ok in H as (st1 & H1 & H). replace (p ++ id :: r) with ((p ++ [id]) ++ r) in * by (rewrite <- app_assoc; reflexivity).
        eapply IH; [|exact ND|exact HD| |exact H].
        + eapply live_step_inv; [exact LI| | | |exact H1].
          * eapply NoDup_app_l; exact ND.
          * intros i Hi. apply HD. apply in_or_app; auto.
          * apply HP. left; reflexivity.
        + intros i Hi. apply HP. right; assumption.
    Qed.
    Lemma live_inv_start : live_inv [] (sts2, tk0, stt0).
    Proof.
      split; cbn [fst snd filter]; auto.
      - intros i x Hx []. - rewrite app_nil_r. reflexivity.
    Qed.
  End Live.

  (** * The invariant *)
  (* [h]: the last cycle at which transfers were activated *)
  Record inv (h : Z) (s : sim A) (fin : list nat) : Prop := {
    inv_static : all_static (sm_sts A s);
    inv_part : Permutation (map snd (sm_queue A s) ++ sm_live A s ++ fin) (seq 0 (List.length sts0));
    inv_trk : sm_trk A s = trk_of fin (sm_sts A s);
    inv_queue : forall p, In p (sm_queue A s) -> exists x, nth_error (sm_sts A s) (snd p) = Some x /\
      fst p = t_off (s_tr x) /\ s_start x = t_off (s_tr x) /\ s_done x = 0 /\ s_end x = 0;
    inv_sorted : exists P B, sm_queue A s = P ++ B /\ StronglySorted (fun a b => fst b <= fst a) P /\ Forall (fun p => fst p <= h) B;
    inv_started : forall i x, In i (sm_live A s ++ fin) -> nth_error (sm_sts A s) i = Some x ->
      start_ok (sm_sts A s) i x /\ s_start x <= h /\ parent_in fin i;
    inv_live : forall i x, In i (sm_live A s) -> nth_error (sm_sts A s) i = Some x -> 0 <= s_done x < t_bytes (s_tr x) /\ s_end x = 0;
    inv_fin : forall i x, In i fin -> nth_error (sm_sts A s) i = Some x -> s_done x = t_bytes (s_tr x) /\ 0 <= s_end x < 2 ^ 32 }.

  (* what one timestep does; [act]: the transfers activated, [sts1]: the states after activation, [sts2]: after the
     rate computation, [stt]: the statistics before the live transfers are advanced *)
  Record step_rel (d : device) (congestion : bool) (cpt : Z) (wl : workload (F A)) (s s' : sim A)
      (act : list nat) (sts1 sts2 : list state) (stt : stats A) : Prop := {
    sr_curr : sm_curr A s' = sm_curr A s;
    sr_act : forall i, In i act <-> In i (map snd (sm_queue A s)) /\
               exists x, nth_error (sm_sts A s) i = Some x /\ t_off (s_tr x) <= sm_curr A s /\ ready A (sm_trk A s) (sm_curr A s) x = true;
    sr_queue : Permutation (map snd (sm_queue A s)) (act ++ map snd (sm_queue A s'));
    sr_sts1 : List.length sts1 = List.length (sm_sts A s) /\ forall i x, nth_error (sm_sts A s) i = Some x ->
               nth_error sts1 i = Some (if in_dec Nat.eq_dec i act then activated A (sm_trk A s) x else x);
    sr_rates : computeCurrentTransferRate A d (u32 (sm_curr A s - cpt)) (sm_curr A s) sts1 (sm_live A s ++ act)
                 (sm_grids A s) congestion = Ok (sts2, sm_grids A s');
    sr_sts : List.length (sm_sts A s') = List.length sts2 /\ forall i x2, nth_error sts2 i = Some x2 ->
               (In i (sm_live A s ++ act) -> exists x',
                  adv A cpt (sm_curr A s) (u32 (sm_curr A s - cpt)) (sm_trk A s) x2 = Ok x' /\ nth_error (sm_sts A s') i = Some x') /\
               (~ In i (sm_live A s ++ act) -> nth_error (sm_sts A s') i = Some x2);
    sr_live : sm_live A s' = filter (fun i => negb (complete A (sm_sts A s') i)) (sm_live A s ++ act);
    sr_stats0 : exists stt1, insertTimestep A wl (u32 (sm_curr A s - cpt)) (sm_curr A s) (sm_stats A s) = Ok stt1 /\
                stt = updateSimulationStats A d (sm_grids A s') (sm_live A s ++ act) stt1;
    sr_stats : note_all wl (sm_sts A s') (filter (complete A (sm_sts A s')) (sm_live A s ++ act)) stt = Ok (sm_stats A s') }.

  Lemma part_ids h s fin : inv h s fin -> NoDup (map snd (sm_queue A s) ++ sm_live A s ++ fin) /\
    forall i, In i (map snd (sm_queue A s) ++ sm_live A s ++ fin) <-> (i < List.length (sm_sts A s))%nat.
  Proof.
    intros I. pose proof (inv_part _ _ _ I) as HP. destruct (inv_static _ _ _ I) as [HL _]. rewrite HL. split.
    - eapply Permutation_NoDup; [symmetry; exact HP|apply seq_NoDup].
    - intros i. split; intros Hi.
      + eapply Permutation_in in Hi; [|exact HP]. apply in_seq in Hi. lia.
      + eapply Permutation_in; [symmetry; exact HP|]. apply in_seq. lia.
  Qed.

  Lemma ready_parent fin sts c i x : static_ok i x -> ready A (trk_of fin sts) c x = true ->
    parent_in fin i /\ forall k e, dep_of E i = Some k -> nth_error E k = Some e -> u32 (end_at sts (e_parent e) + e_delay e) <= c.
  Proof.
    intros (x0 & _ & _ & _ & _ & Hd) H. assert (G : forall k e, dep_of E i = Some k -> nth_error E k = Some e ->
      In (e_parent e) fin /\ u32 (end_at sts (e_parent e) + e_delay e) <= c).
    { intros k e Hk He. unfold ready, done, cp_at in H. rewrite Hd, Hk, (trk_nth _ _ _ _ He) in H. cbn [bind] in H.
      unfold cp_of in H. destruct (in_dec _ _ _) as [I|I]; unfold cp_done in H; cbn [cp_completed cp_total cp_end cp_delay] in H.
      - split; [assumption|]. lia. - cbn in H. discriminate. }
    split; [intros k e Hk He|intros k e Hk He]; destruct (G _ _ Hk He); assumption.
  Qed.
  Lemma activated_start fin sts i x : static_ok i x -> s_start x = t_off (s_tr x) -> parent_in fin i ->
    start_ok sts i (activated A (trk_of fin sts) x).
  Proof.
    intros (x0 & _ & _ & _ & _ & Hd) Hs HP. unfold start_ok, activated. rewrite Hd.
    destruct (dep_of E i) as [k|] eqn:Ek; [|assumption].
    destruct (dep_edge _ _ Ek) as (e & He & _). rewrite (trk_nth _ _ _ _ He), He. cbn [with_start s_start s_tr].
    unfold cp_of. rewrite if_in by (eapply HP; eassumption). cbn [cp_end cp_delay]. rewrite Hs. reflexivity.
  Qed.

  Theorem timestep_rel d congestion cpt wl s fin s' : inv (sm_curr A s - cpt) s fin -> 0 <= cpt ->
    timestep A d congestion cpt wl s = Ok s' ->
    exists act sts1 sts2 stt, step_rel d congestion cpt wl s s' act sts1 sts2 stt /\
      inv (sm_curr A s) s' (fin ++ filter (complete A (sm_sts A s')) (sm_live A s ++ act)).
  Proof.
    intros I Hcpt H. destruct (part_ids _ _ _ I) as [ND IDS]. pose proof I as [HST HPT HTK HQ HSO HSTA HLV HFN].
    unfold timestep in H. apply bind_ok in H as (stt1 & Hins & H). apply bind_ok in H as ([[[sts1 live1] q1] acts] & Hact & H).
    set (curr := sm_curr A s) in *. set (sot := u32 (curr - cpt)) in *.
    (* activation *)
    assert (HV : forall p, In p (sm_queue A s) -> exists x, nth_error (sm_sts A s) (snd p) = Some x /\ dep_ok A (sm_trk A s) x).
    { intros p Hp. destruct (HQ _ Hp) as (x & Hx & _). exists x. split; [assumption|]. rewrite HTK. eapply static_dep_ok. apply HST. eassumption. }
    destruct (activate_spec A (sm_trk A s) curr (sm_queue A s) [] [] (sm_sts A s) (sm_live A s) O) as (P1 & P2 & B' & C' & sts1' & E1 & E2 & E3 & E4 & E5 & E6 & E7 & E8).
    { eapply NoDup_app_l; exact ND. } { exact HV. }
    cbn [List.length app] in E2, E3. rewrite Nat.add_0_r, app_nil_r in E2. pose proof (eq_trans (eq_sym E2) Hact) as Hact'. clear E2 Hact. injection Hact' as <- <- <- <-. rename sts1' into sts1.
    set (act := map snd (filter (ready_at A (sm_trk A s) curr (sm_sts A s)) (rev P2))) in *.
    set (actP := filter (ready_at A (sm_trk A s) curr (sm_sts A s)) P2) in *.
    assert (Eact : forall i, In i act <-> In i (map snd actP)).
    { intros i. unfold act. rewrite filter_rev, map_rev, <- in_rev. reflexivity. }
    apply bind_ok in H as ([sts2 g2] & Hrate & H). apply bind_ok in H as ([[sts3 tk3] stt3] & Hfold & H). injection H as <-.
    unfold qpair in *.
    match goal with |- context [firstn ?k (P1 ++ B' ++ C')] => replace (firstn k (P1 ++ B' ++ C')) with (P1 ++ B') end.
    2:{ match goal with |- _ = firstn ?k _ => replace k with (List.length (P1 ++ B')) by (cbn [Nat.add]; rewrite !app_length; lia) end.
        rewrite app_assoc, firstn_app, Nat.sub_diag, firstn_all. cbn. rewrite app_nil_r. reflexivity. }
    cbn [app] in E4.
    assert (PQ : Permutation (sm_queue A s) (actP ++ P1 ++ B')).
    { rewrite E1 at 1. rewrite E4. rewrite (filter_perm_split (ready_at A (sm_trk A s) curr (sm_sts A s)) P2) at 1. fold actP.
      rewrite !app_assoc. apply Permutation_app_tail. apply Permutation_app_comm. }
    assert (PA : Permutation act (map snd actP)).
    { unfold act. rewrite filter_rev, map_rev. symmetry. apply Permutation_rev. }
    assert (PQ' : Permutation (map snd (sm_queue A s)) (act ++ map snd (P1 ++ B'))).
    { rewrite PA, <- map_app. apply Permutation_map. exact PQ. }
    (* P1 is the part of the sorted prefix above the clock *)
    assert (HP1 : Forall (fun p => curr < fst p) P1 /\ StronglySorted (fun a b => fst b <= fst a) P1).
    { destruct HSO as (P & B & EQ & SO & FB). destruct E6 as [->|(P0 & x & -> & Hx)]; [split; constructor|].
      assert (EP : exists R, P = (P0 ++ [x]) ++ R).
      { assert (Hlen : (List.length (P0 ++ [x]) <= List.length P)%nat).
        { destruct (Nat.le_gt_cases (List.length (P0 ++ [x])) (List.length P)) as [|Hgt]; [assumption|]. exfalso.
          assert (nth_error (sm_queue A s) (List.length P0) = Some x).
          { rewrite E1, <- app_assoc. apply nth_error_mid. }
          rewrite EQ in H. rewrite app_length in Hgt. cbn in Hgt. rewrite nth_error_app2 in H by lia. apply nth_error_In in H.
          rewrite Forall_forall in FB. specialize (FB _ H). lia. }
        rewrite E1 in EQ. apply (f_equal (firstn (List.length (P0 ++ [x])))) in EQ. rewrite firstn_app, Nat.sub_diag, firstn_all in EQ. cbn [firstn] in EQ. rewrite app_nil_r in EQ.
        rewrite firstn_app in EQ. replace (List.length (P0 ++ [x]) - List.length P)%nat with O in EQ by lia. cbn [firstn] in EQ. rewrite app_nil_r in EQ.
        exists (skipn (List.length (P0 ++ [x])) P). rewrite EQ at 1. symmetry. apply firstn_skipn. }
      destruct EP as [R EP]. rewrite EP in SO.
      assert (SO1 : StronglySorted (fun a b => fst b <= fst a) (P0 ++ [x])).
      { clear - SO. induction (P0 ++ [x]) as [|a l IH]; [constructor|]. cbn in SO. inversion SO as [|? ? S1 S2]; subst. constructor; auto. apply Forall_app in S2. tauto. }
      split; [|assumption]. apply Forall_app. split; [|auto]. clear - SO1 Hx. induction P0 as [|a l IH]; constructor.
      - inversion SO1 as [|? ? S1 S2]; subst. rewrite Forall_forall in S2. specialize (S2 x). assert (fst x <= fst a) by (apply S2; apply in_or_app; right; left; reflexivity). lia.
      - apply IH. inversion SO1; assumption. }
    (* the activated transfers *)
    assert (HACT : forall i, In i act <-> In i (map snd (sm_queue A s)) /\
        exists x, nth_error (sm_sts A s) i = Some x /\ t_off (s_tr x) <= curr /\ ready A (sm_trk A s) curr x = true).
    { intros i. rewrite Eact. split.
      - intros Hi. apply in_map_iff in Hi as (p & <- & Hp). unfold actP in Hp. apply filter_In in Hp as [Hp Hr].
        assert (Hin : In p (sm_queue A s)) by (rewrite E1; apply in_or_app; auto). split; [apply in_map; assumption|].
        destruct (HQ _ Hin) as (x & Hx & Hf & _). exists x. split; [assumption|]. rewrite Forall_forall in E5. specialize (E5 _ Hp). split; [lia|].
        unfold ready_at in Hr. rewrite Hx in Hr. assumption.
      - intros [Hi (x & Hx & Hoff & Hr)]. apply in_map_iff in Hi as (p & <- & Hp). apply in_map.
        destruct (HQ _ Hp) as (x' & Hx' & Hf & _). rewrite Hx in Hx'. injection Hx' as <-.
        assert (Hp2 : In p P2). { rewrite E1 in Hp. apply in_app_or in Hp as [Hp|Hp]; [|assumption]. destruct HP1 as [HP1 _]. rewrite Forall_forall in HP1. specialize (HP1 _ Hp). lia. }
        apply filter_In. split; [assumption|]. unfold ready_at. rewrite Hx. assumption. }
    assert (HS1 : List.length sts1 = List.length (sm_sts A s) /\ forall i x, nth_error (sm_sts A s) i = Some x ->
               nth_error sts1 i = Some (if in_dec Nat.eq_dec i act then activated A (sm_trk A s) x else x)).
    { split; [assumption|]. intros i x Hx. rewrite (E8 _ _ Hx). f_equal. apply if_in_ext. rewrite Eact. reflexivity. }
    assert (HALL1 : all_static sts1).
    { destruct HS1 as [L1 N1]. destruct HST as [L0 N0]. split; [congruence|]. intros i x Hx. pose proof (nth_some_lt _ _ _ Hx) as Hlt. rewrite L1 in Hlt.
      destruct (nth_lt_some _ _ Hlt) as [x0 Hx0]. rewrite (N1 _ _ Hx0) in Hx. injection Hx as <-. specialize (N0 _ _ Hx0). destruct (in_dec _ _ _); [|assumption].
      destruct N0 as (y & Y1 & Y2 & Y3 & Y4 & Y5). exists y. rewrite <- Y2, <- Y3, <- Y4, <- Y5. split; [assumption|].
      pose proof (activated_fields A (sm_trk A s) x0). tauto. }
    pose proof (rates_frame _ _ _ _ _ _ _ _ _ _ Hrate) as [L2 N2].
    assert (HALL2 : all_static sts2).
    { destruct HALL1 as [L0 N0]. split; [congruence|]. intros i x Hx. pose proof (nth_some_lt _ _ _ Hx) as Hlt. rewrite L2 in Hlt.
      destruct (nth_lt_some _ _ Hlt) as [x1 Hx1]. destruct (N2 _ _ Hx1) as (b & Hb & _). rewrite Hx in Hb. injection Hb as ->. exact (N0 _ _ Hx1). }
    (* every state of sts2 comes from one of s *)
    assert (HSRC : forall i x2, nth_error sts2 i = Some x2 -> exists x b, nth_error (sm_sts A s) i = Some x /\
              x2 = with_bw (if in_dec Nat.eq_dec i act then activated A (sm_trk A s) x else x) b).
    { intros i x2 Hx2. pose proof (nth_some_lt _ _ _ Hx2) as Hlt. rewrite L2 in Hlt. destruct HS1 as [L1 N1]. rewrite L1 in Hlt.
      destruct (nth_lt_some _ _ Hlt) as [x Hx]. exists x. destruct (N2 _ _ (N1 _ _ Hx)) as (b & Hb & _). exists b. split; [assumption|]. congruence. }
    assert (HEND2 : forall i, end_at sts2 i = end_at (sm_sts A s) i).
    { intros i. unfold end_at. destruct (nth_error sts2 i) as [x2|] eqn:Ex2.
      - destruct (HSRC _ _ Ex2) as (x & b & Hx & ->). rewrite Hx. cbn [with_bw s_end]. destruct (in_dec _ _ _); [|reflexivity].
        apply (activated_fields A (sm_trk A s) x).
      - apply nth_error_None in Ex2. replace (nth_error (sm_sts A s) i) with (@None state); [reflexivity|]. symmetry. apply nth_error_None. destruct HS1. lia. }
    assert (HTK2 : sm_trk A s = trk_of fin sts2).
    { rewrite HTK. unfold trk_of. apply map_ext. intros e. unfold cp_of. rewrite HEND2. reflexivity. }
    (* disjointness *)
    assert (NDL : NoDup ((sm_live A s ++ act) ++ fin ++ map snd (P1 ++ B'))).
    { eapply Permutation_NoDup; [|exact ND]. apply perm_step. exact PQ'. }
    assert (HDF : forall i, In i (sm_live A s ++ act) -> ~ In i fin).
    { intros i H1 H2. eapply NoDup_app_not; [exact NDL|exact H1|]. apply in_or_app; auto. }
    assert (HPAR : forall i, In i (sm_live A s ++ act) -> parent_in fin i).
    { intros i Hi. apply in_app_or in Hi as [Hi|Hi].
      - assert (Hlt : (i < List.length (sm_sts A s))%nat) by (apply IDS; rewrite !in_app_iff; auto).
        destruct (nth_lt_some _ _ Hlt) as [x Hx]. destruct (HSTA i x) as (_ & _ & HP); [apply in_or_app; auto|assumption|]. exact HP.
      - apply HACT in Hi as [_ (x & Hx & _ & Hr)]. rewrite HTK in Hr. eapply ready_parent; [|exact Hr]. apply HST. assumption. }
    set (stt := updateSimulationStats A d g2 (sm_live A s ++ act) stt1) in *.
    assert (LI : live_inv wl cpt curr sot fin sts2 stt (sm_live A s ++ act) (sts3, tk3, stt3)).
    { change (sm_live A s ++ act) with ([] ++ (sm_live A s ++ act)) at 1. eapply live_fold_inv; [exact HALL2|apply live_inv_start| | | |].
      - cbn [app]. eapply NoDup_app_l; exact NDL.
      - cbn [app]. exact HDF.
      - exact HPAR.
      - rewrite <- HTK2. exact Hfold. }
    destruct LI as [F1 F2 F3 F4 F5]. cbn [fst snd] in *.
    exists act, sts1, sts2, stt. split.
    { split; cbn [sm_curr sm_sts sm_queue sm_live sm_trk sm_grids sm_stats]; auto.
      - split; [assumption|]. intros i x2 Hx2. split; [|intros; apply F3; assumption]. intros Hi. rewrite HTK2. exact (F2 _ _ Hx2 Hi).
      - exists stt1. split; [assumption|reflexivity]. }
    (* the invariant afterwards *)
    assert (HNEW : forall i x', nth_error sts3 i = Some x' -> exists x b, nth_error (sm_sts A s) i = Some x /\
       let x2 := with_bw (if in_dec Nat.eq_dec i act then activated A (sm_trk A s) x else x) b in
       nth_error sts2 i = Some x2 /\
       ((In i (sm_live A s ++ act) /\ adv A cpt curr sot (sm_trk A s) x2 = Ok x') \/ (~ In i (sm_live A s ++ act) /\ x' = x2))).
    { intros i x' Hx'. pose proof (nth_some_lt _ _ _ Hx') as Hlt. rewrite F1 in Hlt. destruct (nth_lt_some _ _ Hlt) as [x2 Hx2].
      destruct (HSRC _ _ Hx2) as (x & b & Hx & Hx2'). exists x, b. split; [assumption|]. cbn zeta. rewrite <- Hx2'. split; [assumption|].
      destruct (in_dec Nat.eq_dec i (sm_live A s ++ act)) as [Hi|Hi].
      - left. split; [assumption|]. destruct (F2 _ _ Hx2 Hi) as (y & Y1 & Y2). rewrite HTK2. congruence.
      - right. split; [assumption|]. rewrite (F3 _ _ Hx2 Hi) in Hx'. congruence. }
    assert (HALL3 : all_static sts3).
    { destruct HALL2 as [L0 N0]. split; [congruence|]. intros i x' Hx'. destruct (HNEW _ _ Hx') as (x & b & Hx & Hx2 & HC). specialize (N0 _ _ Hx2).
      destruct HC as [[_ HC]|[_ ->]]; [|assumption]. apply adv_static in HC as ((S1 & S2 & S3 & S4) & _).
      destruct N0 as (y & Y1 & Y2 & Y3 & Y4 & Y5). exists y. rewrite S1, S2, S3, S4. auto. }
    assert (HENDF : forall i, In i fin -> end_at sts3 i = end_at (sm_sts A s) i).
    { intros i Hi. assert (Hn : ~ In i (sm_live A s ++ act)) by (intros Hn; exact (HDF _ Hn Hi)). rewrite <- HEND2. unfold end_at.
      destruct (nth_error sts2 i) as [x2|] eqn:Ex2; [rewrite (F3 _ _ Ex2 Hn); reflexivity|].
      apply nth_error_None in Ex2. replace (nth_error sts3 i) with (@None state); [reflexivity|]. symmetry. apply nth_error_None. lia. }
    assert (HSTK : forall i x x', parent_in fin i -> s_tr x' = s_tr x -> s_start x' = s_start x -> start_ok (sm_sts A s) i x -> start_ok sts3 i x').
    { intros i x x' HP Ht Hs HO. unfold start_ok in *. rewrite Ht, Hs, HO. destruct (dep_of E i) as [k|] eqn:Ek; [|reflexivity].
      destruct (nth_error E k) as [e|] eqn:Ee; [|reflexivity]. rewrite HENDF by (eapply HP; eassumption). reflexivity. }
    assert (HSTARTED : forall i x', In i ((sm_live A s ++ act) ++ fin) -> nth_error sts3 i = Some x' ->
       start_ok sts3 i x' /\ s_start x' <= curr /\ parent_in fin i).
    { intros i x' Hi Hx'. destruct (HNEW _ _ Hx') as (x & b & Hx & Hx2 & HC).
      assert (HP : parent_in fin i).
      { apply in_app_or in Hi as [Hi|Hi]; [apply HPAR; assumption|]. apply (HSTA i x); [apply in_or_app; auto|assumption]. }
      set (y := if in_dec Nat.eq_dec i act then activated A (sm_trk A s) x else x) in *. cbn zeta in *.
      assert (ES : s_tr x' = s_tr y /\ s_start x' = s_start y).
      { destruct HC as [[_ HC]|[_ ->]]; [|split; reflexivity]. apply adv_static in HC as ((S1 & _) & S5 & _). cbn in S1, S5. auto. }
      assert (HY : start_ok (sm_sts A s) i y /\ s_start y <= curr).
      { unfold y. destruct (in_dec Nat.eq_dec i act) as [Ha|Ha].
        - pose proof (proj1 (HACT i) Ha) as [Hq (x1 & Hx1 & Hoff & Hr)]. rewrite Hx in Hx1. injection Hx1 as <-.
          apply in_map_iff in Hq as (p & Hp1 & Hp2). destruct (HQ _ Hp2) as (x1 & Hx1 & _ & Hst & _). rewrite Hp1, Hx in Hx1. injection Hx1 as <-.
          destruct HST as [_ HST']. pose proof (HST' _ _ Hx) as Hsx. rewrite HTK in Hr |- *. pose proof (ready_parent _ _ _ _ _ Hsx Hr) as [_ Hb].
          assert (SO : start_ok (sm_sts A s) i (activated A (trk_of fin (sm_sts A s)) x)) by (apply activated_start; assumption).
          split; [assumption|]. rewrite SO. assert (Et : s_tr (activated A (trk_of fin (sm_sts A s)) x) = s_tr x).
          { apply activated_fields. }
          rewrite Et. destruct (dep_of E i) as [k|] eqn:Ek; [|assumption]. destruct (nth_error E k) as [e|] eqn:Ee; [|assumption]. specialize (Hb _ _ eq_refl Ee). lia.
        - assert (In i (sm_live A s ++ fin)) by (rewrite !in_app_iff in *; tauto). destruct (HSTA i x H Hx) as (S1 & S2 & _). split; [assumption|]. lia. }
      destruct HY as [HY1 HY2]. destruct ES as [ES1 ES2]. split; [eapply HSTK; eassumption|]. split; [congruence|assumption]. }
    (* bytes of the processed transfers *)
    assert (HBYTES : forall i x', In i (sm_live A s ++ act) -> nth_error sts3 i = Some x' -> 0 <= s_done x' <= t_bytes (s_tr x') /\
       (is_complete A x' = false -> s_end x' = 0) /\ 0 <= s_end x' < 2 ^ 32).
    { intros i x' Hi Hx'. destruct (HNEW _ _ Hx') as (x & b & Hx & Hx2 & HC). destruct HC as [[_ HC]|[HC _]]; [|contradiction].
      set (x2 := with_bw _ b) in *. cbn zeta in *.
      assert (HB : 0 <= s_done x2 <= t_bytes (s_tr x2) /\ s_end x2 = 0 /\ t_bytes (s_tr x2) < 2 ^ 32).
      { assert (T : s_tr x2 = s_tr x /\ s_done x2 = s_done x /\ s_end x2 = s_end x).
        { unfold x2. cbn [with_bw s_tr s_done s_end]. destruct (in_dec _ _ _); [|auto]. pose proof (activated_fields A (sm_trk A s) x). tauto. }
        destruct T as (-> & -> & ->). destruct HST as [_ HST']. pose proof (static_ranges _ _ (HST' _ _ Hx)) as (R1 & R2 & _).
        apply in_app_or in Hi as [Hi|Hi].
        - destruct (HLV _ _ Hi Hx). lia.
        - apply HACT in Hi as [Hq _]. apply in_map_iff in Hq as (p & Hp1 & Hp2). destruct (HQ _ Hp2) as (x1 & Hx1 & _ & _ & Hd & He).
          rewrite Hp1, Hx in Hx1. injection Hx1 as <-. lia. }
      destruct HB as (HB1 & HB2 & HB3). pose proof (adv_static _ _ _ _ _ _ _ HC) as ((S1 & _) & _).
      destruct (adv_bytes _ _ _ _ _ _ _ HC HB1 HB3) as (G1 & c & mb & _ & _ & _ & G2). rewrite S1. split; [lia|].
      destruct G2 as [[G2 G3]|[G2 (e & _ & G3)]].
      - split; [congruence|]. lia.
      - split; [congruence|]. rewrite G3. apply u32_range. }
    split; cbn [sm_curr sm_sts sm_queue sm_live sm_trk sm_grids sm_stats].
    - assumption.
    - rewrite <- HPT. apply perm_step2 with (a := act); [exact PQ'|]. apply (filter_perm_split (complete A sts3)).
    - assumption.
    - intros p Hp. assert (Hpq : In p (sm_queue A s)).
      { eapply Permutation_in; [symmetry; exact PQ|]. apply in_or_app; auto. }
      destruct (HQ _ Hpq) as (x & Hx & Q1 & Q2 & Q3 & Q4).
      assert (Hn : ~ In (snd p) (sm_live A s ++ act)).
      { intros Hi. eapply NoDup_app_not; [exact NDL|exact Hi|]. apply in_or_app; right. apply in_map. assumption. }
      assert (Hlt : (snd p < List.length sts3)%nat). { apply nth_some_lt in Hx. destruct HS1. lia. }
      destruct (nth_lt_some _ _ Hlt) as [x' Hx']. exists x'. split; [assumption|].
      destruct (HNEW _ _ Hx') as (y & b & Hy & Hy2 & HC). rewrite Hx in Hy. injection Hy as <-.
      destruct HC as [[HC _]|[_ ->]]; [contradiction|]. rewrite if_not_in by (intros Ha; apply Hn; apply in_or_app; auto). cbn. auto.
    - exists P1, B'. split; [reflexivity|]. split; [apply HP1|]. eapply Permutation_Forall; [symmetry; exact E4|].
      apply Forall_forall. intros p Hp. apply filter_In in Hp as [Hp _]. rewrite Forall_forall in E5. auto.
    - intros i x' Hi Hx'. assert (Hi' : In i ((sm_live A s ++ act) ++ fin)).
      { apply in_or_app. apply in_app_or in Hi as [Hi|Hi]; [apply filter_In in Hi; tauto|].
        apply in_app_or in Hi as [Hi|Hi]; [tauto|apply filter_In in Hi; tauto]. }
      destruct (HSTARTED _ _ Hi' Hx') as (S1 & S2 & S3). split; [assumption|]. split; [assumption|].
      intros k e Hk He. apply in_or_app; left. eapply S3; eassumption.
    - intros i x' Hi Hx'. apply filter_In in Hi as [Hi Hc]. unfold complete in Hc. rewrite Hx' in Hc.
      destruct (HBYTES _ _ Hi Hx') as (B1 & B2 & B3). split; [lia|]. apply B2. unfold is_complete. lia.
    - intros i x' Hi Hx'. apply in_app_or in Hi as [Hi|Hi].
      + assert (Hn : ~ In i (sm_live A s ++ act)) by (intros Hn; exact (HDF _ Hn Hi)).
        destruct (HNEW _ _ Hx') as (y & b & Hy & Hy2 & HC). destruct HC as [[HC _]|[_ ->]]; [contradiction|].
        rewrite if_not_in by (intros Ha; apply Hn; apply in_or_app; auto). cbn. apply HFN with (i := i); assumption.
      + apply filter_In in Hi as [Hi Hc]. unfold complete in Hc. rewrite Hx' in Hc. destruct (HBYTES _ _ Hi Hx') as (B1 & B2 & B3). split; [lia|assumption].
  Qed.
End Engine.
