(* Proofs about workloads (C05, C15, C16, C18-C21). *)
From Coq Require Import ZArith Arith String List Bool Lia ZifyBool ZifyNat.
From Verif Require Import Base Arith Util Device Workload SpecDevice SpecWorkload DeviceProofs RouteProofs
  MulticastProofs FactoryProofs.
Import ListNotations.
Ltac Zify.zify_post_hook ::= idtac.
Open Scope Z_scope.

(** ** Generic list facts *)
Lemma foldM_app {A S} (f : S -> A -> outcome S) l1 l2 s :
  foldM f (l1 ++ l2) s = let! s' := foldM f l1 s in foldM f l2 s'.
Proof.
  revert s. induction l1 as [|a l1 IH]; intros s; cbn [foldM app bind]; auto.
  destruct (f s a); cbn [bind]; auto.
Qed.
Lemma mapM_Forall2 {A B} (f : A -> outcome B) l r : mapM f l = Ok r <-> Forall2 (fun a b => f a = Ok b) l r.
Proof.
  revert r. induction l as [|a l IH]; intros r; cbn [mapM].
  - split; intros H. injection H as <-. constructor. inversion H. reflexivity.
  - destruct (f a) as [b| | | | | |] eqn:E; cbn [bind].
    2-7: split; [discriminate|]; intros H; inversion H; subst; congruence.
    destruct (mapM f l) as [bs| | | | | |] eqn:E2; cbn [bind].
    2-7: split; [discriminate|]; intros H; inversion H; subst; apply IH in H4; discriminate.
    split; intros H.
    + injection H as <-. constructor; auto. apply IH. reflexivity.
    + inversion H; subst. apply IH in H4. congruence.
Qed.
Lemma Forall2_flat_map {A B A' B'} (f : A -> list A') (g : B -> list B') R S l l' :
  Forall2 R l l' -> (forall a b, R a b -> Forall2 S (f a) (g b)) -> Forall2 S (flat_map f l) (flat_map g l').
Proof.
  intros H HS. induction H; cbn [flat_map]; auto. apply Forall2_app; auto.
Qed.
Lemma Forall2_length' {A B} (R : A -> B -> Prop) l l' : Forall2 R l l' -> List.length l = List.length l'.
Proof. induction 1; simpl; auto. Qed.
Lemma Forall2_map_eq {A B C} (R : A -> B -> Prop) (f : A -> C) (g : B -> C) l l' :
  Forall2 R l l' -> (forall a b, R a b -> f a = g b) -> map f l = map g l'.
Proof. intros H HE. induction H; simpl; auto. f_equal; auto. Qed.
Lemma Forall2_imp {A B} (R S : A -> B -> Prop) l l' :
  Forall2 R l l' -> (forall a b, R a b -> S a b) -> Forall2 S l l'.
Proof. intros H HE. induction H; constructor; auto. Qed.
Lemma Forall2_In_l {A B} (R : A -> B -> Prop) l l' a : Forall2 R l l' -> In a l -> exists b, In b l' /\ R a b.
Proof. intros H. induction H; intros []; subst; [eexists; simpl; eauto|]. destruct (IHForall2 H1) as [b [? ?]]. exists b. simpl; auto. Qed.
Lemma Forall2_In_r {A B} (R : A -> B -> Prop) l l' b : Forall2 R l l' -> In b l' -> exists a, In a l /\ R a b.
Proof. intros H. induction H; intros []; subst; [eexists; simpl; eauto|]. destruct (IHForall2 H1) as [a [? ?]]. exists a. simpl; auto. Qed.
Lemma Forall2_nth {A B} (R : A -> B -> Prop) l l' : Forall2 R l l' ->
  forall k a b, nth_error l k = Some a -> nth_error l' k = Some b -> R a b.
Proof. induction 1; intros [|k] u v Hu Hv; simpl in *; try discriminate; [congruence|eauto]. Qed.
Lemma map_zseq_seq z n : map (fun k => z + Z.of_nat k) (seq 0 n) = zseq z n.
Proof.
  revert z. induction n as [|n IH]; intros z; cbn [seq map zseq]; [reflexivity|]. f_equal; [lia|].
  rewrite <- IH, <- seq_shift, map_map. apply map_ext. intros. lia.
Qed.
Lemma of_nat_seq n : map Z.of_nat (seq 0 n) = zseq 0 n.
Proof. rewrite <- map_zseq_seq. apply map_ext. intros. lia. Qed.
Lemma zseq_app z n m : zseq z (n + m) = zseq z n ++ zseq (z + Z.of_nat n) m.
Proof.
  revert z. induction n as [|n IH]; intros z; cbn [plus zseq app].
  - f_equal. lia.
  - rewrite IH. do 3 f_equal. lia.
Qed.
Lemma zseq_length z n : List.length (zseq z n) = n.
Proof. revert z. induction n; simpl; auto. Qed.
Lemma zseq_nth z n k : (k < n)%nat -> nth_error (zseq z n) k = Some (z + Z.of_nat k).
Proof.
  revert z k. induction n as [|n IH]; intros z [|k] H; simpl; try lia.
  - f_equal. lia.
  - rewrite IH by lia. f_equal. lia.
Qed.

Lemma app_inj_len {A} (a b c e : list A) : a ++ b = c ++ e -> List.length a = List.length c -> a = c /\ b = e.
Proof.
  revert c. induction a as [|x a IH]; intros [|y c] H HL; simpl in *; try discriminate; auto.
  injection H as -> H. injection HL as HL. destruct (IH c H HL). subst. auto.
Qed.

Lemma i32_id z : - 2 ^ 31 <= z < 2 ^ 31 -> i32 z = z.
Proof. intros H. unfold i32. rewrite Z.mod_small by lia. lia. Qed.

Section W.
  Context {Fl : Type}.
  Implicit Types (wl : workload Fl) (t : transfer Fl) (ts : list (transfer Fl)).

  (** ** addPhase (C15) *)
  Lemma number_ids ph id ts : map t_id (number_transfers ph id ts) = zseq id (List.length ts).
  Proof. revert id. induction ts as [|t ts IH]; intros id; simpl; auto. rewrite IH. auto. Qed.
  Lemma number_length ph id ts : List.length (number_transfers ph id ts) = List.length ts.
  Proof. revert id. induction ts as [|t ts IH]; intros id; simpl; auto. Qed.
  Lemma number_content ph id ts : Forall2 (fun a b => same_content a b /\ t_phase b = ph) ts (number_transfers ph id ts).
  Proof.
    revert id. induction ts as [|t ts IH]; intros id; cbn [number_transfers]; constructor; auto.
    unfold same_content. cbn. intuition.
  Qed.

  Lemma addPhase_inv wl ts wl' id : addPhase wl ts = Ok (wl', id) ->
    id = i32 (Z.of_nat (List.length (wl_phases wl))) /\
    wl_next wl' = wl_next wl + Z.of_nat (List.length ts) /\ wl_next wl' < 2 ^ 31 /\
    wl_phases wl' = wl_phases wl ++ [mkPhase id (number_transfers id (wl_next wl) ts)] /\
    wl_path wl' = wl_path wl /\ wl_groups wl' = wl_groups wl /\ wl_golden wl' = wl_golden wl /\ wl_zones wl' = wl_zones wl.
  Proof.
    unfold addPhase. destruct (_ <? 2 ^ 31) eqn:E; [|discriminate]. intros H. injection H as <- <-. cbn. repeat split; lia.
  Qed.
  Lemma addPhase_ok wl ts : wl_next wl + Z.of_nat (List.length ts) < 2 ^ 31 ->
    exists wl', addPhase wl ts = Ok (wl', i32 (Z.of_nat (List.length (wl_phases wl)))).
  Proof. intros H. unfold addPhase. destruct (Z.ltb_spec (wl_next wl + Z.of_nat (List.length ts)) (2 ^ 31)); [|lia]. eauto. Qed.

  Definition hist_ok (wl : workload Fl) (h : list (list (transfer Fl))) : Prop :=
    dense wl /\ wl_next wl < 2 ^ 31 /\
    Forall2 (fun ts p => Forall2 (fun a b => same_content a b /\ t_phase b = ph_id p) ts (ph_trs p)) h (wl_phases wl).

  Lemma add_hist_ok wl h ts wl' id : hist_ok wl h -> Z.of_nat (List.length h) < 2 ^ 31 ->
    addPhase wl ts = Ok (wl', id) -> hist_ok wl' (h ++ [ts]) /\ id = Z.of_nat (List.length h).
  Proof.
    intros ((D1 & D2 & D3) & Hn & HF) HL' H. apply addPhase_inv in H.
    destruct H as (Hid & Hnx & Hlt & Hph & _).
    assert (HL : List.length (wl_phases wl) = List.length h) by (symmetry; eapply Forall2_length'; eauto).
    rewrite HL in Hid. rewrite i32_id in Hid by lia.
    split; [|exact Hid]. unfold hist_ok, dense, all_transfers in *. rewrite Hph.
    rewrite flat_map_app. cbn [flat_map ph_trs]. rewrite app_nil_r, !map_app, !app_length, number_length. cbn [map ph_id List.length].
    rewrite of_nat_seq, number_ids in *. rewrite of_nat_seq in *.
    split; [split; [|split]|split; [lia|]].
    - rewrite D1, zseq_app. f_equal. cbn [zseq]. f_equal. lia.
    - rewrite D2, zseq_app. f_equal. f_equal. lia.
    - lia.
    - apply Forall2_app; auto. constructor; [|constructor]. cbn [ph_trs ph_id]. apply number_content.
  Qed.

  Lemma built_next wl h : built wl h -> 0 <= wl_next wl < 2 ^ 31.
  Proof.
    induction 1 as [|wl h ts wl' id Hb IH HA|wl h wl' id Hb IH HA|wl h p Hb IH|wl h z Hb IH|wl h m Hb IH]; cbn; try lia.
    - apply addPhase_inv in HA. lia.
    - unfold registerTransferGroupID in HA. destruct (_ <? _); [|discriminate]. injection HA as <- <-. cbn. exact IH.
  Qed.

  Lemma built_hist_ok wl h : built wl h -> Z.of_nat (List.length h) <= 2 ^ 31 -> hist_ok wl h.
  Proof.
    induction 1 as [|wl h ts wl' id Hb IH HA|wl h wl' id Hb IH HA|wl h p Hb IH|wl h z Hb IH|wl h m Hb IH]; intros Hl.
    - unfold hist_ok, dense. cbn. repeat split; auto; lia.
    - rewrite app_length in Hl. cbn in Hl. eapply add_hist_ok in HA; [exact (proj1 HA)| |lia]. apply IH. lia.
    - unfold registerTransferGroupID in HA. destruct (_ <? _); [|discriminate]. injection HA as <- <-. exact (IH Hl).
    - exact (IH Hl).
    - exact (IH Hl).
    - exact (IH Hl).
  Qed.

  Theorem built_ids wl h : built wl h -> Z.of_nat (List.length h) <= 2 ^ 31 ->
    dense wl /\
    Forall2 (fun ts p => Forall2 (fun a b => same_content a b /\ t_phase b = ph_id p) ts (ph_trs p)) h (wl_phases wl).
  Proof. intros H Hl. destruct (built_hist_ok _ _ H Hl) as (D & _ & F). auto. Qed.

  Theorem built_add_returns wl h ts wl' id : built wl h -> Z.of_nat (List.length h) < 2 ^ 31 ->
    addPhase wl ts = Ok (wl', id) -> id = Z.of_nat (List.length h).
  Proof.
    intros H Hl HA. eapply add_hist_ok in HA; [exact (proj2 HA)| |exact Hl]. apply built_hist_ok; auto. lia.
  Qed.
  Lemma flat_map_concat_length {A B} (h : list (list A)) (ps : list B) (f : B -> list A) :
    Forall2 (fun l p => List.length l = List.length (f p)) h ps -> List.length (concat h) = List.length (flat_map f ps).
  Proof. induction 1; simpl; auto. rewrite !app_length. lia. Qed.
  Theorem built_add_defined wl h ts : built wl h -> Z.of_nat (List.length h) <= 2 ^ 31 ->
    Z.of_nat (List.length (concat h)) + Z.of_nat (List.length ts) < 2 ^ 31 ->
    exists r, addPhase wl ts = Ok r.
  Proof.
    intros H Hl HN. destruct (built_hist_ok _ _ H Hl) as ((_ & _ & D3) & _ & F).
    destruct (addPhase_ok wl ts) as [wl' E]; eauto. rewrite D3. unfold all_transfers.
    erewrite <- (flat_map_concat_length h (wl_phases wl) ph_trs); auto.
    eapply Forall2_imp; [exact F|]. intros a b HF. cbn beta in HF. eapply Forall2_length'; eauto.
  Qed.

  (** ** Validation (C16, C05) *)
  Lemma is_valid_coord_spec d c : is_valid_coord d c = true <-> on_chip_grid d c.
  Proof. unfold is_valid_coord, on_chip_grid. lia. Qed.
  Lemma dv_valid_device_spec d id : dv_valid_device d id = true <-> 0 <= id < Z.of_nat (dv_chips d).
  Proof.
    unfold dv_valid_device, dv_device_ids. rewrite existsb_exists. split.
    - intros [x [Hx E]]. apply in_map_iff in Hx. destruct Hx as [n [<- Hn]]. apply in_seq in Hn. lia.
    - intros H. exists id. split; [|lia]. apply in_map_iff. exists (Z.to_nat id). rewrite in_seq. lia.
  Qed.
  Lemma any_rect d (m : mcast) b :
    fold_left (fun v g => v || (is_valid_coord d (g_start g) && is_valid_coord d (g_end g))) m b = true <->
    b = true \/ exists g, In g m /\ on_chip_grid d (g_start g) /\ on_chip_grid d (g_end g).
  Proof.
    revert b. induction m as [|g m IH]; intros b; cbn [fold_left].
    - split; auto. intros [|[g [[] _]]]; auto.
    - rewrite IH, orb_true_iff, andb_true_iff, !is_valid_coord_spec. split.
      + intros [[|[? ?]]|[g' [? ?]]]; eauto; right; [exists g|exists g']; simpl; auto.
      + intros [|[g' [[<-|] [? ?]]]]; eauto.
  Qed.
  Lemma transfer_validate_spec d t : 0 <= t_off t ->
    (empty_multicast t -> exists s, transfer_validate d t = UB s) /\
    (~ empty_multicast t -> exists b, transfer_validate d t = Ok b /\ (b = true <-> accepted d t)).
  Proof.
    intros Ho. unfold transfer_validate, empty_multicast, accepted. split.
    - intros ->. cbn. eauto.
    - intros Hne. destruct (t_dst t) as [c|[|g m]]; [| congruence |]; cbn [dest_device_ids mcast_device_ids map bind].
      + eexists. split; [reflexivity|]. rewrite !andb_true_iff, !is_valid_coord_spec, dv_valid_device_spec.
        unfold on_chip_grid, in_grid. lia.
      + eexists. split; [reflexivity|]. rewrite !andb_true_iff, any_rect, is_valid_coord_spec, dv_valid_device_spec.
        unfold on_chip_grid at 1, in_grid. split.
        * intros ((((((H1 & H2) & H3) & H4) & H5) & H6) & H7). destruct H4 as [|H4]; [discriminate|].
          repeat split; auto; try lia. exists g, m. split; auto. lia.
        * intros (H1 & H2 & H3 & (g' & m' & E & H4) & H5). injection E as <- <-. repeat split; auto; lia.
  Qed.

  (* bitmap with the first n bits set *)
  Definition marked (n N : nat) : list bool := repeat true n ++ repeat false (N - n).
  Lemma marked_nth n N i : (i < N)%nat -> nth_error (marked n N) i = Some (i <? n)%nat.
  Proof.
    intros H. unfold marked. destruct (Nat.ltb_spec i n).
    - rewrite nth_error_app1 by (rewrite repeat_length; lia). apply nth_error_repeat. lia.
    - rewrite nth_error_app2 by (rewrite repeat_length; lia). apply nth_error_repeat. rewrite repeat_length. lia.
  Qed.
  Lemma upd_app_r {A} (l1 l2 : list A) k x : upd (l1 ++ l2) (List.length l1 + k) x = l1 ++ upd l2 k x.
  Proof. induction l1; simpl; auto. f_equal. auto. Qed.
  Lemma marked_upd n N : (n < N)%nat -> upd (marked n N) n true = marked (S n) N.
  Proof.
    intros H. unfold marked. replace n with (List.length (repeat true n) + 0)%nat at 3 by (rewrite repeat_length; lia).
    rewrite upd_app_r. replace (N - n)%nat with (S (N - S n)) by lia. cbn [repeat upd].
    replace (true :: repeat true n) with (repeat true n ++ [true]). rewrite <- app_assoc. reflexivity.
    clear. induction n; simpl; auto. f_equal. auto.
  Qed.
  Lemma bit_test_marked n N : (n < N)%nat -> bit_test (marked n N) (Z.of_nat n) = Ok false.
  Proof.
    intros H. unfold bit_test. destruct (Z.ltb_spec (Z.of_nat n) 0); [lia|].
    unfold vec_get. rewrite Nat2Z.id, marked_nth, Nat.ltb_irrefl by lia. reflexivity.
  Qed.
  Lemma bit_set_marked n N : (n < N)%nat -> bit_set (marked n N) (Z.of_nat n) = Ok (marked (S n) N).
  Proof.
    intros H. unfold bit_set. destruct (Z.ltb_spec (Z.of_nat n) 0); [lia|].
    unfold vec_mod. rewrite Nat2Z.id, marked_nth by lia. cbn. f_equal. apply marked_upd. auto.
  Qed.
  Lemma marked0 N : marked 0 N = repeat false N.
  Proof. unfold marked. cbn. f_equal. lia. Qed.

  Definition errs (d : device) (t : transfer Fl) : Z :=
    match transfer_validate d t with Ok true => 0 | _ => 1 end.
  Definition sum_errs d ts : Z := fold_right (fun t s => errs d t + s) 0 ts.
  Lemma errs_nonneg d t : 0 <= errs d t.
  Proof. unfold errs. destruct (transfer_validate d t) as [[]| | | | | |]; lia. Qed.
  Lemma sum_errs_nonneg d ts : 0 <= sum_errs d ts.
  Proof.
    induction ts as [|t ts IH]; [unfold sum_errs; simpl; lia|].
    change (sum_errs d (t :: ts)) with (errs d t + sum_errs d ts). pose proof (errs_nonneg d t). lia.
  Qed.
  Lemma sum_errs_app d a b : sum_errs d (a ++ b) = sum_errs d a + sum_errs d b.
  Proof. unfold sum_errs. induction a; cbn [app fold_right]; [lia|]. lia. Qed.

  Lemma validate_trs d gbl N ts n err : Z.of_nat N = gbl ->
    map t_id ts = zseq (Z.of_nat n) (List.length ts) -> (n + List.length ts <= N)%nat ->
    Forall (fun t => exists b, transfer_validate d t = Ok b) ts ->
    foldM (validate_transfer_step d gbl) ts (marked n N, err) =
      Ok (marked (n + List.length ts) N, err + sum_errs d ts).
  Proof.
    intros HN. revert n err. induction ts as [|t ts IH]; intros n err Hid Hle HV; cbn [foldM List.length].
    - rewrite Nat.add_0_r. unfold sum_errs. cbn [fold_right]. do 2 f_equal. lia.
    - cbn [map List.length zseq] in Hid, Hle. injection Hid as Hi Hid. inversion HV as [|? ? [b Hb] HV']; subst.
      unfold validate_transfer_step at 1. rewrite Hi.
      destruct (Z.ltb_spec (Z.of_nat N) (Z.of_nat n)); [lia|].
      rewrite bit_test_marked by lia. cbn [bind]. rewrite bit_set_marked by lia. cbn [bind]. rewrite Hb. cbn [bind].
      rewrite IH; auto; [|rewrite Hid; f_equal; lia|lia].
      rewrite Nat.add_succ_comm. cbn [sum_errs fold_right]. fold (sum_errs d ts). unfold errs. rewrite Hb.
      do 2 f_equal. destruct b; lia.
  Qed.
  Lemma validate_trs_ub d gbl N ts n err : Z.of_nat N = gbl ->
    map t_id ts = zseq (Z.of_nat n) (List.length ts) -> (n + List.length ts <= N)%nat ->
    Forall (fun t => (exists b, transfer_validate d t = Ok b) \/ exists s, transfer_validate d t = UB s) ts ->
    Exists (fun t => exists s, transfer_validate d t = UB s) ts ->
    exists s, foldM (validate_transfer_step d gbl) ts (marked n N, err) = UB s.
  Proof.
    intros HN. revert n err. induction ts as [|t ts IH]; intros n err Hid Hle HV HE; [inversion HE|].
    cbn [foldM List.length] in *.
    cbn [map List.length zseq] in Hid, Hle. injection Hid as Hi Hid. inversion HV as [|? ? Hb HV']; subst.
    unfold validate_transfer_step at 1. rewrite Hi.
    destruct (Z.ltb_spec (Z.of_nat N) (Z.of_nat n)); [lia|].
    rewrite bit_test_marked by lia. cbn [bind]. rewrite bit_set_marked by lia. cbn [bind].
    destruct Hb as [[b Hb]|[s Hs]].
    - rewrite Hb. cbn [bind]. apply IH; auto; [rewrite Hid; f_equal; lia|lia|].
      inversion HE as [? ? [s Hs]|]; subst; [congruence|]. auto.
    - rewrite Hs. cbn. eauto.
  Qed.

  Definition tv_cases d t := (exists b, transfer_validate d t = Ok b) \/ exists s, transfer_validate d t = UB s.

  Lemma u64_small z : 0 <= z < 2 ^ 64 -> u64 z = z.
  Proof. apply Z.mod_small. Qed.

  Lemma validate_phs d P N ps k n err : Z.of_nat P < 2 ^ 64 ->
    map ph_id ps = zseq (Z.of_nat k) (List.length ps) -> (k + List.length ps <= P)%nat ->
    map t_id (flat_map ph_trs ps) = zseq (Z.of_nat n) (List.length (flat_map ph_trs ps)) ->
    (n + List.length (flat_map ph_trs ps) <= N)%nat ->
    Forall (fun t => exists b, transfer_validate d t = Ok b) (flat_map ph_trs ps) ->
    foldM (validate_phase_step d (Z.of_nat P) (Z.of_nat N)) ps (marked k P, (marked n N, err)) =
      Ok (marked (k + List.length ps) P,
          (marked (n + List.length (flat_map ph_trs ps)) N, err + sum_errs d (flat_map ph_trs ps))).
  Proof.
    intros HP. revert k n err. induction ps as [|p ps IH]; intros k n err Hid Hle Ht Htl HV; cbn [foldM List.length flat_map].
    - rewrite !Nat.add_0_r. unfold sum_errs. cbn [fold_right]. do 3 f_equal. lia.
    - cbn [map List.length zseq flat_map] in *. injection Hid as Hi Hid.
      rewrite map_app, app_length, zseq_app in Ht. rewrite app_length in Htl.
      assert (HL : map t_id (ph_trs p) = zseq (Z.of_nat n) (List.length (ph_trs p)) /\
                   map t_id (flat_map ph_trs ps) = zseq (Z.of_nat n + Z.of_nat (List.length (ph_trs p))) (List.length (flat_map ph_trs ps))).
      { apply app_inj_len; auto. rewrite map_length, zseq_length. auto. }
      destruct HL as [HL1 HL2]. apply Forall_app in HV. destruct HV as [HV1 HV2].
      unfold validate_phase_step at 1. rewrite Hi. rewrite u64_small by lia.
      destruct (Z.ltb_spec (Z.of_nat P) (Z.of_nat k)); [lia|].
      rewrite bit_test_marked by lia. cbn [bind]. rewrite bit_set_marked by lia. cbn [bind].
      rewrite validate_trs; auto; [|lia]. cbn [bind].
      rewrite IH; auto; try lia.
      + rewrite app_length, sum_errs_app. do 2 f_equal; [f_equal; lia|]. f_equal; [f_equal; lia|lia].
      + rewrite Hid. f_equal. lia.
      + rewrite HL2. f_equal. lia.
  Qed.

  Lemma validate_phs_ub d P N ps k n err : Z.of_nat P < 2 ^ 64 ->
    map ph_id ps = zseq (Z.of_nat k) (List.length ps) -> (k + List.length ps <= P)%nat ->
    map t_id (flat_map ph_trs ps) = zseq (Z.of_nat n) (List.length (flat_map ph_trs ps)) ->
    (n + List.length (flat_map ph_trs ps) <= N)%nat ->
    Forall (tv_cases d) (flat_map ph_trs ps) ->
    Exists (fun t => exists s, transfer_validate d t = UB s) (flat_map ph_trs ps) ->
    exists s, foldM (validate_phase_step d (Z.of_nat P) (Z.of_nat N)) ps (marked k P, (marked n N, err)) = UB s.
  Proof.
    intros HP. revert k n err. induction ps as [|p ps IH]; intros k n err Hid Hle Ht Htl HV HE; cbn [foldM List.length flat_map].
    - inversion HE.
    - cbn [map List.length zseq flat_map] in *. injection Hid as Hi Hid.
      rewrite map_app, app_length, zseq_app in Ht. rewrite app_length in Htl.
      assert (HL : map t_id (ph_trs p) = zseq (Z.of_nat n) (List.length (ph_trs p)) /\
                   map t_id (flat_map ph_trs ps) = zseq (Z.of_nat n + Z.of_nat (List.length (ph_trs p))) (List.length (flat_map ph_trs ps))).
      { apply app_inj_len; auto. rewrite map_length, zseq_length. auto. }
      destruct HL as [HL1 HL2]. apply Forall_app in HV. destruct HV as [HV1 HV2].
      unfold validate_phase_step at 1. rewrite Hi. rewrite u64_small by lia.
      destruct (Z.ltb_spec (Z.of_nat P) (Z.of_nat k)); [lia|].
      rewrite bit_test_marked by lia. cbn [bind]. rewrite bit_set_marked by lia. cbn [bind].
      assert (HD : Forall (fun t => exists b, transfer_validate d t = Ok b) (ph_trs p) \/
                   Exists (fun t => exists s, transfer_validate d t = UB s) (ph_trs p)).
      { clear -HV1. induction HV1 as [|t ts H HF IH]; [left; constructor|].
        destruct H as [H|H]; [|right; left; exact H]. destruct IH; [left; constructor; auto|right; right; auto]. }
      destruct HD as [HD|HD].
      + rewrite validate_trs; auto; [|lia]. cbn [bind]. apply IH; auto; try lia.
        * rewrite Hid. f_equal. lia.
        * rewrite HL2. f_equal. lia.
        * apply Exists_app in HE. destruct HE as [HE|HE]; auto. exfalso.
          rewrite Forall_forall in HD. apply Exists_exists in HE. destruct HE as [t [Hin [s Hs]]].
          destruct (HD t Hin) as [b Hb]. congruence.
      + destruct (validate_trs_ub d (Z.of_nat N) N (ph_trs p) n err) as [s Hs]; auto; [lia|].
        rewrite Hs. cbn. eauto.
  Qed.

  Lemma tv_all d ts : Forall (fun t => 0 <= t_off t) ts -> Forall (tv_cases d) ts.
  Proof.
    intros H. eapply Forall_impl; [|exact H]. intros t Ht. cbn beta in Ht. destruct (transfer_validate_spec d t Ht) as [H1 H2].
    unfold tv_cases. unfold empty_multicast in *. destruct (t_dst t) as [c|[|g m]] eqn:E.
    - left. destruct H2 as [b [Hb _]]; [congruence|eauto].
    - right. apply H1. auto.
    - left. destruct H2 as [b [Hb _]]; [congruence|eauto].
  Qed.
  Lemma sum_errs_0 d ts : Forall (fun t => exists b, transfer_validate d t = Ok b) ts ->
    (sum_errs d ts = 0 <-> Forall (fun t => transfer_validate d t = Ok true) ts).
  Proof.
    induction 1 as [|t ts [b Hb] HF IH].
    - unfold sum_errs. simpl. split; auto.
    - change (sum_errs d (t :: ts)) with (errs d t + sum_errs d ts).
      pose proof (sum_errs_nonneg d ts). unfold errs. rewrite Hb. split.
      + intros E. destruct b; [|lia]. constructor; auto. apply IH. lia.
      + intros HA. inversion HA; subst. assert (b = true) by congruence. subst. apply IH in H3. lia.
  Qed.

  Theorem validate_spec d wl : dense wl -> wl_next wl < 2 ^ 31 -> Z.of_nat (List.length (wl_phases wl)) < 2 ^ 64 ->
    Forall (fun t => 0 <= t_off t) (all_transfers wl) ->
    (Exists empty_multicast (all_transfers wl) -> exists s, validate d wl = UB s) /\
    (Forall (fun t => ~ empty_multicast t) (all_transfers wl) ->
     exists b, validate d wl = Ok b /\ (b = true <-> Forall (accepted d) (all_transfers wl))).
  Proof.
    intros (D1 & D2 & D3) Hlt HP HO. unfold validate. unfold all_transfers in *. rewrite of_nat_seq in D1, D2.
    rewrite D3. rewrite Nat2Z.id. rewrite <- !marked0. split.
    - intros HE. destruct (validate_phs_ub d (List.length (wl_phases wl)) (List.length (flat_map ph_trs (wl_phases wl)))
        (wl_phases wl) 0 0 0) as [s Hs]; auto; try lia.
      + apply tv_all; auto.
      + apply Exists_exists in HE. destruct HE as [t [Hin Ht]]. apply Exists_exists. exists t. split; auto.
        rewrite Forall_forall in HO. apply (transfer_validate_spec d t (HO t Hin)); auto.
      + rewrite Hs. cbn. eauto.
    - intros HN.
      assert (HV : Forall (fun t => exists b, transfer_validate d t = Ok b) (flat_map ph_trs (wl_phases wl))).
      { apply Forall_forall. intros t Ht. rewrite Forall_forall in HO, HN.
        destruct (transfer_validate_spec d t (HO t Ht)) as [_ H2]. destruct (H2 (HN t Ht)) as [b [Hb _]]. eauto. }
      rewrite validate_phs; auto; try lia. cbn [bind snd].
      eexists. split; [reflexivity|]. rewrite Z.eqb_eq. rewrite Z.add_0_l, sum_errs_0 by auto.
      rewrite !Forall_forall. rewrite Forall_forall in HO, HN.
      split; intros H t Ht; destruct (transfer_validate_spec d t (HO t Ht)) as [_ H2]; destruct (H2 (HN t Ht)) as [b [Hb Hi]].
      + apply Hi. rewrite H in Hb by auto. congruence.
      + rewrite Hb. f_equal. apply Hi. auto.
  Qed.

  Theorem built_validate d wl h : built wl h -> Z.of_nat (List.length h) <= 2 ^ 31 ->
    Forall (fun t => 0 <= t_off t) (all_transfers wl) ->
    (Exists empty_multicast (all_transfers wl) -> exists s, validate d wl = UB s) /\
    (Forall (fun t => ~ empty_multicast t) (all_transfers wl) ->
     exists b, validate d wl = Ok b /\ (b = true <-> Forall (accepted d) (all_transfers wl))).
  Proof.
    intros H Hl HO. destruct (built_hist_ok _ _ H Hl) as (D & Hlt & HF). apply validate_spec; auto.
    apply Forall2_length' in HF. rewrite <- HF. lia.
  Qed.
  Lemma accepted_routable d t : at_most_one_rectangle t -> (accepted d t <-> routable d t).
  Proof.
    unfold at_most_one_rectangle, accepted, routable. destruct (t_dst t) as [c|m]; [tauto|]. intros Hm.
    split; intros (H1 & H2 & H3 & H4); repeat split; auto; try tauto; try lia; try apply H3.
    - destruct H4 as ((g & m' & -> & _) & _). congruence.
    - destruct H4 as ((g & m' & -> & Hd) & (g' & Hg & Hs & He)). destruct m'; [|simpl in Hm; lia].
      destruct Hg as [<-|[]]. auto.
    - destruct H4 as (Hne & HF). destruct m as [|g [|]]; [congruence| |simpl in Hm; lia].
      inversion HF; subst. exists g, []. intuition.
    - destruct H4 as (Hne & HF). destruct m as [|g [|]]; [congruence| |simpl in Hm; lia].
      inversion HF; subst. exists g. simpl. intuition.
  Qed.
  Theorem built_validate_single d wl h : built wl h -> Z.of_nat (List.length h) <= 2 ^ 31 ->
    Forall (fun t => 0 <= t_off t) (all_transfers wl) ->
    Forall (fun t => ~ empty_multicast t) (all_transfers wl) -> Forall at_most_one_rectangle (all_transfers wl) ->
    exists b, validate d wl = Ok b /\ (b = true <-> Forall (routable d) (all_transfers wl)).
  Proof.
    intros H Hl HO HN HM. destruct (built_validate d wl h H Hl HO) as [_ H2]. destruct (H2 HN) as [b [Hb Hi]].
    exists b. split; auto. rewrite Hi. rewrite Forall_forall in HM. rewrite !Forall_forall.
    split; intros HH t Ht; apply accepted_routable; auto.
  Qed.

  Theorem route_accepted d t : wf_device d -> accepted d t ->
    (at_most_one_rectangle t -> exists ids, route d (t_noc t) (t_src t) (t_dst t) = Ok ids) /\
    (~ at_most_one_rectangle t -> route d (t_noc t) (t_src t) (t_dst t) = Throw UNDEF_ERR).
  Proof.
    intros Hwf HA. unfold at_most_one_rectangle. destruct HA as (_ & _ & Hs & HD).
    destruct (t_dst t) as [c|m].
    - split; [|tauto]. intros _. destruct HD as [Hc Hd].
      destruct (route_unicast_spec d (t_noc t) (t_src t) c Hwf Hs Hc ltac:(congruence)) as [ids [ls [E _]]]. eauto.
    - destruct HD as ((g & m' & -> & Hd) & (g' & Hg & [R1 R2] & [R3 R4])). split; intros HL.
      + destruct m'; [|simpl in HL; lia]. destruct Hg as [<-|[]].
        destruct (route_multicast_gen d (t_noc t) (t_src t) g Hwf Hs R1 R2 R3 R4 Hd) as [ids [E _]]. eauto.
      + destruct m' as [|g2 m']; [simpl in HL; lia|]. unfold route, route_f.
        destruct (dv_class d); reflexivity.
  Qed.
  Theorem route_validated d t : wf_device d -> 0 <= t_off t -> transfer_validate d t = Ok true ->
    (exists ids, route d (t_noc t) (t_src t) (t_dst t) = Ok ids) \/
    route d (t_noc t) (t_src t) (t_dst t) = Throw UNDEF_ERR.
  Proof.
    intros Hwf HO H. destruct (transfer_validate_spec d t HO) as [H1 H2].
    assert (HN : ~ empty_multicast t) by (intros HE; destruct (H1 HE); congruence).
    destruct (H2 HN) as [b [Hb Hi]]. assert (b = true) by congruence.
    apply Hi in H0. destruct (route_accepted d t Hwf H0) as [R1 R2].
    unfold at_most_one_rectangle in *. destruct (t_dst t) as [c|m]; [left; auto|].
    destruct (le_lt_dec (List.length m) 1); [left; auto|]. right. apply R2. lia.
  Qed.

  (** ** Local unicasts (C18) *)
  Lemma keeps_spec t : nonneg_coords t ->
    (keeps t = true <-> (exists c, t_dst t = Unicast c) /\ ~ local_unicast t).
  Proof.
    unfold keeps, nonneg_coords, local_unicast, same_block. destruct (t_dst t) as [c|m].
    - intros (H1 & H2 & H3 & H4). rewrite !Z.quot_div_nonneg by lia. split.
      + intros H. split; [eauto|]. intros [c' [E HH]]. injection E as <-. lia.
      + intros [_ H]. destruct ((_ =? _) && _) eqn:E; auto. exfalso. apply H. exists c. split; auto. lia.
    - intros _. split; [discriminate|]. intros [[c E] _]. discriminate.
  Qed.
  Lemma keeps_multicast t m : t_dst t = Multicast m -> keeps t = false.
  Proof. unfold keeps. intros ->. auto. Qed.

  Lemma removal_fold ps wl0 h0 wl' : hist_ok wl0 h0 -> Z.of_nat (List.length h0) + Z.of_nat (List.length ps) <= 2 ^ 31 ->
    foldM (fun acc p => let! r := addPhase acc (filter keeps (ph_trs p)) in Ok (fst r)) ps wl0 = Ok wl' ->
    hist_ok wl' (h0 ++ map (fun p => filter keeps (ph_trs p)) ps) /\
    wl_path wl' = wl_path wl0 /\ wl_groups wl' = wl_groups wl0 /\ wl_golden wl' = wl_golden wl0 /\ wl_zones wl' = wl_zones wl0.
  Proof.
    revert wl0 h0. induction ps as [|p ps IH]; intros wl0 h0 HO HL H; cbn [foldM map] in *.
    - injection H as <-. rewrite app_nil_r. auto.
    - destruct (addPhase wl0 (filter keeps (ph_trs p))) as [[wl1 id]| | | | | |] eqn:E; cbn [bind] in H; try discriminate.
      cbn [fst List.length] in *. pose proof (add_hist_ok _ _ _ _ _ HO ltac:(lia) E) as [HO1 _].
      apply addPhase_inv in E. destruct E as (_ & _ & _ & _ & E1 & E2 & E3 & E4).
      apply IH with (h0 := h0 ++ [filter keeps (ph_trs p)]) in H; auto.
      + rewrite <- app_assoc in H. cbn [app] in H. intuition congruence.
      + rewrite app_length. cbn [List.length]. lia.
  Qed.
  Lemma removal_ok ps wl0 : wl_next wl0 + Z.of_nat (List.length (flat_map ph_trs ps)) < 2 ^ 31 ->
    exists wl', foldM (fun acc p => let! r := addPhase acc (filter keeps (ph_trs p)) in Ok (fst r)) ps wl0 = Ok wl'.
  Proof.
    revert wl0. induction ps as [|p ps IH]; intros wl0 H; cbn [foldM]; [eauto|].
    cbn [flat_map] in H. rewrite app_length in H.
    assert (HF : (List.length (filter keeps (ph_trs p)) <= List.length (ph_trs p))%nat) by (clear; induction (ph_trs p) as [|x l IHl]; simpl; auto; destruct (keeps x); simpl; lia).
    destruct (addPhase_ok wl0 (filter keeps (ph_trs p)) ltac:(lia)) as [wl1 E]. rewrite E. cbn [bind fst].
    apply addPhase_inv in E. apply IH. lia.
  Qed.

  (* the transfers kept in each phase, in order, and all they contain *)
  Theorem removeLocal_spec wl : dense wl -> wl_next wl < 2 ^ 31 -> Z.of_nat (List.length (wl_phases wl)) <= 2 ^ 31 ->
    exists wl', removeLocalUnicastTransfers wl = Ok wl' /\ dense wl' /\ wl_next wl' < 2 ^ 31 /\
      Forall2 (fun p q => Forall2 (fun a b => same_content a b /\ t_phase b = ph_id q) (filter keeps (ph_trs p)) (ph_trs q))
        (wl_phases wl) (wl_phases wl') /\
      wl_path wl' = None /\ wl_groups wl' = 0 /\ wl_zones wl' = [] /\
      wl_golden wl' = wl_golden (setGoldenResultCycles (@empty_workload Fl) (wl_golden wl)).
  Proof.
    intros (D1 & D2 & D3) Hlt HP. unfold removeLocalUnicastTransfers.
    destruct (removal_ok (wl_phases wl) (setGoldenResultCycles empty_workload (wl_golden wl))) as [wl' E].
    { cbn. unfold all_transfers in D3. lia. }
    exists wl'. split; [exact E|]. apply (removal_fold _ _ []) in E; cbn [List.length]; try lia.
    - cbn [app] in E. destruct E as ((HD & Hn & HF) & E1 & E2 & E3 & E4). repeat split; auto; try apply HD.
      clear -HF. remember (wl_phases wl') as qs. clear Heqqs. revert qs HF. induction (wl_phases wl) as [|p ps IH]; intros qs HF; inversion HF; subst; constructor; auto.
    - unfold hist_ok, dense. cbn. repeat split; auto; lia.
  Qed.

  (** ** Golden windows (C20) *)
  Lemma golden_get_put m k v k' : golden_get (golden_put m k v) k' = if k =? k' then Some v else golden_get m k'.
  Proof.
    induction m as [|[k0 v0] m IH]; cbn [golden_put golden_get]; auto.
    destruct (Z.eqb_spec k0 k) as [->|N]; cbn [golden_get].
    - destruct (k =? k'); auto.
    - rewrite IH. destruct (Z.eqb_spec k0 k') as [->|]; auto. destruct (Z.eqb_spec k k'); congruence.
  Qed.
  Definition win_step (acc : Z * Z) (e : Z * (Z * Z)) := (Z.min (fst acc) (fst (snd e)), Z.max (snd acc) (snd (snd e))).
  Lemma golden_window_eq m : golden_window m = fold_left win_step m (2 ^ 63 - 1, 0).
  Proof. reflexivity. Qed.
  Lemma window_fold m : forall a b,
    (forall v, In v (map snd m) -> contains (fold_left win_step m (a, b)) v) /\ contains (fold_left win_step m (a, b)) (a, b) /\
    (forall u, (forall v, In v (map snd m) -> contains u v) -> contains u (a, b) -> contains u (fold_left win_step m (a, b))).
  Proof.
    induction m as [|[k [s e]] m IH]; intros a b; cbn [fold_left map].
    - unfold contains. cbn. intuition; lia.
    - unfold win_step at 2 4 6. cbn [fst snd]. destruct (IH (Z.min a s) (Z.max b e)) as (H1 & H2 & H3).
      unfold contains in *. cbn [fst snd] in *. repeat split.
      + destruct H as [<-|H]; cbn; [lia|]. apply H1 in H. lia.
      + destruct H as [<-|H]; cbn; [lia|]. apply H1 in H. lia.
      + lia.
      + lia.
      + apply H3; [intros; apply H; right; auto|]. specialize (H (s, e) (or_introl eq_refl)). cbn in H. lia.
      + apply H3; [intros; apply H; right; auto|]. specialize (H (s, e) (or_introl eq_refl)). cbn in H. lia.
  Qed.
  Lemma window_smallest m : m <> [] -> Forall u32_window (map snd m) ->
    smallest_window (golden_window m) (map snd m) /\ u32_window (golden_window m).
  Proof.
    intros Hne HW. rewrite golden_window_eq.
    destruct (window_fold m (2 ^ 63 - 1) 0) as (H1 & H2 & H3).
    destruct m as [|e m]; [congruence|]. cbn [map] in *.
    assert (He : u32_window (snd e)) by (inversion HW; auto). destruct He as [[E1 E2] [E3 E4]].
    assert (HS : smallest_window (fold_left win_step (e :: m) (2 ^ 63 - 1, 0)) (snd e :: map snd m)).
    { split; auto. intros u Hu. apply H3; auto. specialize (Hu (snd e) (or_introl eq_refl)). unfold contains in *. cbn [fst snd] in *. lia. }
    split; auto. destruct HS as [HS1 HS2].
    pose proof (HS1 (snd e) (or_introl eq_refl)) as C1.
    assert (C2 : contains (0, 2 ^ 32 - 1) (fold_left win_step (e :: m) (2 ^ 63 - 1, 0))).
    { apply HS2. intros v Hv. rewrite Forall_forall in HW. specialize (HW v Hv). unfold u32_window, contains in *. cbn. lia. }
    unfold contains, u32_window in *. cbn [fst snd] in *. lia.
  Qed.
  Lemma u32_small z : 0 <= z < 2 ^ 32 -> u32 z = z.
  Proof. apply Z.mod_small. Qed.
  Lemma set_golden_map wl m : m <> [] -> Forall u32_window (map snd m) ->
    wl_golden (setGoldenResultCycles wl m) = golden_put m MESH_DEVICE (golden_window m).
  Proof.
    intros Hne HW. destruct (window_smallest m Hne HW) as [_ [U1 U2]]. unfold setGoldenResultCycles. cbn [wl_golden].
    rewrite !u32_small by auto. destruct (golden_window m); auto.
  Qed.

  Theorem golden_mesh wl m : m <> [] -> Forall u32_window (map snd m) ->
    exists w, getGoldenResultCycles (setGoldenResultCycles wl m) MESH_DEVICE = Ok w /\ smallest_window w (map snd m).
  Proof.
    intros Hne HW. exists (golden_window m). unfold getGoldenResultCycles. rewrite set_golden_map by auto.
    rewrite golden_get_put, Z.eqb_refl. split; auto. apply window_smallest; auto.
  Qed.
  Theorem golden_others wl m k v : k <> MESH_DEVICE -> In (k, v) m -> NoDup (map fst m) ->
    getGoldenResultCycles (setGoldenResultCycles wl m) k = Ok v.
  Proof.
    intros Hk Hin Hnd. unfold getGoldenResultCycles, setGoldenResultCycles. cbn [wl_golden]. rewrite golden_get_put.
    destruct (Z.eqb_spec MESH_DEVICE k); [congruence|].
    assert (E : golden_get m k = Some v); [|rewrite E; auto]. clear -Hin Hnd.
    induction m as [|[k' v'] m IH]; [destruct Hin|]. cbn [map fst] in Hnd. inversion Hnd; subst. cbn [golden_get].
    destruct Hin as [E|Hin].
    - injection E as -> ->. rewrite Z.eqb_refl. auto.
    - destruct (Z.eqb_spec k' k) as [->|]; auto. exfalso. apply H1. change k with (fst (k, v)). apply in_map. auto.
  Qed.
  Theorem golden_missing wl m k : k <> MESH_DEVICE -> ~ In k (map fst m) ->
    getGoldenResultCycles (setGoldenResultCycles wl m) k = StdThrow "out_of_range".
  Proof.
    intros Hk Hn. unfold getGoldenResultCycles, setGoldenResultCycles. cbn [wl_golden]. rewrite golden_get_put.
    destruct (Z.eqb_spec MESH_DEVICE k); [congruence|].
    assert (E : golden_get m k = None); [|rewrite E; auto]. clear -Hn.
    induction m as [|[k' v'] m IH]; auto. cbn [map fst] in Hn. simpl in Hn. cbn [golden_get].
    destruct (Z.eqb_spec k' k); [tauto|]. apply IH. tauto.
  Qed.
  Lemma put_put m k v : golden_put (golden_put m k v) k v = golden_put m k v.
  Proof.
    induction m as [|[k' v'] m IH]; cbn [golden_put].
    - rewrite Z.eqb_refl. auto.
    - destruct (Z.eqb_spec k' k) as [->|]; cbn [golden_put].
      + rewrite Z.eqb_refl. auto.
      + destruct (Z.eqb_spec k' k); [congruence|]. f_equal. auto.
  Qed.
  Lemma win_put m k : forall acc w, contains w (fold_left win_step m acc) -> contains (fold_left win_step m acc) w ->
    fold_left win_step (golden_put m k w) acc = fold_left win_step m acc.
  Proof.
    assert (HC : forall l acc w e, contains (fold_left win_step l acc) w -> snd e = w ->
      fold_left win_step l (win_step acc e) = fold_left win_step l acc).
    { induction l as [|e0 l IHl]; intros acc w e HC He; cbn [fold_left] in *.
      - unfold win_step, contains in *. rewrite He. destruct acc; cbn in *. f_equal; lia.
      - rewrite <- (IHl (win_step acc e0) w e); auto. f_equal. unfold win_step. cbn. f_equal; lia. }
    assert (HC2 : forall l acc w e, contains w (fold_left win_step l (win_step acc e)) -> contains (fold_left win_step l (win_step acc e)) w -> snd e = w \/ True) by auto.
    clear HC2.
    induction m as [|[k' v'] m IH]; intros acc w H1 H2; cbn [golden_put fold_left] in *.
    - apply (HC [] acc w); auto.
    - destruct (k' =? k).
      + cbn [fold_left].
        (* both equal the window with the two entries *)
        assert (E1 : fold_left win_step m (win_step (win_step acc (k', v')) (k, w)) = fold_left win_step m (win_step acc (k', v'))) by (apply (HC _ _ w); auto).
        assert (E2 : fold_left win_step m (win_step (win_step acc (k, w)) (k', v')) = fold_left win_step m (win_step acc (k, w))).
        { apply (HC _ _ v'); auto.
          destruct (window_fold m (fst (win_step acc (k', v'))) (snd (win_step acc (k', v')))) as (_ & B & _).
          rewrite <- surjective_pairing in B.
          destruct (window_fold m (fst (win_step acc (k, w))) (snd (win_step acc (k, w)))) as (_ & B' & _).
          rewrite <- surjective_pairing in B'. unfold contains, win_step in *. cbn [fst snd] in *. lia. }
        rewrite <- E2, <- E1. f_equal. unfold win_step. cbn. f_equal; lia.
      + cbn [fold_left]. apply IH; auto.
  Qed.
  Theorem golden_idempotent wl m : m <> [] -> Forall u32_window (map snd m) ->
    let wl1 := setGoldenResultCycles wl m in setGoldenResultCycles wl1 (wl_golden wl1) = wl1.
  Proof.
    intros Hne HW. cbn zeta. set (wl1 := setGoldenResultCycles wl m).
    assert (E : wl_golden wl1 = golden_put m MESH_DEVICE (golden_window m)) by (apply set_golden_map; auto).
    assert (EW : golden_window (wl_golden wl1) = golden_window m).
    { rewrite E, !golden_window_eq. apply win_put; unfold contains; lia. }
    unfold setGoldenResultCycles at 1. rewrite EW. rewrite E at 1.
    destruct (window_smallest m Hne HW) as [_ [U1 U2]]. rewrite !u32_small by auto.
    rewrite <- surjective_pairing. rewrite put_put, <- E. reflexivity.
  Qed.

  (** ** Byte counts (C21) *)
  Theorem total_bytes_iff ps np src dst (r : Fl) off noc ev z g1 g2 g3 :
    0 <= ps -> 0 <= np ->
    (t_bytes (tr_make ps np src dst r off noc ev z g1 g2 g3) = ps * np <-> ps * np < 2 ^ 32).
  Proof.
    intros H1 H2. cbn. unfold u32. split; intros H.
    - rewrite <- H. apply Z.mod_pos_bound. lia.
    - apply Z.mod_small. nia.
  Qed.
End W.

Section WF.
  Context (A : arith).
  (** ** Injection rates (C19) *)
  Lemma infer_phases (d : device) (wl wl' : workload (F A)) : inferInjectionRates A d wl = Ok wl' ->
    same_frame wl wl' /\
    Forall2 (fun p q => ph_id q = ph_id p /\
      Forall2 (fun a b => same_but_rate a b /\ getSrcInjectionRate A d (t_src a) = Ok (t_rate b)) (ph_trs p) (ph_trs q))
      (wl_phases wl) (wl_phases wl').
  Proof.
    unfold inferInjectionRates. destruct (mapM _ (wl_phases wl)) as [ps| | | | | |] eqn:E; cbn [bind]; try discriminate.
    intros H. injection H as <-. split; [unfold same_frame; cbn; auto|]. cbn [with_phases wl_phases].
    apply mapM_Forall2 in E. eapply Forall2_imp; [exact E|]. intros p q Hpq. cbn beta in Hpq.
    destruct (mapM _ (ph_trs p)) as [ts| | | | | |] eqn:Et; cbn [bind] in Hpq; try discriminate. injection Hpq as <-. cbn.
    split; auto. apply mapM_Forall2 in Et. eapply Forall2_imp; [exact Et|]. intros a b Hab. cbn beta in Hab.
    destruct (getSrcInjectionRate A d (t_src a)) as [r| | | | | |]; cbn [bind] in Hab; try discriminate. injection Hab as <-.
    unfold same_but_rate. cbn. intuition.
  Qed.
  Lemma mapM_all_ok {X Y} (f : X -> outcome Y) l : Forall (fun x => exists y, f x = Ok y) l -> exists r, mapM f l = Ok r.
  Proof.
    induction 1 as [|x l [y Hy] HF [r Hr]]; cbn [mapM]; [eauto|]. rewrite Hy. cbn [bind]. rewrite Hr. cbn. eauto.
  Qed.
  Lemma infer_defined (d : device) (wl : workload (F A)) : supported d ->
    Forall (fun t => on_chip_grid d (t_src t)) (all_transfers wl) -> exists wl', inferInjectionRates A d wl = Ok wl'.
  Proof.
    intros Hs HF. unfold inferInjectionRates. unfold all_transfers in HF.
    match goal with |- context [mapM ?f (wl_phases wl)] => destruct (mapM_all_ok f (wl_phases wl)) as [r Hr] end.
    - apply Forall_forall. intros p Hp.
      match goal with |- context [mapM ?f (ph_trs p)] => destruct (mapM_all_ok f (ph_trs p)) as [ts Hts] end.
      + apply Forall_forall. intros t Ht. rewrite Forall_forall in HF.
        assert (HG : on_chip_grid d (t_src t)) by (apply HF; apply in_flat_map; eauto). destruct HG as [G1 G2].
        pose proof (core_type_in_grid d (mkCoord 0 (c_row (t_src t)) (c_col (t_src t))) Hs) as HC.
        unfold getSrcInjectionRate. unfold getCoreType in *. cbn [c_row c_col] in HC.
        rewrite HC; [cbn; eauto|]. pose proof (supported_wf d Hs) as (W1 & _). unfold in_grid. cbn. lia.
      + rewrite Hts. cbn. eauto.
    - rewrite Hr. cbn. eauto.
  Qed.
  Lemma Forall2_eq {X} (l l' : list X) : Forall2 eq l l' -> l = l'.
  Proof. induction 1; subst; auto. Qed.
  Lemma infer_idempotent (d : device) (wl wl' : workload (F A)) : inferInjectionRates A d wl = Ok wl' ->
    inferInjectionRates A d wl' = Ok wl'.
  Proof.
    intros H. apply infer_phases in H. destruct H as [_ HF].
    unfold inferInjectionRates.
    match goal with |- context [mapM ?f (wl_phases wl')] => assert (E : mapM f (wl_phases wl') = Ok (wl_phases wl')) end.
    { apply mapM_Forall2. induction HF as [|p q ps qs [Hid Hpq] HF IH]; constructor; auto.
      match goal with |- context [mapM ?f (ph_trs q)] => assert (E : mapM f (ph_trs q) = Ok (ph_trs q)) end.
      { apply mapM_Forall2. clear -Hpq. induction Hpq as [|a b as_ bs [HS HR] HF IH]; constructor; auto.
        destruct HS as (_ & _ & Es & _). rewrite Es, HR. cbn [bind]. destruct b; reflexivity. }
      rewrite E. cbn [bind]. destruct q; reflexivity. }
    rewrite E. cbn [bind]. destruct wl'; reflexivity.
  Qed.
  Lemma infer_out_of_grid (d : device) (wl : workload (F A)) : supported d ->
    (exists t, In t (all_transfers wl) /\ ~ on_chip_grid d (t_src t)) -> inferInjectionRates A d wl = Abort.
  Proof.
    intros Hs [t [Ht Hn]]. unfold inferInjectionRates.
    assert (HT : forall ts, (exists t, In t ts /\ ~ on_chip_grid d (t_src t)) ->
      mapM (fun t0 => let! r := getSrcInjectionRate A d (t_src t0) in Ok (set_rate r t0)) ts = Abort).
    { induction ts as [|x ts IH]; intros [t0 [Hi Hg]]; [destruct Hi|]. cbn [mapM].
      assert (HD : on_chip_grid d (t_src x) \/ ~ on_chip_grid d (t_src x)) by (unfold on_chip_grid; lia).
      destruct HD as [HD|HD].
      - destruct HD as [G1 G2]. pose proof (core_type_in_grid d (mkCoord 0 (c_row (t_src x)) (c_col (t_src x))) Hs) as HC.
        unfold getSrcInjectionRate at 1. unfold getCoreType in *. cbn [c_row c_col] in HC. rewrite HC.
        2: pose proof (supported_wf d Hs) as (W1 & _); unfold in_grid; cbn; lia.
        cbn [bind]. rewrite IH; auto. destruct Hi as [->|Hi]; [exfalso; apply Hg; split; auto|]. eauto.
      - destruct (rates_out_of_grid A d (t_src x) Hs HD) as [-> _]. reflexivity. }
    unfold all_transfers in Ht. apply in_flat_map in Ht. destruct Ht as [p [Hp Hi]].
    match goal with |- context [mapM ?f (wl_phases wl)] => assert (E : mapM f (wl_phases wl) = Abort) end.
    2: rewrite E; reflexivity.
    assert (HT' : forall ts, (exists t, In t ts /\ ~ on_chip_grid d (t_src t)) \/
      exists r, mapM (fun t0 => let! r := getSrcInjectionRate A d (t_src t0) in Ok (set_rate r t0)) ts = Ok r).
    { induction ts as [|x ts IH]; [right; cbn; eauto|].
      destruct IH as [[y [Hy Hg]]|[r Hr]]; [left; exists y; simpl; auto|].
      assert (HD : on_chip_grid d (t_src x) \/ ~ on_chip_grid d (t_src x)) by (unfold on_chip_grid; lia).
      destruct HD as [HD|HD]; [right|left; exists x; simpl; auto]. cbn [mapM]. rewrite Hr.
      destruct HD as [G1 G2]. pose proof (core_type_in_grid d (mkCoord 0 (c_row (t_src x)) (c_col (t_src x))) Hs) as HC.
      unfold getSrcInjectionRate. unfold getCoreType in *. cbn [c_row c_col] in HC. rewrite HC; [cbn; eauto|].
      pose proof (supported_wf d Hs) as (W1 & _); unfold in_grid; cbn; lia. }
    clear -HT HT' Hp Hi Hn. induction (wl_phases wl) as [|q ps IH]; [destruct Hp|]. cbn [mapM].
    destruct (HT' (ph_trs q)) as [HE|[r Hr]].
    - rewrite HT by auto. reflexivity.
    - destruct Hp as [->|Hp].
      + rewrite HT in Hr by eauto. discriminate.
      + rewrite Hr. cbn [bind]. rewrite IH by auto. reflexivity.
  Qed.
End WF.
