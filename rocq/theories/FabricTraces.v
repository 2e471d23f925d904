(* C73: traces. *)
From Coq Require Import ZArith Arith Lia Bool String Ascii List Permutation Sorting.Sorted ZifyBool ZifyNat.
From Verif Require Import Util UtilProofs Fabric SpecFabric FabricProofs FabricPaths.
Import ListNotations.
Local Open Scope string_scope.
Local Open Scope list_scope.
Open Scope Z_scope.
Ltac Zify.zify_post_hook ::= idtac.

(** * Stable sorting *)
Section Stable.
  Context {X : Type} (lt : X -> X -> bool) (R : X -> X -> Prop) (HR : forall a b, lt a b = true <-> R a b).
  Context (asym : forall a b, R a b -> ~ R b a) (weak : forall a b c, ~ R a b -> ~ R b c -> ~ R a c).
  Lemma insert_filter P x0 x l : (forall y, P y = true <-> ~ R x0 y /\ ~ R y x0) -> filter P (sort_insert lt x l) = filter P (x :: l).
  Proof.
    intros HP. induction l as [|y l IH]; [reflexivity|]. cbn [sort_insert]. destruct (lt y x) eqn:E; [|reflexivity]. cbn [filter] in *. rewrite IH. destruct (P x) eqn:EX; [|reflexivity].
    destruct (P y) eqn:EY; [|reflexivity]. exfalso. apply HR in E. apply HP in EX, EY. apply (weak y x0 x); tauto.
  Qed.
  Lemma insert_sorted x l : StronglySorted (fun a b => ~ R b a) l -> StronglySorted (fun a b => ~ R b a) (sort_insert lt x l).
  Proof.
    induction l as [|y l IH]; intros H; [repeat constructor|]. cbn [sort_insert]. apply StronglySorted_inv in H as [H1 H2]. destruct (lt y x) eqn:E.
    - constructor; [exact (IH H1)|]. rewrite Forall_forall in *. intros z Hz. apply Permutation_in with (l' := x :: l) in Hz; [|symmetry; apply sort_insert_perm]. destruct Hz as [<-|Hz]; [|exact (H2 _ Hz)]. apply asym, HR. exact E.
    - constructor; [constructor; assumption|]. assert (NE : ~ R y x) by (rewrite <- HR; congruence). constructor; [exact NE|]. rewrite Forall_forall in *. intros z Hz. eapply weak; [exact (H2 _ Hz)|exact NE].
  Qed.
  Theorem sort_stable l : stably_sorted R l (sort lt l).
  Proof.
    split; [apply sort_perm|]. split.
    - induction l as [|x l IH]; [constructor|]. cbn [sort]. apply insert_sorted. exact IH.
    - intros x0 P HP. induction l as [|x l IH]; [reflexivity|]. cbn [sort]. rewrite (insert_filter P x0) by exact HP. cbn [filter]. rewrite IH. reflexivity.
  Qed.
End Stable.

(** * Strings *)
Lemma ascii_rank a b : Ascii.compare a b = (Z.of_N (N_of_ascii a) ?= Z.of_N (N_of_ascii b)).
Proof. unfold Ascii.compare. symmetry. apply N2Z.inj_compare. Qed.
Lemma str_trans a : forall b c, String.compare a b <> Gt -> String.compare b c <> Gt -> String.compare a c <> Gt /\ (String.compare a b = Lt \/ String.compare b c = Lt -> String.compare a c = Lt).
Proof.
  induction a as [|x a IH]; intros [|y b] [|z c]; cbn [String.compare]; try (intuition congruence).
  rewrite !ascii_rank. destruct (Z.compare_spec (Z.of_N (N_of_ascii x)) (Z.of_N (N_of_ascii y))) as [E1|E1|E1], (Z.compare_spec (Z.of_N (N_of_ascii y)) (Z.of_N (N_of_ascii z))) as [E2|E2|E2]; try (intuition congruence);
    destruct (Z.compare_spec (Z.of_N (N_of_ascii x)) (Z.of_N (N_of_ascii z))) as [E3|E3|E3]; try lia; try (intuition congruence). intros H1 H2. exact (IH _ _ H1 H2).
Qed.
Lemma str_eq a b : String.compare a b = Eq <-> a = b.
Proof.
  split; [apply String.compare_eq_iff|]. intros ->. induction b as [|x b IH]; [reflexivity|]. cbn [String.compare]. rewrite ascii_rank, Z.compare_refl. exact IH.
Qed.
Definition rank (a b : string) : Z := match String.compare a b with Lt => -1 | Eq => 0 | Gt => 1 end.
Lemma rank_lt a b : String.compare a b = Lt <-> rank a b = -1.
Proof. unfold rank. destruct (String.compare a b); split; intros; try reflexivity; discriminate. Qed.
Lemma rank_eq a b : a = b <-> rank a b = 0.
Proof. rewrite <- str_eq. unfold rank. destruct (String.compare a b); split; intros; try reflexivity; discriminate. Qed.
Lemma rank_opp a b : rank b a = - rank a b.
Proof. unfold rank. rewrite (String.compare_antisym b a). destruct (String.compare a b); reflexivity. Qed.
Lemma rank_range a b : -1 <= rank a b <= 1.
Proof. unfold rank. destruct (String.compare a b); lia. Qed.
Lemma rank_trans a b c : rank a b <= 0 -> rank b c <= 0 -> rank a c <= 0 /\ (rank a b < 0 \/ rank b c < 0 -> rank a c < 0).
Proof.
  intros H1 H2. destruct (str_trans a b c) as [H3 H4]; [unfold rank in H1; destruct (String.compare a b); discriminate || lia|unfold rank in H2; destruct (String.compare b c); discriminate || lia|].
  unfold rank in *. destruct (String.compare a b), (String.compare b c), (String.compare a c); try (exfalso; apply H3; reflexivity); split; intros; try lia; exfalso; assert (K : Eq = Lt) by (apply H4; auto); discriminate K.
Qed.

Section Traces.
  Context (t : topology) (W : Type).
  Notation event := (event W).
  Lemma time_order (l : list event) : stably_sorted earlier l (by_time W l).
  Proof.
    unfold by_time. apply sort_stable; unfold earlier; intros; lia.
  Qed.
  Lemma listed_rank (a b : event) : listed_before a b <-> 
    (ev_dev W a < ev_dev W b \/ (ev_dev W a = ev_dev W b /\ (ev_sx W a < ev_sx W b \/ (ev_sx W a = ev_sx W b /\ (ev_sy W a < ev_sy W b \/ (ev_sy W a = ev_sy W b /\
    (rank (ev_proc W a) (ev_proc W b) = -1 \/ (rank (ev_proc W a) (ev_proc W b) = 0 /\ ev_time W a < ev_time W b)))))))).
  Proof. unfold listed_before. rewrite rank_lt, rank_eq. tauto. Qed.
  Lemma key_lt_iff (a b : event) : key_lt W a b = true <-> listed_before a b.
  Proof.
    rewrite listed_rank. unfold key_lt, string_ltb, rank. pose proof (str_eq (ev_proc W a) (ev_proc W b)) as HE. destruct (String.eqb_spec (ev_proc W a) (ev_proc W b)) as [E|E].
    - apply HE in E. rewrite E. lia.
    - destruct (String.compare (ev_proc W a) (ev_proc W b)) eqn:EC; [exfalso; apply E; apply HE; reflexivity| |]; lia.
  Qed.
  Lemma key_order (l : list event) : stably_sorted listed_before l (sort (key_lt W) l).
  Proof.
    apply sort_stable.
    - exact key_lt_iff.
    - intros a b. rewrite !listed_rank. pose proof (rank_opp (ev_proc W a) (ev_proc W b)). lia.
    - intros a b c. rewrite !listed_rank. pose proof (rank_opp (ev_proc W a) (ev_proc W b)) as O1. pose proof (rank_opp (ev_proc W b) (ev_proc W c)) as O2. pose proof (rank_opp (ev_proc W a) (ev_proc W c)) as O3.
      pose proof (rank_trans (ev_proc W c) (ev_proc W b) (ev_proc W a)) as T. rewrite O1, O2, O3 in T. pose proof (rank_range (ev_proc W a) (ev_proc W b)). pose proof (rank_range (ev_proc W b) (ev_proc W c)). pose proof (rank_range (ev_proc W a) (ev_proc W c)).
      generalize dependent (rank (ev_proc W a) (ev_proc W b)). generalize dependent (rank (ev_proc W b) (ev_proc W c)). generalize dependent (rank (ev_proc W a) (ev_proc W c)). intros. lia.
  Qed.
  Lemma synchronized_kept (l : list event) : forall e, kept (e :: l) (e :: synchronized W (ev_time W e) l).
  Proof.
    induction l as [|b l IH]; intros e; cbn [synchronized].
    - split; [exact I|]. exists []. auto.
    - destruct ((2 * ev_time W e <? ev_time W b) && (1000 <? ev_time W e)) eqn:E.
      + split; [exact I|]. exists (b :: l). split; [reflexivity|]. right. exists [], e, b, l. split; [reflexivity|]. split; [reflexivity|]. unfold jump. lia.
      + destruct (IH b) as (NJ & rest & E1 & E2). split; [cbn [no_jump]; split; [unfold jump; lia|exact NJ]|]. exists rest. split; [cbn [app] in *; rewrite E1; reflexivity|].
        destruct E2 as [->|(l' & x & y & r & E3 & E4 & E5)]; [auto|]. right. exists (e :: l'), x, y, r. split; [cbn [app]; rewrite E3; reflexivity|]. auto.
  Qed.
  Lemma desync_kept (l : list event) : kept l (desync_filter W l).
  Proof. destruct l as [|e l]; [split; [exact I|]; exists []; auto|]. apply synchronized_kept. Qed.
  Lemma kept_fun (all l l' : list event) : kept all l -> kept all l' -> l = l'.
  Proof.
    assert (J : forall (l rest l2 : list event) a b r, l ++ rest = l2 -> l = (removelast l) ++ [a] -> rest = b :: r -> jump a b -> no_jump l2 -> False).
    { intros k rest k2 a b r <- E -> HJ. rewrite E. generalize (removelast k). intros k'. clear - HJ. induction k' as [|x k' IH]; cbn [app no_jump]; [tauto|]. intros H. apply IH. destruct (k' ++ [a]) as [|y ys] eqn:EE; [destruct k'; discriminate EE|]. cbn [app] in H. apply H. }
    intros (N1 & r1 & E1 & H1) (N2 & r2 & E2 & H2). rewrite E1 in E2.
    assert (C : exists mid, (l' = l ++ mid /\ r1 = mid ++ r2) \/ (l = l' ++ mid /\ r2 = mid ++ r1)).
    { clear - E2. revert l' E2. induction l as [|x l IH]; intros l' E2; [exists l'; left; cbn in E2; auto|]. destruct l' as [|y l']; [exists (x :: l); right; split; [reflexivity|]; cbn [app] in *; congruence|].
      cbn [app] in E2. injection E2 as <- E2. destruct (IH _ E2) as (mid & [[-> ->]|[-> ->]]); exists mid; [left|right]; auto. }
    destruct C as (mid & [[E3 E4]|[E3 E4]]); destruct mid as [|m mid]; try (rewrite app_nil_r in E3; congruence); exfalso.
    - destruct H1 as [->|(k & a & b & r & EK & EB & HJ)]; [discriminate E4|]. rewrite E4 in EB. cbn [app] in EB. injection EB as -> _. apply (J l (b :: mid) l' a b mid); auto. rewrite EK, removelast_last. reflexivity.
    - destruct H2 as [->|(k & a & b & r & EK & EB & HJ)]; [discriminate E4|]. rewrite E4 in EB. cbn [app] in EB. injection EB as -> _. apply (J l' (b :: mid) l a b mid); auto. rewrite EK, removelast_last. reflexivity.
  Qed.
  Lemma elaborate_same e e' : elaborate t W e = Val e' -> same_event e e'.
  Proof.
    unfold elaborate, same_event. destruct (ev_send W e) as [s|] eqn:ES.
    - intros H. apply pbind_val in H as ([path d] & _ & H). injection H as <-. cbn [ev_time ev_dev ev_sx ev_sy ev_proc ev_noc ev_dst ev_send ev_dst_dev fs_chan fs_mux fs_1d fs_2d fs_path fst snd].
      do 7 (split; [reflexivity|]). do 4 (split; [reflexivity|]). split; discriminate.
    - intros H. injection H as <-. do 7 (split; [reflexivity|]). rewrite ES. reflexivity.
  Qed.
  Lemma pmap_Forall2 (f : event -> py event) l l' : pmap W f l = Val l' -> Forall2 (fun e e' => f e = Val e') l l'.
  Proof.
    revert l'. induction l as [|e l IH]; intros l' H; cbn [pmap] in H; [injection H as <-; constructor|]. apply pbind_val in H as (e' & HE & H). apply pbind_val in H as (r & HR & H). injection H as <-. constructor; auto.
  Qed.
  Lemma pmap_ok (f : event -> py event) l : (forall e, In e l -> exists e', f e = Val e') -> exists l', pmap W f l = Val l'.
  Proof.
    induction l as [|e l IH]; intros H; cbn [pmap]; [eauto|]. destruct (H e (or_introl eq_refl)) as (e' & ->). cbn [pbind]. destruct IH as (l' & ->); [intros; apply H; right; assumption|]. cbn [pbind]. eauto.
  Qed.
  Theorem traces files remove out : process_traces t W files remove = Val out ->
    exists ordered some_events elaborated, stably_sorted earlier (concat files) ordered /\ (if remove then kept ordered some_events else some_events = ordered) /\
      Forall2 same_event some_events elaborated /\ Forall2 (fun e e' => elaborate t W e = Val e') some_events elaborated /\ stably_sorted listed_before elaborated out.
  Proof.
    unfold process_traces. cbv zeta. intros H. apply pbind_val in H as (el & HE & H). injection H as <-. apply pmap_Forall2 in HE.
    exists (by_time W (concat files)), (if remove then desync_filter W (by_time W (concat files)) else by_time W (concat files)), el. split; [apply time_order|]. split; [destruct remove; [apply desync_kept|reflexivity]|].
    split; [clear - HE; induction HE; constructor; [apply elaborate_same; assumption|assumption]|]. split; [exact HE|apply key_order].
  Qed.
  (* what the path of a send is, on a line *)
  Theorem send_1d (WF : well_formed t) (BR : broad t) e e' s start range p g : elaborate t W e = Val e' -> ev_send W e = Some s -> fs_1d W s = Some (start, range) -> tp_config t = "FABRIC_1D" \/ tp_config t = "FABRIC_1D_RING" ->
    channel_of t (ev_dev W e) (fs_chan W s) p g -> 1 <= start -> 1 <= range ->
    exists s' path d g', ev_send W e' = Some s' /\ fs_path W s' = Some path /\ ev_dst_dev W e' = Some d /\ moves t (Z.to_nat (start + range - 1)) (ev_dev W e) g d g' /\ connected t path /\
      List.length (writers path) = Z.to_nat range /\ forall i x, nth_error (writers path) i = Some x -> sg_writes W x = Some (ev_dst W e) /\ exists h, moves t (Z.to_nat start + i) (ev_dev W e) g (sg_device W x) h.
  Proof.
    intros H ES E1 HC HCh H1 H2. unfold elaborate in H. rewrite ES in H. assert (EC : (String.eqb (tp_config t) "FABRIC_1D" || String.eqb (tp_config t) "FABRIC_1D_RING") = true) by (destruct HC as [-> | ->]; reflexivity). rewrite EC, E1 in H.
    apply pbind_val in H as ([path d] & HF & H). injection H as <-. cbn [ev_send ev_dst_dev fst snd].
    assert (L1 : 1 <= start + range - 1) by lia. assert (L2 : 0 <= start + range - 1) by lia. assert (L3 : 0 <= range) by lia.
    destruct (destination_1d t WF BR W _ _ _ _ _ _ _ _ _ _ _ _ HCh L1 HF) as (g' & HM). eexists _, path, d, g'. split; [reflexivity|]. cbn [fs_path]. split; [reflexivity|]. split; [reflexivity|]. split; [exact HM|].
    split; [exact (connected_1d t WF BR W _ _ _ _ _ _ _ _ _ _ _ _ HCh L2 HF)|]. exact (writers_1d t WF BR W _ _ _ _ _ _ _ _ _ _ _ _ HCh H1 L3 HF).
  Qed.
End Traces.
