(* Proofs about the generator of timeline files: routes. *)
From Coq Require Import ZArith QArith Lia String List Bool.
From Verif Require Import Base Util Device SpecDevice DeviceProofs RouteProofs Multichip SpecMultichip.
Import ListNotations.
Local Open Scope list_scope.
Open Scope Z_scope.
From Coq Require Import ZifyBool ZifyNat.
Ltac Zify.zify_post_hook ::= idtac.

Lemma walk_up n : 0 < n -> forall k fuel a b, 0 <= a < n -> 0 <= b < n -> Z.of_nat k = (b - a) mod n ->
  walk (k + S fuel) (wrap_up n) a b = Ok (map (fun x => x mod n) (zseq a k)).
Proof.
  intros Hn. induction k as [|k IH]; intros fuel a b Ha Hb Hk.
  - rewrite ring_sub in Hk by lia. assert (a = b) by (destruct (a <=? b) eqn:?; lia). subst. cbn. rewrite Z.eqb_refl. reflexivity.
  - pose proof (ring_sub n a b Ha Hb) as Hs. assert (a <> b) by (rewrite Hs in Hk; destruct (a <=? b) eqn:?; lia).
    cbn [Nat.add walk]. replace (a =? b) with false by lia. unfold wrap_up at 2. rewrite <- ring_succ by lia.
    rewrite IH; [|apply ring_range; lia|lia|apply ring_step_up; [lia|exact Hk]]. cbn [bind zseq map]. f_equal. f_equal; [symmetry; apply Z.mod_small; lia|].
    apply (map_zseq_mod (fun x => x) n Hn). apply Z.mod_mod. lia.
Qed.
Lemma walk_down n : 0 < n -> forall k fuel a b, 0 <= a < n -> 0 <= b < n -> Z.of_nat k = (a - b) mod n ->
  walk (k + S fuel) (wrap_down n) a b = Ok (map (fun x => x mod n) (zdown a k)).
Proof.
  intros Hn. induction k as [|k IH]; intros fuel a b Ha Hb Hk.
  - rewrite ring_sub in Hk by lia. assert (a = b) by (destruct (b <=? a) eqn:?; lia). subst. cbn. rewrite Z.eqb_refl. reflexivity.
  - pose proof (ring_sub n b a Hb Ha) as Hs. assert (a <> b) by (rewrite Hs in Hk; destruct (b <=? a) eqn:?; lia).
    cbn [Nat.add walk]. replace (a =? b) with false by lia. unfold wrap_down at 2. rewrite <- ring_pred by lia.
    rewrite IH; [|apply ring_range; lia|lia|apply ring_step_down; [lia|exact Hk]]. cbn [bind zdown map]. f_equal. f_equal; [symmetry; apply Z.mod_small; lia|].
    apply (map_zdown_mod (fun x => x) n). apply Z.mod_mod. lia.
Qed.
Lemma walk_up_ok n a b fuel : 0 <= a < n -> 0 <= b < n -> n <= Z.of_nat fuel -> walk fuel (wrap_up n) a b = Ok (map (fun x => x mod n) (zseq a (Z.to_nat ((b - a) mod n)))).
Proof.
  intros Ha Hb Hf. pose proof (ring_range n (b - a) ltac:(lia)). replace fuel with (Z.to_nat ((b - a) mod n) + S (fuel - Z.to_nat ((b - a) mod n) - 1))%nat by lia.
  apply walk_up; lia.
Qed.
Lemma walk_down_ok n a b fuel : 0 <= a < n -> 0 <= b < n -> n <= Z.of_nat fuel -> walk fuel (wrap_down n) a b = Ok (map (fun x => x mod n) (zdown a (Z.to_nat ((a - b) mod n)))).
Proof.
  intros Ha Hb Hf. pose proof (ring_range n (a - b) ltac:(lia)). replace fuel with (Z.to_nat ((a - b) mod n) + S (fuel - Z.to_nat ((a - b) mod n) - 1))%nat by lia.
  apply walk_down; lia.
Qed.
Lemma walk_stuck (move : Z -> Z) n b : (forall x, 0 <= x < n -> 0 <= move x < n) -> ~ 0 <= b < n -> forall fuel a, 0 <= a < n -> walk fuel move a b = Diverge.
Proof. intros Hm Hb. induction fuel as [|fuel IH]; intros a Ha; [reflexivity|]. cbn [walk]. replace (a =? b) with false by lia. rewrite IH; auto. Qed.
Lemma up_range n x : 0 <= x < n -> 0 <= wrap_up n x < n.
Proof. unfold wrap_up. destruct (x =? n - 1) eqn:?; lia. Qed.
Lemma down_range n x : 0 <= x < n -> 0 <= wrap_down n x < n.
Proof. unfold wrap_down. destruct (x =? 0) eqn:?; lia. Qed.
(* a walk ends or is stuck *)
Lemma walk_cases fuel move a b : walk fuel move a b = Diverge \/ exists l, walk fuel move a b = Ok l.
Proof.
  revert a. induction fuel as [|fuel IH]; intros a; cbn [walk]; [auto|]. destruct (a =? b); [eauto|]. destruct (IH (move a)) as [->|[l ->]]; cbn [bind]; eauto.
Qed.

Lemma segment_links d dev noc s e fuel : let R := Z.of_nat (dv_rows d) in let C := Z.of_nat (dv_cols d) in on_grid R C s -> on_grid R C e ->
  (dv_rows d + dv_cols d <= fuel)%nat ->
  exists ls, generate_route_segment fuel R C dev s e noc = Ok ls /\ map attr_of ls = uni_links d dev noc (fst s) (snd s) (fst e) (snd e).
Proof.
  intros R C (Hs1 & Hs2) (He1 & He2) Hf. unfold generate_route_segment. destruct noc.
  - rewrite walk_up_ok by (subst R C; lia). cbn [bind]. rewrite walk_up_ok by (subst R C; lia). cbn [bind]. eexists. split; [reflexivity|].
    rewrite map_app, !map_map. reflexivity.
  - rewrite walk_down_ok by (subst R C; lia). cbn [bind]. rewrite walk_down_ok by (subst R C; lia). cbn [bind]. eexists. split; [reflexivity|].
    rewrite map_app, !map_map. reflexivity.
Qed.
Lemma segment_route d dev noc s e fuel : wf_device d -> 0 <= dev < Z.of_nat (dv_chips d) ->
  on_grid (Z.of_nat (dv_rows d)) (Z.of_nat (dv_cols d)) s -> on_grid (Z.of_nat (dv_rows d)) (Z.of_nat (dv_cols d)) e -> (dv_rows d + dv_cols d <= fuel)%nat ->
  exists ls ids, generate_route_segment fuel (Z.of_nat (dv_rows d)) (Z.of_nat (dv_cols d)) dev s e noc = Ok ls /\
    route d noc (core dev s) (Unicast (core dev e)) = Ok ids /\ reads_as d ids (map attr_of ls).
Proof.
  intros W Hd Hs He Hf. destruct (segment_links d dev noc s e fuel Hs He Hf) as (ls & E & L).
  assert (Gs : in_grid d (core dev s)) by (destruct Hs; unfold in_grid; cbn; lia). assert (Ge : in_grid d (core dev e)) by (destruct He; unfold in_grid; cbn; lia).
  pose proof (route_unicast_eq d noc (core dev s) (core dev e) W Gs Ge eq_refl) as E2. exists ls. eexists. split; [exact E|]. split; [exact E2|].
  rewrite L. cbn [core c_row c_col c_dev].
  assert (G : Forall (fun a => in_grid d (l_coord a)) (uni_links d dev noc (fst s) (snd s) (fst e) (snd e))).
  { destruct Hs, He. eapply Forall_impl; [|apply uni_links_in_grid; eassumption]. intros a Ha. apply Ha. }
  unfold reads_as. clear -W G. induction G as [|a l Ha _ IH]; cbn [map]; constructor; auto. apply getLinkAttributes_eq; [|exact Ha]. apply wf_small, W.
Qed.
Lemma segment_stuck rows cols dev noc s e fuel : on_grid rows cols s -> ~ on_grid rows cols e -> generate_route_segment fuel rows cols dev s e noc = Diverge.
Proof.
  intros (H1 & H2) N. unfold generate_route_segment. destruct noc.
  - destruct (walk_cases fuel (wrap_up cols) (snd s) (snd e)) as [->|[l E]]; [reflexivity|]. rewrite E. cbn [bind].
    rewrite (walk_stuck (wrap_up rows) rows (fst e)); auto using up_range. intros F. apply N. split; [exact F|].
    destruct (Z_le_dec 0 (snd e)), (Z_lt_dec (snd e) cols); try lia; rewrite (walk_stuck (wrap_up cols) cols (snd e)) in E; try discriminate; auto using up_range; lia.
  - destruct (walk_cases fuel (wrap_down rows) (fst s) (fst e)) as [->|[l E]]; [reflexivity|]. rewrite E. cbn [bind].
    rewrite (walk_stuck (wrap_down cols) cols (snd e)); auto using down_range. intros F. apply N. split; [|exact F].
    destruct (Z_le_dec 0 (fst e)), (Z_lt_dec (fst e) rows); try lia; rewrite (walk_stuck (wrap_down rows) rows (fst e)) in E; try discriminate; auto using down_range; lia.
Qed.

(** * All transfers *)
Lemma transfers_inv fuel rows cols devices : forall rs id ts, generate_transfers fuel rows cols devices id rs = Ok ts ->
  List.length ts = List.length rs /\
  forall k t r, nth_error ts k = Some t -> nth_error rs k = Some r -> generate_transfer fuel rows cols devices (id + Z.of_nat k) r = Ok t.
Proof.
  induction rs as [|r rs IH]; intros id ts; cbn [generate_transfers].
  - intros E. injection E as <-. split; [reflexivity|]. intros [|k] t r; discriminate.
  - destruct (generate_transfer fuel rows cols devices id r) as [t| | | | | |] eqn:T; try discriminate. cbn [bind].
    destruct (generate_transfers fuel rows cols devices (id + 1) rs) as [ts'| | | | | |] eqn:TS; try discriminate. cbn [bind]. intros E. injection E as <-.
    destruct (IH _ _ TS) as (L & H). split; [cbn; lia|]. intros [|k] t0 r0; cbn [nth_error].
    + intros E1 E2. injection E1 as <-. injection E2 as <-. rewrite Z.add_0_r. exact T.
    + intros E1 E2. replace (id + Z.of_nat (S k)) with (id + 1 + Z.of_nat k) by lia. apply H; auto.
Qed.
Lemma between_fails fuel rows cols devices cpt rs : Exists (between_chips devices) rs -> forall a, generate fuel rows cols devices cpt rs <> Ok a.
Proof.
  intros H a. unfold generate. destruct (generate_transfers fuel rows cols devices 0 rs) as [ts| | | | | |] eqn:E; try discriminate. exfalso.
  apply transfers_inv in E as (L & E). apply Exists_exists in H as (r & I & (B1 & B2)). apply In_nth_error in I as [k I].
  assert (exists t, nth_error ts k = Some t) as [t T]. { destruct (nth_error ts k) eqn:X; [eauto|]. apply nth_error_None in X. assert (nth_error rs k <> None) by congruence. apply nth_error_Some in H. lia. }
  specialize (E k t r T I). unfold generate_transfer in E. rewrite B1 in E. replace (1 <? devices) with true in E by lia. discriminate.
Qed.
Lemma transfers_ok d devices fuel : wf_device d -> devices <= Z.of_nat (dv_chips d) -> (dv_rows d + dv_cols d <= fuel)%nat ->
  forall rs id, Forall (drawn (Z.of_nat (dv_rows d)) (Z.of_nat (dv_cols d)) devices) rs -> Forall (fun r => ~ between_chips devices r) rs ->
  exists ts, generate_transfers fuel (Z.of_nat (dv_rows d)) (Z.of_nat (dv_cols d)) devices id rs = Ok ts.
Proof.
  intros W D F. induction rs as [|r rs IH]; intros id H N; cbn [generate_transfers]; [eauto|]. inversion H as [|? ? Hr Hrs]; subst. inversion N as [|? ? Nr Nrs]; subst.
  unfold generate_transfer. replace (dr_inter r && (1 <? devices)) with false.
  2: { unfold between_chips in Nr. destruct (dr_inter r); [|reflexivity]. cbn. destruct (1 <? devices) eqn:E; [|reflexivity]. exfalso. apply Nr. split; [reflexivity|lia]. }
  destruct Hr as (_ & Hd & Hs & He & _). destruct (segment_links d (dr_dev r) (dr_noc r) _ _ fuel Hs He F) as (ls & E & _). rewrite E. cbn [bind].
  destruct (IH (id + 1) Hrs Nrs) as [ts ->]. cbn [bind]. eauto.
Qed.
Lemma single_ok d devices cpt fuel rs : wf_device d -> devices <= Z.of_nat (dv_chips d) -> (dv_rows d + dv_cols d <= fuel)%nat ->
  Forall (drawn (Z.of_nat (dv_rows d)) (Z.of_nat (dv_cols d)) devices) rs -> Forall (fun r => ~ between_chips devices r) rs -> rs <> [] ->
  exists ts steps, generate fuel (Z.of_nat (dv_rows d)) (Z.of_nat (dv_cols d)) devices cpt rs = Ok (ts, steps) /\
    Forall2 (fun r t => gt_src t = dr_src r /\ gt_dst t = dr_dst r /\ gt_bytes t = dr_bytes r /\ gt_start t = dr_start r /\ gt_start t + 40 <= gt_end t /\
      exists ids, route d (dr_noc r) (core (dr_dev r) (dr_src r)) (Unicast (core (dr_dev r) (dr_dst r))) = Ok ids /\ reads_as d ids (map attr_of (gt_links t))) rs ts.
Proof.
  intros W D F H N NE. destruct (transfers_ok d devices fuel W D F rs 0 H N) as [ts E]. unfold generate. rewrite E. cbn [bind].
  pose proof (transfers_inv _ _ _ _ _ _ _ E) as (L & I). destruct ts as [|t0 ts0] eqn:T; [destruct rs; [congruence|discriminate L]|]. rewrite <- T in *.
  eexists _, _. split; [reflexivity|]. clear E T t0 ts0 NE N.
  assert (G : forall k r t, nth_error rs k = Some r -> nth_error ts k = Some t -> gt_src t = dr_src r /\ gt_dst t = dr_dst r /\ gt_bytes t = dr_bytes r /\ gt_start t = dr_start r /\ gt_start t + 40 <= gt_end t /\
      exists ids, route d (dr_noc r) (core (dr_dev r) (dr_src r)) (Unicast (core (dr_dev r) (dr_dst r))) = Ok ids /\ reads_as d ids (map attr_of (gt_links t))).
  { intros k r t Er Et. specialize (I k t r Et Er). assert (Hr : drawn (Z.of_nat (dv_rows d)) (Z.of_nat (dv_cols d)) devices r) by (rewrite Forall_forall in H; apply H; eapply nth_error_In, Er).
    unfold generate_transfer in I. destruct (dr_inter r && (1 <? devices)); [discriminate|]. destruct Hr as (_ & Hd & Hs & He & _).
    destruct (segment_route d (dr_dev r) (dr_noc r) _ _ fuel W ltac:(lia) Hs He F) as (ls & ids & E1 & E2 & E3). rewrite E1 in I. cbn [bind] in I. injection I as <-.
    cbn [gt_src gt_dst gt_bytes gt_start gt_end gt_links]. repeat split; auto; [unfold estimate_transfer_time; lia|eauto]. }
  clear -L G. revert ts L G. induction rs as [|r rs IH]; intros [|t ts] L G; try discriminate; constructor; [apply (G O); reflexivity|].
  apply IH; [cbn in L; lia|]. intros k. apply (G (S k)).
Qed.
