(* A transfer puts demand on each link and each NIU at most once. *)
From Coq Require Import ZArith Arith String List Bool Lia ZifyBool ZifyNat Sorting.Permutation Floats.SpecFloat.
From Verif Require Import Base Arith Util Device SpecDevice Workload SpecWorkload DepTracker Rates Stats Engine UtilProofs DeviceProofs RouteProofs MulticastProofs FactoryProofs
  WorkloadProofs TrackerProofs DepGenProofs SpecEngine RateFacts SafeProofs SafeRun CalmProofs.
Import ListNotations.
Local Open Scope list_scope.
Open Scope Z_scope.
Ltac Zify.zify_post_hook ::= idtac.

(** * The cells of one rectangle are distinct *)
Definition from_cell (row col : Z) (c : coord) : Prop := row < c_row c \/ row = c_row c /\ col <= c_col c.
Lemma walk_nodup g fuel : forall row col l, 0 <= row < 2 ^ 15 - 1 -> 0 <= col < 2 ^ 15 -> 0 <= c_col (g_start g) < 2 ^ 15 -> c_row (g_end g) < 2 ^ 15 - 1 -> c_col (g_end g) < 2 ^ 15 ->
  mc_walk fuel [g] (mkCoord (c_dev (g_start g)) row col, O) = Some l -> NoDup l /\ Forall (from_cell row col) l.
Proof.
  change (2 ^ 15) with 32768. induction fuel as [|fuel IH]; intros row col l HR HC H1 H2 H3 H; cbn [mc_walk mc_at_end snd List.length Nat.eqb] in H; [discriminate|].
  cbn [fst mc_next nth_error c_col c_row c_dev] in H.
  assert (G : forall it l', option_map (cons (mkCoord (c_dev (g_start g)) row col)) (mc_walk fuel [g] it) = Some l -> mc_walk fuel [g] it = Some l' -> NoDup l' ->
      Forall (fun c => row < c_row c \/ row = c_row c /\ col + 1 <= c_col c) l' -> NoDup l /\ Forall (from_cell row col) l).
  { intros it l' E E' ND FL. rewrite E' in E. cbn [option_map] in E. injection E as <-. split.
    - constructor; [|assumption]. intros C. rewrite Forall_forall in FL. specialize (FL _ C). cbn [c_row c_col] in FL. lia.
    - constructor; [right; cbn; lia|]. eapply Forall_impl; [|exact FL]. cbn beta. intros c Hc. unfold from_cell. lia. }
  destruct (Z.ltb_spec col (c_col (g_end g))) as [L|L].
  - rewrite i16_small in H by lia. pose proof H as HH. destruct (mc_walk fuel [g] (mkCoord (c_dev (g_start g)) row (col + 1), 0%nat)) as [l'|] eqn:E; [|discriminate HH].
    destruct (IH row (col + 1) l') as [ND FL]; try assumption; try lia. apply (G (mkCoord (c_dev (g_start g)) row (col + 1), 0%nat) l'); try assumption. rewrite E. exact HH.
  - rewrite i16_small in H by lia. destruct (row + 1 >? c_row (g_end g)) eqn:E2.
    + eapply (G _ []); [exact H| |constructor|constructor]. destruct fuel; reflexivity.
    + pose proof H as HH. destruct (mc_walk fuel [g] (mkCoord (c_dev (g_start g)) (row + 1) (c_col (g_start g)), 0%nat)) as [l'|] eqn:E; [|discriminate HH].
      destruct (IH (row + 1) (c_col (g_start g)) l') as [ND FL]; try assumption; try lia. apply (G (mkCoord (c_dev (g_start g)) (row + 1) (c_col (g_start g)), 0%nat) l'); [rewrite E; exact HH|exact E|exact ND|].
      eapply Forall_impl; [|exact FL]. intros c Hc. unfold from_cell in Hc. lia.
Qed.
Lemma cells_nodup d g cs : wf_device d -> on_chip_grid d (g_start g) -> on_chip_grid d (g_end g) -> mcast_coords [g] = Ok cs -> NoDup cs.
Proof.
  intros (W1 & W2 & W3 & W4 & _) [A1 A2] [B1 B2] H. unfold mcast_coords, mc_begin in H. destruct (mc_walk _ _ _) as [l|] eqn:E; [|discriminate]. injection H as <-.
  assert (Z.of_nat (dv_rows d) < 2 ^ 15 /\ Z.of_nat (dv_cols d) < 2 ^ 15) as [X1 X2] by (change (2 ^ 15) with 32768 in *; nia).
  replace (g_start g) with (mkCoord (c_dev (g_start g)) (c_row (g_start g)) (c_col (g_start g))) in E by (destruct (g_start g); reflexivity).
  eapply (walk_nodup g); [| | | | |exact E]; lia.
Qed.

(** * NIUs *)
Lemma in_grid_dec d c : in_grid d c \/ ~ in_grid d c.
Proof. unfold in_grid. lia. Qed.
Lemma niu_same d c t c' t' id : wf_device d -> on_chip_grid d c -> on_chip_grid d c' -> niu_of d c t = Ok id -> niu_of d c' t' = Ok id ->
  t = t' /\ c_row c = c_row c' /\ c_col c = c_col c'.
Proof.
  intros W [G1 G2] [G1' G2'] H H'. pose proof (wf_small d W) as S. pose proof W as (W1 & W2 & W3 & W4 & _).
  assert (Z.of_nat (dv_rows d) < 2 ^ 15 /\ Z.of_nat (dv_cols d) < 2 ^ 15) as [X1 X2] by (change (2 ^ 15) with 32768 in *; nia).
  assert (K : forall a, getNIUID d a = Ok id -> getNIUAttributes d id = Ok a).
  { intros a Ha. destruct (in_grid_dec d (n_coord a)) as [G|G].
    - rewrite (getNIUID_eq d a W G) in Ha. assert (id = niu_idx d a) as -> by congruence. apply getNIUAttributes_eq; assumption.
    - rewrite (getNIUID_bad d a S G) in Ha. discriminate. }
  assert (E : exists x x', mkNiu (Coord_make x (c_row c) (c_col c)) t = mkNiu (Coord_make x' (c_row c') (c_col c')) t').
  { unfold niu_of in H, H'. destruct (dv_class d); apply K in H; apply K in H'; pose proof (eq_trans (eq_sym H) H') as E; match type of E with Ok ?a = Ok ?b => assert (EE : a = b) by congruence end; do 2 eexists; exact EE. }
  destruct E as (x & x' & E). pose proof (f_equal n_type E) as ET. pose proof (f_equal (fun a => c_row (n_coord a)) E) as ER. pose proof (f_equal (fun a => c_col (n_coord a)) E) as EC.
  unfold Coord_make in ER, EC. cbn [n_type n_coord c_row c_col] in ER, EC, ET. rewrite !i16_small in ER by lia. rewrite !i16_small in EC by lia. auto.
Qed.
Lemma sinks_fold A d (t : transfer (F A)) cs : forall acc bs, foldM (fun acc c => let! ty := getCoreType d c in
    match ty with WORKER => let! b := niu_of d c (sink_niu_type (t_noc t)) in Ok (acc ++ [b]) | _ => Ok acc end) cs acc = Ok bs ->
  exists l, bs = acc ++ map snd l /\ (forall p, In p l -> In (fst p) cs /\ niu_of d (fst p) (sink_niu_type (t_noc t)) = Ok (snd p)) /\ (NoDup cs -> NoDup (map fst l)).
Proof.
  induction cs as [|c cs IH]; intros acc bs H; cbn [foldM] in H.
  - injection H as <-. exists []. rewrite app_nil_r. split; [reflexivity|]. split; [intros p []|intros; constructor].
  - apply bind_ok in H as (a & Ha & H). apply bind_ok in Ha as (ty & _ & Ha).
    assert (SK : a = acc -> exists l, bs = acc ++ map snd l /\ (forall p, In p l -> In (fst p) (c :: cs) /\ niu_of d (fst p) (sink_niu_type (t_noc t)) = Ok (snd p)) /\ (NoDup (c :: cs) -> NoDup (map fst l))).
    { intros ->. destruct (IH _ _ H) as (l & E & HI & HN). exists l. split; [exact E|]. split; [intros p Hp; destruct (HI p Hp); split; [right|]; assumption|]. intros ND. inversion ND; auto. }
    destruct ty; try (apply SK; congruence). clear SK. apply bind_ok in Ha as (b & Hb & Ha). injection Ha as <-. destruct (IH _ _ H) as (l & E & HI & HN). exists ((c, b) :: l). split; [rewrite E, <- app_assoc; reflexivity|]. split.
    + intros p [<-|Hp]; [split; [left; reflexivity|exact Hb]|]. destruct (HI p Hp). split; [right|]; assumption.
    + intros ND. inversion ND as [|? ? NI ND']; subst. cbn [map fst]. constructor; [|auto]. intros C. apply in_map_iff in C as (p & E1 & Hp). destruct (HI p Hp) as [C1 _]. rewrite E1 in C1. contradiction.
Qed.
Lemma nius_nodup (d : device) (x : tstate (F f32A)) : supported d -> state_fine f32A d x -> NoDup (nius f32A d x).
Proof.
  intros HD FX. pose proof (supported_wf d HD) as W. pose proof FX as ((_ & _ & (_ & S1) & HA) & HT & _). unfold nius. destruct (niu_ids f32A d (s_tr x)) as [ids| | | | | |] eqn:E; try constructor.
  unfold niu_ids in E. apply bind_ok in E as (a & Ha & E). apply bind_ok in E as (bs & Hb & E). injection E as <-. unfold sink_ids in Hb. destruct (t_dst (s_tr x)) as [c|m] eqn:ED.
  - apply bind_ok in Hb as (b & Hb & E). injection E as <-. constructor; [|constructor; [intros []|constructor]]. intros [->|[]]. destruct (niu_same d _ _ _ _ _ W S1 (proj2 HT) Ha Hb) as [C _]. destruct (t_noc (s_tr x)); discriminate C.
  - destruct HT as (g & -> & G1 & G2). apply bind_ok in Hb as (cs & Hcs & Hb). apply sinks_fold in Hb as (l & -> & HI & HN). cbn [app].
    assert (CG : forall c, In c cs -> on_chip_grid d c /\ c_dev c = c_dev (g_start g)).
    { destruct (coords_ok d g W G1 G2) as (cs' & E & F). assert (cs' = cs) as -> by congruence. rewrite Forall_forall in F. exact F. }
    constructor.
    + intros C. apply in_map_iff in C as (p & E & Hp). destruct (HI p Hp) as [P1 P2]. rewrite E in P2. destruct (niu_same d _ _ _ _ _ W S1 (proj1 (CG _ P1)) Ha P2) as [C _]. destruct (t_noc (s_tr x)); discriminate C.
    + specialize (HN (cells_nodup d g cs W G1 G2 Hcs)). clear Hcs Ha. induction l as [|p l IH]; [constructor|]. cbn [map] in *. inversion HN as [|? ? NI ND]; subst. constructor; [|apply IH; [intros q Hq; apply HI; right; exact Hq|assumption]].
      intros C. apply in_map_iff in C as (q & E & Hq). destruct (HI p (or_introl eq_refl)) as [P1 P2]. destruct (HI q (or_intror Hq)) as [Q1 Q2]. rewrite E in Q2. destruct (CG _ P1) as [P3 P4]. destruct (CG _ Q1) as [Q3 Q4].
      destruct (niu_same d _ _ _ _ _ W P3 Q3 P2 Q2) as (_ & E1 & E2). apply NI. apply in_map_iff. exists q. split; [|exact Hq]. destruct (fst p) as [p1 p2 p3], (fst q) as [q1 q2 q3]; cbn [c_dev c_row c_col] in *. congruence.
Qed.

(** * Links *)
Lemma route_nodup {Fl} d noc (t : transfer Fl) r : supported d -> accepted d t -> at_most_one_rectangle t -> route d noc (t_src t) (t_dst t) = Ok r -> NoDup r.
Proof.
  intros HD (_ & _ & HS & HA) HO HR. pose proof (supported_wf d HD) as W. unfold at_most_one_rectangle in HO. destruct (t_dst t) as [c|m].
  - destruct HA as [HG HE]. destruct (route_unicast_spec d noc (t_src t) c W HS HG (eq_sym HE)) as (ids & ls & E & _ & _ & _ & ND & _). assert (ids = r) as <- by congruence. exact ND.
  - destruct HA as ((g & m' & -> & Hd) & (g' & Hin & [G1 G1'] & [G2 G2'])). destruct m' as [|g2 m']; [|cbn [List.length] in HO; lia].
    destruct Hin as [->|[]]. destruct (route_multicast_gen d noc (t_src t) g' W HS G1 G1' G2 G2' Hd) as (ids & E & ND & _). assert (ids = r) as <- by congruence. exact ND.
Qed.
Lemma made_nodup A ord d (t : transfer (F A)) x : link_order ord -> supported d -> accepted d t -> at_most_one_rectangle t -> make_state A ord d t = Ok x -> NoDup (s_route x).
Proof.
  intros OP HD HA HO H. unfold make_state in H. apply bind_ok in H as (r & Hr & H). injection H as <-. pose proof (route_nodup d _ t r HD HA HO Hr) as ND. cbn [s_route]. destruct (t_dst t); [exact ND|].
  eapply Permutation_NoDup; [apply Permutation_sym, OP|exact ND].
Qed.
