(* Capacities in exact arithmetic (C40). *)
From Coq Require Import ZArith QArith Qreduction Arith String List Bool Lia ZifyBool ZifyNat Lqa.
From Verif Require Import Base Arith Util Device Workload Rates Engine SpecEngine SpecRates UtilProofs WorkloadProofs TrackerProofs DepGenProofs StepProofs RateFacts.
Import ListNotations.
Local Open Scope list_scope.
Open Scope Z_scope.
Ltac Zify.zify_post_hook ::= idtac.

Notation rstate := (tstate qx).

(** * Extended rationals *)
(* a number or infinity *)
Definition qext (x : qx) : Prop := match x with Some q => (0 <= q)%Q | None => True end.
Lemma qnumber_val x : qnumber x -> x = Some (qval x) /\ (0 <= qval x)%Q.
Proof. intros (q & -> & H). auto. Qed.
Lemma qx_add_ok x y : qnumber x -> qnumber y -> qnumber (f_add ratA x y) /\ (qval (f_add ratA x y) == qval x + qval y)%Q.
Proof.
  intros (a & -> & Ha) (b & -> & Hb). cbn [f_add ratA qx_bin qval]. split; [|apply Qred_correct]. exists (Qred (a + b)). split; [reflexivity|]. rewrite Qred_correct. lra.
Qed.
Lemma qx_lt_ok a b : f_lt ratA (Some a) (Some b) = true <-> (a < b)%Q.
Proof.
  cbn [f_lt ratA qx_lt]. rewrite negb_true_iff. destruct (Qle_bool b a) eqn:E; split; intros H; try discriminate; try reflexivity.
  - apply Qle_bool_iff in E. exfalso. lra.
  - apply Qnot_le_lt. intros C. apply Qle_bool_iff in C. congruence.
Qed.
Lemma qx_lt_no a b : f_lt ratA (Some a) (Some b) = false <-> (b <= a)%Q.
Proof.
  pose proof (qx_lt_ok a b) as H. destruct (f_lt ratA (Some a) (Some b)); split; intros E; try reflexivity; try discriminate.
  - assert (a < b)%Q by (apply H; reflexivity). lra.
  - apply Qnot_lt_le. intros C. apply H in C. discriminate.
Qed.
(* cap / D for D at least [D0] > cap *)
Lemma qx_factor cap D D0 : (0 <= cap)%Q -> (cap < D0)%Q -> (D0 <= D)%Q -> exists f, f_div ratA (Some cap) (Some D) = Some f /\ (0 <= f)%Q /\ (f < 1)%Q /\ (f * D0 <= cap)%Q.
Proof.
  intros H1 H2 H3. cbn [f_div ratA qx_div]. assert (HD : (0 < D)%Q) by lra. destruct (Qeq_bool D 0) eqn:E; [apply Qeq_bool_iff in E; lra|].
  exists (Qred (cap / D)). split; [reflexivity|]. rewrite Qred_correct. assert (HF : (cap / D * D == cap)%Q) by (field; lra).
  assert (H0 : (0 <= cap / D)%Q) by (apply Qle_shift_div_l; lra). split; [assumption|]. split; [apply Qlt_shift_div_r; lra|].
  apply Qle_trans with (cap / D * D)%Q; [|lra]. rewrite !(Qmult_comm (cap / D)). apply Qmult_le_compat_r; assumption.
Qed.
Lemma qx_div_ext a b : qnumber a -> qnumber b -> qext (f_div ratA a b).
Proof.
  intros (x & -> & Hx) (y & -> & Hy). cbn [f_div ratA qx_div]. destruct (Qeq_bool y 0) eqn:E; [exact I|]. cbn [qext]. rewrite Qred_correct.
  assert (Hn : ~ (y == 0)%Q) by (intros C; apply Qeq_bool_iff in C; congruence). apply Qle_shift_div_l; lra.
Qed.
Lemma qx_min_ext a b : qext a -> qext b -> qext (f_min ratA a b) /\
  forall f, a = Some f \/ b = Some f -> exists o, f_min ratA a b = Some o /\ (o <= f)%Q.
Proof.
  intros Ha Hb. unfold f_min. destruct a as [a|], b as [b|]; cbn [qext] in Ha, Hb.
  - destruct (f_lt ratA (Some b) (Some a)) eqn:E; [apply qx_lt_ok in E|apply qx_lt_no in E]; (split; [assumption|]); intros f [H|H]; injection H as <-; eexists; (split; [reflexivity|lra]).
  - cbn [f_lt ratA qx_lt]. split; [assumption|]. intros f [H|H]; [injection H as <-|discriminate]. eexists. split; [reflexivity|lra].
  - cbn [f_lt ratA qx_lt]. split; [assumption|]. intros f [H|H]; [discriminate|injection H as <-]. eexists. split; [reflexivity|lra].
  - cbn [f_lt ratA qx_lt]. split; [exact I|]. intros f [H|H]; discriminate.
Qed.

(** * The derated bandwidth *)
Lemma apply_rat d w o : exists b, apply_derate ratA d (Some w) (Some o) = Some b /\ (b == w * o)%Q.
Proof.
  unfold apply_derate. destruct (dv_class d); cbn [f_of_d d_mul d_of_f d_sub d_lit f_mul f_sub f_one ratA qx_bin]; eexists; (split; [reflexivity|]); rewrite !Qred_correct; try ring.
Qed.
Lemma choose_rat d w L S K b : (0 <= w)%Q -> qext L -> qext S -> qext K ->
  b = (if f_lt ratA L (f_one ratA) || f_lt ratA (f_min ratA S K) (f_one ratA) then apply_derate ratA d (Some w) (f_min ratA L (f_min ratA S K)) else Some w) ->
  exists v, b = Some v /\ (0 <= v)%Q /\ (v <= w)%Q /\ forall f, (f < 1)%Q -> L = Some f \/ S = Some f \/ K = Some f -> (v <= w * f)%Q.
Proof.
  intros Hw HL HS HK ->. destruct (qx_min_ext S K HS HK) as [HN HN']. destruct (qx_min_ext L (f_min ratA S K) HL HN) as [HM HM'].
  set (N := f_min ratA S K) in *. set (M := f_min ratA L N) in *. cbn [f_one ratA].
  destruct (f_lt ratA L (Some 1%Q) || f_lt ratA N (Some 1%Q)) eqn:E.
  - assert (HO : exists o, M = Some o /\ (0 <= o)%Q /\ (o <= 1)%Q).
    { apply orb_true_iff in E as [E|E].
      - destruct L as [l|]; [|discriminate]. apply qx_lt_ok in E. destruct (HM' l) as (o & Eo & Ho); [auto|]. exists o. rewrite Eo in HM. cbn in HM. split; [assumption|]. split; [assumption|lra].
      - destruct N as [l|]; [|discriminate]. apply qx_lt_ok in E. destruct (HM' l) as (o & Eo & Ho); [auto|]. exists o. rewrite Eo in HM. cbn in HM. split; [assumption|]. split; [assumption|lra]. }
    destruct HO as (o & EM & O1 & O2). rewrite EM. destruct (apply_rat d w o) as (v & -> & Ev). exists v. split; [reflexivity|]. rewrite Ev.
    split; [apply Qmult_le_0_compat; assumption|]. split; [rewrite <- (Qmult_1_r w) at 2; rewrite !(Qmult_comm w); apply Qmult_le_compat_r; assumption|].
    intros f Hf HF. assert (HOF : (o <= f)%Q).
    { destruct HF as [HF|HF]; [destruct (HM' f) as (o' & Eo & Ho); [auto|]; rewrite EM in Eo; injection Eo as <-; assumption|].
      destruct (HN' f HF) as (n & En & Hn). destruct (HM' n) as (o' & Eo & Ho); [auto|]. rewrite EM in Eo. injection Eo as <-. lra. }
    rewrite Ev, !(Qmult_comm w). apply Qmult_le_compat_r; assumption.
  - apply orb_false_iff in E as [E1 E2]. exists w. split; [reflexivity|]. split; [assumption|]. split; [lra|]. intros f Hf HF. exfalso. destruct HF as [->|HF].
    + apply qx_lt_no in E1. lra.
    + destruct (HN' f HF) as (n & En & Hn). rewrite En in E2. apply qx_lt_no in E2. lra.
Qed.

(** * Grids *)
Definition rgrid_ok (g : list qx) : Prop := forall l x, nth_error g l = Some x -> qnumber x.
Lemma rget_nth {X} (g : list X) id x : grid_get g id = Ok x -> nth_error g (Z.to_nat id) = Some x /\ 0 <= id.
Proof. unfold grid_get. destruct (Z.ltb_spec id 0); [discriminate|]. intros H1. apply vec_get_ok in H1. auto. Qed.
Lemma rmax_link g route : rgrid_ok g -> forall a m, qnumber a -> foldM (fun m id => let! x := grid_get g id in Ok (if f_lt ratA m x then x else m)) route a = Ok m ->
  qnumber m /\ (qval a <= qval m)%Q /\ forall id, In id route -> exists x, grid_get g id = Ok x /\ (qval x <= qval m)%Q.
Proof.
  intros HG. induction route as [|id route IH]; intros a m Na H; cbn [foldM] in H.
  - injection H as <-. split; [assumption|]. split; [lra|]. intros i [].
  - apply bind_ok in H as (a1 & H1 & H). apply bind_ok in H1 as (x & Hx & H1). injection H1 as <-. pose proof (rget_nth _ _ _ Hx) as [Hn _]. pose proof (HG _ _ Hn) as Nx.
    destruct Na as (qa & -> & Pa). destruct Nx as (qx0 & -> & Px). cbn [f_lt ratA] in H. destruct (qx_lt (Some qa) (Some qx0)) eqn:E; change (qx_lt (Some qa) (Some qx0)) with (f_lt ratA (Some qa) (Some qx0)) in E.
    + apply qx_lt_ok in E. destruct (IH (Some qx0) m) as (N & L & HI); [exists qx0; auto|exact H|]. cbn [qval] in L |- *. split; [assumption|]. split; [lra|].
      intros i [<-|Hi]; [exists (Some qx0); auto|auto].
    + apply qx_lt_no in E. destruct (IH (Some qa) m) as (N & L & HI); [exists qa; auto|exact H|]. cbn [qval] in L |- *. split; [assumption|]. split; [lra|].
      intros i [<-|Hi]; [exists (Some qx0); split; [assumption|cbn [qval]; lra]|auto].
Qed.
Lemma rmcast_min_zero d t niu cs : rgrid_ok niu -> forall a dem, a = Some 0%Q -> foldM (fun acc c => let! ty := getCoreType d c in match ty with
    | WORKER => let! id := niu_of d c (sink_niu_type t) in let! x := grid_get niu id in Ok (f_min ratA acc x) | _ => Ok acc end) cs a = Ok dem -> dem = Some 0%Q.
Proof.
  intros HG. induction cs as [|c cs IH]; intros a dem Ha H; cbn [foldM] in H; [congruence|].
  apply bind_ok in H as (a1 & H1 & H). apply bind_ok in H1 as (ty & _ & H1). destruct ty.
  1,3,4: injection H1 as <-; eapply IH; [|exact H]; assumption.
  apply bind_ok in H1 as (id & _ & H1). apply bind_ok in H1 as (x & Hx & H1). injection H1 as <-. apply rget_nth in Hx as [Hx _]. apply HG in Hx. destruct Hx as (q & -> & Hq).
  eapply IH; [|exact H]. subst a. unfold f_min. destruct (f_lt ratA (Some q) (Some 0%Q)) eqn:E; [apply qx_lt_ok in E; lra|reflexivity].
Qed.
Lemma rabs_rate d ty : exists q, abs_rate ratA d ty = Some q /\ (0 < q)%Q.
Proof. unfold abs_rate. destruct (dv_class d), ty; eexists; (split; [reflexivity|]); reflexivity. Qed.
Lemma rlink_bandwidth d : exists q, link_bandwidth ratA d = Some q /\ (0 < q)%Q.
Proof. unfold link_bandwidth. destruct (dv_class d); eexists; (split; [reflexivity|]); reflexivity. Qed.

(* what derating guarantees for one transfer *)
Lemma rnew_bw d g x b : new_bw ratA d g x = Ok b -> rgrid_ok (g_niu g) -> rgrid_ok (g_link g) -> qnumber (t_rate (s_tr x)) -> qnumber (s_bw x) ->
  exists v, b = Some v /\ (0 <= v)%Q /\ (v <= qval (s_bw x))%Q /\
  (forall id D, In id (s_route x) -> grid_get (g_link g) id = Ok D -> (qval (link_bandwidth ratA d) < qval D)%Q -> (v * qval D <= qval (s_bw x) * qval (link_bandwidth ratA d))%Q) /\
  (forall id D, niu_of d (t_src (s_tr x)) (src_niu_type (t_noc (s_tr x))) = Ok id -> grid_get (g_niu g) id = Ok D -> (qval (t_rate (s_tr x)) < qval D)%Q ->
     (v * qval D <= qval (s_bw x) * qval (t_rate (s_tr x)))%Q) /\
  (forall c id ty D, t_dst (s_tr x) = Unicast c -> niu_of d c (sink_niu_type (t_noc (s_tr x))) = Ok id -> getCoreType d c = Ok ty -> grid_get (g_niu g) id = Ok D ->
     (qval (abs_rate ratA d ty) < qval D)%Q -> (v * qval D <= qval (s_bw x) * qval (abs_rate ratA d ty))%Q).
Proof.
  intros H G1 G2 NR NB. unfold new_bw in H. apply bind_ok in H as (m & Hm & H). apply bind_ok in H as (sid & Hs & H). apply bind_ok in H as (sdem & Hd & H). apply bind_ok in H as (K & HK & H).
  injection H as H. unfold max_link_demand in Hm. destruct (rmax_link (g_link g) (s_route x) G2 (f_zero ratA) m) as (Nm & _ & HM); [exists 0%Q; split; [reflexivity|lra]|exact Hm|].
  pose proof (rget_nth _ _ _ Hd) as [Hdn _]. pose proof (G1 _ _ Hdn) as Nd. destruct (rlink_bandwidth d) as (lb & Elb & Plb).
  destruct (qnumber_val _ NR) as [ER PR]. destruct (qnumber_val _ NB) as [EB PB]. destruct (qnumber_val _ Nm) as [Em Pm]. destruct (qnumber_val _ Nd) as [Ed Pd].
  assert (NLb : qnumber (link_bandwidth ratA d)) by (exists lb; split; [assumption|lra]).
  assert (XK : qext K /\ forall c, t_dst (s_tr x) = Unicast c -> forall id ty D, niu_of d c (sink_niu_type (t_noc (s_tr x))) = Ok id -> getCoreType d c = Ok ty -> grid_get (g_niu g) id = Ok D -> K = f_div ratA (abs_rate ratA d ty) D).
  { unfold sink_derate in HK. destruct (t_dst (s_tr x)) as [c|mc].
    - apply bind_ok in HK as (id & Hid & HK). apply bind_ok in HK as (dem & Hdem & HK). apply bind_ok in HK as (r & Hr & HK). injection HK as <-. unfold getSinkAbsorptionRate in Hr. apply bind_ok in Hr as (ty & Hty & Hr). injection Hr as <-.
      split; [|intros c' Ec; injection Ec as <-; intros id' ty' D' E1 E2 E3; rewrite Hid in E1; injection E1 as <-; rewrite Hty in E2; injection E2 as <-; rewrite Hdem in E3; injection E3 as <-; reflexivity]. destruct (rabs_rate d ty) as (q & Eq & Pq). apply rget_nth in Hdem as [Hdem _]. apply qx_div_ext; [exists q; split; [assumption|lra]|exact (G1 _ _ Hdem)].
    - apply bind_ok in HK as (cs & _ & HK). apply bind_ok in HK as (dem & Hdem & HK). injection HK as <-. apply rmcast_min_zero in Hdem; [|assumption|reflexivity]. subst dem. split; [|discriminate].
      destruct (rabs_rate d WORKER) as (q & -> & Pq). exact I. }
  destruct XK as [XK HKD].
  destruct (choose_rat d (qval (s_bw x)) (f_div ratA (link_bandwidth ratA d) m) (f_div ratA (t_rate (s_tr x)) sdem) K b) as (v & Ev & V1 & V2 & V3).
  { assumption. } { apply qx_div_ext; assumption. } { apply qx_div_ext; assumption. } { assumption. }
  { rewrite <- H. rewrite <- EB. reflexivity. }
  exists v. split; [assumption|]. split; [assumption|]. split; [assumption|].
  assert (KEY : forall cap D D' L, L = f_div ratA (Some cap) (Some D') -> L = f_div ratA (link_bandwidth ratA d) m \/ L = f_div ratA (t_rate (s_tr x)) sdem \/ L = K ->
     (0 <= cap)%Q -> (cap < D)%Q -> (D <= D')%Q -> (v * D <= qval (s_bw x) * cap)%Q).
  { intros cap D D' L EL HL C1 C2 C3. destruct (qx_factor cap D' D C1 C2 C3) as (f & Ef & F1 & F2 & F3). rewrite Ef in EL.
    assert (HV : (v <= qval (s_bw x) * f)%Q). { apply V3; [assumption|]. rewrite EL in HL. destruct HL as [HL|[HL|HL]]; auto. }
    apply Qle_trans with (qval (s_bw x) * f * D)%Q; [apply Qmult_le_compat_r; lra|]. rewrite <- Qmult_assoc. rewrite !(Qmult_comm (qval (s_bw x))). apply Qmult_le_compat_r; assumption. }
  split; [|split].
  - intros id D Hid HD Hlt. destruct (HM id Hid) as (D' & HD' & LE). pose proof (eq_trans (eq_sym HD) HD') as EE. injection EE as <-. rewrite Elb in *. cbn [qval] in *.
    eapply (KEY lb (qval D) (qval m)); [reflexivity|left; rewrite <- Em; reflexivity|lra|assumption|assumption].
  - intros id D Hid HD Hlt. rewrite Hs in Hid. injection Hid as <-. pose proof (eq_trans (eq_sym Hd) HD) as EE. injection EE as <-.
    eapply (KEY _ (qval sdem) (qval sdem)); [reflexivity|right; left; rewrite <- ER, <- Ed; reflexivity|assumption|assumption|lra].
  - intros c id ty D Ec Hid Hty HD Hlt. pose proof (HKD c Ec id ty D Hid Hty HD) as EK. destruct (rabs_rate d ty) as (q & Eq & Pq). rewrite Eq in *. cbn [qval] in *.
    apply rget_nth in HD as [HD _]. destruct (qnumber_val _ (G1 _ _ HD)) as [ED PD]. rewrite ED in EK. eapply (KEY q (qval D) (qval D)); [exact EK|auto|lra|assumption|lra].
Qed.

(** * Demand *)
Lemma activity_pos st en x : 0 <= st < en -> s_start x <= en -> (0 <= activity st en x)%Q.
Proof.
  intros H1 H2. unfold activity. apply Qle_shift_div_l; [change 0%Q with (inject_Z 0); rewrite <- Zlt_Qlt; lia|]. rewrite Qmult_0_l. change 0%Q with (inject_Z 0). rewrite <- Zle_Qle. lia.
Qed.
Lemma rdemand st en x : 0 <= st < en -> en < 2 ^ 32 -> sound_rat en x ->
  qnumber (effective_demand ratA st en x) /\ (qval (effective_demand ratA st en x) == activity st en x * qval (s_bw x))%Q.
Proof.
  intros H1 H2 (_ & (w & Ew & Hw) & H3). unfold effective_demand. change (@s_start (F ratA) x) with (@s_start qx x). change (@s_bw (F ratA) x) with (@s_bw qx x).
  assert (U1 : u32 (en - Z.max st (s_start x)) = en - Z.max st (s_start x)) by (unfold u32; apply Z.mod_small; lia).
  assert (U2 : u32 (en - st) = en - st) by (unfold u32; apply Z.mod_small; lia). rewrite U1, U2. rewrite Ew. cbn [f_mul f_div f_ofZ ratA qx_div].
  destruct (Qeq_bool (inject_Z (en - st)) 0) eqn:E; [apply Qeq_bool_iff in E; unfold Qeq in E; cbn [Qnum Qden inject_Z] in E; rewrite !Z.mul_1_r in E; lia|].
  cbn [qx_bin qval]. assert (EQ : (Qred (Qred (inject_Z (en - Z.max st (s_start x)) / inject_Z (en - st)) * w) == activity st en x * w)%Q) by (rewrite !Qred_correct; reflexivity).
  split; [|exact EQ]. eexists. split; [reflexivity|]. rewrite EQ. apply Qmult_le_0_compat; [apply activity_pos; [assumption|lia]|assumption].
Qed.
Definition qsum (l : list qx) : Q := fold_right (fun x acc => (qval x + acc)%Q) 0%Q l.
Lemma rsum xs : forall a, qnumber a -> Forall qnumber xs -> qnumber (fold_left (f_add ratA) xs a) /\ (qval (fold_left (f_add ratA) xs a) == qval a + qsum xs)%Q.
Proof.
  induction xs as [|x xs IH]; intros a Na HF; cbn [fold_left qsum fold_right]; [split; [assumption|ring]|]. inversion HF as [|? ? Nx HF']; subst. destruct (qx_add_ok a x Na Nx) as [N E].
  destruct (IH _ N HF') as [N' E']. split; [exact N'|]. unfold qsum in E'. rewrite E', E. ring.
Qed.
Lemma qsum_app a b : (qsum (a ++ b) == qsum a + qsum b)%Q.
Proof. unfold qsum. induction a as [|x a IH]; cbn [app fold_right]; [lra|]. rewrite IH. lra. Qed.
Lemma qsum_repeat ids eff l : (qsum (map snd (filter (fun p : Z * qx => (fst p =? Z.of_nat l)%Z) (map (fun id => (id, eff)) ids))) == inject_Z (Z.of_nat (count_occ Z.eq_dec ids (Z.of_nat l))) * qval eff)%Q.
Proof.
  induction ids as [|i ids IH]; cbn [map filter count_occ fst]; [cbn; ring|]. destruct (Z.eqb_spec i (Z.of_nat l)) as [E|E]; destruct (Z.eq_dec i (Z.of_nat l)) as [E'|E']; try contradiction.
  - cbn [map snd qsum fold_right]. unfold qsum in IH. rewrite IH, Nat2Z.inj_succ, <- Z.add_1_r, inject_Z_plus. ring.
  - exact IH.
Qed.
Lemma ops_load st en f sts live l : 0 <= st < en -> en < 2 ^ 32 -> sound_rlive en sts live ->
  (qsum (amounts ratA (ops_of ratA st en f sts live) l) == load st en (fun x => count_occ Z.eq_dec (f x) (Z.of_nat l)) sts live)%Q.
Proof.
  intros H1 H2. induction live as [|i live IH]; intros HL; [reflexivity|]. cbn [ops_of flat_map load fold_right]. rewrite amounts_app, qsum_app.
  assert (HL' : sound_rlive en sts live) by (intros j x Hj; apply HL; right; assumption). specialize (IH HL'). unfold ops_of in IH. rewrite IH. fold (load st en (fun x => count_occ Z.eq_dec (f x) (Z.of_nat l)) sts live).
  change (F ratA) with qx in *. destruct (nth_error sts i) as [x|] eqn:Hx; [|unfold amounts, qsum; cbn [filter map fold_right]; lra]. unfold amounts. change (F ratA) with qx in *. rewrite qsum_repeat. destruct (rdemand st en x H1 H2) as [_ E]; [apply (HL i); [left; reflexivity|assumption]|]. rewrite E. reflexivity.
Qed.
Lemma ramounts st en f sts live l : 0 <= st < en -> en < 2 ^ 32 -> sound_rlive en sts live -> Forall qnumber (amounts ratA (ops_of ratA st en f sts live) l).
Proof.
  intros H1 H2 HL. apply Forall_forall. intros a Ha. unfold amounts in Ha. apply in_map_iff in Ha as ([id e] & <- & Ha). apply filter_In in Ha as [Ha _].
  unfold ops_of in Ha. apply in_flat_map in Ha as (i & Hi & Ha). change (F ratA) with qx in *. destruct (nth_error sts i) as [x|] eqn:Hx; [|destruct Ha]. apply in_map_iff in Ha as (k & E & _). injection E as _ <-.
  apply rdemand; [assumption|assumption|]. eapply HL; eassumption.
Qed.
Lemma bumped_rat {X} (t : list X) st en f sts live g : 0 <= st < en -> en < 2 ^ 32 -> sound_rlive en sts live ->
  bumped ratA (ops_of ratA st en f sts live) (map (fun _ => f_zero ratA) t) g ->
  rgrid_ok g /\ forall id D, grid_get g id = Ok D -> (qval D == load st en (fun x => count_occ Z.eq_dec (f x) id) sts live)%Q.
Proof.
  intros H1 H2 HL (L & _ & H).
  assert (G : forall l x, nth_error g l = Some x -> qnumber x /\ (qval x == load st en (fun x => count_occ Z.eq_dec (f x) (Z.of_nat l)) sts live)%Q).
  { intros l x Hx. assert (HLt : (l < List.length (map (fun _ => f_zero ratA) t))%nat) by (rewrite <- L; apply nth_error_Some; congruence).
    apply nth_error_Some in HLt. destruct (nth_error (map _ t) l) as [y|] eqn:Hy; [|congruence]. pose proof (H _ _ Hy) as E. rewrite nth_error_map in Hy. destruct (nth_error t l); [|discriminate]. injection Hy as <-. rewrite Hx in E. injection E as ->.
    destruct (rsum (amounts ratA (ops_of ratA st en f sts live) l) (f_zero ratA)) as [N E]; [exists 0%Q; split; [reflexivity|lra]|apply ramounts; assumption|].
    split; [exact N|]. rewrite <- (ops_load st en f sts live l H1 H2 HL). rewrite E. cbn [qval f_zero ratA]. ring. }
  split; [intros l x Hx; apply (G _ _ Hx)|]. intros id D HD. apply rget_nth in HD as [HD Hid]. destruct (G _ _ HD) as [_ E]. rewrite E. rewrite Z2Nat.id by assumption. reflexivity.
Qed.

(** * Sums *)
(* the heart: a resource with capacity [cap] and demand [D] *)
Lemma capacity st en times mult sts sts' live cap D : 0 <= st < en -> sound_rlive en sts live -> (0 <= cap)%Q ->
  (forall i x, In i live -> nth_error sts i = Some x -> (times x <= mult x)%nat) -> (forall x b, times (with_bw x b) = times x) ->
  (D == load st en mult sts live)%Q ->
  (forall i x, In i live -> nth_error sts i = Some x -> exists v, nth_error sts' i = Some (with_bw x (Some v)) /\ (0 <= v)%Q /\ (v <= qval (s_bw x))%Q /\
     (times x <> O -> (cap < D)%Q -> (v * D <= qval (s_bw x) * cap)%Q)) ->
  (forall i, In i live -> exists x, nth_error sts i = Some x) ->
  (load st en times sts' live <= cap)%Q.
Proof.
  intros HW HL HC HT HB HD HV HE.
  assert (P0 : forall l, incl l live -> (0 <= load st en mult sts l)%Q /\ (load st en times sts' l <= load st en mult sts l)%Q /\ ((cap < D)%Q -> (load st en times sts' l * D <= load st en mult sts l * cap)%Q)).
  { induction l as [|i l IH]; intros HI; [cbn; split; [lra|]; split; [lra|intros; lra]|]. destruct IH as (I0 & I1 & I2); [intros j Hj; apply HI; right; assumption|].
    cbn [load fold_right]. fold (load st en mult sts l). fold (load st en times sts' l). assert (Hi : In i live) by (apply HI; left; reflexivity). destruct (HE i Hi) as [x Hx].
    destruct (HV i x Hi Hx) as (v & Hx' & V1 & V2 & V3). rewrite Hx, Hx'. rewrite HB. cbn [with_bw s_bw qval]. change (activity st en (with_bw x (Some v))) with (activity st en x).
    destruct (HL i x Hi Hx) as (_ & (w & Ew & Pw) & Hst). assert (PA : (0 <= activity st en x)%Q) by (apply activity_pos; [assumption|lia]). rewrite Ew in *. cbn [qval] in *.
    assert (PT : (0 <= inject_Z (Z.of_nat (times x)))%Q /\ (inject_Z (Z.of_nat (times x)) <= inject_Z (Z.of_nat (mult x)))%Q).
    { specialize (HT i x Hi Hx). change 0%Q with (inject_Z 0). rewrite <- !Zle_Qle. lia. }
    destruct PT as [PT1 PT2]. set (a := activity st en x) in *. set (tq := inject_Z (Z.of_nat (times x))) in *. set (mq := inject_Z (Z.of_nat (mult x))) in *.
    assert (AW : (0 <= a * w)%Q) by (apply Qmult_le_0_compat; assumption).
    assert (MW : (0 <= mq * (a * w))%Q) by (apply Qmult_le_0_compat; [lra|assumption]).
    assert (LE : (tq * (a * v) <= mq * (a * w))%Q).
    { apply Qle_trans with (tq * (a * w))%Q; [|apply Qmult_le_compat_r; assumption]. rewrite !(Qmult_comm tq). apply Qmult_le_compat_r; [|assumption]. rewrite !(Qmult_comm a). apply Qmult_le_compat_r; assumption. }
    split; [lra|]. split; [lra|]. intros HCD. specialize (I2 HCD). rewrite !Qmult_plus_distr_l. apply Qplus_le_compat; [|assumption].
    assert (E1 : (tq * (a * v) * D == tq * (a * (v * D)))%Q) by ring. assert (E2 : (mq * (a * w) * cap == mq * (a * (w * cap)))%Q) by ring. rewrite E1, E2.
    assert (WC : (0 <= a * (w * cap))%Q) by (apply Qmult_le_0_compat; [assumption|apply Qmult_le_0_compat; assumption]).
    apply Qle_trans with (tq * (a * (w * cap)))%Q; [|apply Qmult_le_compat_r; assumption].
    destruct (Nat.eq_dec (times x) 0) as [Z0|Z0]; [assert (Et : tq = 0%Q) by (unfold tq; rewrite Z0; reflexivity); rewrite Et; lra|].
    specialize (V3 Z0 HCD). rewrite !(Qmult_comm tq). apply Qmult_le_compat_r; [|assumption]. rewrite !(Qmult_comm a). apply Qmult_le_compat_r; assumption. }
  destruct (P0 live (incl_refl _)) as (Q0 & Q1 & Q2). rewrite <- HD in *. destruct (Qlt_le_dec cap D) as [HCD|HCD]; [|lra].
  specialize (Q2 HCD). assert (PD : (0 < D)%Q) by lra. apply (Qmult_lt_0_le_reg_r _ _ D); [assumption|]. lra.
Qed.

Lemma op_get (g0 g : list qx) st en f sts live i x id : bumped ratA (ops_of ratA st en f sts live) g0 g -> In i live -> nth_error sts i = Some x -> In id (f x) -> exists D, grid_get g id = Ok D.
Proof.
  intros (L & HF & _) Hi Hx Hid. change (F ratA) with qx in *. rewrite Forall_forall in HF. specialize (HF (id, effective_demand ratA st en x)). cbn [fst] in HF.
  assert (HB : 0 <= id < Z.of_nat (List.length g0)).
  { apply HF. unfold ops_of. apply in_flat_map. exists i. split; [assumption|]. change (F ratA) with qx in *. rewrite Hx. apply in_map_iff. exists id. auto. }
  unfold grid_get. destruct (Z.ltb_spec id 0); [lia|]. assert (HN : (Z.to_nat id < List.length g)%nat) by lia. apply nth_error_Some in HN. unfold vec_get. destruct (nth_error g (Z.to_nat id)) as [D|]; [|congruence]. eauto.
Qed.
Lemma congestion_rat d st en sts live sts' g : timestep_window st en -> NoDup live -> sound_rlive en sts live -> modelCongestion ratA d st en sts live = Ok (sts', g) ->
  bumped ratA (ops_of ratA st en (nius ratA d) sts live) (map (fun _ => f_zero ratA) (niu_table d)) (g_niu g) /\
  bumped ratA (ops_of ratA st en s_route sts live) (map (fun _ => f_zero ratA) (link_table d)) (g_link g) /\
  rgrid_ok (g_niu g) /\ rgrid_ok (g_link g) /\
  (forall id D, grid_get (g_niu g) id = Ok D -> (qval D == load st en (fun x => count_occ Z.eq_dec (nius ratA d x) id) sts live)%Q) /\
  (forall id D, grid_get (g_link g) id = Ok D -> (qval D == load st en (fun x => count_occ Z.eq_dec (s_route x) id) sts live)%Q) /\
  (forall i, In i live -> exists x ids, nth_error sts i = Some x /\ niu_ids ratA d (s_tr x) = Ok ids) /\
  (forall i x, In i live -> nth_error sts i = Some x -> exists b, nth_error sts' i = Some (with_bw x b) /\ new_bw ratA d g x = Ok b).
Proof.
  intros [HW1 HW2] ND HL H. apply congestion_spec in H as (HD & _ & _ & HI); [|assumption]. apply demand_spec in HD as (B1 & B2 & HN). cbn [zero_grids g_niu g_link] in B1, B2.
  destruct (bumped_rat _ _ _ _ _ _ _ HW1 HW2 HL B1) as [G1 V1]. destruct (bumped_rat _ _ _ _ _ _ _ HW1 HW2 HL B2) as [G2 V2].
  split; [assumption|]. split; [assumption|]. split; [assumption|]. split; [assumption|]. split; [assumption|]. split; [assumption|]. split; [assumption|].
  intros i x Hi Hx. destruct (HI i Hi) as (y & b & Hy & Hb & Hy'). pose proof (eq_trans (eq_sym Hx) Hy) as EE. injection EE as <-. eauto.
Qed.

Theorem link_capacity d st en sts live sts' g : timestep_window st en -> NoDup live -> sound_rlive en sts live -> modelCongestion ratA d st en sts live = Ok (sts', g) ->
  forall l, (load st en (crosses l) sts' live <= qval (link_bandwidth ratA d))%Q.
Proof.
  intros HW ND HL H l. destruct (congestion_rat _ _ _ _ _ _ _ HW ND HL H) as (B1 & B2 & G1 & G2 & V1 & V2 & HN & HI). destruct (rlink_bandwidth d) as (lb & Elb & Plb).
  apply (capacity st en (crosses l) (crosses l) sts sts' live _ (load st en (crosses l) sts live)); try assumption.
  - apply HW. - rewrite Elb. cbn [qval]. lra. - intros; lia. - reflexivity. - reflexivity.
  - intros i x Hi Hx. destruct (HI i x Hi Hx) as (b & Hx' & Hb). destruct (HL i x Hi Hx) as (NR & NB & Hst). destruct (rnew_bw d g x b Hb G1 G2 NR NB) as (v & -> & P1 & P2 & P3 & _).
    exists v. split; [assumption|]. split; [assumption|]. split; [assumption|]. intros HT HCD. unfold crosses in HT. assert (Hin : In l (s_route x)) by (apply (count_occ_In Z.eq_dec); lia).
    destruct (op_get _ _ _ _ _ _ _ i x l B2 Hi Hx Hin) as [D HD]. pose proof (V2 l D HD) as EQ. rewrite <- EQ. apply (P3 l D Hin HD). rewrite EQ. exact HCD.
  - intros i Hi. destruct (HN i Hi) as (x & ids & Hx & _). eauto.
Qed.
Lemma same_core_eq a b : same_core a b = true -> a = b.
Proof. destruct a, b. unfold same_core. cbn. intros H. f_equal; lia. Qed.
Lemma same_noc_eq a b : same_noc a b = true -> a = b.
Proof. destruct a, b; intros; try discriminate; reflexivity. Qed.
Theorem source_capacity d st en sts live sts' g : timestep_window st en -> NoDup live -> sound_rlive en sts live -> modelCongestion ratA d st en sts live = Ok (sts', g) ->
  forall c n rate, (0 <= rate)%Q -> (forall i x, In i live -> nth_error sts i = Some x -> leaves c n x = 1%nat -> (qval (t_rate (s_tr x)) <= rate)%Q) ->
  (load st en (leaves c n) sts' live <= rate)%Q.
Proof.
  intros HW ND HL H c n rate HR HRX. destruct (congestion_rat _ _ _ _ _ _ _ HW ND HL H) as (B1 & B2 & G1 & G2 & V1 & V2 & HN & HI).
  assert (ID : forall i x, In i live -> nth_error sts i = Some x -> leaves c n x <> 0%nat -> exists id, niu_of d c (src_niu_type n) = Ok id /\ niu_of d (t_src (s_tr x)) (src_niu_type (t_noc (s_tr x))) = Ok id /\ In id (nius ratA d x)).
  { intros i x Hi Hx HT. unfold leaves in HT. destruct (same_noc _ _ && same_core _ _) eqn:E; [|congruence]. apply andb_true_iff in E as [E1 E2]. apply same_noc_eq in E1. apply same_core_eq in E2.
    destruct (HN i Hi) as (y & ids & Hy & Hids). pose proof (eq_trans (eq_sym Hx) Hy) as EE. injection EE as <-. unfold nius. change (F ratA) with qx in *. rewrite Hids. unfold niu_ids in Hids. apply bind_ok in Hids as (a & Ha & Hids). apply bind_ok in Hids as (bs & _ & Hids). injection Hids as <-.
    exists a. split; [rewrite <- E1, <- E2; exact Ha|]. split; [exact Ha|left; reflexivity]. }
  set (mult := fun x : rstate => match niu_of d c (src_niu_type n) with Ok id => count_occ Z.eq_dec (nius ratA d x) id | _ => leaves c n x end).
  apply (capacity st en (leaves c n) mult sts sts' live _ (load st en mult sts live)); try assumption.
  - apply HW.
  - intros i x Hi Hx. unfold mult. destruct (Nat.eq_dec (leaves c n x) 0) as [->|HT]; [lia|]. destruct (ID i x Hi Hx HT) as (id & E1 & _ & E2). rewrite E1. apply (count_occ_In Z.eq_dec) in E2. unfold leaves. destruct (_ && _); lia.
  - reflexivity. - reflexivity.
  - intros i x Hi Hx. destruct (HI i x Hi Hx) as (b & Hx' & Hb). destruct (HL i x Hi Hx) as (NR & NB & Hst). destruct (rnew_bw d g x b Hb G1 G2 NR NB) as (v & -> & P1 & P2 & _ & P3 & _).
    exists v. split; [assumption|]. split; [assumption|]. split; [assumption|]. intros HT HCD. destruct (ID i x Hi Hx HT) as (id & E1 & E2 & E3).
    destruct (op_get _ _ _ _ _ _ _ i x id B1 Hi Hx E3) as [D HD]. pose proof (V1 id D HD) as EQ.
    assert (EM : (load st en mult sts live == qval D)%Q) by (rewrite EQ; unfold mult; rewrite E1; reflexivity). rewrite EM in HCD |- *.
    assert (LR : (qval (t_rate (s_tr x)) <= rate)%Q). { apply (HRX i x Hi Hx). unfold leaves in HT |- *. destruct (_ && _); [reflexivity|congruence]. }
    destruct (qnumber_val _ NR) as [_ PR]. destruct (qnumber_val _ NB) as [_ PB].
    apply Qle_trans with (qval (s_bw x) * qval (t_rate (s_tr x)))%Q; [apply (P3 id D E2 HD); change (F ratA) with qx in *; lra|]. rewrite !(Qmult_comm (qval (s_bw x))). apply Qmult_le_compat_r; assumption.
  - intros i Hi. destruct (HN i Hi) as (x & ids & Hx & _). eauto.
Qed.
Theorem sink_capacity d st en sts live sts' g : timestep_window st en -> NoDup live -> sound_rlive en sts live -> modelCongestion ratA d st en sts live = Ok (sts', g) ->
  forall c n ty, getCoreType d c = Ok ty -> (load st en (enters c n) sts' live <= qval (abs_rate ratA d ty))%Q.
Proof.
  intros HW ND HL H c n ty Hty. destruct (congestion_rat _ _ _ _ _ _ _ HW ND HL H) as (B1 & B2 & G1 & G2 & V1 & V2 & HN & HI). destruct (rabs_rate d ty) as (ar & Ear & Par).
  assert (ID : forall i x, In i live -> nth_error sts i = Some x -> enters c n x <> 0%nat -> exists id, niu_of d c (sink_niu_type n) = Ok id /\ t_dst (s_tr x) = Unicast c /\ t_noc (s_tr x) = n /\ In id (nius ratA d x)).
  { intros i x Hi Hx HT. unfold enters in HT. destruct (t_dst (s_tr x)) as [c'|m] eqn:Ed; [|congruence]. destruct (same_noc _ _ && same_core _ _) eqn:E; [|congruence]. apply andb_true_iff in E as [E1 E2]. apply same_noc_eq in E1. apply same_core_eq in E2. subst c'.
    destruct (HN i Hi) as (y & ids & Hy & Hids). pose proof (eq_trans (eq_sym Hx) Hy) as EE. injection EE as <-. unfold nius. change (F ratA) with qx in *. rewrite Hids. unfold niu_ids, sink_ids in Hids. change (F ratA) with qx in *. rewrite Ed in Hids.
    apply bind_ok in Hids as (a & Ha & Hids). apply bind_ok in Hids as (bs & Hbs & Hids). injection Hids as <-. apply bind_ok in Hbs as (b & Hb & Hbs). injection Hbs as <-.
    exists b. split; [rewrite <- E1; exact Hb|]. split; [reflexivity|]. split; [exact E1|]. right; left; reflexivity. }
  set (mult := fun x : rstate => match niu_of d c (sink_niu_type n) with Ok id => count_occ Z.eq_dec (nius ratA d x) id | _ => enters c n x end).
  apply (capacity st en (enters c n) mult sts sts' live _ (load st en mult sts live)); try assumption.
  - apply HW. - rewrite Ear. cbn [qval]. lra.
  - intros i x Hi Hx. unfold mult. destruct (Nat.eq_dec (enters c n x) 0) as [->|HT]; [lia|]. destruct (ID i x Hi Hx HT) as (id & E1 & _ & _ & E2). rewrite E1. apply (count_occ_In Z.eq_dec) in E2. unfold enters. destruct (t_dst _); [|lia]. destruct (_ && _); lia.
  - reflexivity. - reflexivity.
  - intros i x Hi Hx. destruct (HI i x Hi Hx) as (b & Hx' & Hb). destruct (HL i x Hi Hx) as (NR & NB & Hst). destruct (rnew_bw d g x b Hb G1 G2 NR NB) as (v & -> & P1 & P2 & _ & _ & P3).
    exists v. split; [assumption|]. split; [assumption|]. split; [assumption|]. intros HT HCD. destruct (ID i x Hi Hx HT) as (id & E1 & E2 & En & E3).
    destruct (op_get _ _ _ _ _ _ _ i x id B1 Hi Hx E3) as [D HD]. pose proof (V1 id D HD) as EQ.
    assert (EM : (load st en mult sts live == qval D)%Q) by (rewrite EQ; unfold mult; rewrite E1; reflexivity). rewrite EM in HCD |- *.
    apply (P3 c id ty D E2); [|exact Hty|exact HD|exact HCD]. rewrite <- En in E1. exact E1.
  - intros i Hi. destruct (HN i Hi) as (x & ids & Hx & _). eauto.
Qed.
