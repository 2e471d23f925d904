(* Congestion in floats: bounds of the rates, and monotonicity in the set of live transfers. *)
From Coq Require Import ZArith Arith Reals Lra Lia Bool List String Floats.SpecFloat.
From Flocq Require Import Core IEEE754.BinarySingleNaN.
From Verif Require Import Base Arith Util Device Workload Rates TrackerProofs DepGenProofs FloatProofs FloatProofs2 RateFacts RateFloat RateFloat2.
Import ListNotations.
Local Open Scope list_scope.
Open Scope Z_scope.

Notation state := (tstate (F f32A)).

(** * Sums *)
Inductive sub {X} : list X -> list X -> Prop :=
| sub_nil l : sub [] l
| sub_skip a l l' : sub l l' -> sub l (a :: l')
| sub_keep a l l' : sub l l' -> sub (a :: l) (a :: l').
Lemma sub_refl {X} (l : list X) : sub l l.
Proof. induction l; constructor; assumption. Qed.
Lemma sub_app {X} (a b a' b' : list X) : sub a a' -> sub b b' -> sub (a ++ b) (a' ++ b').
Proof. intros H1 H2. induction H1; cbn; [|constructor; assumption|constructor; assumption]. induction l; [assumption|constructor; assumption]. Qed.
Lemma sub_flat_map {X Y} (f : X -> list Y) l l' : sub l l' -> sub (flat_map f l) (flat_map f l').
Proof.
  intros H. induction H; cbn [flat_map]; [constructor| |apply sub_app; [apply sub_refl|assumption]].
  change (flat_map f l) with ([] ++ flat_map f l). apply sub_app; [constructor|assumption].
Qed.
Lemma sub_filter {X} (f : X -> bool) l l' : sub l l' -> sub (filter f l) (filter f l').
Proof. intros H. induction H; cbn [filter]; [constructor|destruct (f a); [constructor|]; assumption|destruct (f a); [constructor|]; assumption]. Qed.
Lemma sub_map {X Y} (f : X -> Y) l l' : sub l l' -> sub (map f l) (map f l').
Proof. intros H. induction H; cbn [map]; constructor; assumption. Qed.
Lemma sub_in {X} (l l' : list X) x : sub l l' -> In x l -> In x l'.
Proof. intros H. induction H; intros Hi; [destruct Hi|right; auto|destruct Hi; [left; assumption|right; auto]]. Qed.

Lemma sum_ok xs : forall a, nn32 a -> Forall nn32 xs -> nn32 (fold_left (f_add f32A) xs a) /\ (cl32 a <= cl32 (fold_left (f_add f32A) xs a))%R.
Proof.
  induction xs as [|x xs IH]; intros a Na HF; cbn [fold_left]; [split; [assumption|lra]|]. inversion HF as [|? ? Nx HF']; subst.
  destruct (add_nn prec32 emax32 _ _ a x Na Nx) as [N _]. destruct (IH _ N HF') as [N' L']. split; [exact N'|].
  eapply Rle_trans; [|exact L']. apply (add_grows prec32 emax32 _ _ a x Na Nx).
Qed.
Lemma sum_mono xs ys : sub xs ys -> Forall nn32 ys -> forall a b, nn32 a -> nn32 b -> (cl32 a <= cl32 b)%R ->
  (cl32 (fold_left (f_add f32A) xs a) <= cl32 (fold_left (f_add f32A) ys b))%R.
Proof.
  intros H. induction H as [l|y l l' H IH|y l l' H IH]; intros HF a b Na Nb HL; cbn [fold_left].
  - destruct (sum_ok l b Nb HF) as [_ L]. lra.
  - inversion HF as [|? ? Ny HF']; subst. apply IH; try assumption; [apply (add_nn prec32 emax32 _ _ b y Nb Ny)|].
    eapply Rle_trans; [exact HL|]. apply (add_grows prec32 emax32 _ _ b y Nb Ny).
  - inversion HF as [|? ? Ny HF']; subst. apply IH; try assumption; [apply (add_nn prec32 emax32 _ _ a y Na Ny)|apply (add_nn prec32 emax32 _ _ b y Nb Ny)|].
    apply add_le; try assumption; try typeclasses eauto. lra.
Qed.

(** * Demand *)
Definition state_ok (en : Z) (x : state) : Prop :=
  nf32 (t_rate (s_tr x)) /\ nf32 (s_bw x) /\ (vl (s_bw x) <= vl (t_rate (s_tr x)))%R /\ 0 <= s_start x <= en.
Lemma demand_ok st en x : 0 <= st < en -> en < 2 ^ 32 -> state_ok en x ->
  nf32 (effective_demand f32A st en x) /\ (vl (effective_demand f32A st en x) <= vl (s_bw x))%R.
Proof.
  intros H1 H2 (N1 & N2 & _ & H3). unfold effective_demand.
  assert (U1 : u32 (en - Z.max st (s_start x)) = en - Z.max st (s_start x)) by (unfold u32; apply Z.mod_small; lia).
  assert (U2 : u32 (en - st) = en - st) by (unfold u32; apply Z.mod_small; lia). rewrite U1, U2. cbn [f_mul f_div f_ofZ f32A].
  destruct (ofZ_fin prec32 emax32 _ _ (en - Z.max st (s_start x)) ltac:(lia)) as [Na Va]; [change (2 ^ (emax32 - 1)) with (2 ^ 127); lia|].
  destruct (ofZ_fin prec32 emax32 _ _ (en - st) ltac:(lia)) as [Nb Vb]; [change (2 ^ (emax32 - 1)) with (2 ^ 127); lia|].
  assert (G1 : (1 <= vl (sf_ofZ prec32 emax32 (en - st)))%R).
  { rewrite Vb, <- (rnd_1 prec32 emax32 _ _). apply rnd_le; [typeclasses eauto|]. apply IZR_le; lia. }
  destruct (div_le_1 prec32 emax32 _ _ _ _ Na Nb) as [Nd Ld]; [lra|rewrite Va, Vb; apply rnd_le; [typeclasses eauto|apply IZR_le; lia]|].
  destruct (mul_le_l prec32 emax32 _ _ _ _ Nd N2 Ld) as (H & H' & _). split; assumption.
Qed.
Definition live_ok (en : Z) (sts : list state) (live : list nat) : Prop :=
  forall i x, In i live -> nth_error sts i = Some x -> state_ok en x.
Lemma amounts_ok st en f sts live l : 0 <= st < en -> en < 2 ^ 32 -> live_ok en sts live ->
  Forall nn32 (amounts f32A (ops_of f32A st en f sts live) l).
Proof.
  intros H1 H2 HL. apply Forall_forall. intros a Ha. unfold amounts in Ha. apply in_map_iff in Ha as ([id e] & <- & Ha). apply filter_In in Ha as [Ha _].
  unfold ops_of in Ha. apply in_flat_map in Ha as (i & Hi & Ha). destruct (nth_error sts i) as [x|] eqn:Hx; [|destruct Ha]. apply in_map_iff in Ha as (k & E & _). injection E as _ <-.
  apply demand_ok; [assumption|assumption|]. eapply HL; eassumption.
Qed.
(* every entry of a grid after the demands have been added *)
Definition grid_ok (g : list (F f32A)) : Prop := forall l x, nth_error g l = Some x -> nn32 x.
Definition grid_le (g g' : list (F f32A)) : Prop := List.length g = List.length g' /\ forall l x y, nth_error g l = Some x -> nth_error g' l = Some y -> (cl32 x <= cl32 y)%R.
Lemma zero_list {X} (t : list X) l y : nth_error (map (fun _ => f_zero f32A) t) l = Some y -> y = f_zero f32A.
Proof. rewrite nth_error_map. destruct (nth_error t l); [intros E; injection E as <-; reflexivity|discriminate]. Qed.
Lemma bumped_ok {X} (t : list X) ops g : bumped f32A ops (map (fun _ => f_zero f32A) t) g -> (forall l, Forall nn32 (amounts f32A ops l)) -> grid_ok g.
Proof.
  intros (L & _ & H) HA l x Hx. assert (HL : (l < List.length (map (fun _ => f_zero f32A) t))%nat) by (rewrite <- L; apply nth_error_Some; congruence).
  apply nth_error_Some in HL. destruct (nth_error (map _ t) l) as [y|] eqn:Hy; [|congruence]. pose proof (H _ _ Hy) as E. apply zero_list in Hy. subst y. rewrite Hx in E. injection E as ->.
  apply sum_ok; [exact (nneg_zero _ _)|apply HA].
Qed.
Lemma bumped_le {X} (t : list X) ops ops' g g' : bumped f32A ops (map (fun _ => f_zero f32A) t) g -> bumped f32A ops' (map (fun _ => f_zero f32A) t) g' ->
  sub ops ops' -> (forall l, Forall nn32 (amounts f32A ops' l)) -> grid_le g g'.
Proof.
  intros (L & _ & H) (L' & _ & H') HS HA. split; [congruence|]. intros l x y Hx Hy. assert (HL : (l < List.length (map (fun _ => f_zero f32A) t))%nat) by (rewrite <- L; apply nth_error_Some; congruence).
  apply nth_error_Some in HL. destruct (nth_error (map _ t) l) as [z|] eqn:Hz; [|congruence]. pose proof (H _ _ Hz) as E. pose proof (H' _ _ Hz) as E'. rewrite Hx in E. rewrite Hy in E'. injection E as ->. injection E' as ->.
  apply zero_list in Hz. subst z. apply sum_mono; [|apply HA|exact (nneg_zero _ _)|exact (nneg_zero _ _)|lra]. unfold amounts. apply sub_map, sub_filter, HS.
Qed.
Lemma grids_ok d st en sts live g : 0 <= st < en -> en < 2 ^ 32 -> live_ok en sts live ->
  foldM (add_demand f32A d st en sts) live (zero_grids f32A d) = Ok g -> grid_ok (g_niu g) /\ grid_ok (g_link g).
Proof.
  intros H1 H2 HL H. apply demand_spec in H as (B1 & B2 & _). cbn [zero_grids g_niu g_link] in B1, B2.
  split; [eapply bumped_ok; [exact B1|]|eapply bumped_ok; [exact B2|]]; intros l; apply amounts_ok; assumption.
Qed.
Lemma grids_le d st en sts live live' g g' : 0 <= st < en -> en < 2 ^ 32 -> live_ok en sts live' -> sub live live' ->
  foldM (add_demand f32A d st en sts) live (zero_grids f32A d) = Ok g -> foldM (add_demand f32A d st en sts) live' (zero_grids f32A d) = Ok g' ->
  grid_le (g_niu g) (g_niu g') /\ grid_le (g_link g) (g_link g').
Proof.
  intros H1 H2 HL HS H H'. apply demand_spec in H as (B1 & B2 & _). apply demand_spec in H' as (B1' & B2' & _). cbn [zero_grids g_niu g_link] in *.
  split; [eapply bumped_le; [exact B1|exact B1'| |]|eapply bumped_le; [exact B2|exact B2'| |]]; try (apply sub_flat_map; assumption); intros l; apply amounts_ok; assumption.
Qed.

(** * The factors *)
Lemma grid_get_nth {X} (g : list X) id x : grid_get g id = Ok x -> nth_error g (Z.to_nat id) = Some x /\ 0 <= id.
Proof. unfold grid_get. destruct (Z.ltb_spec id 0); [discriminate|]. intros H1. apply vec_get_ok in H1. auto. Qed.
Lemma max_link_ok g route : grid_ok g -> forall a m, nn32 a -> foldM (fun m id => let! x := grid_get g id in Ok (if f_lt f32A m x then x else m)) route a = Ok m ->
  nn32 m /\ (cl32 a <= cl32 m)%R /\ (forall id, In id route -> exists x, grid_get g id = Ok x /\ nn32 x /\ (cl32 x <= cl32 m)%R) /\
  (m = a \/ exists id, In id route /\ grid_get g id = Ok m).
Proof.
  intros HG. induction route as [|id route IH]; intros a m Na H; cbn [foldM] in H.
  - injection H as <-. split; [assumption|]. split; [lra|]. split; [intros i []|left; reflexivity].
  - apply bind_ok in H as (a1 & H1 & H). apply bind_ok in H1 as (x & Hx & H1). injection H1 as <-. pose proof (grid_get_nth _ _ _ Hx) as [Hn _]. pose proof (HG _ _ Hn) as Nx.
    cbn [f_lt f32A] in H. destruct (SFltb a x) eqn:E.
    + apply (ltb_cl prec32 emax32 a x Na Nx) in E. destruct (IH _ _ Nx H) as (N & L & HI & HM). split; [assumption|]. split; [lra|]. split.
      * intros i [<-|Hi]; [exists x; split; [assumption|]; split; assumption|]. auto.
      * right. destruct HM as [->|(i & Hi & E2)]; [exists id; split; [left; reflexivity|assumption]|exists i; split; [right; assumption|assumption]].
    + apply (ltb_cl_false prec32 emax32 a x Na Nx) in E. destruct (IH _ _ Na H) as (N & L & HI & HM). split; [assumption|]. split; [lra|]. split.
      * intros i [<-|Hi]; [exists x; split; [assumption|]; split; [assumption|lra]|]. auto.
      * destruct HM as [->|(i & Hi & E2)]; [left; reflexivity|right; exists i; split; [right; assumption|assumption]].
Qed.
Lemma max_link_mono g g' route m m' : grid_ok g -> grid_ok g' -> grid_le g g' -> max_link_demand f32A g route = Ok m -> max_link_demand f32A g' route = Ok m' -> (cl32 m <= cl32 m')%R.
Proof.
  intros HG HG' [HL HLE] H H'. destruct (max_link_ok g route HG _ _ (nneg_zero _ _) H) as (_ & _ & _ & HM). destruct (max_link_ok g' route HG' _ _ (nneg_zero _ _) H') as (_ & L' & HI & _).
  destruct HM as [->|(id & Hi & E)]; [exact L'|]. destruct (HI id Hi) as (x & Hx & _ & Lx). apply grid_get_nth in E as [E _]. apply grid_get_nth in Hx as [Hx _]. specialize (HLE _ _ _ E Hx). lra.
Qed.
Definition inf32 : spec_float := S754_infinity false.
(* multicast: the least demand is taken, starting from 0 *)
Lemma mcast_min_zero d t niu cs : grid_ok niu -> forall dem, foldM (fun acc c => let! ty := getCoreType d c in match ty with
    | WORKER => let! id := niu_of d c (sink_niu_type t) in let! x := grid_get niu id in Ok (f_min f32A acc x) | _ => Ok acc end) cs (f_zero f32A) = Ok dem -> dem = f_zero f32A.
Proof.
  intros HG. induction cs as [|c cs IH]; intros dem H; cbn [foldM] in H; [injection H as <-; reflexivity|].
  apply bind_ok in H as (a1 & H1 & H). apply bind_ok in H1 as (ty & _ & H1). destruct ty.
  1,3,4: injection H1 as <-; exact (IH _ H).
  apply bind_ok in H1 as (id & _ & H1). apply bind_ok in H1 as (x & Hx & H1). injection H1 as <-. apply grid_get_nth in Hx as [Hx _]. apply HG in Hx.
  assert (E : f_min f32A (f_zero f32A) x = f_zero f32A).
  { unfold f_min. cbn [f_lt f_zero f32A]. replace (SFltb x (S754_zero false)) with false; [reflexivity|]. symmetry. apply (ltb_cl_false prec32 emax32); [assumption|exact (nneg_zero _ _)|]. apply (cl_nneg prec32 emax32 x Hx). }
  cbn [f_zero f32A] in E. rewrite E in H. exact (IH _ H).
Qed.
(* the sink factor: unicast by the demand of the sink, multicast none *)
Lemma sink_derate_ok d t niu K : grid_ok niu -> sink_derate f32A d t niu = Ok K ->
  nn32 K /\ match t_dst t with
            | Unicast c => exists id dem ty, niu_of d c (sink_niu_type (t_noc t)) = Ok id /\ grid_get niu id = Ok dem /\ getCoreType d c = Ok ty /\
                nn32 dem /\ K = f_div f32A (abs_rate f32A d ty) dem
            | Multicast m => K = inf32
            end.
Proof.
  intros HG H. unfold sink_derate in H. destruct (t_dst t) as [c|m].
  - apply bind_ok in H as (id & Hid & H). apply bind_ok in H as (dem & Hd & H). apply bind_ok in H as (r & Hr & H). injection H as <-. unfold getSinkAbsorptionRate in Hr. apply bind_ok in Hr as (ty & Hty & Hr). injection Hr as <-.
    pose proof (grid_get_nth _ _ _ Hd) as [Hn _]. pose proof (HG _ _ Hn) as Nd. destruct (abs_rate_ok d ty) as [Na Pa].
    split; [apply div_nn; try assumption; try typeclasses eauto; left; assumption|]. exists id, dem, ty. auto.
  - apply bind_ok in H as (cs & _ & H). apply bind_ok in H as (dem & Hd & H). injection H as <-. apply mcast_min_zero in Hd; [|assumption]. subst dem.
    assert (E : f_div f32A (abs_rate f32A d WORKER) (f_zero f32A) = inf32) by (unfold abs_rate; destruct (dv_class d); vm_compute; reflexivity).
    assert (G : nn32 (f_div f32A (abs_rate f32A d WORKER) (f_zero f32A)) /\ f_div f32A (abs_rate f32A d WORKER) (f_zero f32A) = inf32).
    { rewrite E. split; [exact (nneg_inf _ _)|reflexivity]. }
    exact G.
Qed.
Lemma sink_derate_mono d t niu niu' K K' : grid_ok niu -> grid_ok niu' -> grid_le niu niu' -> sink_derate f32A d t niu = Ok K -> sink_derate f32A d t niu' = Ok K' -> (cl32 K' <= cl32 K)%R.
Proof.
  intros HG HG' [_ HLE] H H'. apply sink_derate_ok in H as [N H]; [|assumption]. apply sink_derate_ok in H' as [N' H']; [|assumption]. destruct (t_dst t) as [c|m]; [|subst; lra].
  destruct H as (id & dem & ty & E1 & E2 & E3 & Nd & ->). destruct H' as (id' & dem' & ty' & E1' & E2' & E3' & Nd' & ->). assert (id' = id) by congruence. assert (ty' = ty) by congruence. subst id' ty'.
  apply grid_get_nth in E2 as [E2 _]. apply grid_get_nth in E2' as [E2' _]. destruct (abs_rate_ok d ty) as [Na Pa].
  apply div_anti; try assumption; try typeclasses eauto; [left; assumption|]. exact (HLE _ _ _ E2 E2').
Qed.
Lemma zero_of x : nf32 x -> vl x = 0%R -> x = S754_zero false.
Proof. intros N E. apply (nnf_inj prec32 emax32); [assumption|exact (nnf_zero _ _)|exact E]. Qed.
Lemma new_bw_factors d g x b : new_bw f32A d g x = Ok b -> grid_ok (g_niu g) -> grid_ok (g_link g) -> nf32 (t_rate (s_tr x)) ->
  exists m sid sdem K, max_link_demand f32A (g_link g) (s_route x) = Ok m /\ niu_of d (t_src (s_tr x)) (src_niu_type (t_noc (s_tr x))) = Ok sid /\
    grid_get (g_niu g) sid = Ok sdem /\ sink_derate f32A d (s_tr x) (g_niu g) = Ok K /\ nn32 m /\ nn32 sdem /\ nn32 K /\
    nn32 (f_div f32A (link_bandwidth f32A d) m) /\
    (nn32 (f_div f32A (t_rate (s_tr x)) sdem) \/ (f_div f32A (t_rate (s_tr x)) sdem = S754_nan /\ vl (t_rate (s_tr x)) = 0%R /\ cl32 sdem = 0%R)) /\
    b = choose d (s_bw x) (f_div f32A (link_bandwidth f32A d) m) (f_div f32A (t_rate (s_tr x)) sdem) K.
Proof.
  intros H G1 G2 NR. unfold new_bw in H. apply bind_ok in H as (m & Hm & H). apply bind_ok in H as (sid & Hs & H). apply bind_ok in H as (sdem & Hd & H). apply bind_ok in H as (K & HK & H). injection H as <-.
  pose proof (max_link_ok _ _ G2 _ _ (nneg_zero _ _) Hm) as (Nm & _). pose proof (grid_get_nth _ _ _ Hd) as [Hn _]. pose proof (G1 _ _ Hn) as Nd. pose proof (sink_derate_ok _ _ _ _ G1 HK) as [NK _].
  destruct (link_bandwidth_ok d) as [Nl Pl].
  exists m, sid, sdem, K. split; [assumption|]. split; [assumption|]. split; [assumption|]. split; [assumption|]. split; [assumption|]. split; [assumption|]. split; [assumption|].
  split; [apply div_nn; try assumption; try typeclasses eauto; left; assumption|]. split; [|reflexivity].
  pose proof (nnf_lt prec32 emax32 _ NR) as PR. pose proof (cl_nneg prec32 emax32 _ Nd) as PD.
  destruct (Req_dec (vl (t_rate (s_tr x))) 0) as [E0|E0]; [destruct (Req_dec (cl32 sdem) 0) as [E1|E1]|].
  - right. split; [|auto]. rewrite (zero_of _ NR E0). assert (Fd : nf32 sdem) by (apply nneg_fin; [assumption|rewrite E1; apply bpow_gt_0]). rewrite (nnf_cl prec32 emax32 _ Fd) in E1. rewrite (zero_of _ Fd E1). reflexivity.
  - left. apply div_nn; try assumption; try typeclasses eauto. right. lra.
  - left. apply div_nn; try assumption; try typeclasses eauto. left. lra.
Qed.
Theorem new_bw_ok d g x b : new_bw f32A d g x = Ok b -> grid_ok (g_niu g) -> grid_ok (g_link g) -> nf32 (t_rate (s_tr x)) -> nf32 (s_bw x) ->
  nf32 b /\ (vl b <= vl (s_bw x))%R.
Proof.
  intros H G1 G2 NR NB. destruct (new_bw_factors d g x b H G1 G2 NR) as (m & sid & sdem & K & _ & _ & _ & _ & _ & _ & NK & NL & HS & ->).
  apply choose_ok; try assumption. destruct HS as [HS|(HS & _)]; auto.
Qed.
Theorem new_bw_mono d g g' x b b' : new_bw f32A d g x = Ok b -> new_bw f32A d g' x = Ok b' -> grid_ok (g_niu g) -> grid_ok (g_link g) -> grid_ok (g_niu g') -> grid_ok (g_link g') ->
  grid_le (g_niu g) (g_niu g') -> grid_le (g_link g) (g_link g') -> nf32 (t_rate (s_tr x)) -> nf32 (s_bw x) -> (vl (s_bw x) <= vl (t_rate (s_tr x)))%R -> (vl b' <= vl b)%R.
Proof.
  intros H H' G1 G2 G1' G2' L1 L2 NR NB HB. destruct (new_bw_factors d g x b H G1 G2 NR) as (m & sid & sdem & K & Em & Es & Ed & EK & Nm & Nd & NK & NL & HS & ->).
  destruct (new_bw_factors d g' x b' H' G1' G2' NR) as (m' & sid' & sdem' & K' & Em' & Es' & Ed' & EK' & Nm' & Nd' & NK' & NL' & HS' & ->).
  assert (sid' = sid) by congruence. subst sid'. apply grid_get_nth in Ed as [Ed _]. apply grid_get_nth in Ed' as [Ed' _]. pose proof (proj2 L1 _ _ _ Ed Ed') as LD.
  pose proof (nnf_lt prec32 emax32 _ NR) as PR. pose proof (nnf_lt prec32 emax32 _ NB) as PB. destruct (link_bandwidth_ok d) as [Nl Pl].
  assert (HSS : nn32 (f_div f32A (t_rate (s_tr x)) sdem) \/ f_div f32A (t_rate (s_tr x)) sdem = S754_nan) by (destruct HS as [HS|(HS & _)]; auto).
  assert (HSS' : nn32 (f_div f32A (t_rate (s_tr x)) sdem') \/ f_div f32A (t_rate (s_tr x)) sdem' = S754_nan) by (destruct HS' as [HS'|(HS' & _)]; auto).
  destruct (Req_dec (vl (t_rate (s_tr x))) 0) as [E0|E0].
  - rewrite !choose_zero; try assumption; lra.
  - destruct HS as [HS|(_ & C & _)]; [|congruence]. destruct HS' as [HS'|(_ & C & _)]; [|congruence].
    apply choose_mono; try assumption.
    + apply div_anti; try assumption; try typeclasses eauto; [left; assumption|]. eapply max_link_mono; [exact G2|exact G2'|exact L2|exact Em|exact Em'].
    + eapply sink_derate_mono; [exact G1|exact G1'|exact L1|exact EK|exact EK'].
    + apply div_anti; try assumption; try typeclasses eauto. left. lra.
Qed.
