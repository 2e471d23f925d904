(* Transfers that share nothing (C90): the same cores on two chips, and another row. *)
From Coq Require Import ZArith String List Bool Lia Floats.SpecFloat.
From Verif Require Import Base Arith Util Device SpecDevice Workload SpecWorkload DepTracker Rates Stats Engine SpecRates UtilProofs RunProofs SpecEngine EngineFacts5 Cases EngineWitness RatesWitness CongestWitness SpecShare.
Import ListNotations.
Local Open Scope string_scope.
Local Open Scope list_scope.
Open Scope Z_scope.

Definition wl_apart : workload (F f32A) := build f32A [paced_xfer 200 1900 (0,1,1) (0,1,5) 0; paced_xfer 200 1900 (1,1,1) (1,1,5) 0; paced_xfer 100 500 (0,3,2) (0,3,6) 3].
Lemma apart_case : proper wl_apart. Proof. proper. Qed.
Lemma apart_sound : Forall sound_transfer (all_transfers wl_apart). Proof. apply Forall_forall. intros t Ht. apply soundb_ok. revert t Ht. apply forallb_forall. vm_compute. reflexivity. Qed.
Lemma N300_supported : supported N300. Proof. exists "N300". do 2 right. left. reflexivity. Qed.
Lemma apart_accepted : Forall (accepted N300) (all_transfers wl_apart).
Proof. unfold accepted, in_grid. repeat (apply Forall_cons; [cbn; repeat split; lia|]). apply Forall_nil. Qed.
Lemma apart_single : Forall at_most_one_rectangle (all_transfers wl_apart).
Proof. repeat (apply Forall_cons; [exact I|]). apply Forall_nil. Qed.

(* what the comparison needs of a state *)
Definition share_view (s : sim f32A) : list (transfer (F f32A) * list Z * Z * Z) := map (fun x => (s_tr x, s_route x, s_start x, s_end x)) (sm_sts f32A s).
Definition run_share (d : device) (congestion : bool) (cpt : Z) (wl : workload (F f32A)) :=
  match simulate f32A same_links same_buckets d congestion cpt wl with Ok (inl s) => Some (share_view s) | _ => None end.
Lemma run_share_ok d congestion cpt wl v : run_share d congestion cpt wl = Some v -> exists s, succeeds f32A same_links same_buckets d congestion cpt wl s /\ share_view s = v.
Proof. unfold run_share, succeeds. destruct (simulate _ _ _ _ _ _ _) as [[s|e]| | | | | |]; try discriminate. intros H. injection H as <-. eauto. Qed.
Definition placeb (d : device) (a b : coord) : bool := (match dv_class d with ClsMultichip => c_dev a =? c_dev b | _ => true end) && (c_row a =? c_row b) && (c_col a =? c_col b).
Lemma placeb_ok d a b : same_place d a b -> placeb d a b = true.
Proof. intros (H1 & H2 & H3). unfold placeb. rewrite H2, H3, !Z.eqb_refl, !andb_true_r. destruct (dv_class d); try reflexivity. rewrite (H1 eq_refl). apply Z.eqb_refl. Qed.
(* unicasts that may contend *)
Definition contendb (d : device) (a b : transfer (F f32A) * list Z * Z * Z) : bool :=
  let '(t, r, _, _) := a in let '(t', r', _, _) := b in
  existsb (fun l => existsb (Z.eqb l) r') r || placeb d (t_src t) (t_src t') || match t_dst t, t_dst t' with Unicast c, Unicast c' => placeb d c c' | _, _ => true end.
Lemma place_join d a b c : same_place d a c -> same_place d b c -> same_place d a b.
Proof. intros (H1 & H2 & H3) (G1 & G2 & G3). split; [|split; congruence]. intros E. rewrite (H1 E), (G1 E). reflexivity. Qed.
Lemma contendb_ok d x y : contend d x y -> contendb d (s_tr x, s_route x, s_start x, s_end x) (s_tr y, s_route y, s_start y, s_end y) = true.
Proof.
  unfold contendb. intros [(l & H1 & H2)|(_ & [H|(c & H1 & H2)])].
  - replace (existsb _ (s_route x)) with true; [reflexivity|]. symmetry. apply existsb_exists. exists l. split; [exact H1|]. apply existsb_exists. exists l. split; [exact H2|apply Z.eqb_refl].
  - rewrite (placeb_ok _ _ _ H), orb_true_r. reflexivity.
  - unfold arrives in *. destruct (t_dst (s_tr x)), (t_dst (s_tr y)); rewrite ?orb_true_r; try reflexivity. rewrite (placeb_ok _ _ _ (place_join _ _ _ _ H1 H2)). apply orb_true_r.
Qed.
Definition apartb (d : device) (v : list (transfer (F f32A) * list Z * Z * Z)) : bool :=
  forallb (fun i => forallb (fun j => Nat.eqb i j || match nth_error v i, nth_error v j with Some a, Some b => negb (contendb d a b) | _, _ => true end) (seq 0 (List.length v))) (seq 0 (List.length v)).
Lemma apartb_ok d s : apartb d (share_view s) = true ->
  forall i j x y, i <> j -> nth_error (sm_sts f32A s) i = Some x -> nth_error (sm_sts f32A s) j = Some y -> ~ contend d x y.
Proof.
  unfold apartb. intros H i j x y Hne Hx Hy C. assert (L : List.length (share_view s) = List.length (sm_sts f32A s)) by apply map_length.
  rewrite forallb_forall in H. specialize (H i). rewrite forallb_forall in H.
  assert (Hi : (i < List.length (share_view s))%nat) by (rewrite L; apply nth_error_Some; congruence). assert (Hj : (j < List.length (share_view s))%nat) by (rewrite L; apply nth_error_Some; congruence).
  specialize (H (proj2 (in_seq _ _ _) (conj (Nat.le_0_l _) Hi)) j (proj2 (in_seq _ _ _) (conj (Nat.le_0_l _) Hj))).
  replace (Nat.eqb i j) with false in H by (symmetry; apply Nat.eqb_neq, Hne). unfold share_view in H. rewrite !nth_error_map, Hx, Hy in H. cbn [option_map orb] in H. rewrite (contendb_ok _ _ _ C) in H. discriminate H.
Qed.
(* every bandwidth is within the capacities *)
Definition capb (d : device) (t : transfer (F f32A)) : bool :=
  match interpolateBW f32A (tbt f32A d) (max_noc_bandwidth f32A d) (t_psize t) (t_npkts t) with
  | Ok noc => SFleb (f_fmin f32A (t_rate t) noc) (link_bandwidth f32A d) &&
      match t_dst t with Unicast c => match getCoreType d c with Ok ty => SFleb (f_fmin f32A (t_rate t) noc) (abs_rate f32A d ty) | _ => true end | _ => true end
  | _ => true
  end.
Lemma capb_ok d t : capb d t = true -> forall b, own_bandwidth d t b -> within_capacity d t b.
Proof.
  unfold capb. intros H b (noc & E & ->). change (@interpolateBW f32A (tbt f32A d) (max_noc_bandwidth f32A d) (t_psize t) (t_npkts t) = @Ok (F f32A) noc) in E. rewrite E in H. apply andb_true_iff in H as [H1 H2]. split; [exact H1|].
  intros c ty ED ET. change (@t_dst (F f32A) t = Unicast c) in ED. rewrite ED, ET in H2. exact H2.
Qed.

Lemma apart_runs : exists s s' x x', succeeds f32A same_links same_buckets N300 true 100 wl_apart s /\ succeeds f32A same_links same_buckets N300 false 100 wl_apart s' /\
  (forall i j x y, i <> j -> nth_error (sm_sts f32A s) i = Some x -> nth_error (sm_sts f32A s) j = Some y -> ~ contend N300 x y) /\
  (forall i x b, nth_error (sm_sts f32A s) i = Some x -> own_bandwidth N300 (s_tr x) b -> within_capacity N300 (s_tr x) b) /\
  nth_error (sm_sts f32A s) 1 = Some x /\ s_tr x = nth 1 (all_transfers wl_apart) (s_tr x') /\ s_end x = 95 /\ nth_error (sm_sts f32A s') 1 = Some x'.
Proof.
  edestruct (run_share_ok N300 true 100 wl_apart) as (s & S & V); [vm_compute; reflexivity|]. edestruct (run_share_ok N300 false 100 wl_apart) as (s' & S' & V'); [vm_compute; reflexivity|].
  assert (W : forall n, nth_error (share_view s) n = option_map (fun x => (s_tr x, s_route x, s_start x, s_end x)) (nth_error (sm_sts f32A s) n)) by (intros; apply nth_error_map).
  assert (W' : forall n, nth_error (share_view s') n = option_map (fun x => (s_tr x, s_route x, s_start x, s_end x)) (nth_error (sm_sts f32A s') n)) by (intros; apply nth_error_map).
  destruct (nth_error (sm_sts f32A s) 1) as [x|] eqn:Hx; [|specialize (W 1%nat); rewrite Hx, V in W; discriminate W].
  destruct (nth_error (sm_sts f32A s') 1) as [x'|] eqn:Hx'; [|specialize (W' 1%nat); rewrite Hx', V' in W'; discriminate W'].
  exists s, s', x, x'. split; [exact S|]. split; [exact S'|]. split; [apply apartb_ok; rewrite V; vm_compute; reflexivity|]. split.
  - intros i y b Hy. assert (C : forallb (fun a => capb N300 (fst (fst (fst a)))) (share_view s) = true) by (rewrite V; vm_compute; reflexivity).
    rewrite forallb_forall in C. apply capb_ok. pose proof (C _ (nth_error_In _ i (eq_trans (W i) (f_equal _ Hy)))) as K. exact K.
  - split; [exact Hx|]. specialize (W 1%nat). rewrite Hx, V in W. cbn [option_map nth_error] in W. split; [|split; [|exact Hx']].
    + apply (f_equal (fun o : option (transfer (F f32A) * list Z * Z * Z) => match o with Some (t, _, _, _) => Some t | None => None end)) in W. cbn beta iota in W. assert (Q : forall a b : transfer (F f32A), Some a = Some b -> b = a) by congruence. exact (Q _ _ W).
    + apply (f_equal (fun o : option (transfer (F f32A) * list Z * Z * Z) => match o with Some (_, _, _, e) => e | None => 0 end)) in W. symmetry. exact W.
Qed.
Lemma apart_stats model e : est_of (runSinglePerfSim f32A same_links same_buckets N300 model 100 wl_apart) 1 = Some e ->
  exists stt ds, runSinglePerfSim f32A same_links same_buckets N300 model 100 wl_apart = Ok (Stats stt) /\ stats_get f32A stt 1 = Some ds /\ ds_est f32A ds = e.
Proof.
  unfold est_of. destruct (runSinglePerfSim _ _ _ _ _ _ _) as [[stt|]| | | | | |]; try discriminate. intros H. exists stt. destruct (stats_get f32A stt 1) as [ds|]; [|discriminate]. injection H as H. eauto.
Qed.
Lemma apart_estimates : est_of (runSinglePerfSim f32A same_links same_buckets N300 "fast" 100 wl_apart) 1 = Some 95 /\ est_of (runSinglePerfSim f32A same_links same_buckets N300 "none" 100 wl_apart) 1 = Some 95.
Proof. split; vm_compute; reflexivity. Qed.
Lemma apart_golden : forall id g, getGoldenResultCycles wl_apart id = Ok g -> 0 <= fst g.
Proof.
  intros id g. unfold getGoldenResultCycles. let v := eval vm_compute in (wl_golden wl_apart) in assert (E : wl_golden wl_apart = v) by (vm_compute; reflexivity). rewrite E. clear E.
  unfold golden_get. cbn [find fst snd map]. destruct (0 =? id), (1 =? id), (-1 =? id); intros H; try discriminate H; injection H as <-; cbn; lia.
Qed.

(* the first timestep: all three transfers are live in it *)
Definition first_step (d : device) (cpt : Z) (wl : workload (F f32A)) :=
  match sim_init f32A same_links same_buckets d cpt wl with
  | Ok s => match timestep f32A d true cpt wl s with Ok s' => Some (map snd (sm_queue f32A s), share_view s', map s_bw (sm_sts f32A s'), map snd (sm_queue f32A s')) | _ => None end
  | _ => None
  end.
Lemma first_step_ok d cpt wl q v b q' : first_step d cpt wl = Some (q, v, b, q') ->
  exists s s', reach f32A same_links same_buckets d true cpt wl s /\ timestep f32A d true cpt wl s = Ok s' /\ map snd (sm_queue f32A s) = q /\ share_view s' = v /\ map s_bw (sm_sts f32A s') = b /\ map snd (sm_queue f32A s') = q'.
Proof.
  unfold first_step. destruct (sim_init _ _ _ _ _ _) as [s| | | | | |] eqn:E; try discriminate. destruct (timestep _ _ _ _ _ s) as [s'| | | | | |] eqn:E'; try discriminate.
  intros H. exists s, s'. split; [constructor; exact E|]. split; [exact E'|].
  apply (f_equal (fun o => match o with Some p => p | None => (q, v, b, q') end)) in H. cbn beta iota in H.
  repeat split; [exact (f_equal (fun p => fst (fst (fst p))) H)|exact (f_equal (fun p => snd (fst (fst p))) H)|exact (f_equal (fun p => snd (fst p)) H)|exact (f_equal snd H)].
Qed.
Lemma apart_step : exists s s' x, reach f32A same_links same_buckets N300 true 100 wl_apart s /\ timestep f32A N300 true 100 wl_apart s = Ok s' /\ (forall i, (i < 3)%nat -> takes_part s s' i) /\
  nth_error (sm_sts f32A s') 1 = Some x /\ c_dev (t_src (s_tr x)) = 1 /\ s_bw x = f_lit f32A 200 10 /\
  (forall j y, takes_part s s' j -> j <> 1%nat -> nth_error (sm_sts f32A s') j = Some y -> ~ contend N300 x y) /\
  (forall b, own_bandwidth N300 (s_tr x) b -> within_capacity N300 (s_tr x) b).
Proof.
  edestruct (first_step_ok N300 100 wl_apart) as (s & s' & R & T & Q & V & B & Q'); [vm_compute; reflexivity|]. cbn in Q, Q'.
  assert (W : forall n, nth_error (share_view s') n = option_map (fun x => (s_tr x, s_route x, s_start x, s_end x)) (nth_error (sm_sts f32A s') n)) by (intros; apply nth_error_map).
  destruct (nth_error (sm_sts f32A s') 1) as [x|] eqn:Hx; [|specialize (W 1%nat); rewrite Hx, V in W; discriminate W].
  exists s, s', x. split; [exact R|]. split; [exact T|]. split.
  { intros i Hi. right. unfold is_queued. rewrite Q, Q'. cbn. split; [lia|tauto]. }
  split; [exact Hx|]. pose proof (W 1%nat) as W1. rewrite Hx, V in W1. cbn [option_map nth_error] in W1.
  split; [exact (eq_sym (f_equal (fun o : option (transfer (F f32A) * list Z * Z * Z) => match o with Some (t, _, _, _) => c_dev (t_src t) | None => 0 end) W1))|].
  split; [pose proof (map_nth_error s_bw 1 (sm_sts f32A s') Hx) as G; rewrite B in G; exact (eq_sym (f_equal (fun o : option (F f32A) => match o with Some b => b | None => S754_nan end) G))|].
  split.
  - intros j y _ Hj Hy. assert (AB : apartb N300 (share_view s') = true) by (rewrite V; vm_compute; reflexivity). apply (apartb_ok N300 s' AB 1%nat j); [congruence|exact Hx|exact Hy].
  - assert (C : forallb (fun a => capb N300 (fst (fst (fst a)))) (share_view s') = true) by (rewrite V; vm_compute; reflexivity).
    rewrite forallb_forall in C. apply capb_ok. exact (C _ (nth_error_In _ 1 (eq_trans (W 1%nat) (f_equal _ Hx)))).
Qed.
