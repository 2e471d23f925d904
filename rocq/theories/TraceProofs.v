(* Golden windows, zones and zone paths of converted traces (C56-C58). *)
From Coq Require Import ZArith Lia Bool String List FinFun DecimalString Floats.SpecFloat ZifyBool.
From Verif Require Import Base Arith Util SpecUtil Device SpecDevice Workload SpecWorkload Json Ingest SpecIngest SpecTrace UtilProofs WorkloadProofs TrackerProofs
  FactoryProofs IngestProofs IngestTrace IngestTotal.
Import ListNotations.
Local Open Scope string_scope.
Local Open Scope list_scope.
Open Scope Z_scope.
Ltac Zify.zify_post_hook ::= idtac.

(** * Golden windows *)
Definition timed_b (ev : json) : bool := negb (String.eqb (string_at ev "proc") "") && negb (int_at ev "sx" (-1) =? -1) && negb (int_at ev "sy" (-1) =? -1).
Lemma timed_iff ev dev : timed ev dev <-> timed_b ev = true /\ int_at ev "src_device_id" (-1) = dev.
Proof.
  unfold timed, placed, timed_b. rewrite !int_or_iff. split.
  - intros ((p & P1 & P2) & P3 & P4 & P5). apply text_iff in P1. split; [|exact P5]. destruct (String.eqb_spec (string_at ev "proc") ""); [congruence|]. cbn [negb andb]. lia.
  - intros (H & E). destruct (String.eqb_spec (string_at ev "proc") ""); [discriminate|]. cbn [negb andb] in H. split; [exists (string_at ev "proc"); split; [apply text_iff; reflexivity|assumption]|]. lia.
Qed.
Lemma core_key_eqb_eq a b : core_key_eqb a b = true <-> a = b.
Proof.
  destruct a as [[[p x] y] c], b as [[[p' x'] y'] c']. cbn. rewrite !andb_true_iff, String.eqb_eq, !Z.eqb_eq. split.
  - intros (((-> & ->) & ->) & ->). reflexivity.
  - intros E. injection E as -> -> -> ->. auto.
Qed.
(* the windows of all cores of a chip together are those of its events *)
Definition lo_of (dev : Z) (m : list (core_key * (Z * Z))) (a : Z) : Z := fold_left (fun a e => if snd (fst e) =? dev then Z.min a (fst (snd e)) else a) m a.
Definition hi_of (dev : Z) (m : list (core_key * (Z * Z))) (b : Z) : Z := fold_left (fun b e => if snd (fst e) =? dev then Z.max b (snd (snd e)) else b) m b.
Lemma lo_min dev m : forall a x, lo_of dev m (Z.min a x) = Z.min (lo_of dev m a) x.
Proof. unfold lo_of. induction m as [|e m IH]; intros a x; cbn [fold_left]; [reflexivity|]. rewrite <- IH. f_equal. destruct (_ =? _); lia. Qed.
Lemma hi_max dev m : forall a x, hi_of dev m (Z.max a x) = Z.max (hi_of dev m a) x.
Proof. unfold hi_of. induction m as [|e m IH]; intros a x; cbn [fold_left]; [reflexivity|]. rewrite <- IH. f_equal. destruct (_ =? _); lia. Qed.
Lemma core_ts_lo dev k ts m : forall a, lo_of dev (core_ts m k ts) a = if snd k =? dev then Z.min (lo_of dev m a) ts else lo_of dev m a.
Proof.
  induction m as [|[k' w] m IH]; intros a; cbn [core_ts].
  - unfold lo_of. cbn. reflexivity.
  - destruct (core_key_eqb k' k) eqn:E.
    + apply core_key_eqb_eq in E. subst k'. unfold lo_of. cbn [fold_left fst snd]. destruct (snd k =? dev); [|reflexivity]. fold (lo_of dev m (Z.min a (Z.min (fst w) ts))). fold (lo_of dev m (Z.min a (fst w))). rewrite <- (lo_min dev m). f_equal. lia.
    + unfold lo_of. cbn [fold_left fst snd]. apply IH.
Qed.
Lemma core_ts_hi dev k ts m : forall a, hi_of dev (core_ts m k ts) a = if snd k =? dev then Z.max (hi_of dev m a) ts else hi_of dev m a.
Proof.
  induction m as [|[k' w] m IH]; intros a; cbn [core_ts].
  - unfold hi_of. cbn. reflexivity.
  - destruct (core_key_eqb k' k) eqn:E.
    + apply core_key_eqb_eq in E. subst k'. unfold hi_of. cbn [fold_left fst snd]. destruct (snd k =? dev); [|reflexivity]. fold (hi_of dev m (Z.max a (Z.max (snd w) ts))). fold (hi_of dev m (Z.max a (snd w))). rewrite <- (hi_max dev m). f_equal. lia.
    + unfold hi_of. cbn [fold_left fst snd]. apply IH.
Qed.
Definition counts_b (dev : Z) (ev : json) : bool := timed_b ev && (int_at ev "src_device_id" (-1) =? dev).
Lemma windows_lo dev evs a : lo_of dev (core_windows evs) a = fold_left (fun a ev => if counts_b dev ev then Z.min a (timestamp ev) else a) evs a.
Proof.
  unfold core_windows. induction evs as [|ev evs IH] using rev_ind; [reflexivity|]. rewrite !fold_left_app. cbn [fold_left]. cbv zeta. rewrite <- IH. unfold counts_b, timed_b.
  destruct (negb _ && _ && _); cbn [andb]; [rewrite core_ts_lo; reflexivity|reflexivity].
Qed.
Lemma windows_hi dev evs a : hi_of dev (core_windows evs) a = fold_left (fun a ev => if counts_b dev ev then Z.max a (timestamp ev) else a) evs a.
Proof.
  unfold core_windows. induction evs as [|ev evs IH] using rev_ind; [reflexivity|]. rewrite !fold_left_app. cbn [fold_left]. cbv zeta. rewrite <- IH. unfold counts_b, timed_b.
  destruct (negb _ && _ && _); cbn [andb]; [rewrite core_ts_hi; reflexivity|reflexivity].
Qed.
Lemma counts_iff dev ev : counts_b dev ev = true <-> timed ev dev.
Proof. unfold counts_b. rewrite timed_iff, andb_true_iff, Z.eqb_eq. tauto. Qed.
Lemma fold_first dev evs : Forall small_time evs -> forall a m, first_time evs dev a -> 2 ^ 53 <= m -> fold_left (fun a ev => if counts_b dev ev then Z.min a (timestamp ev) else a) evs m = a.
Proof.
  intros HF a m ((e & He & Te & E1) & E2) Hm. rewrite Forall_forall in HF.
  assert (G : forall l m, (forall ev, In ev l -> In ev evs) -> a <= m -> (a = m \/ In e l) -> fold_left (fun a ev => if counts_b dev ev then Z.min a (timestamp ev) else a) l m = a).
  { clear m Hm. induction l as [|ev l IH]; intros m Hl Ha Hc; cbn [fold_left]; [destruct Hc as [Hc|[]]; auto|].
    destruct (small_timestamp ev (HF _ (Hl ev (or_introl eq_refl)))) as [T1 T2]. apply IH; [intros x Hx; apply Hl; right; exact Hx| |].
    - destruct (counts_b dev ev) eqn:EC; [|exact Ha]. apply counts_iff in EC. specialize (E2 ev _ (Hl ev (or_introl eq_refl)) EC (proj2 (int_or_iff _ _ _ _) eq_refl)). lia.
    - destruct Hc as [->|[->|Hc]]; [|left|right; exact Hc].
      + left. destruct (counts_b dev ev) eqn:EC; [|reflexivity]. apply counts_iff in EC. specialize (E2 ev _ (Hl ev (or_introl eq_refl)) EC (proj2 (int_or_iff _ _ _ _) eq_refl)). lia.
      + rewrite (proj2 (counts_iff dev e) Te). apply int_or_iff in E1. lia. }
  apply G; [auto| |right; exact He]. apply int_or_iff in E1. destruct (small_timestamp e (HF _ He)) as [T1 T2]. lia.
Qed.
Lemma fold_last dev evs : Forall small_time evs -> forall b m, last_time evs dev b -> m <= 0 -> fold_left (fun a ev => if counts_b dev ev then Z.max a (timestamp ev) else a) evs m = b.
Proof.
  intros HF a m ((e & He & Te & E1) & E2) Hm. rewrite Forall_forall in HF.
  assert (G : forall l m, (forall ev, In ev l -> In ev evs) -> m <= a -> (a = m \/ In e l) -> fold_left (fun a ev => if counts_b dev ev then Z.max a (timestamp ev) else a) l m = a).
  { clear m Hm. induction l as [|ev l IH]; intros m Hl Ha Hc; cbn [fold_left]; [destruct Hc as [Hc|[]]; auto|].
    destruct (small_timestamp ev (HF _ (Hl ev (or_introl eq_refl)))) as [T1 T2]. apply IH; [intros x Hx; apply Hl; right; exact Hx| |].
    - destruct (counts_b dev ev) eqn:EC; [|exact Ha]. apply counts_iff in EC. specialize (E2 ev _ (Hl ev (or_introl eq_refl)) EC (proj2 (int_or_iff _ _ _ _) eq_refl)). lia.
    - destruct Hc as [->|[->|Hc]]; [|left|right; exact Hc].
      + left. destruct (counts_b dev ev) eqn:EC; [|reflexivity]. apply counts_iff in EC. specialize (E2 ev _ (Hl ev (or_introl eq_refl)) EC (proj2 (int_or_iff _ _ _ _) eq_refl)). lia.
      + rewrite (proj2 (counts_iff dev e) Te). apply int_or_iff in E1. lia. }
  apply G; [auto| |right; exact He]. apply int_or_iff in E1. destruct (small_timestamp e (HF _ He)) as [T1 T2]. lia.
Qed.
Lemma chip_fold dev ws : forall acc w, foldM (fun acc e => if snd (fst e) =? dev then let! a := to_size (fst (snd e)) in let! b := to_size (snd (snd e)) in Ok (Z.min (fst acc) a, Z.max (snd acc) b) else Ok acc) ws acc = Ok w ->
  w = (lo_of dev ws (fst acc), hi_of dev ws (snd acc)).
Proof.
  unfold lo_of, hi_of. induction ws as [|[k v] ws IH]; intros acc w H; cbn [foldM fold_left fst snd] in *; [injection H as <-; destruct acc; reflexivity|].
  destruct (snd k =? dev); [|apply IH, H]. apply bind_ok in H as (acc' & H1 & H). apply bind_ok in H1 as (a & HA & H1). apply bind_ok in H1 as (b & HB & H1). injection H1 as <-.
  unfold to_size in HA, HB. destruct (_ && _) in HA; [|discriminate]. destruct (_ && _) in HB; [|discriminate]. injection HA as <-. injection HB as <-. apply (IH _ _ H).
Qed.
Lemma chip_window_eq evs t0 dev a b w : Forall small_time evs -> earliest evs t0 -> first_time evs dev a -> last_time evs dev b ->
  chip_window (core_windows evs) t0 dev = Ok w -> w = (u32 (a - t0), u32 (b - t0 - 20)).
Proof.
  intros HF HE HA HB H. unfold chip_window in H. apply bind_ok in H as (v & HV & H). apply chip_fold in HV. cbn [fst snd] in HV.
  rewrite windows_lo, windows_hi, (fold_first dev evs HF a (2 ^ 63 - 1) HA ltac:(change (2 ^ 53) with 9007199254740992; change (2 ^ 63) with 9223372036854775808; lia)), (fold_last dev evs HF b 0 HB ltac:(lia)) in HV. subst v. cbn [fst snd] in H.
  assert (K : forall x, (exists ev, In ev evs /\ timed ev dev /\ int_or ev "timestamp" 0 x) -> t0 <= x <= 2 ^ 53 /\ 0 <= t0).
  { intros x (ev & Hin & _ & Hx). destruct HE as [(e0 & He0 & E0) HE]. specialize (HE ev x Hin Hx). rewrite Forall_forall in HF. pose proof (HF _ Hin x Hx). pose proof (HF _ He0 _ E0). lia. }
  pose proof (K a (proj1 HA)) as Ka. pose proof (K b (proj1 HB)) as Kb.
  rewrite (r53_exact a), (r53_exact b), (r53_exact (a - t0)), (r53_exact (b - t0)) in H by lia.
  apply bind_ok in H as (x & HX & H). apply bind_ok in H as (y & HY & H). injection H as <-.
  unfold to_size in HX, HY. destruct (_ && _) in HX; [|discriminate]. destruct (_ && _) in HY; [|discriminate]. injection HX as <-. injection HY as <-. reflexivity.
Qed.
Lemma mapM_in {X Y} (f : X -> outcome Y) l : forall r, mapM f l = Ok r -> forall x, In x l -> exists y, f x = Ok y /\ In y r.
Proof.
  induction l as [|a l IH]; intros r H x Hx; cbn [mapM] in H; [destruct Hx|]. apply bind_ok in H as (y & HY & H). apply bind_ok in H as (ys & HYs & H). injection H as <-.
  destruct Hx as [<-|Hx]; [exists y; split; [exact HY|left; reflexivity]|]. destruct (IH ys HYs x Hx) as (z & Z1 & Z2). exists z. split; [exact Z1|right; exact Z2].
Qed.
Lemma mapM_fst {Y} (f : Z -> outcome Y) l : forall r, mapM (fun dev => let! w := f dev in Ok (dev, w)) l = Ok r -> map fst r = l.
Proof.
  induction l as [|a l IH]; intros r H; cbn [mapM] in H; [injection H as <-; reflexivity|]. apply bind_ok in H as (y & HY & H). apply bind_ok in HY as (v & _ & HY). injection HY as <-. apply bind_ok in H as (ys & HYs & H). injection H as <-.
  cbn [map fst]. f_equal. apply IH, HYs.
Qed.
(* the parts of a converted trace *)
Lemma converted_parts path name evs wl : convertNocTracesToNpeWorkload path name (Parsed (JArray evs)) = Ok (Some wl) ->
  exists d gm zones st, createDeviceModel name = Ok d /\ computeGoldenCyclesAndT0 d evs = Ok (gm, t0_of evs) /\ extractZones evs (t0_of evs) = Ok zones /\
    foldM (convert_event d zones (t0_of evs)) evs init_state = Ok st /\ wl_golden wl = wl_golden (setGoldenResultCycles (@empty_workload spec_float) gm) /\ wl_zones wl = zones /\
    wl_phases wl = [mkPhase 0 (number_transfers 0 0 (is_trs st))].
Proof.
  unfold convertNocTracesToNpeWorkload. intros H. apply bind_ok in H as (d & HD & H). unfold convert_trace in H. cbn [as_array or_throw bind] in H.
  apply bind_ok in H as ([gm t0] & HC & H). cbn [fst snd] in H. apply bind_ok in H as (zones & HZ & H). apply bind_ok in H as (st & HS & H).
  apply bind_ok in H as ([w id] & HA & H). injection H as <-. cbn [fst].
  assert (Et : t0 = t0_of evs). { unfold computeGoldenCyclesAndT0 in HC. cbv zeta in HC. apply bind_ok in HC as (m & _ & HC). injection HC as _ <-. reflexivity. }
  subst t0. exists d, gm, zones, st. unfold addPhase in HA. destruct (_ <? _) in HA; [|discriminate]. injection HA as <- _. cbn. auto 10.
Qed.
Theorem golden_windows path name d evs wl : convertNocTracesToNpeWorkload path name (Parsed (JArray evs)) = Ok (Some wl) -> createDeviceModel name = Ok d ->
  Forall small_time evs -> forall t0 dev a b, earliest evs t0 -> In dev (dv_device_ids d) -> first_time evs dev a -> last_time evs dev b ->
  getGoldenResultCycles wl dev = Ok ((a - t0) mod 2 ^ 32, (b - t0 - 20) mod 2 ^ 32).
Proof.
  intros H HD HF t0 dev a b HE Hdev HA HB. apply converted_parts in H as (d' & gm & zones & st & HD' & HC & _ & _ & HG & _ & _). rewrite HD in HD'. injection HD' as <-.
  rewrite (t0_spec evs t0 HF HE) in HC. unfold computeGoldenCyclesAndT0 in HC. cbv zeta in HC. apply bind_ok in HC as (m & HM & HC). injection HC as <- _. rewrite (t0_spec evs t0 HF HE) in HM.
  destruct (mapM_in _ _ _ HM dev Hdev) as (y & HY & Hy). apply bind_ok in HY as (w & HW & HY). injection HY as <-. apply (chip_window_eq evs t0 dev a b w HF HE HA HB) in HW. subst w.
  unfold getGoldenResultCycles. rewrite HG.
  assert (ND : NoDup (dv_device_ids d) /\ forall x, In x (dv_device_ids d) -> x <> MESH_DEVICE).
  { unfold dv_device_ids. split; [apply FinFun.Injective_map_NoDup; [exact Nat2Z.inj|apply seq_NoDup]|]. intros x Hx. apply in_map_iff in Hx as (n & <- & _). unfold MESH_DEVICE. lia. }
  destruct ND as [ND NM]. pose proof (golden_others (Fl := spec_float) (@empty_workload spec_float) m dev (u32 (a - t0), u32 (b - t0 - 20)) (NM dev Hdev) Hy) as G. unfold getGoldenResultCycles in G. apply G.
  rewrite (mapM_fst _ _ _ HM). exact ND.
Qed.

(** * Zones *)
Lemma risc_name_iff s r : risc_of s = Ok r <-> s = risc_name r.
Proof.
  unfold risc_of. split.
  - repeat match goal with |- context [String.eqb s ?x] => destruct (String.eqb_spec s x); [intros E; injection E as <-; assumption|] end. discriminate.
  - intros ->. destruct r; reflexivity.
Qed.
Lemma phase_name_iff s p : zone_phase_of s = Ok p <-> s = phase_name p.
Proof.
  unfold zone_phase_of. split.
  - repeat match goal with |- context [String.eqb s ?x] => destruct (String.eqb_spec s x); [intros E; injection E as <-; assumption|] end. discriminate.
  - intros ->. destruct p; reflexivity.
Qed.
Lemma processor_iff ev c r : processor ev c r <-> risc_of (string_at ev "proc") = Ok r /\ core_of ev r = (c, r).
Proof.
  unfold processor, core_of. rewrite text_iff, risc_name_iff. split.
  - intros (E & dev & x & y & E1 & E2 & E3 & C). apply int_or_iff in E1, E2, E3. split; [exact E|]. rewrite E1, E2, E3. f_equal. symmetry. exact (coord_is_unique _ _ _ _ C).
  - intros (E & C). split; [exact E|]. exists (int_at ev "src_device_id" 0), (int_at ev "sx" (-1)), (int_at ev "sy" (-1)). rewrite !int_or_iff. split; [reflexivity|]. split; [reflexivity|]. split; [reflexivity|].
    injection C as <-. apply coord_is_make.
Qed.
Lemma risc_eqb_eq a b : risc_eqb a b = true <-> a = b.
Proof. destruct a, b; cbn; split; congruence. Qed.
Lemma proc_eqb_eq a b : proc_eqb a b = true <-> a = b.
Proof.
  destruct a as [[a1 a2 a3] ra], b as [[b1 b2 b3] rb]. unfold proc_eqb, coord_eqb. cbn [fst snd c_dev c_row c_col]. rewrite !andb_true_iff, !Z.eqb_eq, risc_eqb_eq. split.
  - intros (((-> & ->) & ->) & ->). reflexivity.
  - intros E. injection E as -> -> -> ->. auto.
Qed.
Lemma push_keys m k z : NoDup (map fst m) -> NoDup (map fst (zones_push m k z)) /\ forall k', In k' (map fst (zones_push m k z)) <-> k' = k \/ In k' (map fst m).
Proof.
  induction m as [|[k0 l] m IH]; intros H; cbn [zones_push map fst].
  - split; [constructor; [intros []|constructor]|]. intros k'. cbn. intuition congruence.
  - cbn [map fst] in H. apply NoDup_cons_iff in H as [H1 H2]. destruct (proc_eqb k0 k) eqn:E.
    + apply proc_eqb_eq in E. subst k0. cbn [map fst]. split; [constructor; assumption|]. intros k'. cbn [In]. intuition congruence.
    + assert (N : k0 <> k) by (intros ->; rewrite proc_eqb_refl in E; discriminate). destruct (IH H2) as [I1 I2]. cbn [map fst]. split.
      * constructor; [|exact I1]. rewrite I2. intros [E'|H]; [congruence|contradiction].
      * intros k'. cbn [In]. rewrite I2. tauto.
Qed.
Lemma get_in m k l : zones_get m k = Some l -> In (k, l) m.
Proof.
  induction m as [|[k0 l0] m IH]; cbn [zones_get]; [discriminate|]. destruct (proc_eqb k0 k) eqn:E; [|intros H; right; auto]. apply proc_eqb_eq in E. subst k0. intros H. injection H as ->. left. reflexivity.
Qed.
Lemma get_none m k : zones_get m k = None -> forall l, ~ In (k, l) m.
Proof.
  induction m as [|[k0 l0] m IH]; cbn [zones_get]; [intros _ l []|]. destruct (proc_eqb k0 k) eqn:E; [discriminate|]. intros H l [K|K]; [|exact (IH H l K)]. injection K as -> _. rewrite proc_eqb_refl in E. discriminate.
Qed.
Lemma in_get m k l : NoDup (map fst m) -> In (k, l) m -> zones_get m k = Some l.
Proof.
  induction m as [|[k0 l0] m IH]; intros H HI; [destruct HI|]. cbn [map fst] in H. apply NoDup_cons_iff in H as [H1 H2]. cbn [zones_get]. destruct HI as [E|HI].
  - injection E as -> ->. rewrite proc_eqb_refl. reflexivity.
  - destruct (proc_eqb k0 k) eqn:E; [|auto]. apply proc_eqb_eq in E. subst k0. exfalso. apply H1. exact (in_map fst _ _ HI).
Qed.
Lemma push_get m k z k' : zones_get (zones_push m k z) k' = if proc_eqb k k' then Some (match zones_get m k with Some l => l | None => [] end ++ [z]) else zones_get m k'.
Proof.
  induction m as [|[k0 l] m IH]; cbn [zones_push zones_get]; [destruct (proc_eqb k k'); reflexivity|].
  destruct (proc_eqb k0 k) eqn:E; cbn [zones_get].
  - apply proc_eqb_eq in E. subst k0. destruct (proc_eqb k k'); reflexivity.
  - rewrite IH. destruct (proc_eqb k0 k') eqn:E0; [|reflexivity]. apply proc_eqb_eq in E0. subst k0. destruct (proc_eqb k k') eqn:E1; [|reflexivity]. apply proc_eqb_eq in E1. subst k'. rewrite proc_eqb_refl in E. discriminate.
Qed.
Definition zones_at (m : zone_map) (k : coord * risc_type) : list zone := match zones_get m k with Some l => l | None => [] end.
Lemma collected_snoc t0 c r evs l ev : collected t0 c r evs l ->
  ((forall z, ~ marks t0 ev c r z) -> collected t0 c r (evs ++ [ev]) l) /\ forall z, marks t0 ev c r z -> collected t0 c r (evs ++ [ev]) (l ++ [z]).
Proof.
  induction 1 as [|e evs l N H IH|e evs z0 l M H IH]; cbn [app].
  - split; [intros N; apply collected_skip; [exact N|constructor]|]. intros z M. apply collected_take; [exact M|constructor].
  - destruct IH as [I1 I2]. split; [intros K; apply collected_skip; auto|]. intros z M. apply collected_skip; auto.
  - destruct IH as [I1 I2]. split; [intros K; apply collected_take; auto|]. intros z M'. apply collected_take; auto.
Qed.
Lemma zones_collected all evs t0 : (forall ev, In ev evs -> In ev all) -> Forall small_time all -> earliest all t0 -> forall zs, extractZones evs (t0_of all) = Ok zs ->
  NoDup (map fst zs) /\ Forall (fun e => snd e <> []) zs /\ forall c r, collected t0 c r evs (zones_at zs (c, r)).
Proof.
  intros Hall HF HE. unfold extractZones. induction evs as [|ev evs IH] using rev_ind; intros zs H.
  - injection H as <-. split; [constructor|]. split; [constructor|]. intros c r. constructor.
  - rewrite foldM_snoc in H. apply bind_ok in H as (zs1 & H1 & H). destruct (IH ltac:(intros x Hx; apply Hall, in_or_app; auto) zs1 H1) as (I1 & I2 & I3). cbv zeta in H.
    destruct (negb _ && _ && _ && _ && _) eqn:EC.
    + apply bind_ok in H as (rr & HR & H). apply bind_ok in H as (ph & HP & H). injection H as <-. set (z := mkZone _ _ _). set (k := (_, _)).
      assert (EK : k = core_of ev rr) by reflexivity. destruct (push_keys zs1 k z I1) as [K1 K2]. split; [exact K1|]. split.
      { clear - I2. induction I2 as [|[k0 l0] m H I2 IH]; cbn [zones_push]; [constructor; [discriminate|constructor]|]. destruct (proc_eqb k0 k); constructor; auto; cbn [snd] in *; destruct l0; discriminate. }
      intros c r. destruct (collected_snoc t0 c r evs _ ev (I3 c r)) as [S1 S2]. unfold zones_at in *. rewrite push_get. destruct (proc_eqb k (c, r)) eqn:E.
      * apply proc_eqb_eq in E. rewrite E in *. apply S2. unfold marks. assert (ER : rr = r) by (unfold core_of in EK; congruence). subst rr.
        split; [apply processor_iff; auto|]. rewrite !int_or_iff, !text_iff. apply phase_name_iff in HP. cbn [z z_name z_phase z_ts].
        destruct (String.eqb_spec (string_at ev "zone") "") as [|NZ]; [rewrite andb_false_r in EC; discriminate|]. repeat (apply andb_true_iff in EC as [EC ?]).
        split; [lia|]. split; [lia|]. split; [reflexivity|]. split; [exact NZ|]. split; [exact HP|].
        rewrite (offset_small all ev (t0_of all) (int_at ev "timestamp" 0) t0); [lia| |reflexivity|exact HF|apply int_or_iff; reflexivity|exact HE]. apply Hall, in_or_app. right. left. reflexivity.
      * apply S1. intros z' (M & _). apply processor_iff in M as [M1 M2]. rewrite HR in M1. injection M1 as ->. rewrite EK, M2, proc_eqb_refl in E. discriminate.
    + injection H as <-. split; [exact I1|]. split; [exact I2|]. intros c r. destruct (collected_snoc t0 c r evs _ ev (I3 c r)) as [S1 _]. apply S1.
      intros z (P & M1 & M2 & M3 & M4 & M5 & _). apply processor_iff in P as [P _]. apply risc_name_iff in P. rewrite !int_or_iff in M1, M2. apply text_iff in M3, M5.
      destruct (String.eqb_spec (string_at ev "proc") "") as [E|]; [rewrite P in E; destruct r; discriminate|]. destruct (String.eqb_spec (string_at ev "zone") "") as [E|]; [congruence|].
      destruct (String.eqb_spec (string_at ev "zone_phase") "") as [E|]; [rewrite M5 in E; destruct (z_phase z); discriminate|]. lia.
Qed.
Lemma zone_list_at {Fl} (wl : workload Fl) c r : NoDup (map fst (wl_zones wl)) -> Forall (fun e => snd e <> []) (wl_zones wl) -> forall l, zone_list wl c r l <-> zones_at (wl_zones wl) (c, r) = l.
Proof.
  intros ND NE l. unfold zone_list, zones_at. split.
  - intros [[H1 H2]|[-> H]].
    + rewrite (in_get _ _ _ ND H2). reflexivity.
    + destruct (zones_get _ _) as [l|] eqn:E; [|reflexivity]. apply get_in in E. destruct (H l E).
  - intros <-. destruct (zones_get _ _) as [l|] eqn:E; [left|right].
    + apply get_in in E. split; [|exact E]. rewrite Forall_forall in NE. exact (NE _ E).
    + split; [reflexivity|exact (get_none _ _ E)].
Qed.
Theorem trace_zones path name evs wl : convertNocTracesToNpeWorkload path name (Parsed (JArray evs)) = Ok (Some wl) -> Forall small_time evs -> forall t0, earliest evs t0 ->
  NoDup (map fst (wl_zones wl)) /\ forall c r, exists l, collected t0 c r evs l /\ forall l', zone_list wl c r l' <-> l' = l.
Proof.
  intros H HF t0 HE. apply converted_parts in H as (d & gm & zones & st & _ & _ & HZ & _ & _ & E & _). destruct (zones_collected evs evs t0 ltac:(auto) HF HE zones HZ) as (Z1 & Z2 & Z3). rewrite <- E in *.
  split; [exact Z1|]. intros c r. exists (zones_at (wl_zones wl) (c, r)). split; [apply Z3|]. intros l'. rewrite (zone_list_at wl c r Z1 Z2). split; congruence.
Qed.

(** * Zone paths *)
Lemma advance_spec l t fuel : forall it n it', zi_inv l n it -> (n <= List.length l)%nat -> Forall (fun z => z_ts z <= t) (firstn n l) -> advance fuel it t = Ok it' ->
  exists n', zi_inv l n' it' /\ until l t n'.
Proof.
  induction fuel as [|fuel IH]; intros it n it' HI HN HT H; [discriminate|]. cbn [advance] in H. pose proof HI as (E1 & E2 & _). unfold zi_is_end in H. rewrite E1, E2 in H.
  destruct (Nat.eqb_spec n (List.length l)) as [->|N].
  - injection H as <-. exists (List.length l). split; [exact HI|]. split; [lia|]. split; [exact HT|]. intros z Hz. assert (K : nth_error l (List.length l) = None) by (apply nth_error_None; lia). congruence.
  - apply bind_ok in H as (z & HZ & H). unfold vec_get in HZ. destruct (nth_error l n) as [z0|] eqn:EZ; [|discriminate]. injection HZ as ->. destruct (Z.leb_spec (z_ts z) t) as [L|L].
    + apply bind_ok in H as (it1 & H1 & H). pose proof (zi_step l n it z HI EZ) as K. rewrite H1 in K. apply (IH it1 (S n) it' K); [lia| |exact H]. rewrite (firstn_snoc _ _ _ EZ). apply Forall_app. split; [exact HT|]. constructor; [exact L|constructor].
    + injection H as <-. exists n. split; [exact HI|]. split; [exact HN|]. split; [exact HT|]. intros z' Hz'. congruence.
Qed.
Lemma flatten_text l : flattenEnclosingZones l = path_text l.
Proof.
  unfold path_text. induction l as [|e [|e' l] IH]; [reflexivity|reflexivity|]. change (flattenEnclosingZones (e :: e' :: l)) with (Ingest.zone_entry e ++ "/" ++ flattenEnclosingZones (e' :: l))%string. rewrite IH. reflexivity.
Qed.
(* the iterator stands in the zones of the last processor, at or before the time of its last event *)
Definition iter_at (zones : zone_map) (t0 : Z) (before : list json) (prev : coord * risc_type) (it : option zone_iter) : Prop :=
  match it with
  | None => True
  | Some it => exists l n ev, zones_get zones prev = Some l /\ zi_inv l n it /\ In ev before /\ processor ev (fst prev) (snd prev) /\ until l (r53 (timestamp ev - t0)) n
  end.
Lemma iter_more zones t0 before prev it ev : iter_at zones t0 before prev it -> iter_at zones t0 (before ++ [ev]) prev it.
Proof. destruct it as [it|]; [|auto]. intros (l & n & e & H1 & H2 & H3 & H4). exists l, n, e. repeat (split; [try assumption|]); try apply H4. apply in_or_app. auto. Qed.
Lemma zone_of_spec zones t0 before prev it ev p i s : iter_at zones t0 before prev it ->
  (forall e c r, In e before -> processor e c r -> processor ev c r -> r53 (timestamp e - t0) <= r53 (timestamp ev - t0)) ->
  zone_of zones t0 prev it ev = Ok (p, i, s) ->
  iter_at zones t0 (before ++ [ev]) p i /\ forall c r l, processor ev c r -> zones_get zones (c, r) = Some l -> enclosing_path l (r53 (timestamp ev - t0)) s.
Proof.
  intros HI HO H. unfold zone_of in H. apply bind_ok in H as (r & HR & H). fold (core_of ev r) in H. cbv zeta in H. apply bind_ok in H as (q & HQ & H).
  assert (HP : processor ev (fst (core_of ev r)) r) by (apply processor_iff; split; [exact HR|reflexivity]).
  destruct (zones_get zones (core_of ev r)) as [l|] eqn:EL.
  - set (pi := if proc_eqb (core_of ev r) prev then (prev, it) else (core_of ev r, Some (zi_make l))) in HQ.
    assert (K : fst pi = core_of ev r /\ match snd pi with None => True | Some it => exists n, zi_inv l n it /\ (n <= List.length l)%nat /\ Forall (fun z => z_ts z <= r53 (timestamp ev - t0)) (firstn n l) end).
    { subst pi. destruct (proc_eqb (core_of ev r) prev) eqn:E; cbn [fst snd].
      - apply proc_eqb_eq in E. split; [congruence|]. destruct it as [it|]; [|exact I]. destruct HI as (l' & n & e & L1 & L2 & L3 & L4 & L5 & L6 & _). rewrite <- E in *. rewrite EL in L1. injection L1 as <-.
        exists n. split; [exact L2|]. split; [exact L5|]. specialize (HO e _ _ L3 L4 HP). eapply Forall_impl; [|exact L6]. cbn beta. intros z Hz. lia.
      - split; [reflexivity|]. exists 0%nat. pose proof (iterate_spec l 0 ltac:(lia)) as K. cbn in K. split; [exact K|]. split; [lia|constructor]. }
    destruct pi as [prev' it']. cbn [fst snd] in K. destruct K as [-> K]. destruct it' as [it'|]; [|discriminate]. destruct K as (n & K1 & K2 & K3).
    destruct (advance _ it' _) as [it1|e| | | | |] eqn:EA; try discriminate. injection HQ as <-. cbn [fst snd] in H. injection H as <- <- <-.
    destruct (advance_spec l _ _ it' n it1 K1 K2 K3 EA) as (n' & N1 & N2). split.
    + exists l, n', ev. split; [exact EL|]. split; [exact N1|]. split; [apply in_or_app; right; left; reflexivity|]. split; [exact HP|exact N2].
    + intros c r' l' HP' HL. apply processor_iff in HP' as [P1 P2]. rewrite HR in P1. injection P1 as <-. rewrite <- P2, EL in HL. injection HL as <-. destruct N1 as (_ & _ & _ & st & O1 & O2).
      exists n', st, (zi_enclosing it1). split; [exact N2|]. split; [exact O1|]. split; [exact O2|]. apply flatten_text.
  - injection HQ as <-. cbn [fst snd] in H. destruct it as [it|]; [|discriminate]. injection H as <- <- <-. split; [apply (iter_more _ _ _ _ (Some it)), HI|].
    intros c r' l' HP' HL. apply processor_iff in HP' as [P1 P2]. rewrite HR in P1. injection P1 as <-. rewrite <- P2, EL in HL. discriminate.
Qed.
(* all transfers of an event carry its path *)
Lemma local_path dev sy sx off noc ty path gid parent ws : forall acc, exists ts, fst (fold_left (local_write dev sy sx off noc ty path gid parent) ws acc) = fst acc ++ ts /\ Forall (fun t => t_zone t = path) ts.
Proof.
  induction ws as [|w ws IH]; intros acc; cbn [fold_left]; [exists []; rewrite app_nil_r; split; [reflexivity|constructor]|]. destruct (IH (local_write dev sy sx off noc ty path gid parent acc w)) as (ts & E & F).
  assert (K : exists ts0, fst (local_write dev sy sx off noc ty path gid parent acc w) = fst acc ++ ts0 /\ Forall (fun t => t_zone t = path) ts0).
  { unfold local_write. cbv zeta. destruct (_ && _); [eexists; split; [reflexivity|]; constructor; [reflexivity|constructor]|exists []; rewrite app_nil_r; split; [reflexivity|constructor]]. }
  destruct K as (ts0 & E0 & F0). exists (ts0 ++ ts). rewrite E, E0, app_assoc. split; [reflexivity|apply Forall_app; auto].
Qed.
Lemma segment_path d ty path bytes gid trs off gix route x : fabric_segment d ty path bytes gid (trs, off, gix) route = Ok x -> exists ts, fst (fst x) = trs ++ ts /\ Forall (fun t => t_zone t = path) ts.
Proof.
  unfold fabric_segment. cbv zeta. intros H. apply bind_ok in H as (o & _ & H). destruct (_ || _) in H; [injection H as <-; exists []; rewrite app_nil_r; split; [reflexivity|constructor]|]. injection H as <-. cbn [fst].
  set (acc := match at_key as_array route "local_writes" with Some _ => _ | None => _ end).
  assert (K : exists ts, fst acc = trs ++ ts /\ Forall (fun t => t_zone t = path) ts).
  { subst acc. destruct (at_key _ _ _) as [ws|]; [apply (local_path _ _ _ _ _ _ _ _ _ ws (trs, gix))|]. exists []. rewrite app_nil_r. split; [reflexivity|constructor]. }
  destruct K as (ts & E & F). destruct (_ && _); cbn [fst]; [|eauto]. rewrite E, <- app_assoc. eexists. split; [reflexivity|]. apply Forall_app. split; [exact F|]. constructor; [reflexivity|constructor].
Qed.
Lemma segments_path d ty path bytes gid segs : forall st x, foldM (fabric_segment d ty path bytes gid) segs st = Ok x -> exists ts, fst (fst x) = fst (fst st) ++ ts /\ Forall (fun t => t_zone t = path) ts.
Proof.
  induction segs as [|s segs IH]; intros [[trs off] gix] x H; cbn [foldM] in H; [injection H as <-; exists []; rewrite app_nil_r; split; [reflexivity|constructor]|].
  apply bind_ok in H as (st1 & H1 & H). apply segment_path in H1 as (ts1 & E1 & F1). destruct (IH _ _ H) as (ts2 & E2 & F2). exists (ts1 ++ ts2). rewrite E2, E1. cbn [fst]. rewrite app_assoc. split; [reflexivity|apply Forall_app; auto].
Qed.
Lemma data_path d t0 path ev sx sy dx dy bytes groups trs r : data_event d t0 path ev sx sy dx dy bytes groups trs = Ok r -> exists ts, snd r = trs ++ ts /\ Forall (fun t => t_zone t = path) ts.
Proof.
  assert (Z0 : exists ts, trs = trs ++ ts /\ Forall (fun t => t_zone t = path) ts) by (exists []; rewrite app_nil_r; split; [reflexivity|constructor]).
  unfold data_event. cbv zeta. destruct (String.eqb _ ""); [intros H; injection H as <-; exact Z0|]. intros H. apply bind_ok in H as (o1 & _ & H). apply bind_ok in H as (o2 & _ & H). apply bind_ok in H as (dst & _ & H).
  destruct dst as [dst|]; [|injection H as <-; exact Z0]. destruct (at_key as_object ev "fabric_send") as [f|].
  - destruct (_ <? _) in H; [|discriminate]. destruct (at_key as_array f "path") as [segs|]; [|injection H as <-; exact Z0]. apply bind_ok in H as (x & HX & H). injection H as <-. exact (segments_path _ _ _ _ _ _ _ _ HX).
  - injection H as <-. cbn [snd]. eexists. split; [reflexivity|]. constructor; [reflexivity|constructor].
Qed.
Lemma event_path d zones t0 st ev st' : convert_event d zones t0 st ev = Ok st' ->
  exists s ts, zone_of zones t0 (is_prev st) (is_it st) ev = Ok (is_prev st', is_it st', s) /\ is_trs st' = is_trs st ++ ts /\ Forall (fun t => t_zone t = s) ts.
Proof.
  unfold convert_event. cbv zeta. intros H. apply bind_ok in H as ([[p i] s] & HZ & H). exists s.
  assert (Z0 : exists ts, is_trs st = is_trs st ++ ts /\ Forall (fun t => t_zone t = s) ts) by (exists []; rewrite app_nil_r; split; [reflexivity|constructor]).
  destruct (negb _) in H; [injection H as <-; destruct Z0 as (ts & Z1 & Z2); exists ts; cbn; auto|].
  destruct (String.eqb _ "") in H; [injection H as <-; destruct Z0 as (ts & Z1 & Z2); exists ts; cbn; auto|].
  destruct (_ && _) in H; [injection H as <-; destruct Z0 as (ts & Z1 & Z2); exists ts; cbn; auto|].
  destruct (ends_with _ _) in H.
  { injection H as <-. destruct Z0 as (ts & Z1 & Z2). exists ts. destruct (starts_with _ _); [cbn; auto|]. destruct (starts_with _ _); cbn; auto. }
  match type of H with (match ?x with _ => _ end) = _ => destruct x as [[[[x1 x2] x3] x4] x5] end.
  match type of H with (match ?x with _ => _ end) = _ => destruct x as [[[y1 y2] y3] y4] end.
  apply bind_ok in H as (r & HD & H). injection H as <-. apply data_path in HD as (ts & D1 & D2). exists ts. cbn [is_prev is_it is_trs]. auto.
Qed.

Lemma order_offsets evs before ev rest t0 : evs = before ++ ev :: rest -> Forall small_time evs -> earliest evs t0 -> in_order evs ->
  forall e c r, In e before -> processor e c r -> processor ev c r -> r53 (timestamp e - t0_of evs) <= r53 (timestamp ev - t0_of evs).
Proof.
  intros E HF HE HO e c r He P1 P2. apply In_nth_error in He as (i & Hi). assert (L : (i < List.length before)%nat) by (apply nth_error_Some; congruence).
  assert (I1 : nth_error evs i = Some e) by (rewrite E, nth_error_app1 by exact L; exact Hi). assert (I2 : nth_error evs (List.length before) = Some ev) by (rewrite E, nth_error_app2, Nat.sub_diag by lia; reflexivity).
  rewrite (offset_small evs e (t0_of evs) (int_at e "timestamp" 0) t0 (nth_error_In _ _ I1) eq_refl HF (proj2 (int_or_iff _ _ _ _) eq_refl) HE).
  rewrite (offset_small evs ev (t0_of evs) (int_at ev "timestamp" 0) t0 (nth_error_In _ _ I2) eq_refl HF (proj2 (int_or_iff _ _ _ _) eq_refl) HE).
  pose proof (HO i _ e ev c r (int_at e "timestamp" 0) (int_at ev "timestamp" 0) L I1 I2 P1 P2 (proj2 (int_or_iff _ _ _ _) eq_refl) (proj2 (int_or_iff _ _ _ _) eq_refl)). lia.
Qed.
Definition path_ok (evs : list json) (zones : zone_map) (ev : json) (ts : list trans) : Prop :=
  forall c r l, processor ev c r -> zones_get zones (c, r) = Some l -> Forall (fun t => enclosing_path l (r53 (timestamp ev - t0_of evs)) (t_zone t)) ts.
Lemma events_paths d evs zones t0 l : forall rest, evs = l ++ rest -> Forall small_time evs -> earliest evs t0 -> in_order evs -> forall st, foldM (convert_event d zones (t0_of evs)) l init_state = Ok st ->
  iter_at zones (t0_of evs) l (is_prev st) (is_it st) /\
  exists tss, is_trs st = concat tss /\ List.length tss = List.length l /\
    forall i ev ts, nth_error l i = Some ev -> nth_error tss i = Some ts -> yields d evs (firstn i l) ev ts /\ path_ok evs zones ev ts.
Proof.
  intros rest E HF HE HO. revert rest E. induction l as [|ev l IH] using rev_ind; intros rest E st H.
  - injection H as <-. split; [exact I|]. exists []. split; [reflexivity|]. split; [reflexivity|]. intros [|i] ev ts H; discriminate.
  - rewrite foldM_snoc in H. apply bind_ok in H as (st1 & H1 & H). rewrite <- app_assoc in E. cbn [app] in E. destruct (IH (ev :: rest) E st1 H1) as (I1 & tss & I2 & I3 & I4).
    assert (Hl : forall x, In x l -> In x evs) by (intros x Hx; rewrite E; apply in_or_app; auto). assert (Hev : In ev evs) by (rewrite E; apply in_or_app; right; left; reflexivity).
    destruct (events_convert d evs zones (t0_of evs) l Hl eq_refl st1 H1) as (R1 & R2 & R3 & _). assert (H' := H).
    apply (event_yields d evs l) in H as (_ & _ & _ & _ & ts & E5 & E6); [|exact Hev|reflexivity|exact R1|exact R2|exact R3].
    apply event_path in H' as (s & ts' & P1 & P2 & P3). rewrite E5 in P2. apply app_inv_head in P2. subst ts'.
    destruct (zone_of_spec zones (t0_of evs) l _ _ ev _ _ _ I1 (order_offsets evs l ev rest t0 E HF HE HO) P1) as (Q1 & Q2).
    split; [exact Q1|]. exists (tss ++ [ts]). rewrite concat_app. cbn [concat]. rewrite app_nil_r, E5, I2. split; [reflexivity|]. split; [rewrite !app_length, I3; reflexivity|].
    intros i e t Hi Ht. destruct (Nat.lt_ge_cases i (List.length l)) as [L|L].
    + rewrite nth_error_app1 in Hi by exact L. rewrite nth_error_app1 in Ht by lia. rewrite firstn_app. replace (i - List.length l)%nat with 0%nat by lia. cbn [firstn]. rewrite app_nil_r. exact (I4 i e t Hi Ht).
    + rewrite nth_error_app2 in Hi by exact L. rewrite nth_error_app2 in Ht by lia. rewrite I3 in Ht. destruct (i - List.length l)%nat eqn:EI; [|destruct n; discriminate]. cbn in Hi, Ht. injection Hi as <-. injection Ht as <-.
      rewrite firstn_app, EI. cbn [firstn]. rewrite app_nil_r, firstn_all2 by lia. split; [exact E6|]. intros c r zl HP HL. specialize (Q2 c r zl HP HL). eapply Forall_impl; [|exact P3]. cbn beta. intros t ->. exact Q2.
Qed.
Theorem trace_paths path name d evs wl : convertNocTracesToNpeWorkload path name (Parsed (JArray evs)) = Ok (Some wl) -> createDeviceModel name = Ok d ->
  Forall small_time evs -> in_order evs -> forall t0, earliest evs t0 ->
  exists tss p, wl_phases wl = [p] /\ Forall2 (fun a b => same_content a b) (concat tss) (ph_trs p) /\ List.length tss = List.length evs /\
    forall i ev ts, nth_error evs i = Some ev -> nth_error tss i = Some ts -> yields d evs (firstn i evs) ev ts /\
      forall c r l z t, processor ev c r -> zone_list wl c r l -> l <> [] -> int_or ev "timestamp" 0 z -> In t ts -> enclosing_path l (z - t0) (t_zone t).
Proof.
  intros H HD HF HO t0 HE. apply converted_parts in H as (d' & gm & zones & st & HD' & _ & HZ & HS & _ & EZ & EP). rewrite HD in HD'. injection HD' as <-.
  destruct (zones_collected evs evs t0 ltac:(auto) HF HE zones HZ) as (Z1 & Z2 & _).
  destruct (events_paths d evs zones t0 evs [] ltac:(rewrite app_nil_r; reflexivity) HF HE HO st HS) as (_ & tss & T1 & T2 & T3).
  exists tss. eexists. split; [exact EP|]. cbn [ph_trs]. rewrite T1. split.
  { pose proof (WorkloadProofs.number_content (Fl := spec_float) 0 0 (concat tss)) as K. clear - K. induction K as [|a b la lb [H _] K IH]; constructor; assumption. }
  split; [exact T2|]. intros i ev ts Hi Ht. destruct (T3 i ev ts Hi Ht) as [Y P]. split; [exact Y|]. intros c r l z t HP HL NL HT Hin.
  rewrite <- EZ in *. apply (zone_list_at wl c r Z1 Z2) in HL. unfold zones_at in HL. destruct (zones_get (wl_zones wl) (c, r)) as [l'|] eqn:EG; [|congruence]. subst l'.
  specialize (P c r l HP EG). rewrite Forall_forall in P. specialize (P t Hin). rewrite (offset_small evs ev (t0_of evs) z t0 (nth_error_In _ _ Hi) eq_refl HF HT HE) in P. exact P.
Qed.
