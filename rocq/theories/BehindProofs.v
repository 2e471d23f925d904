(* One transfer in two runs, one of which never gives it more bandwidth than the other (C89, C91), or the same with fewer bytes
   in the faster run (C94). The transfer waits for nothing. *)
From Coq Require Import ZArith Arith Reals String List Bool Lia Lra ZifyBool ZifyNat Sorting.Permutation Sorting.Sorted Floats.SpecFloat.
From Flocq Require Import Core IEEE754.BinarySingleNaN.
From Verif Require Import Base Arith Util Device Workload SpecWorkload DepTracker Rates Stats Engine UtilProofs
  WorkloadProofs SpecTracker TrackerProofs DepGenProofs StepProofs SpecEngine SpecRates EngineProofs RunProofs DepFacts EngineFacts EngineFacts2 EngineFacts3 EngineFacts4 EngineFacts5
  RateFacts FloatProofs FloatProofs2 RateFloat RateFloat4 EngineRates EndFloat EndFloat2 SpecAlone AloneProofs.
Import ListNotations.
Local Open Scope list_scope.
Open Scope Z_scope.
Ltac Zify.zify_post_hook ::= idtac.

(** * One timestep of a transfer that waits for nothing *)
Lemma adv_free cpt curr st bw bytes dn dn1 e1 : nnf prec32 emax32 bw -> 0 < cpt <= 2 ^ 20 -> 0 <= st <= curr -> cpt <= curr < 2 ^ 24 -> 0 <= dn <= bytes -> bytes < 2 ^ 32 ->
  own_adv f32A cpt curr (curr - cpt) None st bw bytes dn = Ok (dn1, e1) ->
  exists m, f_to_uint f32A 64 (SFmul prec32 emax32 (ofz (Z.min cpt (curr - st))) bw) = Ok m /\ (0 <= m -> dn1 = Z.min bytes (dn + m) /\
    (dn1 = bytes -> (0 < vl bw)%R /\ e1 = Z.max st (curr - cpt) + cycles_for (bytes - dn) bw /\ e1 <= curr + 1 /\ (dn < bytes -> curr - cpt + 1 <= e1)) /\ (dn1 <> bytes -> e1 = 0)).
Proof.
  intros NB HC Hst Hcu Hdn Hby H. change (2 ^ 20) with 1048576 in HC. change (2 ^ 24) with 16777216 in Hcu. change (2 ^ 32) with 4294967296 in Hby.
  unfold own_adv, own_credit in H. rewrite u32_id in H by (change (2 ^ 32) with 4294967296; lia). cbn [bind] in H. set (c := Z.min cpt (curr - st)) in *.
  apply bind_ok in H as (m & Hm & H). exists m. split; [exact Hm|]. intros M0. rewrite (u64_id (bytes - dn)) in H by (change (2 ^ 64) with 18446744073709551616; lia).
  rewrite (u64_id (dn + Z.min (bytes - dn) m)) in H by (change (2 ^ 64) with 18446744073709551616; lia).
  destruct (bytes =? dn + Z.min (bytes - dn) m) eqn:EB.
  - apply bind_ok in H as (e & He & H). injection H as <- <-. assert (BD : Z.min (bytes - dn) m = bytes - dn) by lia. rewrite BD in *.
    destruct (end_exact bw (Z.max st (curr - cpt)) c m (bytes - dn) e NB ltac:(lia) ltac:(change (2 ^ 20) with 1048576; lia) ltac:(change (2 ^ 24) with 16777216; lia) Hm ltac:(lia) ltac:(change (2 ^ 34) with 17179869184; lia) He) as (P & E & E1 & E2).
    assert (U : u32 e = e) by (apply u32_id; change (2 ^ 32) with 4294967296; lia). rewrite U. split; [lia|]. split; [intros _; split; [exact P|]; split; [exact E|lia]|lia].
  - injection H as <- <-. split; [lia|]. split; lia.
Qed.

(* bytes sent by the two transfers in a timestep *)
Lemma both_advance b b' dn dn' m m' dn1 dn1' : 0 <= dn <= b - (b' - dn') -> 0 <= dn' <= b' -> 0 <= m <= m' -> dn1 = Z.min b (dn + m) -> dn1' = Z.min b' (dn' + m') ->
  0 <= dn1 <= b - (b' - dn1') /\ 0 <= dn1' <= b' /\ (dn1 = b -> dn1' = b') /\ (dn1' <> b' -> dn1 <> b) /\ 0 <= b' - dn' <= b - dn.
Proof. lia. Qed.
Lemma one_advance b b' dn m dn1 : 0 <= dn <= b -> 0 <= b' <= b -> 0 <= m -> dn1 = Z.min b (dn + m) -> 0 <= dn1 <= b - (b' - b').
Proof. lia. Qed.

Section One.
  Context (ord : Z -> list Z -> list Z) (bord : list bucket -> list bucket) (BP : bucket_order bord).
  Context (d : device) (cpt : Z) (HC : proper_cpt cpt) (C20 : cpt <= 2 ^ 20) (c : bool) (wl : workload (F f32A)).
  Context (HW : proper wl) (HF : Forall sound_transfer (all_transfers wl)).
  Notation A := f32A.
  Notation state := (tstate (F A)).
  Notation reach := (reach A ord bord d c cpt wl).
  Notation begins := (begins A ord bord d c cpt wl).
  Notation step := (timestep A d c cpt wl).

  (* the bandwidth of a transfer, and without congestion *)
  Lemma bw_bounds s s' i x : reach s -> step s = Ok s' -> takes_part s s' i -> nth_error (sm_sts A s') i = Some x ->
    exists b0, uncongested_bw A d (s_tr x) = Ok b0 /\ nf32 b0 /\ nf32 (s_bw x) /\ (vl (s_bw x) <= vl b0)%R /\ (c = false -> s_bw x = b0).
  Proof.
    intros HR HT Hp Hx. destruct (rate_round A ord bord BP d c cpt wl HW HC s s' HR HT) as (sts1 & sts2 & live & ND & HM & HRT & HST & HX).
    apply HM in Hp. destruct (HX i x Hp Hx) as (x2 & Hx2 & -> & -> & _ & _). destruct (reach_clock A ord bord BP d c cpt wl HW HC s HR) as (_ & K2 & K3). pose proof HC as [HC1 HC2].
    assert (SL : sound_live (sm_curr A s) sts1 live).
    { split; [assumption|]. intros j x1 Hj Hx1. destruct (HST j x1 Hj Hx1) as [HS1 HS2]. split; [|exact HS1]. pose proof HF as HF'. rewrite Forall_forall in HF'. apply HF'. eapply nth_error_In. exact HS2. }
    assert (TW : timestep_window (sm_curr A s - cpt) (sm_curr A s)) by (split; lia).
    destruct (rates_shape _ _ _ _ _ _ _ _ _ TW SL HRT) as [_ RS]. destruct (RS i Hp) as (y & b0 & b & Hy & Hy' & Hb0 & N0 & _ & _ & Nb & Lb & Eb).
    rewrite Hx2 in Hy'. injection Hy' as ->. cbn [with_bw s_tr s_bw]. exists b0. split; [exact Hb0|]. split; [exact N0|]. split; [exact Nb|]. split; [exact Lb|]. intros ->. exact Eb.
  Qed.

  Context (sts0 : list state) (E : list edge) (HS : setup A ord bord d wl sts0 E) (i : nat) (D : dep_of E i = None).
  (* it starts at its offset *)
  Lemma start_free s x : visited A ord bord d c cpt wl s -> nth_error (sm_sts A s) i = Some x -> has_started A s i -> s_start x = t_off (s_tr x).
  Proof.
    intros V Hx ST. apply (start_without_dependency A ord bord BP d c cpt wl HW HC s V i x Hx ST). intros j dl HD.
    destruct (visited_facts A ord bord BP d c cpt wl HW HC s V) as (sts1 & E1 & h & fin & HS1 & HE & I & _).
    assert (EE : E1 = E) by (destruct HS as [K0 K1]; destruct HS1 as [J0 J1]; rewrite K0 in J0; injection J0 as <-; congruence). subst E1.
    apply (depends_iff A _ _ _ _ _ I HE) in HD as (k & e & Hk & _). congruence.
  Qed.

  Lemma tp_dec (s s1 : sim A) : takes_part s s1 i \/ ~ takes_part s s1 i.
  Proof.
    unfold takes_part, is_live, is_queued. destruct (in_dec Nat.eq_dec i (sm_live A s)); [left; auto|]. destruct (in_dec Nat.eq_dec i (map snd (sm_queue A s))); [|right; tauto].
    destruct (in_dec Nat.eq_dec i (map snd (sm_queue A s1))); [right; tauto|left; auto].
  Qed.
  (* it is only in a timestep that ends after its offset *)
  Lemma due s s1 y : reach s -> step s = Ok s1 -> takes_part s s1 i -> nth_error (sm_sts A s1) i = Some y -> t_off (s_tr y) <= sm_curr A s.
  Proof.
    intros R T P Hy. assert (V1 : visited A ord bord d c cpt wl s1) by (right; exists s; auto).
    destruct (rate_round A ord bord BP d c cpt wl HW HC s s1 R T) as (sts1 & sts2 & live & ND & HM & HRT & HST & HX).
    assert (Hp : In i live) by (apply HM; exact P). destruct (HX i y Hp Hy) as (x2 & Hx2 & E1 & _ & E3 & _).
    assert (Hlt : (i < List.length (sm_sts A s))%nat).
    { pose proof (visited_transfer A ord bord BP d c cpt wl HW HC s1 i y V1 Hy) as W. rewrite (proj1 (proj2 (proj2 (places A ord bord BP d c cpt wl HW HC s (or_introl R))))). eapply nth_some_lt. exact W. }
    destruct (nth_lt_some _ _ Hlt) as [x Hx]. destruct (own_step A ord bord BP d c cpt wl HW HC _ _ _ _ _ _ HS R T Hx) as (y' & Hy' & _ & Y2 & _). assert (y' = y) by congruence. subst y'.
    unfold parent_of in Y2. rewrite D in Y2. cbn [own_start] in Y2. destruct (Y2 P) as (E0 & S1 & _).
    apply rate_spec in HRT as (_ & _ & HI); [|assumption]. destruct (HI i Hp) as (x1 & b0 & b & Hx1 & _ & Hx2' & _).
    rewrite Hx2 in Hx2'. injection Hx2' as ->. cbn [with_bw s_start] in E3. destruct (HST i x1 Hp Hx1) as [[_ HB] _]. rewrite E0, <- S1, E3. exact HB.
  Qed.

  (* a transfer that goes on ends after the timesteps before *)
  Lemma late_step s s1 x v : reach s -> step s = Ok s1 -> sm_curr A s < 2 ^ 24 -> nth_error (sm_sts A s) i = Some x -> is_live A s i -> 0 <= s_done x <= t_bytes (s_tr x) -> s_done x <> t_bytes (s_tr x) ->
    v <= sm_curr A s - cpt + 1 -> exists y, nth_error (sm_sts A s1) i = Some y /\ s_tr y = s_tr x /\ 0 <= s_done y <= t_bytes (s_tr x) /\ (is_live A s1 i /\ s_done y <> t_bytes (s_tr x) \/ is_finished A s1 i /\ v <= s_end y).
  Proof.
    intros R T K24 Hx LV DN DB HV. destruct (reach_clock A ord bord BP d c cpt wl HW HC s R) as (_ & K2 & K3). pose proof HC as [HC1 HC2].
    pose proof (visited_transfer A ord bord BP d c cpt wl HW HC s i x (or_introl R) Hx) as V. pose proof HW as [_ HRG]. rewrite Forall_forall in HRG. destruct (HRG _ (nth_error_In _ _ V)) as (T1 & T2 & _).
    destruct (own_step A ord bord BP d c cpt wl HW HC _ _ _ _ _ _ HS R T Hx) as (y & Hy & Y1 & Y2 & Y3 & Y4).
    unfold parent_of in Y2. rewrite D in Y2. cbn [own_start] in Y2. assert (P : takes_part s s1 i) by (left; exact LV). destruct (Y2 P) as (E0 & S1 & A1).
    assert (SO : t_off (s_tr x) <= sm_curr A s).
    { destruct (rate_round A ord bord BP d c cpt wl HW HC s s1 R T) as (sts1 & sts2 & live & ND & HM & HRT & HST & HX).
      assert (Hp : In i live) by (apply HM; exact P). destruct (HX i y Hp Hy) as (x2 & Hx2 & E1 & _ & E3 & _).
      apply rate_spec in HRT as (_ & _ & HI); [|assumption]. destruct (HI i Hp) as (x1 & b0 & b & Hx1 & _ & Hx2' & _).
      rewrite Hx2 in Hx2'. injection Hx2' as ->. cbn [with_bw s_start] in E3. destruct (HST i x1 Hp Hx1) as [[_ HB] _]. rewrite <- S1, E3. exact HB. }
    destruct (bw_bounds _ _ _ _ R T P Hy) as (b0 & _ & _ & NB & _).
    rewrite S1 in A1. destruct (adv_free cpt (sm_curr A s) (t_off (s_tr x)) (s_bw y) (t_bytes (s_tr x)) (s_done x) (s_done y) (s_end y) NB ltac:(lia) ltac:(lia) ltac:(lia) ltac:(lia) ltac:(lia) A1) as (m & Hm & M).
    assert (M0 : 0 <= m). { revert Hm. unfold f_to_uint. destruct (f_trunc A _) as [z|]; [|discriminate]. destruct ((0 <=? z) && (z <? 2 ^ 64)) eqn:EE; [|discriminate]. intros Hz. injection Hz as <-. lia. }
    destruct (M M0) as (M1 & M2 & M3). exists y. split; [exact Hy|]. split; [exact E0|]. split; [lia|].
    destruct (Z.eq_dec (s_done y) (t_bytes (s_tr x))) as [EQ|NE].
    - right. split; [|destruct (M2 EQ) as (_ & _ & _ & U); lia]. split; [eapply nth_some_lt; exact Hy|]. rewrite Y1, Y4.
      assert (NQ : ~ is_queued A s i). { intros Hq. destruct (places A ord bord BP d c cpt wl HW HC s (or_introl R)) as (_ & _ & _ & PL). destruct (PL i) as [PL1 _]. pose proof (nth_some_lt _ _ _ V) as Hlt. apply PL1 in Hlt. unfold is_finished in Hlt. tauto. }
      tauto.
    - left. split; [apply Y4; auto|exact NE].
  Qed.
  Lemma late_begins n v : forall k s, begins k s -> forall r r1 x, begins n r -> step r = Ok r1 -> (n < k)%nat -> sm_curr A s < 2 ^ 24 ->
    nth_error (sm_sts A r1) i = Some x -> is_live A r1 i -> 0 <= s_done x <= t_bytes (s_tr x) -> s_done x <> t_bytes (s_tr x) -> v <= sm_curr A r + 1 ->
    v <= sm_curr A s - cpt + 1 /\ exists y, nth_error (sm_sts A s) i = Some y /\ s_tr y = s_tr x /\ 0 <= s_done y <= t_bytes (s_tr x) /\ (is_live A s i /\ s_done y <> t_bytes (s_tr x) \/ is_finished A s i /\ v <= s_end y).
  Proof.
    intros k s B. induction B as [s H|k s s' B IH HT HFi HM]; intros r r1 x BR TR Hnk K Hx LV DN DB HV; [destruct n; [inversion BR|lia]|].
    pose proof (begins_next _ _ _ _ _ _ _ _ _ _ B HT HFi HM) as B1. pose proof HC as [HC1 HC2].
    destruct (begins_time A ord bord BP d c cpt wl HW HC _ _ B1) as [K1 _]. destruct (begins_time A ord bord BP d c cpt wl HW HC _ _ B) as [K0 _]. rewrite K1 in K.
    assert (K' : sm_curr A s < 2 ^ 24) by (rewrite K0; nia). rewrite K1. cbn [advance sm_sts].
    destruct (Nat.eq_dec n k) as [->|Hne].
    - assert (r = s) by (eapply begins_fun; eassumption). subst r. assert (r1 = s') by congruence. subst r1. split; [rewrite K0 in HV; nia|]. exists x. split; [exact Hx|]. split; [reflexivity|]. split; [exact DN|]. left. auto.
    - destruct (IH r r1 x BR TR ltac:(lia) K' Hx LV DN DB HV) as (V1 & y & Hy & Ty & Dy & C). split; [rewrite K0 in V1; nia|].
      pose proof (begins_reach A ord bord d c cpt wl _ _ B) as RS.
      destruct C as [[LY NY]|[FY VY]].
      + rewrite <- Ty in Dy, NY. destruct (late_step s s' y v RS HT K' Hy LY Dy NY V1) as (z & Hz & Tz & Dz & CZ). rewrite Ty in Tz, Dz, CZ. exists z. auto.
      + destruct (finished_keeps A ord bord BP d c cpt wl HW HC _ _ s s' i y HS RS HT Hy FY) as (KF & z & Hz & _ & Z2).
        pose proof (visited_transfer A ord bord BP d c cpt wl HW HC s i y (or_introl RS) Hy) as W. pose proof (visited_transfer A ord bord BP d c cpt wl HW HC s' i z (or_intror (ex_intro _ s (conj RS HT))) Hz) as W'.
        destruct (own_step A ord bord BP d c cpt wl HW HC _ _ _ _ _ _ HS RS HT Hy) as (z' & Hz' & _ & _ & Y3 & _). assert (z' = z) by congruence. subst z'.
        assert (NP : ~ takes_part s s' i) by (destruct FY as (_ & F1 & F2); intros [P|[P _]]; contradiction). destruct (Y3 NP) as (_ & D2 & _).
        exists z. split; [exact Hz|]. split; [congruence|]. split; [rewrite D2; exact Dy|]. right. split; [exact KF|]. rewrite Z2. exact VY.
  Qed.
End One.

Section Two.
  Context (ord : Z -> list Z -> list Z) (bord : list bucket -> list bucket) (BP : bucket_order bord).
  Context (d : device) (cpt : Z) (HC : proper_cpt cpt) (C20 : cpt <= 2 ^ 20).
  Notation A := f32A.
  Notation state := (tstate (F A)).
  (* the slower run and the transfer in it *)
  Context (c : bool) (wl : workload (F f32A)) (HW : proper wl) (HF : Forall sound_transfer (all_transfers wl)).
  Context (sts0 : list state) (E : list edge) (HS : setup A ord bord d wl sts0 E) (i : nat) (D : dep_of E i = None).
  (* the faster run and the transfer in it *)
  Context (c' : bool) (wl' : workload (F f32A)) (HW' : proper wl') (HF' : Forall sound_transfer (all_transfers wl')).
  Context (sts0' : list state) (E' : list edge) (HS' : setup A ord bord d wl' sts0' E') (i' : nat) (D' : dep_of E' i' = None).
  Context (AL : forall t t', nth_error (all_transfers wl) i = Some t -> nth_error (all_transfers wl') i' = Some t' -> t_off t' = t_off t /\ t_bytes t' <= t_bytes t).
  Context (Hi : (i < List.length (all_transfers wl))%nat) (Hi' : (i' < List.length (all_transfers wl'))%nat).
  Notation reach := (reach A ord bord d).
  Notation begins := (begins A ord bord d).
  Notation step := (timestep A d).
  Notation late_step := (late_step ord bord BP d cpt HC C20 c wl HW HF sts0 E HS i D).
  Notation late_begins := (late_begins ord bord BP d cpt HC C20 c wl HW HF sts0 E HS i D).

  (* where the two runs stand after the same number of timesteps *)
  Definition standing (u : Z) (s s' : sim A) : Prop :=
    exists x x', nth_error (sm_sts A s) i = Some x /\ nth_error (sm_sts A s') i' = Some x' /\
      0 <= s_done x <= t_bytes (s_tr x) - (t_bytes (s_tr x') - s_done x') /\ 0 <= s_done x' <= t_bytes (s_tr x') /\ s_start x' = s_start x /\
      (~ is_queued A s i -> s_start x = t_off (s_tr x)) /\
      (is_queued A s' i' <-> is_queued A s i) /\ (is_live A s' i' -> is_live A s i) /\
      (is_live A s i -> s_done x <> t_bytes (s_tr x)) /\
      (is_finished A s' i' -> s_done x' = t_bytes (s_tr x') /\ (~ is_finished A s i -> s_end x' <= u)) /\
      (is_finished A s i -> s_end x' <= s_end x).
  Definition behind (s s' : sim A) : Prop := standing (sm_curr A s - cpt + 1) s s'.
  (* a timestep gives the transfer no more bandwidth in the slower run *)
  Definition no_faster (s s' s1 s1' : sim A) : Prop :=
    takes_part s s1 i -> takes_part s' s1' i' -> forall y y', nth_error (sm_sts A s1) i = Some y -> nth_error (sm_sts A s1') i' = Some y' -> (vl (s_bw y) <= vl (s_bw y'))%R.

  Lemma queued_init w q st e j : proper w -> setup A ord bord d w st e -> sim_init A ord bord d cpt w = Ok q -> (j < List.length (all_transfers w))%nat ->
    exists x, nth_error (sm_sts A q) j = Some x /\ nth_error (all_transfers w) j = Some (s_tr x) /\ is_queued A q j /\ ~ is_live A q j /\ s_done x = 0 /\ s_start x = t_off (s_tr x) /\ 0 <= t_bytes (s_tr x).
  Proof.
    intros PW ST H Hj. destruct (init_inv A ord bord BP d cpt w PW _ _ _ ST H) as [I _].
    assert (Hl : (j < List.length (sm_sts A q))%nat). { replace (List.length (sm_sts A q)) with (List.length (all_transfers w)); [exact Hj|]. symmetry. apply (places A ord bord BP d false cpt w PW HC q (or_introl (reach_init _ _ _ _ _ _ _ _ H))). }
    destruct (nth_lt_some _ _ Hl) as [x Hx].
    assert (L : sm_live A q = []) by (destruct (sim_init_eq A ord bord BP d cpt w PW q H) as (? & ? & _ & ->); reflexivity).
    destruct (part_ids _ _ _ _ _ _ I) as [_ P1].
    assert (Q : is_queued A q j). { specialize (P1 j). rewrite L, !app_nil_r in P1. apply P1. exact Hl. }
    pose proof Q as Q1. apply in_map_iff in Q1 as (p & Hp & Q1). destruct (inv_queue _ _ _ _ _ _ I p Q1) as (y & Hy & _ & Y1 & Y2 & Y3). rewrite Hp in Hy. assert (y = x) by congruence. subst y.
    pose proof (visited_transfer A ord bord BP d false cpt w PW HC q j x (or_introl (reach_init _ _ _ _ _ _ _ _ H)) Hx) as Ht. pose proof PW as [_ HRG]. rewrite Forall_forall in HRG. destruct (HRG _ (nth_error_In _ _ Ht)) as (_ & T2 & _).
    exists x. split; [exact Hx|]. split; [exact Ht|]. split; [exact Q|]. split; [unfold is_live; rewrite L; intros []|]. split; [lia|]. split; [exact Y1|lia].
  Qed.

  Lemma behind_init s s' : sim_init A ord bord d cpt wl = Ok s -> sim_init A ord bord d cpt wl' = Ok s' -> behind s s'.
  Proof.
    intros H H'. destruct (queued_init wl s sts0 E i HW HS H Hi) as (x & Hx & Tx & Q & L & X1 & X2 & X3). destruct (queued_init wl' s' sts0' E' i' HW' HS' H' Hi') as (x' & Hx' & Tx' & Q' & L' & X1' & X2' & X3').
    exists x, x'. split; [exact Hx|]. split; [exact Hx'|]. destruct (AL _ _ Tx Tx') as [AO AB]. split; [lia|]. split; [lia|]. split; [congruence|]. split; [tauto|]. split; [tauto|]. split; [tauto|]. split; [tauto|].
    split; intros (_ & NQ & _); contradiction.
  Qed.

  Lemma behind_step n s s' s1 s1' : begins c cpt wl n s -> begins c' cpt wl' n s' -> step c cpt wl s = Ok s1 -> step c' cpt wl' s' = Ok s1' -> sm_curr A s < 2 ^ 24 ->
    behind s s' -> no_faster s s' s1 s1' -> standing (sm_curr A s + 1) s1 s1'.
  Proof.
    intros B B' T T' K24 (x & x' & Hx & Hx' & G1 & G2 & G3 & G4 & Q & L & LD & FN & FC) NF.
    pose proof (begins_reach A ord bord d c cpt wl _ _ B) as R. pose proof (begins_reach A ord bord d c' cpt wl' _ _ B') as R'.
    assert (EC : sm_curr A s' = sm_curr A s).
    { destruct (begins_time A ord bord BP d c cpt wl HW HC n s B) as [-> _]. destruct (begins_time A ord bord BP d c' cpt wl' HW' HC n s' B') as [-> _]. reflexivity. }
    destruct (reach_clock A ord bord BP d c cpt wl HW HC s R) as (_ & K2 & K3). pose proof HC as [HC1 HC2].
    pose proof (visited_transfer A ord bord BP d c cpt wl HW HC s i x (or_introl R) Hx) as V. pose proof (visited_transfer A ord bord BP d c' cpt wl' HW' HC s' i' x' (or_introl R') Hx') as V'.
    destruct (AL _ _ V V') as [VO VB]. pose proof HW as [_ HRG]. rewrite Forall_forall in HRG. destruct (HRG _ (nth_error_In _ _ V)) as (T1 & T2 & _).
    pose proof HW' as [_ HRG']. rewrite Forall_forall in HRG'. destruct (HRG' _ (nth_error_In _ _ V')) as (T1' & T2' & _).
    destruct (own_step A ord bord BP d c cpt wl HW HC _ _ _ _ _ _ HS R T Hx) as (y & Hy & Y1 & Y2 & Y3 & Y4).
    destruct (own_step A ord bord BP d c' cpt wl' HW' HC _ _ _ _ _ _ HS' R' T' Hx') as (y' & Hy' & Z1 & Z2 & Z3 & Z4).
    assert (ME : forall r c, met A E r i c) by (intros r k0 k e Hk; congruence).
    assert (ME' : forall r c, met A E' r i' c) by (intros r k0 k e Hk; congruence).
    assert (PN : forall sts, parent_of A E sts i = None) by (intros sts; unfold parent_of; rewrite D; reflexivity).
    assert (PN' : forall sts, parent_of A E' sts i' = None) by (intros sts; unfold parent_of; rewrite D'; reflexivity).
    rewrite PN in Y2. rewrite PN' in Z2. cbn [own_start] in Y2, Z2. rewrite VO in Z1. rewrite VO in Z2. rewrite EC in Z1, Z2.
    assert (QQ : is_queued A s1' i' <-> is_queued A s1 i). { rewrite Y1, Z1, Q. pose proof (ME s (sm_curr A s)). pose proof (ME' s' (sm_curr A s)). tauto. }
    (* what a step does *)
    assert (ST1 : s_tr y = s_tr x). { pose proof (visited_transfer A ord bord BP d c cpt wl HW HC s1 i y (or_intror (ex_intro _ s (conj R T))) Hy) as W. congruence. }
    assert (ST1' : s_tr y' = s_tr x'). { pose proof (visited_transfer A ord bord BP d c' cpt wl' HW' HC s1' i' y' (or_intror (ex_intro _ s' (conj R' T'))) Hy') as W. congruence. }
    assert (SX : takes_part s s1 i -> t_off (s_tr x) <= sm_curr A s).
    { intros P. rewrite <- ST1. exact (due ord bord BP d cpt HC c wl HW sts0 E HS i D s s1 y R T P Hy). }
    assert (BW : takes_part s s1 i -> takes_part s' s1' i' -> nf32 (s_bw y) /\ nf32 (s_bw y') /\ (vl (s_bw y) <= vl (s_bw y'))%R).
    { intros P P'. destruct (bw_bounds ord bord BP d cpt HC c wl HW HF _ _ _ _ R T P Hy) as (_ & _ & _ & B3 & _). destruct (bw_bounds ord bord BP d cpt HC c' wl' HW' HF' _ _ _ _ R' T' P' Hy') as (_ & _ & _ & B3' & _).
      split; [exact B3|]. split; [exact B3'|]. exact (NF P P' y y' Hy Hy'). }
    assert (N64 : forall b q m, f_to_uint A b q = Ok m -> 0 <= m).
    { intros b q m. unfold f_to_uint. destruct (f_trunc A q) as [z|]; [|discriminate]. destruct ((0 <=? z) && (z <? 2 ^ b)) eqn:EE; [|discriminate]. intros Hz. injection Hz as <-. lia. }
    assert (FIN : forall s0 : sim A, List.length (sm_sts A s0) = List.length (sm_sts A s) -> (is_finished A s0 i <-> ~ is_queued A s0 i /\ ~ is_live A s0 i)).
    { intros s0 H0. unfold is_finished. rewrite H0. pose proof (nth_some_lt _ _ _ Hx). tauto. }
    assert (FIN' : forall s0 : sim A, List.length (sm_sts A s0) = List.length (sm_sts A s') -> (is_finished A s0 i' <-> ~ is_queued A s0 i' /\ ~ is_live A s0 i')).
    { intros s0 H0. unfold is_finished. rewrite H0. pose proof (nth_some_lt _ _ _ Hx'). tauto. }
    assert (LN2 : List.length (sm_sts A s1) = List.length (sm_sts A s)).
    { rewrite (proj1 (proj2 (proj2 (places A ord bord BP d c cpt wl HW HC s (or_introl R))))). exact (proj1 (proj2 (proj2 (places A ord bord BP d c cpt wl HW HC s1 (or_intror (ex_intro _ s (conj R T))))))). }
    assert (LN3 : List.length (sm_sts A s1') = List.length (sm_sts A s')).
    { rewrite (proj1 (proj2 (proj2 (places A ord bord BP d c' cpt wl' HW' HC s' (or_introl R'))))). exact (proj1 (proj2 (proj2 (places A ord bord BP d c' cpt wl' HW' HC s1' (or_intror (ex_intro _ s' (conj R' T'))))))). }
    assert (RC : 0 < cpt <= 2 ^ 20) by (clear - HC1 C20; lia). assert (RK : cpt <= sm_curr A s < 2 ^ 24) by (clear - K2 K24; lia).
    assert (RD : 0 <= s_done x <= t_bytes (s_tr x)) by (clear - G1 G2; lia). assert (RB : t_bytes (s_tr x) < 2 ^ 32) by (clear - T2; lia). assert (RB' : t_bytes (s_tr x') < 2 ^ 32) by (clear - T2'; lia).
    assert (RP : 0 <= t_bytes (s_tr x') <= t_bytes (s_tr x)) by (clear - T2' VB; lia).
    rewrite (FIN' s' eq_refl) in FN. rewrite (FIN s eq_refl) in FN, FC.
    exists y, y'. split; [exact Hy|]. split; [exact Hy'|]. rewrite ST1, ST1', (FIN s1 LN2), (FIN' s1' LN3).
    destruct (tp_dec i s s1) as [P|P].
    - (* the transfer is in the slower run *)
      pose proof (SX P) as SO. assert (RS : 0 <= t_off (s_tr x) <= sm_curr A s) by (clear - T1 SO; lia). destruct (Y2 P) as (_ & S1 & A1).
      destruct (bw_bounds ord bord BP d cpt HC c wl HW HF _ _ _ _ R T P Hy) as (b0 & _ & _ & NB & _).
      rewrite S1 in A1. destruct (adv_free cpt (sm_curr A s) (t_off (s_tr x)) (s_bw y) (t_bytes (s_tr x)) (s_done x) (s_done y) (s_end y) NB RC RS RK RD RB A1) as (m & Hm & M).
      destruct (M (N64 _ _ _ Hm)) as (M1 & M2 & M3). pose proof (N64 _ _ _ Hm) as M0.
      assert (NQ1 : ~ is_queued A s1 i). { rewrite Y1. intros [Hq Hn]. pose proof (ME s (sm_curr A s)). tauto. }
      destruct (tp_dec i' s' s1') as [P'|P'].
      + destruct (Z2 P') as (_ & S1' & A1'). destruct (BW P P') as (_ & NB' & LB). rewrite S1' in A1'.
        destruct (adv_free cpt (sm_curr A s) (t_off (s_tr x)) (s_bw y') (t_bytes (s_tr x')) (s_done x') (s_done y') (s_end y') NB' RC RS RK G2 RB' A1') as (m' & Hm' & M').
        destruct (M' (N64 _ _ _ Hm')) as (M1' & M2' & M3'). pose proof (N64 _ _ _ Hm') as M0'.
        assert (CB : 0 <= Z.min cpt (sm_curr A s - t_off (s_tr x)) < 2 ^ 34) by (clear - RC RS; change (2 ^ 34) with 17179869184; change (2 ^ 20) with 1048576 in RC; lia).
        pose proof (bytes_mono (s_bw y') (s_bw y) (Z.min cpt (sm_curr A s - t_off (s_tr x))) m' m NB' NB LB CB Hm' Hm) as MM.
        destruct (both_advance _ _ _ _ _ _ _ _ G1 G2 MM M1 M1') as (N1 & N2 & N3 & N4 & N5).
        rewrite Y4, Z4. split; [exact N1|]. split; [exact N2|]. split; [congruence|]. split; [intros _; exact S1|]. split; [exact QQ|]. split; [intros [_ Hl]; split; [exact P|exact (N4 Hl)]|]. split; [tauto|]. split.
        * intros [_ Hf]. assert (DB : s_done y' = t_bytes (s_tr x')) by (destruct (Z.eq_dec (s_done y') (t_bytes (s_tr x'))); [assumption|tauto]). split; [exact DB|]. intros _. destruct (M2' DB) as (_ & _ & U & _). exact U.
        * intros [_ Hf]. assert (DB : s_done y = t_bytes (s_tr x)) by (destruct (Z.eq_dec (s_done y) (t_bytes (s_tr x))); [assumption|tauto]). destruct (M2 DB) as (PB & E1 & _).
          pose proof (N3 DB) as DB'. destruct (M2' DB') as (_ & E1' & _).
          rewrite E1, E1'. apply Z.add_le_mono_l. apply cycles_mono; [exact N5|]. split; [exact PB|exact LB].
      + (* finished in the faster run *)
        destruct (Z3 P') as (D1 & D2 & D3).
        assert (NQ' : ~ is_queued A s' i' /\ ~ is_live A s' i').
        { unfold takes_part in P'. rewrite QQ in P'. tauto. }
        assert (LV : is_live A s i). { destruct P as [Hl|[Hq _]]; [exact Hl|]. rewrite Q in NQ'. tauto. }
        destruct (FN NQ') as [F1 F2]. pose proof (F2 ltac:(tauto)) as F3. pose proof (LD LV) as LD'.
        rewrite Y4, Z4. split; [rewrite D2, F1; exact (one_advance _ _ _ _ _ RD RP M0 M1)|]. split; [rewrite D2; exact G2|]. split; [rewrite D1, G3, S1; apply G4; rewrite <- Q; tauto|]. split; [intros _; exact S1|]. split; [exact QQ|]. split; [tauto|]. split; [tauto|]. split.
        * intros _. split; [congruence|]. intros _. rewrite D3. clear - F3 RC; lia.
        * intros [_ Hf]. assert (DB : s_done y = t_bytes (s_tr x)) by (destruct (Z.eq_dec (s_done y) (t_bytes (s_tr x))); [assumption|tauto]). destruct (M2 DB) as (_ & _ & _ & U). assert (LT : s_done x < t_bytes (s_tr x)) by (clear - LD' RD; lia). pose proof (U LT) as U'. rewrite D3. clear - U' F3; lia.
    - (* not in the slower run *)
      destruct (Y3 P) as (D1 & D2 & D3).
      assert (P' : ~ takes_part s' s1' i'). { intros [Hl|[Hq Hn]]; apply P; [left; auto|right]. rewrite <- Q, <- QQ. auto. }
      destruct (Z3 P') as (D1' & D2' & D3'). rewrite Y4, Z4, D1, D2, D3, D1', D2', D3'.
      split; [exact G1|]. split; [exact G2|]. split; [exact G3|].
      assert (OLD : ~ is_queued A s1 i -> ~ is_queued A s i /\ ~ is_live A s i) by (unfold takes_part in P; tauto).
      assert (OLD' : ~ is_queued A s1' i' -> ~ is_queued A s' i' /\ ~ is_live A s' i') by (unfold takes_part in P'; tauto).
      split; [intros Hq; apply G4, OLD, Hq|]. split; [exact QQ|]. split; [tauto|]. split; [tauto|]. split.
      + intros [Hq _]. destruct (FN (OLD' Hq)) as [F1 F2]. split; [exact F1|]. intros NFI. exfalso. apply NFI. split; [rewrite <- QQ; exact Hq|tauto].
      + intros [Hq _]. exact (FC (OLD Hq)).
  Qed.

  Context (SL : forall n s s' s1 s1', begins c cpt wl n s -> begins c' cpt wl' n s' -> step c cpt wl s = Ok s1 -> step c' cpt wl' s' = Ok s1' -> sm_curr A s < 2 ^ 24 -> no_faster s s' s1 s1').
  Lemma behind_begins n : forall s s', begins c cpt wl n s -> begins c' cpt wl' n s' -> sm_curr A s < 2 ^ 24 -> behind s s'.
  Proof.
    induction n as [|n IH]; intros s s' B B' K; [inversion B|]. inversion B as [? H0|n1 r r1 B0 T F M]; subst; inversion B' as [? H0'|n1' r' r1' B0' T' F' M']; subst.
    - apply behind_init; assumption.
    - inversion B0'.
    - inversion B0.
    - destruct (begins_time A ord bord BP d c cpt wl HW HC _ _ B) as [K1 _]. destruct (begins_time A ord bord BP d c cpt wl HW HC _ _ B0) as [K0 _]. pose proof HC as [HC1 HC2].
      assert (K' : sm_curr A r < 2 ^ 24) by (rewrite K0; rewrite K1 in K; nia).
      unfold behind. replace (sm_curr A (advance A cpt r1) - cpt + 1) with (sm_curr A r + 1) by (rewrite K1, K0; nia).
      destruct (behind_step n r r' r1 r1' B0 B0' T T' K' (IH r r' B0 B0' K') (SL n r r' r1 r1' B0 B0' T T' K')) as (x & x' & G). exists x, x'. exact G.
  Qed.

  Theorem later_end s s' x x' : succeeds A ord bord d c cpt wl s -> succeeds A ord bord d c' cpt wl' s' -> sm_curr A s < 2 ^ 24 -> sm_curr A s' < 2 ^ 24 ->
    nth_error (sm_sts A s) i = Some x -> nth_error (sm_sts A s') i' = Some x' -> s_start x' = s_start x /\ s_end x' <= s_end x.
  Proof.
    intros H H' K K' Hx Hx'.
    destruct (succeeds_end A ord bord d c cpt wl s H) as [(r & R & T) F]. destruct (succeeds_end A ord bord d c' cpt wl' s' H') as [(r' & R' & T') F'].
    rewrite (step_curr A d c cpt wl _ _ T) in K. rewrite (step_curr A d c' cpt wl' _ _ T') in K'.
    destruct (reach_begins A ord bord d c cpt wl r R) as [n B]. destruct (reach_begins A ord bord d c' cpt wl' r' R') as [m B'].
    assert (ALL : forall j (q : sim A), finished A q = true -> (j < List.length (sm_sts A q))%nat -> is_finished A q j).
    { intros j q Fq Hq. destruct (finished_all A _ Fq) as [L Q]. split; [exact Hq|]. unfold is_queued, is_live. rewrite L, Q. split; intros []. }
    pose proof (ALL i s F (nth_some_lt _ _ _ Hx)) as FI. pose proof (ALL i' s' F' (nth_some_lt _ _ _ Hx')) as FI'. pose proof HC as [HC1 HC2].
    assert (N1 : (1 <= n)%nat) by (destruct n; [inversion B|lia]). assert (M1 : (1 <= m)%nat) by (destruct m; [inversion B'|lia]).
    destruct (Nat.le_gt_cases n m) as [L|L].
    - destruct (begins_before A ord bord d c' cpt wl' n m r' B' ltac:(lia)) as (q & BQ & HN).
      assert (HR : exists q1, step c' cpt wl' q = Ok q1 /\ ((n < m)%nat \/ q1 = s')).
      { destruct (Nat.eq_dec n m) as [<-|Hne].
        - pose proof (begins_fun A ord bord d c' cpt wl' _ _ _ BQ B'). subst q. eauto.
        - destruct (HN ltac:(lia)) as (q1 & Hq1 & _). exists q1. split; [exact Hq1|left; lia]. }
      destruct HR as (q1 & Hq1 & HR).
      destruct (behind_step n r q s q1 B BQ T Hq1 K (behind_begins n r q B BQ K) (SL n r q s q1 B BQ T Hq1 K)) as (y & y' & Hy & Hy' & _ & _ & G3 & _ & GQ & GL & _ & _ & GE).
      assert (y = x) by congruence. subst y. specialize (GE FI).
      assert (FQ : is_finished A q1 i'). { split; [eapply nth_some_lt; exact Hy'|]. destruct FI as (_ & NQ & NL). rewrite GQ. tauto. }
      destruct HR as [HR|HR]; [|subst q1].
      + destruct (finished_later A ord bord BP d c' cpt wl' HW' HC _ _ n m r' HS' B' q q1 BQ Hq1 HR i' y' Hy' FQ) as (FI2 & z & Hz & Z1 & Z2).
        destruct (finished_keeps A ord bord BP d c' cpt wl' HW' HC _ _ r' s' i' z HS' R' T' Hz FI2) as (_ & w & Hw & W1 & W2). assert (w = x') by congruence. subst w. split; [congruence|]. rewrite W2, Z2. exact GE.
      + assert (y' = x') by congruence. subst y'. auto.
    - destruct (begins_before A ord bord d c cpt wl m n r B ltac:(lia)) as (q & BQ & HN). destruct (HN L) as (q1 & Hq1 & _).
      destruct (begins_time A ord bord BP d c cpt wl HW HC _ _ B) as [KB _]. destruct (begins_time A ord bord BP d c cpt wl HW HC _ _ BQ) as [KQ _].
      assert (KQ' : sm_curr A q < 2 ^ 24) by (rewrite KQ; rewrite KB in K; nia).
      destruct (behind_step m q r' q1 s' BQ B' Hq1 T' KQ' (behind_begins m q r' BQ B' KQ') (SL m q r' q1 s' BQ B' Hq1 T' KQ')) as (y & y' & Hy & Hy' & GD & GB & G3 & _ & GQ & _ & GN & GF & GE).
      assert (y' = x') by congruence. subst y'. destruct (GF FI') as [_ GV].
      assert (NQ : ~ is_queued A q1 i) by (rewrite <- GQ; apply FI').
      destruct (in_dec Nat.eq_dec i (sm_live A q1)) as [LV|NL].
      + assert (LV' : is_live A q1 i) by exact LV.
        assert (V : s_end x' <= sm_curr A q + 1) by (apply GV; intros (_ & _ & NL); contradiction).
        destruct (late_begins m (s_end x') n r B q q1 y BQ Hq1 L K Hy LV' ltac:(lia) (GN LV') V) as (V1 & z & Hz & Tz & Dz & C).
        assert (ST : s_start x = s_start x').
        { rewrite G3. destruct (own_step A ord bord BP d c cpt wl HW HC _ _ _ _ _ _ HS R T Hz) as (w & Hw & _ & W2 & W3 & _).
          assert (S1 : s_start y = t_off (s_tr y)) by (apply (start_free ord bord BP d cpt HC c wl HW sts0 E HS i D q1 y); [right; exists q; split; [eapply begins_reach; exact BQ|exact Hq1]|exact Hy|left; exact LV']). assert (FS : has_started A s i) by (right; exact FI). rewrite S1.
          pose proof (visited_transfer A ord bord BP d c cpt wl HW HC s i x (or_intror (ex_intro _ r (conj R T))) Hx) as Wx.
          pose proof (begins_reach A ord bord d c cpt wl _ _ BQ) as RQ.
          pose proof (visited_transfer A ord bord BP d c cpt wl HW HC q1 i y (or_intror (ex_intro _ q (conj RQ Hq1))) Hy) as Wy.
          assert (s_tr x = s_tr y) by congruence. rewrite <- H0. apply (start_free ord bord BP d cpt HC c wl HW sts0 E HS i D s x); [right; exists r; auto|exact Hx|exact FS]. }
        split; [congruence|].
        destruct C as [[LZ NZ]|[FZ VZ]].
        * rewrite <- Tz in Dz, NZ. destruct (late_step r s z (s_end x') R T K Hz LZ Dz NZ V1) as (w & Hw & _ & _ & [[LW _]|[_ VW]]); [exfalso; apply FI; exact LW|]. assert (w = x) by congruence. subst w. exact VW.
        * destruct (finished_keeps A ord bord BP d c cpt wl HW HC _ _ r s i z HS R T Hz FZ) as (_ & w & Hw & _ & W2). assert (w = x) by congruence. subst w. rewrite W2. exact VZ.
      + assert (FQ : is_finished A q1 i) by (split; [eapply nth_some_lt; exact Hy|auto]). specialize (GE FQ).
        destruct (finished_later A ord bord BP d c cpt wl HW HC _ _ m n r HS B q q1 BQ Hq1 L i y Hy FQ) as (FI2 & z & Hz & Z1 & Z2).
        destruct (finished_keeps A ord bord BP d c cpt wl HW HC _ _ r s i z HS R T Hz FI2) as (_ & w & Hw & W1 & W2). assert (w = x) by congruence. subst w. split; [congruence|]. rewrite W2, Z2. exact GE.
  Qed.
End Two.
