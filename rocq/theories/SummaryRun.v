(* DRAM and Ethernet utilisation in the results of a run (C59). *)
From Coq Require Import ZArith Arith QArith Qreals Reals Lra Lia Bool String List Floats.SpecFloat ZifyBool ZifyNat.
From Flocq Require Import Core IEEE754.BinarySingleNaN.
From Verif Require Import Base Arith Util Device SpecDevice Workload SpecWorkload Rates Stats Engine SpecEngine SpecStats SpecSummary UtilProofs WorkloadProofs TrackerProofs DepGenProofs FactoryProofs FloatProofs FloatProofs2 StatsRun SummaryProofs SummaryFloat.
Import ListNotations.
Local Open Scope list_scope.
Open Scope Z_scope.
Ltac Zify.zify_post_hook ::= idtac.

(** * Bandwidths *)
Lemma cls_float m e q : (cls 256 (F2R (Float radix2 (Zpos m) e)) q /\ 1 <= q <= 65536)%R -> valid_binary prec32 emax32 (S754_finite false m e) = true -> bandwidth_close (S754_finite false m e) q.
Proof. intros [H1 H2] V. split; [split; [split; [exact V|reflexivity]|reflexivity]|]. split; [exact H1|exact H2]. Qed.
Ltac bandwidth := match goal with |- bandwidth_close ?x (Q2R ?q) => let y := eval vm_compute in x in let p := eval vm_compute in q in change (bandwidth_close y (Q2R p)) end;
  apply cls_float; [|reflexivity]; unfold cls, ee, Q2R, F2R; cbn [Qnum Qden Fnum Fexp bpow]; unfold Z.pow_pos; cbn [Pos.iter Z.mul radix_val radix2 Pos.mul]; lra.
Lemma dram_close d : supported d -> bandwidth_close (dram_bandwidth f32A d) (Q2R (all_dram d)).
Proof.
  intros H. apply supported_cases in H. destruct H as [->|[[n [Hn ->]]|[->| ->]]]; [bandwidth| |bandwidth|bandwidth].
  cbn [In] in Hn. repeat destruct Hn as [<-|Hn]; [bandwidth..|destruct Hn].
Qed.
Lemma eth_close d : supported d -> bandwidth_close (eth_bandwidth f32A d) (Q2R (eth_link d)).
Proof.
  intros H. apply supported_cases in H. destruct H as [->|[[n [Hn ->]]|[->| ->]]]; [bandwidth| |bandwidth|bandwidth].
  change (eth_bandwidth f32A (mkDevice ClsMultichip 12 10 n 12)) with (eth_bandwidth f32A (mkDevice ClsMultichip 12 10 2 12)). change (eth_link (mkDevice ClsMultichip 12 10 n 12)) with (eth_link (mkDevice ClsMultichip 12 10 2 12)). bandwidth.
Qed.
Lemma dram_q d : supported d -> exists b, dram_bandwidth ratA d = Some b /\ (b == all_dram d)%Q /\ (0 < all_dram d)%Q.
Proof.
  intros H. apply supported_cases in H. destruct H as [->|[[n [Hn ->]]|[->| ->]]];
    [eexists; split; [vm_compute; reflexivity|split; reflexivity]| |eexists; split; [vm_compute; reflexivity|split; reflexivity]|eexists; split; [vm_compute; reflexivity|split; reflexivity]].
  cbn [In] in Hn. repeat destruct Hn as [<-|Hn]; [eexists; split; [vm_compute; reflexivity|split; reflexivity]..|destruct Hn].
Qed.
Lemma eth_q d : exists b, eth_bandwidth ratA d = Some b /\ (b == eth_link d)%Q /\ (0 < eth_link d)%Q.
Proof. unfold eth_bandwidth, eth_link, dv_arch. destruct (dv_class d); (eexists; split; [vm_compute; reflexivity|split; reflexivity]). Qed.
(** * Ratios *)
Lemma Q2R_Z z : Q2R (inject_Z z) = IZR z.
Proof. unfold Q2R, inject_Z. cbn [Qnum Qden]. lra. Qed.
Lemma cycles_nz c b : c <> 0 -> (0 < b)%Q -> ~ (inject_Z c * b == 0)%Q.
Proof. intros Hc Hb E. apply Qmult_integral in E as [E|E]; [unfold Qeq, inject_Z in E; cbn in E; lia|rewrite E in Hb; discriminate]. Qed.
Lemma Q2R_util n c b : c <> 0 -> (0 < b)%Q -> Q2R (utilisation n c b) = (100 * IZR n / (IZR c * Q2R b))%R.
Proof. intros Hc Hb. unfold utilisation. rewrite Q2R_div by (apply cycles_nz; assumption). rewrite !Q2R_mult, !Q2R_Z. change 100%Q with (inject_Z 100). rewrite Q2R_Z. reflexivity. Qed.
Lemma float_utilisation n c b q : 0 <= n < 2 ^ 64 -> 0 < c < 2 ^ 64 -> bandwidth_close b (Q2R q) -> (0 < q)%Q ->
  close_to (d_mul f32A (d_div f32A (d_ofZ f32A n) (d_of_f f32A (f_mul f32A (f_ofZ f32A c) b))) (d_lit f32A 100 1)) (utilisation n c q).
Proof.
  intros Hn Hc HB HQ. destruct (ratio_float n c b _ Hn Hc HB) as [N C]. set (x := d_mul f32A _ _) in *. clearbody x. rewrite <- Q2R_util in C by (lia || assumption).
  split.
  - destruct N as [[V S] F]. split; [exact V|]. destruct x as [s|s| |s m e]; cbn in F; try discriminate F; subst s; [left; reflexivity|right; do 2 eexists; reflexivity].
  - destruct C as (P & L & U). change (SF2R radix2 x) with (vl x). change (bpow radix2 (-21)) with (/ 2097152)%R. apply Rabs_le. unfold ee in *. lra.
Qed.
Lemma rat_utilisation n c b q : 0 < c -> (b == q)%Q -> (0 < q)%Q ->
  exists v, d_mul ratA (d_div ratA (d_ofZ ratA n) (d_of_f ratA (f_mul ratA (f_ofZ ratA c) (Some b)))) (d_lit ratA 100 1) = Some v /\ (v == utilisation n c q)%Q.
Proof.
  intros Hc HB HQ. cbn [d_mul d_div d_ofZ d_of_f f_mul f_ofZ d_lit ratA qx_bin qx_div]. 
  assert (NZ : ~ (inject_Z c * b == 0)%Q) by (rewrite HB; apply cycles_nz; [lia|assumption]).
  destruct (Qeq_bool (Qred (inject_Z c * b)) 0) eqn:E; [apply Qeq_bool_eq in E; rewrite Qred_correct in E; contradiction|].
  eexists. split; [reflexivity|]. rewrite !Qred_correct. unfold utilisation. rewrite <- HB. field. split; intros K; apply NZ; rewrite K; ring.
Qed.

(** * Runs *)
Definition pctx A n c b : D A := d_mul A (d_div A (d_ofZ A n) (d_of_f A (f_mul A (f_ofZ A c) b))) (d_lit A 100 1).
Section Run.
  Context (A : arith) (ord : Z -> list Z -> list Z) (bord : list bucket -> list bucket) (bord_perm : bucket_order bord).
  Context (d : device) (HM : made d) (cpt : Z) (wl : workload (F A)).
  Context (HW : proper wl) (HN : wl_next wl <= 2 ^ 32) (HC : proper_cpt cpt) (model : string) (id : Z) (HI : has_stats d id).
  Context (stt : stats A) (ds : dstats A) (HR : runSinglePerfSim A ord bord d model cpt wl = Ok (Stats stt)) (HD : stats_get A stt id = Some ds).
  Lemma sum_small (P : transfer (F A) -> Prop) n : sum_over P t_bytes (all_transfers wl) n -> 0 <= n < 2 ^ 64.
  Proof.
    destruct HW as [(_ & _ & E) HF]. rewrite E in HN. intros S.
    assert (B : forall x, In x (all_transfers wl) -> 0 <= t_bytes x < 2 ^ 32) by (intros x Hx; rewrite Forall_forall in HF; apply HF; exact Hx).
    assert (K : 0 <= n <= Z.of_nat (List.length (all_transfers wl)) * (2 ^ 32 - 1)).
    { clear - B S. induction S as [|y l n N S IH|y l n p S IH]; cbn [List.length]; [lia| |];
        specialize (IH ltac:(intros x Hx; apply B; right; exact Hx)); specialize (B y (or_introl eq_refl)); change (2 ^ 32) with 4294967296 in *; nia. }
    change (2 ^ 32) with 4294967296 in *. change (2 ^ 64) with 18446744073709551616. nia.
  Qed.
  Lemma run_bytes : (0 <= ds_est A ds < 2 ^ 64 /\ 0 <= ds_golden A ds < 2 ^ 32) /\
    (exists n, sum_over (fun t => issued id t /\ uses_dram d t) t_bytes (all_transfers wl) n /\ 0 <= n < 2 ^ 64 /\
      ds_dram A ds = pctx A n (ds_golden A ds) (dram_bandwidth A d) /\ ds_dram_sim A ds = pctx A n (ds_est A ds) (dram_bandwidth A d)) /\
    NoDup (map fst (ds_eth A ds)) /\
    (forall c, In c (map fst (ds_eth A ds)) <-> exists t, In t (all_transfers wl) /\ issued id t /\ to_eth d c t) /\
    (forall c v, In (c, v) (ds_eth A ds) -> exists n, sum_over (fun t => issued id t /\ to_eth d c t) t_bytes (all_transfers wl) n /\ 0 <= n < 2 ^ 64 /\
      v = pctx A n (ds_golden A ds) (eth_bandwidth A d)).
  Proof.
    destruct (summarised A ord bord bord_perm d cpt wl HW HC model id HI (fun _ => True) (fun _ _ _ _ _ _ _ => I) I stt ds HR HD) as (ds1 & _ & _ & RG & E).
    unfold summary_device in E. apply bind_ok in E as (rw & HB & E). apply bind_ok in E as (et & HE & E). injection E as <-. cbn [ds_est ds_golden ds_dram ds_dram_sim ds_eth].
    split; [exact RG|]. pose proof (made_supported d HM) as HS. split.
    - destruct (dram_counted A d HS id _ _ HB) as (r & w & S & ->). exists (r + w). split; [exact S|]. pose proof (sum_small _ _ S) as K. split; [exact K|].
      cbn [fst snd]. replace (u64 (u64 r + u64 w)) with (r + w); [split; reflexivity|]. unfold u64. rewrite <- Zplus_mod. symmetry. apply Z.mod_small. exact K.
    - destruct (eth_counted A d HS id _ _ HE) as (N1 & N2 & N3). rewrite map_map. cbn [fst]. split; [exact N1|]. split; [exact N2|].
      intros c v HV. apply in_map_iff in HV as ([c0 v0] & EV & HV). cbn [fst snd] in EV. injection EV as <- <-. destruct (N3 _ _ HV) as (n & S & ->). exists n. split; [exact S|]. pose proof (sum_small _ _ S) as K. split; [exact K|].
      unfold u64. rewrite Z.mod_small by exact K. reflexivity.
  Qed.
End Run.

(* in doubles *)
Theorem run_dram_float ord bord : bucket_order bord -> forall d, made d -> forall cpt wl, proper wl -> wl_next wl <= 2 ^ 32 -> proper_cpt cpt ->
  forall model stt id ds, runSinglePerfSim f32A ord bord d model cpt wl = Ok (Stats stt) -> has_stats d id -> stats_get f32A stt id = Some ds ->
  exists n, sum_over (fun t => issued id t /\ uses_dram d t) t_bytes (all_transfers wl) n /\
    (0 < ds_golden f32A ds -> close_to (ds_dram f32A ds) (utilisation n (ds_golden f32A ds) (all_dram d))) /\
    (0 < ds_est f32A ds -> close_to (ds_dram_sim f32A ds) (utilisation n (ds_est f32A ds) (all_dram d))).
Proof.
  intros HB d HM cpt wl HW HN HC model stt id ds HR HI HD. destruct (run_bytes f32A ord bord HB d HM cpt wl HW HN HC model id HI stt ds HR HD) as ((G1 & G2) & (n & S & K & E1 & E2) & _).
  exists n. split; [exact S|]. rewrite E1, E2. pose proof (made_supported d HM) as HS. destruct (dram_q d HS) as (_ & _ & _ & PQ). change (2 ^ 32) with 4294967296 in G2. change (2 ^ 64) with 18446744073709551616 in *.
  split; intros P; (apply float_utilisation; [exact K| |exact (dram_close d HS)|exact PQ]); change (2 ^ 64) with 18446744073709551616; lia.
Qed.
Theorem run_eth_float ord bord : bucket_order bord -> forall d, made d -> forall cpt wl, proper wl -> wl_next wl <= 2 ^ 32 -> proper_cpt cpt ->
  forall model stt id ds, runSinglePerfSim f32A ord bord d model cpt wl = Ok (Stats stt) -> has_stats d id -> stats_get f32A stt id = Some ds ->
  NoDup (map fst (ds_eth f32A ds)) /\
  (forall c, In c (map fst (ds_eth f32A ds)) <-> exists t, In t (all_transfers wl) /\ issued id t /\ to_eth d c t) /\
  (0 < ds_golden f32A ds -> forall c v, In (c, v) (ds_eth f32A ds) ->
    exists n, sum_over (fun t => issued id t /\ to_eth d c t) t_bytes (all_transfers wl) n /\ close_to v (utilisation n (ds_golden f32A ds) (eth_link d))).
Proof.
  intros HB d HM cpt wl HW HN HC model stt id ds HR HI HD. destruct (run_bytes f32A ord bord HB d HM cpt wl HW HN HC model id HI stt ds HR HD) as ((G1 & G2) & _ & N1 & N2 & N3).
  split; [exact N1|]. split; [exact N2|]. intros P c v HV. destruct (N3 c v HV) as (n & S & K & ->). exists n. split; [exact S|]. pose proof (made_supported d HM) as HS. destruct (eth_q d) as (_ & _ & _ & PQ).
  change (2 ^ 32) with 4294967296 in G2. apply float_utilisation; [exact K| |exact (eth_close d HS)|exact PQ]. change (2 ^ 64) with 18446744073709551616. lia.
Qed.
(* in exact arithmetic *)
Theorem run_dram_exact ord bord : bucket_order bord -> forall d, made d -> forall cpt wl, proper wl -> wl_next wl <= 2 ^ 32 -> proper_cpt cpt ->
  forall model stt id ds, runSinglePerfSim ratA ord bord d model cpt wl = Ok (Stats stt) -> has_stats d id -> stats_get ratA stt id = Some ds ->
  exists n, sum_over (fun t => issued id t /\ uses_dram d t) t_bytes (all_transfers wl) n /\
    (0 < ds_golden ratA ds -> exists q, ds_dram ratA ds = Some q /\ (q == utilisation n (ds_golden ratA ds) (all_dram d))%Q) /\
    (0 < ds_est ratA ds -> exists q, ds_dram_sim ratA ds = Some q /\ (q == utilisation n (ds_est ratA ds) (all_dram d))%Q).
Proof.
  intros HB d HM cpt wl HW HN HC model stt id ds HR HI HD. destruct (run_bytes ratA ord bord HB d HM cpt wl HW HN HC model id HI stt ds HR HD) as (_ & (n & S & K & E1 & E2) & _).
  exists n. split; [exact S|]. rewrite E1, E2. pose proof (made_supported d HM) as HS. destruct (dram_q d HS) as (b & EB & BQ & PQ). unfold pctx. rewrite EB.
  split; intros P; apply rat_utilisation; assumption.
Qed.
